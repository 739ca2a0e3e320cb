(** * Which bytes the fast readers certainly load

    The last 16-byte load of the SIMD readers is executed and touches its last byte,
    whatever the data; a program that touches a byte that is not there faults. *)
From stdpp Require Import prelude gmap list.
From Coq Require Import ZArith Lia.
From Verif Require Import Spec SpecLemmas GoSem Tables Shared Asm AsmProgs Wp Encode Decode TableProof EncodeProof EncodeProof2 SimdProof AsmProof DecodeProof DecodeProof2 WriterProof WriterProof2 Reader ReaderProof ReaderProof2 ReaderProof3 ReaderProof4 ReaderProof5 Api ApiLemmas.
Local Open Scope Z_scope.
Implicit Types (F : event -> Prop).

(** The execution performs the access [e]. *)
Definition hits {A} (e : event) (p : prog A) (m : mem) : Prop := In e (trace (run p m)).

Lemma hits_l {A B} e (p : prog A) (f : A -> prog B) m : hits e p m -> hits e (bind p f) m.
Proof.
  unfold hits. intros H. rewrite run_bind. destruct (result (run p m)); unfold trace at 1; cbn; try exact H. apply in_or_app. by left.
Qed.
Lemma hits_r {A B} e F (p : prog A) (f : A -> prog B) m Q : wp F False p m Q -> (forall a m', Q a m' -> hits e (f a) m') -> hits e (bind p f) m.
Proof.
  intros Hw H. apply wp_run in Hw as [_ Hw]. unfold hits in *. rewrite run_bind. destruct (result (run p m)) as [a| | | |]; try done.
  unfold trace at 1. cbn. apply in_or_app. right. by apply H.
Qed.
Lemma hits_k {A B} e F (p : prog A) (f : A -> prog B) m v m' :
  wp F False (bind p Ret) m (fun a m1 => a = v /\ m1 = m') -> hits e (f v) m' -> hits e (bind p f) m.
Proof.
  intros Hw H. apply wp_run in Hw as [_ Hw]. rewrite run_bind in Hw. unfold hits in *. rewrite run_bind.
  destruct (result (run p m)) as [a| | | |]; try done. unfold result, final in Hw. cbn in Hw. destruct Hw as [-> Hm]. unfold final at 3.
  unfold trace at 1. cbn. apply in_or_app. right. unfold final. by rewrite Hm.
Qed.
Lemma hits_while {A S} e F (I : S -> mem -> Prop) (meas : S -> Z) (cond : S -> bool) body fuel s m (rest : S -> prog A) :
  I s m -> 0 <= meas s < Z.of_nat fuel ->
  (forall s m, I s m -> cond s = true -> 0 <= meas s ->
     hits e (body s) m \/ wp F False (body s) m (fun s' m' => I s' m' /\ 0 <= meas s' < meas s)) ->
  (forall s m, I s m -> cond s = false -> hits e (rest s) m) ->
  hits e (bind (while fuel cond body s) rest) m.
Proof.
  intros HI Hm Hb HQ. revert s m HI Hm. induction fuel as [|n IH]; intros s m HI Hm; [lia|].
  cbn [while]. destruct (cond s) eqn:E; [|cbn; auto].
  assert (X : hits e (bind (body s) (fun s' => bind (while n cond body s') rest)) m).
  { destruct (Hb s m HI E ltac:(lia)) as [Hh|Hw]; [by apply hits_l|]. eapply hits_r; [exact Hw|]. intros s' m' [HI' Hm']. apply IH; [done|lia]. }
  clear -X. revert X. unfold hits. rewrite !run_bind. unfold trace. destruct (result (run (body s) m)) eqn:ER; cbn; auto.
  unfold result in ER. unfold trace. rewrite !run_bind. unfold result, final, trace.
  destruct (run (body s) m) as [[r mf] t] eqn:E1. cbn in *. subst r. cbn.
  destruct (run (while n cond body a) mf) as [[[] mf2] t2]; cbn; auto. by rewrite app_assoc.
Qed.
Lemma hits_readBs n b i j m : (forall k, i <= k < i + j -> hget (mb m) b k <> None) -> 0 <= j < Z.of_nat n -> hits (ERdB b (i + j)) (readBs n b i) m.
Proof.
  revert i j. induction n as [|n IH]; intros i j Hr Hj; [lia|]. unfold hits. cbn [readBs run].
  destruct (decide (j = 0)) as [->|Hj0].
  - rewrite Z.add_0_r. destruct (hget (mb m) b i); [|by left]. destruct (run _ m) as [[? ?] ?]. by left.
  - destruct (hget (mb m) b i) as [v|] eqn:Ev; [|exfalso; by apply (Hr i ltac:(lia))].
    specialize (IH (i + 1) (j - 1) ltac:(intros; apply Hr; lia) ltac:(lia)). replace (i + 1 + (j - 1)) with (i + j) in IH by lia.
    apply (hits_l _ _ (fun l => Ret (v :: l))) in IH. unfold hits in IH. destruct (run _ m) as [[? ?] ?]. by right.
Qed.
Lemma wp_unbind {A B} F pn (p : prog A) (f : A -> prog B) m Q :
  wp F pn (bind p f) m Q -> wp F pn p m (fun a m' => wp F pn (f a) m' Q).
Proof.
  revert m. induction p as [a| | | | |b i k IH|b i v k IH|b i k IH|b i v k IH|b n k IH]; intros m Hw; cbn in *; auto.
  - destruct Hw as (? & v & ? & ?). split; [auto|]. exists v. auto.
  - destruct Hw as (? & v' & ? & ?). split; [auto|]. exists v'. auto.
  - destruct Hw as (? & v & ? & ?). split; [auto|]. exists v. auto.
  - destruct Hw as (? & v' & ? & ?). split; [auto|]. exists v'. auto.
  - destruct Hw as (? & ? & ?). auto.
Qed.
Lemma hits_exec_app e F a f ro c1 c2 s m : wp F False (exec a f ro c1 s) m (fun s' m' => hits e (exec a f ro c2 s') m') ->
  hits e (exec a f ro (c1 ++ c2) s) m.
Proof.
  revert s m. induction c1 as [|i c1 IH]; intros s m Hw; [exact Hw|]. cbn [exec app] in *. destruct (supports a (needs i)); [|done].
  apply wp_unbind in Hw. eapply hits_r; [exact Hw|]. intros s' m'. apply IH.
Qed.

(** ** The decoders *)
Section decoders.
Context (avx2 : bool) (inp out : slice) (c0 c1 : Z) (m : mem).
Context (B0 : is_byte c0) (B1 : is_byte c1) (Hi1 : 0 <= s_off inp)
  (Hi2 : s_off inp + ControlByteToSize c0 + 16 <= zlen (blk (mb m) (s_blk inp))).

Lemma hits_second_load f ro rest s : gp s SI = PB (s_blk inp) (s_off inp + ControlByteToSize c0) ->
  hits (ERdB (s_blk inp) (s_off inp + ControlByteToSize c0 + 15)) (exec (AMD64 true avx2) f ro (VLDDQU 0 SI X1 :: rest) s) m.
Proof.
  intros HSI. pose proof (ControlByteToSize_lens c0 B0). cbn [exec]. change (supports (AMD64 true avx2) (needs (VLDDQU 0 SI X1))) with true. cbv iota.
  apply hits_l. cbn [exec1]. apply hits_l. rewrite HSI. cbn [load128].
  replace (s_off inp + ControlByteToSize c0 + 15) with (s_off inp + ControlByteToSize c0 + 0 + 15) by lia.
  apply hits_readBs; [|lia]. intros k Hk. rewrite Wp.hget_blk by lia. done.
Qed.
Lemma hits_Get8uint32FastAsm :
  hits (ERdB (s_blk inp) (s_off inp + ControlByteToSize c0 + 15))
    (Get8uint32FastAsm (AMD64 true avx2) inp out (c0 + 256 * c1) DecodeShuffleTable PerControlLenTable) m.
Proof.
  pose proof (ControlByteToSize_lens c0 B0) as HS. pose proof (sum_ctrl_lens_range c0) as HS'.
  unfold Get8uint32FastAsm, without_result, call_asm.
  change (layout 0 _) with ([(0, C64 (PB (s_blk inp) (s_off inp))); (8, C64 (VI (s_len inp))); (16, C64 (VI (s_cap inp)));
    (24, C64 (PW (s_blk out) (4 * s_off out))); (32, C64 (VI (s_len out))); (40, C64 (VI (s_cap out)));
    (48, C16 (c0 + 256 * c1));
    (56, C64 (PT (concat DecodeShuffleTable) 0)); (64, C64 (PT PerControlLenTable 0))], 72).
  cbv beta iota. apply hits_l, hits_l.
  change Get8uint32FastAsm_code with (take 17 Get8uint32FastAsm_code ++ VLDDQU 0 SI X1 :: drop 18 Get8uint32FastAsm_code).
  apply (hits_exec_app _ (fun _ => True)).
  change (take 17 Get8uint32FastAsm_code) with [
  MOVWQZX_arg 48 AX; MOVQ_arg 56 CX; MOVBQZX AX DX; SHLQ 4 DX; ADDQ CX DX; MOVWQZX AX BX; SHRQ 8 BX; SHLQ 4 BX; ADDQ CX BX;
  MOVQ_arg 0 CX; MOVQ CX SI; MOVQ_arg 64 DI; MOVBQZX AX AX; ADDQ DI AX; MOVBQZX_ld AX AX; ADDQ AX SI; VLDDQU 0 CX X0].
  unfold astate0. astart.
  do 9 astep. do 5 astep. rewrite u8_lo in HAX by done.
  astep. apply wp_load_len; [done|]. anext. astep.
  astep. apply wp_load128_B; rewrite ?Z.add_0_r; [lia|lia|done|]. anext.
  cbn [exec wp]. apply hits_second_load. exact HSI.
Qed.
Lemma hits_Get8uint32DeltaFastAsm prev :
  hits (ERdB (s_blk inp) (s_off inp + ControlByteToSize c0 + 15))
    (Get8uint32DeltaFastAsm (AMD64 true avx2) inp out (c0 + 256 * c1) prev DecodeShuffleTable PerControlLenTable) m.
Proof.
  pose proof (ControlByteToSize_lens c0 B0) as HS. pose proof (sum_ctrl_lens_range c0) as HS'.
  unfold Get8uint32DeltaFastAsm, without_result, call_asm.
  change (layout 0 _) with ([(0, C64 (PB (s_blk inp) (s_off inp))); (8, C64 (VI (s_len inp))); (16, C64 (VI (s_cap inp)));
    (24, C64 (PW (s_blk out) (4 * s_off out))); (32, C64 (VI (s_len out))); (40, C64 (VI (s_cap out)));
    (48, C16 (c0 + 256 * c1)); (52, C32 prev);
    (56, C64 (PT (concat DecodeShuffleTable) 0)); (64, C64 (PT PerControlLenTable 0))], 72).
  cbv beta iota. apply hits_l, hits_l.
  change Get8uint32DeltaFastAsm_code with (take 17 Get8uint32DeltaFastAsm_code ++ VLDDQU 0 SI X1 :: drop 18 Get8uint32DeltaFastAsm_code).
  apply (hits_exec_app _ (fun _ => True)).
  change (take 17 Get8uint32DeltaFastAsm_code) with [
  MOVWQZX_arg 48 AX; MOVQ_arg 56 CX; MOVBQZX AX DX; SHLQ 4 DX; ADDQ CX DX; MOVWQZX AX BX; SHRQ 8 BX; SHLQ 4 BX; ADDQ CX BX;
  MOVQ_arg 0 CX; MOVQ CX SI; MOVQ_arg 64 DI; MOVBQZX AX AX; ADDQ DI AX; MOVBQZX_ld AX AX; ADDQ AX SI; VLDDQU 0 CX X0].
  unfold astate0. astart.
  do 9 astep. do 5 astep. rewrite u8_lo in HAX by done.
  astep. apply wp_load_len; [done|]. anext. astep.
  astep. apply wp_load128_B; rewrite ?Z.add_0_r; [lia|lia|done|]. anext.
  cbn [exec wp]. apply hits_second_load. exact HSI.
Qed.
End decoders.









(** ** The readers *)
Ltac hs tac := eapply (hits_k _ (fun _ => True)); [tac; cbn [wp]; split; reflexivity|]; cbn [s_blk s_off s_len s_cap].
Lemma hits_s {A B} e F (p : prog A) (rest : prog B) m m' :
  wp F False (p ;;; Ret tt) m (fun _ m1 => m1 = m') -> hits e rest m' -> hits e (p ;;; rest) m.
Proof.
  intros Hw H. apply wp_run in Hw as [_ Hw]. rewrite run_bind in Hw. unfold hits in *. rewrite run_bind.
  destruct (result (run p m)) as [a| | | |]; try done. unfold result, final in Hw. cbn in Hw.
  unfold trace at 1. cbn. apply in_or_app. right. unfold final. by rewrite Hw.
Qed.
Ltac hss tac := eapply (hits_s _ (fun _ => True)); [tac; cbn [wp]; reflexivity|]; cbn [s_blk s_off s_len s_cap].
(** Keeps a hypothesis from being looked into by automation. *)
Inductive hide (P : Prop) : Prop := Hide : P -> hide P.
Ltac rsl0 := rsl; [|lia].

Lemma hits_ReadAllFast avx2 n st out m S :
  rfast (fun _ => True) m st out n S -> s_len st <= 2 ^ 62 -> 16 < n ->
  hits (ERdB (s_blk st) (s_off st + rdp S n (rlast8 n + 4) + 15)) (ReadAllFast (AMD64 true avx2) n st out) m.
Proof.
  set (F := fun _ : event => True). set (pn := False). intros Hf Hs62 Hn16. assert (Hf' := Hf). destruct Hf' as [Hok Hwf Hno Hroom Hrdx].
  pose proof (r_n _ _ _ _ _ _ Hok) as Hn0. pose proof (rok_zlen _ _ _ _ _ _ Hok) as HS.
  assert (Hst := r_st _ _ _ _ _ _ Hok). assert (Hout := r_out _ _ _ _ _ _ Hok).
  destruct Hst as (I1 & I2 & I3). destruct Hout as (O1 & O2 & O3).
  pose proof (rcl_bounds n Hn0) as Hc.
  assert (HMON : forall k, 0 <= k <= n -> rdp S n k <= rdp S n n) by (intros; apply rdp_mono; lia).
  assert (HGE : forall k, rcl n <= rdp S n k) by (intros; apply rdp_ge).
  pose proof (HGE n) as Hge0. pose proof (rdp_diff S n 0 n ltac:(lia) ltac:(lia) ltac:(lia)) as Hn62. rewrite rdp_0 in Hn62.
  unfold ReadAllFast. cbv zeta.
  rewrite (iadd_small n 3) by lia. rewrite idiv_pos by lia.
  assert (Hcl : (n + 3) / 4 = rcl n) by (by rewrite rcl_eq). rewrite !Hcl.
  rewrite (isub_small (rcl n) 3), (imul_small (rcl n - 3) 4) by lia.
  change (iandnot ((rcl n - 3) * 4) 31) with (iandnot ((rcl n - 3) * 4) (2 ^ 5 - 1)). rewrite !iandnot_pow2 by lia.
  change (2 ^ 5) with 32. rewrite (isub_small (rcl n) 4) by lia.
  set (l32 := (rcl n - 3) * 4 / 32 * 32).
  assert (Hl32 : l32 mod 32 = 0 /\ l32 <= 4 * rcl n - 12 /\ l32 <= n - 9) by (subst l32; split; [apply Z.mod_mul; lia|Z.to_euclidean_division_equations; lia]).
  set (R := rD S n) in *. assert (HR : zlen R = n) by (unfold R; apply rD_zlen; lia).
  assert (Hrl : 0 <= rlast8 n <= 4 * rcl n - 20 /\ 4 * rcl n - 28 < rlast8 n /\ rlast8 n mod 8 = 0) by (unfold rlast8; split; [|split]; [clear -Hc Hn16; Z.to_euclidean_division_equations; lia|clear -Hc Hn16; Z.to_euclidean_division_equations; lia|apply Z.mod_mul; lia]).
  assert (HHIT : hide (forall A k (rest : prog A) data nums c0 c1, k = rlast8 n -> rdata st S n k data -> c0 = at_ S (k / 4) -> c1 = at_ S (k / 4 + 1) ->
    hits (ERdB (s_blk st) (s_off st + rdp S n (rlast8 n + 4) + 15)) (Get8uint32FastAsm (AMD64 true avx2) data nums (ctrl16 c0 c1) DecodeShuffleTable PerControlLenTable ;;; rest) (rmem m out (pre R k)))).
  { constructor. intros A k rest data nums c0 c1 -> (D1 & D2 & D3 & D4) -> ->. apply hits_l.
    destruct (rgroup8 F m st out n S (rlast8 n) Hf ltac:(lia) ltac:(lia) ltac:(lia)) as (B0 & B1 & E0 & E1 & _ & Hov).
    rewrite ctrl16_eq by done. rewrite <- D1. replace (s_off st + rdp S n (rlast8 n + 4) + 15) with (s_off data + ControlByteToSize (at_ S (rlast8 n / 4)) + 15) by lia.
    apply hits_Get8uint32FastAsm; change (mb (rmem m out ?r)) with (mb m); [done|done|pose proof (HGE (rlast8 n)); lia|]. rewrite D1. lia. }
  apply (hits_while _ F (fun '(dp, cp, k) m' =>
      0 <= k <= n /\ k <= rlast8 n /\ k mod 32 = 0 /\ cp = k / 4 /\ dp = rdp S n k /\ m' = rmem m out (pre R k))
    (fun '(_, _, k) => n - k)).
  - split; [lia|]. split; [lia|]. split; [done|]. split; [done|]. split; [by rewrite rdp_0|].
    change (pre R 0) with (@nil Z). by rewrite rmem_nil.
  - unfold rfuel. lia.
  - intros [[dp cp] k] m' (Hk & Hkl & Hk32 & -> & -> & ->) Hcond _. apply Z.ltb_lt in Hcond.
    assert (k + 32 <= l32) by (Z.to_euclidean_division_equations; lia).
    assert (Hk4 : (k + 8) / 4 = k / 4 + 2 /\ (k + 16) / 4 = k / 4 + 4 /\ (k + 24) / 4 = k / 4 + 6 /\ (k + 32) / 4 = k / 4 + 8) by (Z.to_euclidean_division_equations; lia).
    assert (Hm4 : k mod 8 = 0 /\ (k + 8) mod 8 = 0 /\ (k + 16) mod 8 = 0 /\ (k + 24) mod 8 = 0 /\ (k + 32) mod 32 = 0) by (Z.to_euclidean_division_equations; lia).
    assert (0 <= k / 4 /\ k / 4 + 8 <= rcl n) by (Z.to_euclidean_division_equations; lia).
    pose proof (HMON k ltac:(lia)). pose proof (HMON (k + 8) ltac:(lia)). pose proof (HMON (k + 16) ltac:(lia)).
    pose proof (HMON (k + 24) ltac:(lia)). pose proof (HMON (k + 32) ltac:(lia)). pose proof (HGE k).
    pose proof (rdp_diff S n k (k + 4) ltac:(lia) ltac:(lia) ltac:(lia)). pose proof (rdp_diff S n (k + 4) (k + 8) ltac:(lia) ltac:(lia) ltac:(lia)).
    pose proof (rdp_diff S n (k + 8) (k + 12) ltac:(lia) ltac:(lia) ltac:(lia)). pose proof (rdp_diff S n (k + 12) (k + 16) ltac:(lia) ltac:(lia) ltac:(lia)).
    pose proof (rdp_diff S n (k + 16) (k + 20) ltac:(lia) ltac:(lia) ltac:(lia)). pose proof (rdp_diff S n (k + 20) (k + 24) ltac:(lia) ltac:(lia) ltac:(lia)).
    pose proof (rdp_diff S n (k + 24) (k + 28) ltac:(lia) ltac:(lia) ltac:(lia)). pose proof (rdp_diff S n (k + 28) (k + 32) ltac:(lia) ltac:(lia) ltac:(lia)).
    assert (Hlast : k + 24 = rlast8 n \/ k + 32 <= rlast8 n) by (clear -Hrl Hl32 H Hk32; Z.to_euclidean_division_equations; lia).
    destruct Hlast as [Hlast|Hlast].
    + clear Hrl. left.
      destruct (rgroup8 F m st out n S k Hf ltac:(lia) ltac:(lia) ltac:(lia)) as (_ & _ & E0 & E1 & _ & _).
      destruct (rgroup8 F m st out n S (k + 8) Hf ltac:(lia) ltac:(lia) ltac:(lia)) as (_ & _ & E2 & E3 & _ & _).
      destruct (rgroup8 F m st out n S (k + 16) Hf ltac:(lia) ltac:(lia) ltac:(lia)) as (_ & _ & E4 & E5 & _ & _).
      replace (k + 8 + 4) with (k + 12) in E2, E3 by lia. replace (k + 8 + 8) with (k + 16) in E3 by lia.
      replace (k + 16 + 4) with (k + 20) in E4, E5 by lia. replace (k + 16 + 8) with (k + 24) in E5 by lia.
      ints. hs ltac:(rsl0). hs ltac:(rsl0). hs ltac:(rsl0). replace (k / 4 + 8 - k / 4) with 8 by lia. replace (k + 32 - k) with 32 by lia. hs ltac:(apply (wp_rctrl F False m st out n S _ _ _ (k / 4)); [cbn [s_blk s_off s_len s_cap]; rsolve ..|]). hs ltac:(apply (wp_rctrl F False m st out n S _ _ _ (k / 4 + 1)); [cbn [s_blk s_off s_len s_cap]; rsolve ..|]). hss ltac:(apply (wp_r8 F False m st out n S avx2 k (k + 8)); [cbn [s_blk s_off s_len s_cap]; rsolve ..|]; intros _ _). hs ltac:(apply (wp_rctrl F False m st out n S _ _ _ (k / 4)); [cbn [s_blk s_off s_len s_cap]; rsolve ..|]). hs ltac:(apply (wp_rctrl F False m st out n S _ _ _ (k / 4 + 1)); [cbn [s_blk s_off s_len s_cap]; rsolve ..|]). rewrite E0, E1. hs ltac:(apply (wp_rctrl F False m st out n S _ _ _ ((k + 8) / 4)); [cbn [s_blk s_off s_len s_cap]; rsolve ..|]). hs ltac:(apply (wp_rctrl F False m st out n S _ _ _ ((k + 8) / 4 + 1)); [cbn [s_blk s_off s_len s_cap]; rsolve ..|]). ints. hs ltac:(rsl0). hs ltac:(rsl0). hss ltac:(apply (wp_r8 F False m st out n S avx2 (k + 8) (k + 16)); [cbn [s_blk s_off s_len s_cap]; rsolve ..|]; intros _ _). hs ltac:(apply (wp_rctrl F False m st out n S _ _ _ ((k + 8) / 4)); [cbn [s_blk s_off s_len s_cap]; rsolve ..|]). hs ltac:(apply (wp_rctrl F False m st out n S _ _ _ ((k + 8) / 4 + 1)); [cbn [s_blk s_off s_len s_cap]; rsolve ..|]). rewrite E2, E3. hs ltac:(apply (wp_rctrl F False m st out n S _ _ _ ((k + 16) / 4)); [cbn [s_blk s_off s_len s_cap]; rsolve ..|]). hs ltac:(apply (wp_rctrl F False m st out n S _ _ _ ((k + 16) / 4 + 1)); [cbn [s_blk s_off s_len s_cap]; rsolve ..|]). ints. hs ltac:(rsl0). hs ltac:(rsl0). hss ltac:(apply (wp_r8 F False m st out n S avx2 (k + 16) (k + 24)); [cbn [s_blk s_off s_len s_cap]; rsolve ..|]; intros _ _). hs ltac:(apply (wp_rctrl F False m st out n S _ _ _ ((k + 16) / 4)); [cbn [s_blk s_off s_len s_cap]; rsolve ..|]). hs ltac:(apply (wp_rctrl F False m st out n S _ _ _ ((k + 16) / 4 + 1)); [cbn [s_blk s_off s_len s_cap]; rsolve ..|]). rewrite E4, E5. hs ltac:(apply (wp_rctrl F False m st out n S _ _ _ ((k + 24) / 4)); [cbn [s_blk s_off s_len s_cap]; rsolve ..|]). hs ltac:(apply (wp_rctrl F False m st out n S _ _ _ ((k + 24) / 4 + 1)); [cbn [s_blk s_off s_len s_cap]; rsolve ..|]). ints. hs ltac:(rsl0). hs ltac:(rsl0).
      destruct HHIT as [HHIT]. apply HHIT; clear HHIT; [lia|rsolve|reflexivity|reflexivity].
    + clear Hrl. right.
  ints. rsl; [|lia]. rsl; [|lia]. rsl; [|lia].
      replace (k / 4 + 8 - k / 4) with 8 by lia. replace (k + 32 - k) with 32 by lia.
      apply (wp_rctrl F False m st out n S _ _ _ (k / 4)); try rsolve.
      apply (wp_rctrl F False m st out n S _ _ _ (k / 4 + 1)); try rsolve.
      apply (wp_r8 F False m st out n S avx2 k (k + 8)); try rsolve. intros E0 E1.
      apply (wp_rctrl F False m st out n S _ _ _ (k / 4)); try rsolve.
      apply (wp_rctrl F False m st out n S _ _ _ (k / 4 + 1)); try rsolve. rewrite E0, E1.
      apply (wp_rctrl F False m st out n S _ _ _ ((k + 8) / 4)); try rsolve.
      apply (wp_rctrl F False m st out n S _ _ _ ((k + 8) / 4 + 1)); try rsolve.
      ints. rsl; [|lia]. rsl; [|lia].
      apply (wp_r8 F False m st out n S avx2 (k + 8) (k + 16)); try rsolve. intros E2 E3.
      replace (k + 8 + 4) with (k + 12) in E2, E3 by lia.
      apply (wp_rctrl F False m st out n S _ _ _ ((k + 8) / 4)); try rsolve.
      apply (wp_rctrl F False m st out n S _ _ _ ((k + 8) / 4 + 1)); try rsolve. rewrite E2, E3.
      apply (wp_rctrl F False m st out n S _ _ _ ((k + 16) / 4)); try rsolve.
      apply (wp_rctrl F False m st out n S _ _ _ ((k + 16) / 4 + 1)); try rsolve.
      ints. rsl; [|lia]. rsl; [|lia].
      apply (wp_r8 F False m st out n S avx2 (k + 16) (k + 24)); try rsolve. intros E4 E5.
      replace (k + 16 + 4) with (k + 20) in E4, E5 by lia.
      apply (wp_rctrl F False m st out n S _ _ _ ((k + 16) / 4)); try rsolve.
      apply (wp_rctrl F False m st out n S _ _ _ ((k + 16) / 4 + 1)); try rsolve. rewrite E4, E5.
      apply (wp_rctrl F False m st out n S _ _ _ ((k + 24) / 4)); try rsolve.
      apply (wp_rctrl F False m st out n S _ _ _ ((k + 24) / 4 + 1)); try rsolve.
      ints. rsl; [|lia]. rsl; [|lia].
      apply (wp_r8 F False m st out n S avx2 (k + 24) (k + 32)); try rsolve. intros E6 E7.
      replace (k + 24 + 4) with (k + 28) in E6, E7 by lia.
      apply (wp_rctrl F False m st out n S _ _ _ ((k + 24) / 4)); try rsolve.
      apply (wp_rctrl F False m st out n S _ _ _ ((k + 24) / 4 + 1)); try rsolve. rewrite E6, E7.
      ints. cbn [wp]. split; [|lia]. split; [lia|]. split; [lia|]. split; [lia|]. split; [lia|]. split; [lia|done].
  - intros [[dp cp] k0] m' (Hk & Hkl & Hk32 & -> & -> & ->) Hcond. clear Hcond.
    apply (hits_while _ F (fun '(dp, cp, k) m' =>
      0 <= k <= n /\ k <= rlast8 n /\ k mod 8 = 0 /\ cp = k / 4 /\ dp = rdp S n k /\ m' = rmem m out (pre R k))
      (fun '(_, _, k) => n - k)).
    + split; [lia|]. split; [lia|]. split; [|done]. Z.to_euclidean_division_equations; lia.
    + unfold rfuel. lia.
    + clear k0 Hk Hk32 Hkl. intros [[dp cp] k] m' (Hk & Hkl & Hk4 & -> & -> & ->) Hcond _. apply Z.ltb_lt in Hcond.
      assert (k + 20 <= 4 * rcl n) by (clear -Hcond Hk4; Z.to_euclidean_division_equations; lia).
      assert (0 <= k / 4 /\ k / 4 + 2 <= rcl n /\ (k + 8) / 4 = k / 4 + 2 /\ (k + 8) mod 8 = 0) by (clear -Hcond Hk4 Hk; Z.to_euclidean_division_equations; lia).
      pose proof (HMON k ltac:(lia)). pose proof (HMON (k + 8) ltac:(lia)). pose proof (HGE k).
      pose proof (rdp_diff S n k (k + 4) ltac:(lia) ltac:(lia) ltac:(lia)). pose proof (rdp_diff S n (k + 4) (k + 8) ltac:(lia) ltac:(lia) ltac:(lia)).
      assert (Hlast : k = rlast8 n \/ k + 8 <= rlast8 n) by (clear -Hrl Hkl Hk4; Z.to_euclidean_division_equations; lia).
      destruct Hlast as [Hlast|Hlast].
      * clear Hrl. left. hs ltac:(apply (wp_rctrl F False m st out n S _ _ _ (k / 4)); [cbn [s_blk s_off s_len s_cap]; rsolve ..|]). ints. hs ltac:(apply (wp_rctrl F False m st out n S _ _ _ (k / 4 + 1)); [cbn [s_blk s_off s_len s_cap]; rsolve ..|]). hs ltac:(rsl0). hs ltac:(rsl0).
        destruct HHIT as [HHIT]. apply HHIT; clear HHIT; [lia|rsolve|reflexivity|reflexivity].
      * clear Hrl. right.
  apply (wp_rctrl F False m st out n S _ _ _ (k / 4)); try rsolve. ints.
        apply (wp_rctrl F False m st out n S _ _ _ (k / 4 + 1)); try rsolve.
        rsl; [|lia]. rsl; [|lia].
        apply (wp_r8 F False m st out n S avx2 k (k + 8)); try rsolve. intros E0 E1.
        apply (wp_rctrl F False m st out n S _ _ _ (k / 4)); try rsolve.
        apply (wp_rctrl F False m st out n S _ _ _ (k / 4 + 1)); try rsolve. rewrite E0, E1.
        ints. cbn [wp]. split; [|lia]. split; [lia|]. split; [lia|]. split; [lia|]. split; [lia|]. split; [lia|done].
    + clear k0 Hk Hk32 Hkl. intros [[dp cp] k] m' (Hk & Hkl & Hk4 & -> & -> & ->) Hcond. apply Z.ltb_ge in Hcond.
      exfalso. clear -Hcond Hkl Hrl. Z.to_euclidean_division_equations; lia.
Qed.

Lemma hits_ReadAllDeltaFast avx2 n st out prev m S :
  rfast (fun _ => True) m st out n S -> is_u32 prev -> s_len st <= 2 ^ 62 -> 16 < n ->
  hits (ERdB (s_blk st) (s_off st + rdp S n (rlast8 n + 4) + 15)) (ReadAllDeltaFast (AMD64 true avx2) n st out prev) m.
Proof.
  set (F := fun _ : event => True). set (pn := False). intros Hf Hpv Hs62 Hn16. assert (Hro : forall j, s_off out <= j < s_off out + n -> j < s_off out + s_cap out -> F (ERdW (s_blk out) j)) by done.
  assert (Hf' := Hf). destruct Hf' as [Hok Hwf Hno Hroom Hrdx].
  pose proof (r_n _ _ _ _ _ _ Hok) as Hn0. pose proof (rok_zlen _ _ _ _ _ _ Hok) as HS.
  assert (Hst := r_st _ _ _ _ _ _ Hok). assert (Hout := r_out _ _ _ _ _ _ Hok).
  destruct Hst as (I1 & I2 & I3). destruct Hout as (O1 & O2 & O3).
  pose proof (rcl_bounds n Hn0) as Hc.
  assert (HMON : forall k, 0 <= k <= n -> rdp S n k <= rdp S n n) by (intros; apply rdp_mono; lia).
  assert (HGE : forall k, rcl n <= rdp S n k) by (intros; apply rdp_ge).
  pose proof (HGE n) as Hge0. pose proof (rdp_diff S n 0 n ltac:(lia) ltac:(lia) ltac:(lia)) as Hn62. rewrite rdp_0 in Hn62.
  unfold ReadAllDeltaFast. cbv zeta.
  rewrite (iadd_small n 3) by lia. rewrite idiv_pos by lia.
  assert (Hcl : (n + 3) / 4 = rcl n) by (by rewrite rcl_eq). rewrite !Hcl.
  rewrite (isub_small (rcl n) 3), (imul_small (rcl n - 3) 4) by lia.
  change (iandnot ((rcl n - 3) * 4) 31) with (iandnot ((rcl n - 3) * 4) (2 ^ 5 - 1)). rewrite !iandnot_pow2 by lia.
  change (2 ^ 5) with 32. rewrite (isub_small (rcl n) 4) by lia.
  set (l32 := (rcl n - 3) * 4 / 32 * 32).
  assert (Hl32 : l32 mod 32 = 0 /\ l32 <= 4 * rcl n - 12 /\ l32 <= n - 9) by (subst l32; split; [apply Z.mod_mul; lia|Z.to_euclidean_division_equations; lia]).
  set (R := running_sums prev (rD S n)) in *. assert (HR : zlen R = n) by (unfold R; rewrite zlen_running_sums; apply rD_zlen; lia).
  assert (Hrl : 0 <= rlast8 n <= 4 * rcl n - 20 /\ 4 * rcl n - 28 < rlast8 n /\ rlast8 n mod 8 = 0) by (unfold rlast8; split; [|split]; [clear -Hc Hn16; Z.to_euclidean_division_equations; lia|clear -Hc Hn16; Z.to_euclidean_division_equations; lia|apply Z.mod_mul; lia]).
  assert (HHIT : hide (forall A k (rest : prog A) data nums p c0 c1, k = rlast8 n -> rdata st S n k data -> c0 = at_ S (k / 4) -> c1 = at_ S (k / 4 + 1) ->
    hits (ERdB (s_blk st) (s_off st + rdp S n (rlast8 n + 4) + 15)) (Get8uint32DeltaFastAsm (AMD64 true avx2) data nums (ctrl16 c0 c1) p DecodeShuffleTable PerControlLenTable ;;; rest) (rmem m out (pre R k)))).
  { constructor. intros A k rest data nums p c0 c1 -> (D1 & D2 & D3 & D4) -> ->. apply hits_l.
    destruct (rgroup8 F m st out n S (rlast8 n) Hf ltac:(lia) ltac:(lia) ltac:(lia)) as (B0 & B1 & E0 & E1 & _ & Hov).
    rewrite ctrl16_eq by done. rewrite <- D1. replace (s_off st + rdp S n (rlast8 n + 4) + 15) with (s_off data + ControlByteToSize (at_ S (rlast8 n / 4)) + 15) by lia.
    apply hits_Get8uint32DeltaFastAsm; change (mb (rmem m out ?r)) with (mb m); [done|done|pose proof (HGE (rlast8 n)); lia|]. rewrite D1. lia. }
  apply (hits_while _ F (fun '(dp, cp, k, p) m' =>
      0 <= k <= n /\ k <= rlast8 n /\ k mod 32 = 0 /\ cp = k / 4 /\ dp = rdp S n k /\ p = pv prev R k /\ m' = rmem m out (pre R k))
    (fun '(_, _, k, _) => n - k)).
  - split; [lia|]. split; [lia|]. split; [done|]. split; [done|]. split; [by rewrite rdp_0|]. split; [done|].
    change (pre R 0) with (@nil Z). by rewrite rmem_nil.
  - unfold rfuel. lia.
  - intros [[[dp cp] k] p] m' (Hk & Hkl & Hk32 & -> & -> & -> & ->) Hcond _. apply Z.ltb_lt in Hcond.
    assert (k + 32 <= l32) by (Z.to_euclidean_division_equations; lia).
    assert (Hk4 : (k + 8) / 4 = k / 4 + 2 /\ (k + 16) / 4 = k / 4 + 4 /\ (k + 24) / 4 = k / 4 + 6 /\ (k + 32) / 4 = k / 4 + 8) by (Z.to_euclidean_division_equations; lia).
    assert (Hm4 : k mod 8 = 0 /\ (k + 8) mod 8 = 0 /\ (k + 16) mod 8 = 0 /\ (k + 24) mod 8 = 0 /\ (k + 32) mod 32 = 0) by (Z.to_euclidean_division_equations; lia).
    assert (0 <= k / 4 /\ k / 4 + 8 <= rcl n) by (Z.to_euclidean_division_equations; lia).
    pose proof (HMON k ltac:(lia)). pose proof (HMON (k + 8) ltac:(lia)). pose proof (HMON (k + 16) ltac:(lia)).
    pose proof (HMON (k + 24) ltac:(lia)). pose proof (HMON (k + 32) ltac:(lia)). pose proof (HGE k).
    pose proof (rdp_diff S n k (k + 4) ltac:(lia) ltac:(lia) ltac:(lia)). pose proof (rdp_diff S n (k + 4) (k + 8) ltac:(lia) ltac:(lia) ltac:(lia)).
    pose proof (rdp_diff S n (k + 8) (k + 12) ltac:(lia) ltac:(lia) ltac:(lia)). pose proof (rdp_diff S n (k + 12) (k + 16) ltac:(lia) ltac:(lia) ltac:(lia)).
    pose proof (rdp_diff S n (k + 16) (k + 20) ltac:(lia) ltac:(lia) ltac:(lia)). pose proof (rdp_diff S n (k + 20) (k + 24) ltac:(lia) ltac:(lia) ltac:(lia)).
    pose proof (rdp_diff S n (k + 24) (k + 28) ltac:(lia) ltac:(lia) ltac:(lia)). pose proof (rdp_diff S n (k + 28) (k + 32) ltac:(lia) ltac:(lia) ltac:(lia)).
    assert (Hlast : k + 24 = rlast8 n \/ k + 32 <= rlast8 n) by (clear -Hrl Hl32 H Hk32; Z.to_euclidean_division_equations; lia).
    destruct Hlast as [Hlast|Hlast].
    + clear Hrl. left.
      destruct (rgroup8 F m st out n S k Hf ltac:(lia) ltac:(lia) ltac:(lia)) as (_ & _ & E0 & E1 & _ & _).
      destruct (rgroup8 F m st out n S (k + 8) Hf ltac:(lia) ltac:(lia) ltac:(lia)) as (_ & _ & E2 & E3 & _ & _).
      destruct (rgroup8 F m st out n S (k + 16) Hf ltac:(lia) ltac:(lia) ltac:(lia)) as (_ & _ & E4 & E5 & _ & _).
      replace (k + 8 + 4) with (k + 12) in E2, E3 by lia. replace (k + 8 + 8) with (k + 16) in E3 by lia.
      replace (k + 16 + 4) with (k + 20) in E4, E5 by lia. replace (k + 16 + 8) with (k + 24) in E5 by lia.
      ints. hs ltac:(rsl0). hs ltac:(rsl0). hs ltac:(rsl0). replace (k / 4 + 8 - k / 4) with 8 by lia. replace (k + 32 - k) with 32 by lia. hs ltac:(apply (wp_rctrl F False m st out n S _ _ _ (k / 4)); [cbn [s_blk s_off s_len s_cap]; rsolve ..|]). hs ltac:(apply (wp_rctrl F False m st out n S _ _ _ (k / 4 + 1)); [cbn [s_blk s_off s_len s_cap]; rsolve ..|]). hss ltac:(apply (wp_r8d F False m st out n S avx2 prev k (k + 8)); [cbn [s_blk s_off s_len s_cap]; rsolve ..|]; intros _ _). hs ltac:(apply (wp_rctrl F False m st out n S _ _ _ (k / 4)); [cbn [s_blk s_off s_len s_cap]; rsolve ..|]). hs ltac:(apply (wp_rctrl F False m st out n S _ _ _ (k / 4 + 1)); [cbn [s_blk s_off s_len s_cap]; rsolve ..|]). rewrite E0, E1. hs ltac:(apply (wp_rctrl F False m st out n S _ _ _ ((k + 8) / 4)); [cbn [s_blk s_off s_len s_cap]; rsolve ..|]). hs ltac:(apply (wp_rctrl F False m st out n S _ _ _ ((k + 8) / 4 + 1)); [cbn [s_blk s_off s_len s_cap]; rsolve ..|]). ints. hs ltac:(rsl0). hs ltac:(rsl0). hs ltac:(apply (wp_rlast F False m st out n S prev R (k + 8) _ _ k); [cbn [s_blk s_off s_len s_cap]; rsolve ..|intros _|cbn [s_blk s_off s_len s_cap]; rsolve]). hss ltac:(apply (wp_r8d F False m st out n S avx2 prev (k + 8) (k + 16)); [cbn [s_blk s_off s_len s_cap]; rsolve ..|]; intros _ _). hs ltac:(apply (wp_rctrl F False m st out n S _ _ _ ((k + 8) / 4)); [cbn [s_blk s_off s_len s_cap]; rsolve ..|]). hs ltac:(apply (wp_rctrl F False m st out n S _ _ _ ((k + 8) / 4 + 1)); [cbn [s_blk s_off s_len s_cap]; rsolve ..|]). rewrite E2, E3. hs ltac:(apply (wp_rctrl F False m st out n S _ _ _ ((k + 16) / 4)); [cbn [s_blk s_off s_len s_cap]; rsolve ..|]). hs ltac:(apply (wp_rctrl F False m st out n S _ _ _ ((k + 16) / 4 + 1)); [cbn [s_blk s_off s_len s_cap]; rsolve ..|]). ints. hs ltac:(rsl0). hs ltac:(rsl0). hs ltac:(apply (wp_rlast F False m st out n S prev R (k + 16) _ _ k); [cbn [s_blk s_off s_len s_cap]; rsolve ..|intros _|cbn [s_blk s_off s_len s_cap]; rsolve]). hss ltac:(apply (wp_r8d F False m st out n S avx2 prev (k + 16) (k + 24)); [cbn [s_blk s_off s_len s_cap]; rsolve ..|]; intros _ _). hs ltac:(apply (wp_rctrl F False m st out n S _ _ _ ((k + 16) / 4)); [cbn [s_blk s_off s_len s_cap]; rsolve ..|]). hs ltac:(apply (wp_rctrl F False m st out n S _ _ _ ((k + 16) / 4 + 1)); [cbn [s_blk s_off s_len s_cap]; rsolve ..|]). rewrite E4, E5. hs ltac:(apply (wp_rctrl F False m st out n S _ _ _ ((k + 24) / 4)); [cbn [s_blk s_off s_len s_cap]; rsolve ..|]). hs ltac:(apply (wp_rctrl F False m st out n S _ _ _ ((k + 24) / 4 + 1)); [cbn [s_blk s_off s_len s_cap]; rsolve ..|]). ints. hs ltac:(rsl0). hs ltac:(rsl0). hs ltac:(apply (wp_rlast F False m st out n S prev R (k + 24) _ _ k); [cbn [s_blk s_off s_len s_cap]; rsolve ..|intros _|cbn [s_blk s_off s_len s_cap]; rsolve]).
      destruct HHIT as [HHIT]. apply HHIT; clear HHIT; [lia|rsolve|reflexivity|reflexivity].
    + clear Hrl. right.
  ints. rsl; [|lia]. rsl; [|lia]. rsl; [|lia].
      replace (k / 4 + 8 - k / 4) with 8 by lia. replace (k + 32 - k) with 32 by lia.
      apply (wp_rctrl F False m st out n S _ _ _ (k / 4)); try rsolve.
      apply (wp_rctrl F False m st out n S _ _ _ (k / 4 + 1)); try rsolve.
      apply (wp_r8d F False m st out n S avx2 prev k (k + 8)); try rsolve. intros E0 E1.
      apply (wp_rctrl F False m st out n S _ _ _ (k / 4)); try rsolve.
      apply (wp_rctrl F False m st out n S _ _ _ (k / 4 + 1)); try rsolve. rewrite E0, E1.
      apply (wp_rctrl F False m st out n S _ _ _ ((k + 8) / 4)); try rsolve.
      apply (wp_rctrl F False m st out n S _ _ _ ((k + 8) / 4 + 1)); try rsolve.
      ints. rsl; [|lia]. rsl; [|lia]. apply (wp_rlast F False m st out n S prev R (k + 8) _ _ k); try rsolve. intros _.
      apply (wp_r8d F False m st out n S avx2 prev (k + 8) (k + 16)); try rsolve. intros E2 E3.
      replace (k + 8 + 4) with (k + 12) in E2, E3 by lia.
      apply (wp_rctrl F False m st out n S _ _ _ ((k + 8) / 4)); try rsolve.
      apply (wp_rctrl F False m st out n S _ _ _ ((k + 8) / 4 + 1)); try rsolve. rewrite E2, E3.
      apply (wp_rctrl F False m st out n S _ _ _ ((k + 16) / 4)); try rsolve.
      apply (wp_rctrl F False m st out n S _ _ _ ((k + 16) / 4 + 1)); try rsolve.
      ints. rsl; [|lia]. rsl; [|lia]. apply (wp_rlast F False m st out n S prev R (k + 16) _ _ k); try rsolve. intros _.
      apply (wp_r8d F False m st out n S avx2 prev (k + 16) (k + 24)); try rsolve. intros E4 E5.
      replace (k + 16 + 4) with (k + 20) in E4, E5 by lia.
      apply (wp_rctrl F False m st out n S _ _ _ ((k + 16) / 4)); try rsolve.
      apply (wp_rctrl F False m st out n S _ _ _ ((k + 16) / 4 + 1)); try rsolve. rewrite E4, E5.
      apply (wp_rctrl F False m st out n S _ _ _ ((k + 24) / 4)); try rsolve.
      apply (wp_rctrl F False m st out n S _ _ _ ((k + 24) / 4 + 1)); try rsolve.
      ints. rsl; [|lia]. rsl; [|lia]. apply (wp_rlast F False m st out n S prev R (k + 24) _ _ k); try rsolve. intros _.
      apply (wp_r8d F False m st out n S avx2 prev (k + 24) (k + 32)); try rsolve. intros E6 E7.
      replace (k + 24 + 4) with (k + 28) in E6, E7 by lia.
      apply (wp_rctrl F False m st out n S _ _ _ ((k + 24) / 4)); try rsolve.
      apply (wp_rctrl F False m st out n S _ _ _ ((k + 24) / 4 + 1)); try rsolve. rewrite E6, E7. ints. apply (wp_rlast F False m st out n S prev R (k + 32) _ _ k); try rsolve. intros _.
      ints. cbn [wp]. split; [|lia]. split; [lia|]. split; [lia|]. split; [lia|]. split; [lia|]. split; [lia|]. split; done.
  - intros [[[dp cp] k0] p] m' (Hk & Hkl & Hk32 & -> & -> & -> & ->) Hcond. clear Hcond.
    apply (hits_while _ F (fun '(dp, cp, k, p) m' =>
      0 <= k <= n /\ k <= rlast8 n /\ k mod 8 = 0 /\ cp = k / 4 /\ dp = rdp S n k /\ p = pv prev R k /\ m' = rmem m out (pre R k))
      (fun '(_, _, k, _) => n - k)).
    + split; [lia|]. split; [lia|]. split; [|done]. Z.to_euclidean_division_equations; lia.
    + unfold rfuel. lia.
    + clear k0 Hk Hk32 Hkl. intros [[[dp cp] k] p] m' (Hk & Hkl & Hk4 & -> & -> & -> & ->) Hcond _. apply Z.ltb_lt in Hcond.
      assert (k + 20 <= 4 * rcl n) by (clear -Hcond Hk4; Z.to_euclidean_division_equations; lia).
      assert (0 <= k / 4 /\ k / 4 + 2 <= rcl n /\ (k + 8) / 4 = k / 4 + 2 /\ (k + 8) mod 8 = 0) by (clear -Hcond Hk4 Hk; Z.to_euclidean_division_equations; lia).
      pose proof (HMON k ltac:(lia)). pose proof (HMON (k + 8) ltac:(lia)). pose proof (HGE k).
      pose proof (rdp_diff S n k (k + 4) ltac:(lia) ltac:(lia) ltac:(lia)). pose proof (rdp_diff S n (k + 4) (k + 8) ltac:(lia) ltac:(lia) ltac:(lia)).
      assert (Hlast : k = rlast8 n \/ k + 8 <= rlast8 n) by (clear -Hrl Hkl Hk4; Z.to_euclidean_division_equations; lia).
      destruct Hlast as [Hlast|Hlast].
      * clear Hrl. left. hs ltac:(apply (wp_rctrl F False m st out n S _ _ _ (k / 4)); [cbn [s_blk s_off s_len s_cap]; rsolve ..|]). ints. hs ltac:(apply (wp_rctrl F False m st out n S _ _ _ (k / 4 + 1)); [cbn [s_blk s_off s_len s_cap]; rsolve ..|]). hs ltac:(rsl0). hs ltac:(rsl0).
        destruct HHIT as [HHIT]. apply HHIT; clear HHIT; [lia|rsolve|reflexivity|reflexivity].
      * clear Hrl. right.
  apply (wp_rctrl F False m st out n S _ _ _ (k / 4)); try rsolve. ints.
        apply (wp_rctrl F False m st out n S _ _ _ (k / 4 + 1)); try rsolve.
        rsl; [|lia]. rsl; [|lia].
        apply (wp_r8d F False m st out n S avx2 prev k (k + 8)); try rsolve. intros E0 E1.
        apply (wp_rctrl F False m st out n S _ _ _ (k / 4)); try rsolve.
        apply (wp_rctrl F False m st out n S _ _ _ (k / 4 + 1)); try rsolve. rewrite E0, E1.
        ints. apply (wp_rlast F False m st out n S prev R (k + 8) _ _ 0); try rsolve. intros _. cbn [wp]. split; [|lia]. split; [lia|]. split; [lia|]. split; [lia|]. split; [lia|]. split; [lia|]. split; done.
    + clear k0 Hk Hk32 Hkl. intros [[[dp cp] k] p] m' (Hk & Hkl & Hk4 & -> & -> & -> & ->) Hcond. apply Z.ltb_ge in Hcond.
      exfalso. clear -Hcond Hkl Hrl. Z.to_euclidean_division_equations; lia.
Qed.
