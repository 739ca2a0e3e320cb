(** * Rules for ReadAllFast and ReadAllDeltaFast *)
From stdpp Require Import prelude gmap list.
From Coq Require Import ZArith Lia.
From Verif Require Import Spec SpecLemmas GoSem Tables Shared Asm Wp Encode Decode TableProof EncodeProof EncodeProof2 SimdProof AsmProof DecodeProof DecodeProof2 WriterProof WriterProof2 Reader ReaderProof ReaderProof2.
Local Open Scope Z_scope.
Implicit Types (F : event -> Prop) (pn : Prop).

(** How far the reads go: the last 16-byte load starts after the first group of
    the last batch of eight; it may end beyond the last byte of the stream. *)
Definition rlast8 (n : Z) : Z := (4 * rcl n - 20) / 8 * 8.
Definition rover (S : list Z) (n : Z) : Z :=
  if n <=? 16 then rdp S n n else Z.max (rdp S n n) (rdp S n (rlast8 n + 4) + 16).
(** Upper bound on the bytes read past the end: the unused slots of the last control byte. *)
Definition rslack (n : Z) : Z := if n <=? 16 then 0 else 4 * rcl n - n.
Lemma rover_slack S n : 0 <= n -> rcl n <= zlen S -> rdp S n n <= rover S n <= rdp S n n + rslack n.
Proof.
  intros Hn Hc. unfold rover, rslack. pose proof (rcl_bounds n Hn). destruct (Z.leb_spec n 16); [lia|].
  assert (4 <= rlast8 n + 4 <= 4 * rcl n - 16 /\ 4 * rcl n - 16 < n) by (unfold rlast8; Z.to_euclidean_division_equations; lia).
  pose proof (rdp_diff S n (rlast8 n + 4) n ltac:(lia) ltac:(lia) ltac:(lia)). lia.
Qed.

(** What the fast readers need: a complete stream, enough room in [out], and an
    allocation that covers the over-read. *)
Record rfast (F : event -> Prop) (m : mem) (st out : slice) (n : Z) (S : list Z) : Prop := {
  rf_ok : rok F m st out n S;
  rf_wf : rdp S n n <= s_len st;
  rf_out : n <= s_len out;
  rf_room : s_off st + rover S n <= zlen (blk (mb m) (s_blk st));
  rf_rd : forall j, s_off st <= j < s_off st + rover S n -> F (ERdB (s_blk st) j) }.

Lemma ctrl16_eq c0 c1 : is_byte c0 -> is_byte c1 -> ctrl16 c0 c1 = c0 + 256 * c1.
Proof.
  intros B0 B1. unfold ctrl16. rewrite (u16_small c0), (u16_small c1) by (unfold is_byte in *; lia). by apply ctrl16_val.
Qed.

Section steps.
Context {A : Type} (F : event -> Prop) (pn : Prop) (m : mem) (st out : slice) (n : Z) (S : list Z) (avx2 : bool).

(** Facts about two consecutive groups. *)
Lemma rgroup8 k : rfast F m st out n S -> 0 <= k -> k mod 8 = 0 -> k + 20 <= 4 * rcl n ->
  let c0 := at_ S (k / 4) in let c1 := at_ S (k / 4 + 1) in
  is_byte c0 /\ is_byte c1 /\
  ControlByteToSize c0 = rdp S n (k + 4) - rdp S n k /\
  ControlByteToSize c1 = rdp S n (k + 8) - rdp S n (k + 4) /\
  nums8 c0 c1 (drop (Z.to_nat (s_off st + rdp S n k)) (blk (mb m) (s_blk st))) = sub k 8 (rD S n) /\
  rdp S n (k + 4) + 16 <= rover S n.
Proof.
  intros [Hok Hwf Hno Hroom _] Hk Hm8 Hcl c0 c1. assert (Hm : k mod 4 = 0) by (Z.to_euclidean_division_equations; lia).
  pose proof (rok_zlen _ _ _ _ _ _ Hok) as HS. pose proof (rdp_ge S n) as Hge. pose proof (rcl_bounds n (r_n _ _ _ _ _ _ Hok)) as Hc.
  assert (Hdiv : 0 <= k / 4 /\ k / 4 + 1 < rcl n /\ (k + 4) / 4 = k / 4 + 1 /\ (k + 4) mod 4 = 0) by (Z.to_euclidean_division_equations; lia).
  pose proof (Hge n).
  destruct (rok_ctrl _ _ _ _ _ _ (k / 4) Hok ltac:(lia)) as [_ B0]. fold c0 in B0.
  destruct (rok_ctrl _ _ _ _ _ _ (k / 4 + 1) Hok ltac:(lia)) as [_ B1]. fold c1 in B1.
  pose proof (rdp_step S n k 4 ltac:(lia) Hm ltac:(lia) ltac:(lia) ltac:(lia)) as H1. change (Z.to_nat 4) with 4%nat in H1. rewrite sizek_4 in H1. fold c0 in H1.
  pose proof (rdp_step S n (k + 4) 4 ltac:(lia) ltac:(lia) ltac:(lia) ltac:(lia) ltac:(lia)) as H2. change (Z.to_nat 4) with 4%nat in H2.
  destruct Hdiv as (Hd0 & Hd1 & Hd2 & Hd3). rewrite sizek_4, Hd2 in H2. fold c1 in H2. replace (k + 4 + 4) with (k + 8) in H2 by lia.
  pose proof (rdp_mono S n (k + 8) n ltac:(lia)). pose proof (rdp_ge S n k). pose proof (rdp_ge S n (k + 4)).
  split; [done|]. split; [done|]. rewrite !ControlByteToSize_lens by done. split; [lia|]. split; [lia|]. split.
  - rewrite nums8_nums4.
    pose proof (rok_group _ _ _ _ _ _ k 4 Hok ltac:(lia) ltac:(lia) ltac:(lia) ltac:(lia) ltac:(lia)) as G1.
    change (Z.to_nat 4) with 4%nat in G1. rewrite sizek_4, numsk_4 in G1. fold c0 in G1. rewrite G1 by lia. clear G1.
    pose proof (rok_group _ _ _ _ _ _ (k + 4) 4 Hok ltac:(lia) ltac:(lia) ltac:(lia) ltac:(lia) ltac:(lia)) as G2.
    change (Z.to_nat 4) with 4%nat in G2. rewrite sizek_4, numsk_4, Hd2 in G2. fold c1 in G2.
    rewrite drop_drop. destruct (r_st _ _ _ _ _ _ Hok) as (I1 & I2 & I3).
    replace (Z.to_nat (s_off st + rdp S n k) + sum_nat (ctrl_lens c0))%nat with (Z.to_nat (s_off st + rdp S n (k + 4))) by lia.
    rewrite G2 by lia. change 8 with (4 + 4). rewrite sub_app by (try rewrite rD_zlen; lia). done.
  - unfold rover. destruct (Z.leb_spec n 16); [lia|].
    assert (k <= rlast8 n) by (unfold rlast8; Z.to_euclidean_division_equations; lia).
    pose proof (rdp_mono S n (k + 4) (rlast8 n + 4) ltac:(lia)). lia.
Qed.

Lemma wp_r8 k k' data nums (rest : prog A) Q :
  let R := rD S n in let c0 := at_ S (k / 4) in let c1 := at_ S (k / 4 + 1) in
  rfast F m st out n S -> 0 <= k -> k mod 8 = 0 -> k' = k + 8 -> k + 20 <= 4 * rcl n ->
  rdata st S n k data -> rnums out k nums ->
  (ControlByteToSize c0 = rdp S n (k + 4) - rdp S n k -> ControlByteToSize c1 = rdp S n k' - rdp S n (k + 4) ->
     wp F pn rest (rmem m out (pre R k')) Q) ->
  wp F pn (Get8uint32FastAsm (AMD64 true avx2) data nums (ctrl16 c0 c1) DecodeShuffleTable PerControlLenTable ;;; rest) (rmem m out (pre R k)) Q.
Proof.
  intros R c0 c1 Hf Hk Hm -> Hcl (D1 & D2 & D3 & D4) (N1 & N2 & N3 & N4) HQ.
  destruct (rgroup8 k Hf Hk Hm Hcl) as (B0 & B1 & E0 & E1 & EN & Hslack). fold c0 in B0, E0, EN. fold c1 in B1, E1, EN.
  destruct Hf as [Hok Hwf Hno Hroom Hrdx].
  pose proof (rok_zlen _ _ _ _ _ _ Hok) as HS. pose proof (rdp_ge S n k) as Hge. pose proof (rcl_bounds n (r_n _ _ _ _ _ _ Hok)) as Hc.
  pose proof (rdp_ge S n n). assert (HR : zlen R = n) by (apply rD_zlen; lia).
  destruct Hok as [(I1 & I2 & I3) Hout Hby HSe _ Hrd Hwr]. assert (Hout' := Hout). destruct Hout as (O1 & O2 & O3).
  assert (Hpk : zlen (pre R k) = k) by (apply zlen_pre; lia).
  destruct (rmem_blk m out (pre R k) Hout' ltac:(lia)) as [EB1 EB2].
  rewrite ctrl16_eq by done.
  apply wp_bind, wp_Get8uint32FastAsm; change (mb (rmem m out ?r)) with (mb m); rewrite ?D1, ?D2, ?N1, ?N2; try done; try lia.
  - rewrite EB1. unfold zlen in *. lia.
  - intros. apply Hrdx. lia.
  - intros. apply Hwr; lia.
  - rewrite EN. fold R. rewrite (rmem_step m out R k 8) by (done || lia). by apply HQ.
Qed.

Lemma wp_r8d prev k k' p data nums (rest : prog A) Q :
  let R := running_sums prev (rD S n) in let c0 := at_ S (k / 4) in let c1 := at_ S (k / 4 + 1) in
  rfast F m st out n S -> is_u32 prev -> 0 <= k -> k mod 8 = 0 -> k' = k + 8 -> k + 20 <= 4 * rcl n ->
  rdata st S n k data -> rnums out k nums -> p = pv prev R k ->
  (ControlByteToSize c0 = rdp S n (k + 4) - rdp S n k -> ControlByteToSize c1 = rdp S n k' - rdp S n (k + 4) ->
     wp F pn rest (rmem m out (pre R k')) Q) ->
  wp F pn (Get8uint32DeltaFastAsm (AMD64 true avx2) data nums (ctrl16 c0 c1) p DecodeShuffleTable PerControlLenTable ;;; rest) (rmem m out (pre R k)) Q.
Proof.
  intros R c0 c1 Hf Hpv Hk Hm -> Hcl (D1 & D2 & D3 & D4) (N1 & N2 & N3 & N4) -> HQ.
  destruct (rgroup8 k Hf Hk Hm Hcl) as (B0 & B1 & E0 & E1 & EN & Hslack). fold c0 in B0, E0, EN. fold c1 in B1, E1, EN.
  destruct Hf as [Hok Hwf Hno Hroom Hrdx].
  pose proof (rok_zlen _ _ _ _ _ _ Hok) as HS. pose proof (rdp_ge S n k) as Hge. pose proof (rcl_bounds n (r_n _ _ _ _ _ _ Hok)) as Hc.
  pose proof (rdp_ge S n n). assert (HR : zlen R = n) by (unfold R; rewrite zlen_running_sums; apply rD_zlen; lia).
  destruct Hok as [(I1 & I2 & I3) Hout Hby HSe _ Hrd Hwr]. assert (Hout' := Hout). destruct Hout as (O1 & O2 & O3).
  assert (Hpk : zlen (pre R k) = k) by (apply zlen_pre; lia).
  destruct (rmem_blk m out (pre R k) Hout' ltac:(lia)) as [EB1 EB2].
  rewrite ctrl16_eq by done.
  apply wp_bind, wp_Get8uint32DeltaFastAsm; change (mb (rmem m out ?r)) with (mb m); rewrite ?D1, ?D2, ?N1, ?N2; try done; try lia.
  - apply pv_u32; [done|apply running_sums_u32|lia].
  - rewrite EB1. unfold zlen in *. lia.
  - intros. apply Hrdx. lia.
  - intros. apply Hwr; lia.
  - rewrite EN. rewrite (rmem_step m out R k 8); [by apply HQ|done|lia|lia|lia|lia|].
    unfold R at 2. by rewrite sub_running_sums by lia.
Qed.
End steps.

Lemma wp_ReadAllFast F pn avx2 n st out m S (Q : unit -> mem -> Prop) :
  rfast F m st out n S -> s_len st <= 2 ^ 62 ->
  Q tt (rmem m out (rD S n)) ->
  wp F pn (ReadAllFast (AMD64 true avx2) n st out) m Q.
Proof.
  intros Hf Hs62 HQ. assert (Hf' := Hf). destruct Hf' as [Hok Hwf Hno Hroom Hrdx].
  pose proof (r_n _ _ _ _ _ _ Hok) as Hn0. pose proof (rok_zlen _ _ _ _ _ _ Hok) as HS.
  assert (Hst := r_st _ _ _ _ _ _ Hok). assert (Hout := r_out _ _ _ _ _ _ Hok).
  destruct Hst as (I1 & I2 & I3). destruct Hout as (O1 & O2 & O3).
  pose proof (rcl_bounds n Hn0) as Hc.
  assert (HMON : forall k, 0 <= k <= n -> rdp S n k <= rdp S n n) by (intros; apply rdp_mono; lia).
  assert (HGE : forall k, rcl n <= rdp S n k) by (intros; apply rdp_ge).
  pose proof (HGE n) as Hge0. pose proof (rdp_diff S n 0 n ltac:(lia) ltac:(lia) ltac:(lia)) as Hn62. rewrite rdp_0 in Hn62.
  unfold ReadAllFast. cbv zeta.
  rewrite (iadd_small n 3) by lia. rewrite idiv_pos by lia.
  assert (Hcl : (n + 3) / 4 = rcl n) by (by rewrite rcl_eq). rewrite !Hcl.
  rewrite (isub_small (rcl n) 3), (imul_small (rcl n - 3) 4) by lia.
  change (iandnot ((rcl n - 3) * 4) 31) with (iandnot ((rcl n - 3) * 4) (2 ^ 5 - 1)). rewrite !iandnot_pow2 by lia.
  change (2 ^ 5) with 32. rewrite (isub_small (rcl n) 4) by lia.
  set (l32 := (rcl n - 3) * 4 / 32 * 32).
  assert (Hl32 : l32 mod 32 = 0 /\ l32 <= 4 * rcl n - 12 /\ l32 <= n - 9) by (subst l32; split; [apply Z.mod_mul; lia|Z.to_euclidean_division_equations; lia]).
  set (R := rD S n) in *. assert (HR : zlen R = n) by (unfold R; apply rD_zlen; lia).
  apply wp_bind, (wp_while _ _ (fun '(dp, cp, k) m' =>
      0 <= k <= n /\ k mod 32 = 0 /\ cp = k / 4 /\ dp = rdp S n k /\ m' = rmem m out (pre R k))
    (fun '(_, _, k) => n - k)).
  - split; [lia|]. split; [done|]. split; [done|]. split; [by rewrite rdp_0|].
    change (pre R 0) with (@nil Z). by rewrite rmem_nil.
  - lia.
  - unfold rfuel. lia.
  - intros [[dp cp] k] m' (Hk & Hk32 & -> & -> & ->) Hcond _. apply Z.ltb_lt in Hcond.
    assert (k + 32 <= l32) by (Z.to_euclidean_division_equations; lia).
    assert (Hk4 : (k + 8) / 4 = k / 4 + 2 /\ (k + 16) / 4 = k / 4 + 4 /\ (k + 24) / 4 = k / 4 + 6 /\ (k + 32) / 4 = k / 4 + 8) by (Z.to_euclidean_division_equations; lia).
    assert (Hm4 : k mod 8 = 0 /\ (k + 8) mod 8 = 0 /\ (k + 16) mod 8 = 0 /\ (k + 24) mod 8 = 0 /\ (k + 32) mod 32 = 0) by (Z.to_euclidean_division_equations; lia).
    assert (0 <= k / 4 /\ k / 4 + 8 <= rcl n) by (Z.to_euclidean_division_equations; lia).
    pose proof (HMON k ltac:(lia)). pose proof (HMON (k + 8) ltac:(lia)). pose proof (HMON (k + 16) ltac:(lia)).
    pose proof (HMON (k + 24) ltac:(lia)). pose proof (HMON (k + 32) ltac:(lia)). pose proof (HGE k).
    pose proof (rdp_diff S n k (k + 4) ltac:(lia) ltac:(lia) ltac:(lia)). pose proof (rdp_diff S n (k + 4) (k + 8) ltac:(lia) ltac:(lia) ltac:(lia)).
    pose proof (rdp_diff S n (k + 8) (k + 12) ltac:(lia) ltac:(lia) ltac:(lia)). pose proof (rdp_diff S n (k + 12) (k + 16) ltac:(lia) ltac:(lia) ltac:(lia)).
    pose proof (rdp_diff S n (k + 16) (k + 20) ltac:(lia) ltac:(lia) ltac:(lia)). pose proof (rdp_diff S n (k + 20) (k + 24) ltac:(lia) ltac:(lia) ltac:(lia)).
    pose proof (rdp_diff S n (k + 24) (k + 28) ltac:(lia) ltac:(lia) ltac:(lia)). pose proof (rdp_diff S n (k + 28) (k + 32) ltac:(lia) ltac:(lia) ltac:(lia)).
    ints. rsl; [|lia]. rsl; [|lia]. rsl; [|lia].
    replace (k / 4 + 8 - k / 4) with 8 by lia. replace (k + 32 - k) with 32 by lia.
    apply (wp_rctrl F pn m st out n S _ _ _ (k / 4)); try rsolve.
    apply (wp_rctrl F pn m st out n S _ _ _ (k / 4 + 1)); try rsolve.
    apply (wp_r8 F pn m st out n S avx2 k (k + 8)); try rsolve. intros E0 E1.
    apply (wp_rctrl F pn m st out n S _ _ _ (k / 4)); try rsolve.
    apply (wp_rctrl F pn m st out n S _ _ _ (k / 4 + 1)); try rsolve. rewrite E0, E1.
    apply (wp_rctrl F pn m st out n S _ _ _ ((k + 8) / 4)); try rsolve.
    apply (wp_rctrl F pn m st out n S _ _ _ ((k + 8) / 4 + 1)); try rsolve.
    ints. rsl; [|lia]. rsl; [|lia].
    apply (wp_r8 F pn m st out n S avx2 (k + 8) (k + 16)); try rsolve. intros E2 E3.
    replace (k + 8 + 4) with (k + 12) in E2, E3 by lia.
    apply (wp_rctrl F pn m st out n S _ _ _ ((k + 8) / 4)); try rsolve.
    apply (wp_rctrl F pn m st out n S _ _ _ ((k + 8) / 4 + 1)); try rsolve. rewrite E2, E3.
    apply (wp_rctrl F pn m st out n S _ _ _ ((k + 16) / 4)); try rsolve.
    apply (wp_rctrl F pn m st out n S _ _ _ ((k + 16) / 4 + 1)); try rsolve.
    ints. rsl; [|lia]. rsl; [|lia].
    apply (wp_r8 F pn m st out n S avx2 (k + 16) (k + 24)); try rsolve. intros E4 E5.
    replace (k + 16 + 4) with (k + 20) in E4, E5 by lia.
    apply (wp_rctrl F pn m st out n S _ _ _ ((k + 16) / 4)); try rsolve.
    apply (wp_rctrl F pn m st out n S _ _ _ ((k + 16) / 4 + 1)); try rsolve. rewrite E4, E5.
    apply (wp_rctrl F pn m st out n S _ _ _ ((k + 24) / 4)); try rsolve.
    apply (wp_rctrl F pn m st out n S _ _ _ ((k + 24) / 4 + 1)); try rsolve.
    ints. rsl; [|lia]. rsl; [|lia].
    apply (wp_r8 F pn m st out n S avx2 (k + 24) (k + 32)); try rsolve. intros E6 E7.
    replace (k + 24 + 4) with (k + 28) in E6, E7 by lia.
    apply (wp_rctrl F pn m st out n S _ _ _ ((k + 24) / 4)); try rsolve.
    apply (wp_rctrl F pn m st out n S _ _ _ ((k + 24) / 4 + 1)); try rsolve. rewrite E6, E7.
    ints. cbn [wp]. split; [|lia]. split; [lia|]. split; [lia|]. split; [lia|]. split; [lia|done].
  - intros [[dp cp] k0] m' (Hk & Hk32 & -> & -> & ->) Hcond. clear Hcond.
    apply wp_bind, (wp_while _ _ (fun '(dp, cp, k) m' =>
      0 <= k <= n /\ k mod 8 = 0 /\ cp = k / 4 /\ dp = rdp S n k /\ m' = rmem m out (pre R k))
      (fun '(_, _, k) => n - k)).
    + split; [lia|]. split; [|done]. Z.to_euclidean_division_equations; lia.
    + lia.
    + unfold rfuel. lia.
    + clear k0 Hk Hk32. intros [[dp cp] k] m' (Hk & Hk4 & -> & -> & ->) Hcond _. apply Z.ltb_lt in Hcond.
      assert (k + 20 <= 4 * rcl n) by (clear -Hcond Hk4; Z.to_euclidean_division_equations; lia).
      assert (0 <= k / 4 /\ k / 4 + 2 <= rcl n /\ (k + 8) / 4 = k / 4 + 2 /\ (k + 8) mod 8 = 0) by (clear -Hcond Hk4 Hk; Z.to_euclidean_division_equations; lia).
      pose proof (HMON k ltac:(lia)). pose proof (HMON (k + 8) ltac:(lia)). pose proof (HGE k).
      pose proof (rdp_diff S n k (k + 4) ltac:(lia) ltac:(lia) ltac:(lia)). pose proof (rdp_diff S n (k + 4) (k + 8) ltac:(lia) ltac:(lia) ltac:(lia)).
      apply (wp_rctrl F pn m st out n S _ _ _ (k / 4)); try rsolve. ints.
      apply (wp_rctrl F pn m st out n S _ _ _ (k / 4 + 1)); try rsolve.
      rsl; [|lia]. rsl; [|lia].
      apply (wp_r8 F pn m st out n S avx2 k (k + 8)); try rsolve. intros E0 E1.
      apply (wp_rctrl F pn m st out n S _ _ _ (k / 4)); try rsolve.
      apply (wp_rctrl F pn m st out n S _ _ _ (k / 4 + 1)); try rsolve. rewrite E0, E1.
      ints. cbn [wp]. split; [|lia]. split; [lia|]. split; [lia|]. split; [lia|]. split; [lia|done].
    + clear k0 Hk Hk32. intros [[dp cp] k0] m' (Hk & Hk4 & -> & -> & ->) Hcond. clear Hcond.
      apply wp_bind, (wp_while _ _ (fun '(dp, cp, k) m' =>
        0 <= k <= n /\ (k mod 4 = 0 \/ k = n) /\ cp = (k + 3) / 4 /\ dp = rdp S n k /\ m' = rmem m out (pre R k))
        (fun '(_, _, k) => n - k)).
      * split; [lia|]. split; [left; Z.to_euclidean_division_equations; lia|]. split; [|done]. Z.to_euclidean_division_equations; lia.
      * lia.
      * unfold rfuel. lia.
      * clear k0 Hk Hk4. intros [[dp cp] k] m' (Hk & Hk4 & -> & -> & ->) Hcond _. apply Z.ltb_lt in Hcond.
        assert (Hkn : k < n) by (rewrite <- Hcl in Hcond; Z.to_euclidean_division_equations; lia).
        destruct Hk4 as [Hk4|]; [|lia].
        assert (Hcp : (k + 3) / 4 = k / 4) by (Z.to_euclidean_division_equations; lia). rewrite Hcp.
        rewrite (isub_small n k) by lia.
        replace (if 4 <? n - k then 4 else n - k) with (Z.min 4 (n - k)) by (destruct (Z.ltb_spec 4 (n - k)); lia).
        set (j := Z.min 4 (n - k)).
        assert (Hj : 1 <= j <= 4 /\ k + j <= n /\ (j = 4 \/ k + j = n)) by lia.
        assert (Hd : 0 <= k / 4 /\ k / 4 + 1 <= rcl n /\ (k + j + 3) / 4 = k / 4 + 1 /\ ((k + j) mod 4 = 0 \/ k + j = n)) by (clearbody j; clear -Hj Hk Hk4 Hkn Hc; Z.to_euclidean_division_equations; lia).
        clearbody j.
        pose proof (HMON k ltac:(lia)). pose proof (HMON (k + j) ltac:(lia)). pose proof (HGE k).
        pose proof (rdp_diff S n k (k + j) ltac:(lia) ltac:(lia) ltac:(lia)).
        rsl; [|lia]. rsl; [|lia].
        apply (wp_rctrl F pn m st out n S _ _ _ (k / 4)); try rsolve.
        apply (wp_rj F pn m st out n S k (k + j) j); try rsolve. intros _ _.
        ints. cbn [wp]. split; [|lia]. split; [lia|]. split; [lia|]. split; [lia|]. split; [lia|done].
      * clear k0 Hk Hk4. intros [[dp cp] k] m' (Hk & Hk4 & -> & -> & ->) Hcond. apply Z.ltb_ge in Hcond.
        assert (k = n) as -> by (rewrite <- Hcl in Hcond; Z.to_euclidean_division_equations; lia).
        rewrite pre_ge by lia. cbn [wp]. exact HQ.
Qed.

Lemma wp_ReadAllDeltaFast F pn avx2 n st out prev m S (Q : unit -> mem -> Prop) :
  rfast F m st out n S -> (forall j, s_off out <= j < s_off out + n -> j < s_off out + s_cap out -> F (ERdW (s_blk out) j)) ->
  is_u32 prev -> s_len st <= 2 ^ 62 ->
  Q tt (rmem m out (running_sums prev (rD S n))) ->
  wp F pn (ReadAllDeltaFast (AMD64 true avx2) n st out prev) m Q.
Proof.
  intros Hf Hro Hpv Hs62 HQ. assert (Hf' := Hf). destruct Hf' as [Hok Hwf Hno Hroom Hrdx].
  pose proof (r_n _ _ _ _ _ _ Hok) as Hn0. pose proof (rok_zlen _ _ _ _ _ _ Hok) as HS.
  assert (Hst := r_st _ _ _ _ _ _ Hok). assert (Hout := r_out _ _ _ _ _ _ Hok).
  destruct Hst as (I1 & I2 & I3). destruct Hout as (O1 & O2 & O3).
  pose proof (rcl_bounds n Hn0) as Hc.
  assert (HMON : forall k, 0 <= k <= n -> rdp S n k <= rdp S n n) by (intros; apply rdp_mono; lia).
  assert (HGE : forall k, rcl n <= rdp S n k) by (intros; apply rdp_ge).
  pose proof (HGE n) as Hge0. pose proof (rdp_diff S n 0 n ltac:(lia) ltac:(lia) ltac:(lia)) as Hn62. rewrite rdp_0 in Hn62.
  unfold ReadAllDeltaFast. cbv zeta.
  rewrite (iadd_small n 3) by lia. rewrite idiv_pos by lia.
  assert (Hcl : (n + 3) / 4 = rcl n) by (by rewrite rcl_eq). rewrite !Hcl.
  rewrite (isub_small (rcl n) 3), (imul_small (rcl n - 3) 4) by lia.
  change (iandnot ((rcl n - 3) * 4) 31) with (iandnot ((rcl n - 3) * 4) (2 ^ 5 - 1)). rewrite !iandnot_pow2 by lia.
  change (2 ^ 5) with 32. rewrite (isub_small (rcl n) 4) by lia.
  set (l32 := (rcl n - 3) * 4 / 32 * 32).
  assert (Hl32 : l32 mod 32 = 0 /\ l32 <= 4 * rcl n - 12 /\ l32 <= n - 9) by (subst l32; split; [apply Z.mod_mul; lia|Z.to_euclidean_division_equations; lia]).
  set (R := running_sums prev (rD S n)) in *. assert (HR : zlen R = n) by (unfold R; rewrite zlen_running_sums; apply rD_zlen; lia).
  apply wp_bind, (wp_while _ _ (fun '(dp, cp, k, p) m' =>
      0 <= k <= n /\ k mod 32 = 0 /\ cp = k / 4 /\ dp = rdp S n k /\ p = pv prev R k /\ m' = rmem m out (pre R k))
    (fun '(_, _, k, _) => n - k)).
  - split; [lia|]. split; [done|]. split; [done|]. split; [by rewrite rdp_0|]. split; [done|].
    change (pre R 0) with (@nil Z). by rewrite rmem_nil.
  - lia.
  - unfold rfuel. lia.
  - intros [[[dp cp] k] p] m' (Hk & Hk32 & -> & -> & -> & ->) Hcond _. apply Z.ltb_lt in Hcond.
    assert (k + 32 <= l32) by (Z.to_euclidean_division_equations; lia).
    assert (Hk4 : (k + 8) / 4 = k / 4 + 2 /\ (k + 16) / 4 = k / 4 + 4 /\ (k + 24) / 4 = k / 4 + 6 /\ (k + 32) / 4 = k / 4 + 8) by (Z.to_euclidean_division_equations; lia).
    assert (Hm4 : k mod 8 = 0 /\ (k + 8) mod 8 = 0 /\ (k + 16) mod 8 = 0 /\ (k + 24) mod 8 = 0 /\ (k + 32) mod 32 = 0) by (Z.to_euclidean_division_equations; lia).
    assert (0 <= k / 4 /\ k / 4 + 8 <= rcl n) by (Z.to_euclidean_division_equations; lia).
    pose proof (HMON k ltac:(lia)). pose proof (HMON (k + 8) ltac:(lia)). pose proof (HMON (k + 16) ltac:(lia)).
    pose proof (HMON (k + 24) ltac:(lia)). pose proof (HMON (k + 32) ltac:(lia)). pose proof (HGE k).
    pose proof (rdp_diff S n k (k + 4) ltac:(lia) ltac:(lia) ltac:(lia)). pose proof (rdp_diff S n (k + 4) (k + 8) ltac:(lia) ltac:(lia) ltac:(lia)).
    pose proof (rdp_diff S n (k + 8) (k + 12) ltac:(lia) ltac:(lia) ltac:(lia)). pose proof (rdp_diff S n (k + 12) (k + 16) ltac:(lia) ltac:(lia) ltac:(lia)).
    pose proof (rdp_diff S n (k + 16) (k + 20) ltac:(lia) ltac:(lia) ltac:(lia)). pose proof (rdp_diff S n (k + 20) (k + 24) ltac:(lia) ltac:(lia) ltac:(lia)).
    pose proof (rdp_diff S n (k + 24) (k + 28) ltac:(lia) ltac:(lia) ltac:(lia)). pose proof (rdp_diff S n (k + 28) (k + 32) ltac:(lia) ltac:(lia) ltac:(lia)).
    ints. rsl; [|lia]. rsl; [|lia]. rsl; [|lia].
    replace (k / 4 + 8 - k / 4) with 8 by lia. replace (k + 32 - k) with 32 by lia.
    apply (wp_rctrl F pn m st out n S _ _ _ (k / 4)); try rsolve.
    apply (wp_rctrl F pn m st out n S _ _ _ (k / 4 + 1)); try rsolve.
    apply (wp_r8d F pn m st out n S avx2 prev k (k + 8)); try rsolve. intros E0 E1.
    apply (wp_rctrl F pn m st out n S _ _ _ (k / 4)); try rsolve.
    apply (wp_rctrl F pn m st out n S _ _ _ (k / 4 + 1)); try rsolve. rewrite E0, E1.
    apply (wp_rctrl F pn m st out n S _ _ _ ((k + 8) / 4)); try rsolve.
    apply (wp_rctrl F pn m st out n S _ _ _ ((k + 8) / 4 + 1)); try rsolve.
    ints. rsl; [|lia]. rsl; [|lia]. apply (wp_rlast F pn m st out n S prev R (k + 8) _ _ k); try rsolve. intros _.
    apply (wp_r8d F pn m st out n S avx2 prev (k + 8) (k + 16)); try rsolve. intros E2 E3.
    replace (k + 8 + 4) with (k + 12) in E2, E3 by lia.
    apply (wp_rctrl F pn m st out n S _ _ _ ((k + 8) / 4)); try rsolve.
    apply (wp_rctrl F pn m st out n S _ _ _ ((k + 8) / 4 + 1)); try rsolve. rewrite E2, E3.
    apply (wp_rctrl F pn m st out n S _ _ _ ((k + 16) / 4)); try rsolve.
    apply (wp_rctrl F pn m st out n S _ _ _ ((k + 16) / 4 + 1)); try rsolve.
    ints. rsl; [|lia]. rsl; [|lia]. apply (wp_rlast F pn m st out n S prev R (k + 16) _ _ k); try rsolve. intros _.
    apply (wp_r8d F pn m st out n S avx2 prev (k + 16) (k + 24)); try rsolve. intros E4 E5.
    replace (k + 16 + 4) with (k + 20) in E4, E5 by lia.
    apply (wp_rctrl F pn m st out n S _ _ _ ((k + 16) / 4)); try rsolve.
    apply (wp_rctrl F pn m st out n S _ _ _ ((k + 16) / 4 + 1)); try rsolve. rewrite E4, E5.
    apply (wp_rctrl F pn m st out n S _ _ _ ((k + 24) / 4)); try rsolve.
    apply (wp_rctrl F pn m st out n S _ _ _ ((k + 24) / 4 + 1)); try rsolve.
    ints. rsl; [|lia]. rsl; [|lia]. apply (wp_rlast F pn m st out n S prev R (k + 24) _ _ k); try rsolve. intros _.
    apply (wp_r8d F pn m st out n S avx2 prev (k + 24) (k + 32)); try rsolve. intros E6 E7.
    replace (k + 24 + 4) with (k + 28) in E6, E7 by lia.
    apply (wp_rctrl F pn m st out n S _ _ _ ((k + 24) / 4)); try rsolve.
    apply (wp_rctrl F pn m st out n S _ _ _ ((k + 24) / 4 + 1)); try rsolve. rewrite E6, E7. ints. apply (wp_rlast F pn m st out n S prev R (k + 32) _ _ k); try rsolve. intros _.
    ints. cbn [wp]. split; [|lia]. split; [lia|]. split; [lia|]. split; [lia|]. split; [lia|]. split; done.
  - intros [[[dp cp] k0] p] m' (Hk & Hk32 & -> & -> & -> & ->) Hcond. clear Hcond.
    apply wp_bind, (wp_while _ _ (fun '(dp, cp, k, p) m' =>
      0 <= k <= n /\ k mod 8 = 0 /\ cp = k / 4 /\ dp = rdp S n k /\ p = pv prev R k /\ m' = rmem m out (pre R k))
      (fun '(_, _, k, _) => n - k)).
    + split; [lia|]. split; [|done]. Z.to_euclidean_division_equations; lia.
    + lia.
    + unfold rfuel. lia.
    + clear k0 Hk Hk32. intros [[[dp cp] k] p] m' (Hk & Hk4 & -> & -> & -> & ->) Hcond _. apply Z.ltb_lt in Hcond.
      assert (k + 20 <= 4 * rcl n) by (clear -Hcond Hk4; Z.to_euclidean_division_equations; lia).
      assert (0 <= k / 4 /\ k / 4 + 2 <= rcl n /\ (k + 8) / 4 = k / 4 + 2 /\ (k + 8) mod 8 = 0) by (clear -Hcond Hk4 Hk; Z.to_euclidean_division_equations; lia).
      pose proof (HMON k ltac:(lia)). pose proof (HMON (k + 8) ltac:(lia)). pose proof (HGE k).
      pose proof (rdp_diff S n k (k + 4) ltac:(lia) ltac:(lia) ltac:(lia)). pose proof (rdp_diff S n (k + 4) (k + 8) ltac:(lia) ltac:(lia) ltac:(lia)).
      apply (wp_rctrl F pn m st out n S _ _ _ (k / 4)); try rsolve. ints.
      apply (wp_rctrl F pn m st out n S _ _ _ (k / 4 + 1)); try rsolve.
      rsl; [|lia]. rsl; [|lia].
      apply (wp_r8d F pn m st out n S avx2 prev k (k + 8)); try rsolve. intros E0 E1.
      apply (wp_rctrl F pn m st out n S _ _ _ (k / 4)); try rsolve.
      apply (wp_rctrl F pn m st out n S _ _ _ (k / 4 + 1)); try rsolve. rewrite E0, E1.
      ints. apply (wp_rlast F pn m st out n S prev R (k + 8) _ _ 0); try rsolve. intros _. cbn [wp]. split; [|lia]. split; [lia|]. split; [lia|]. split; [lia|]. split; [lia|]. split; done.
    + clear k0 Hk Hk32. intros [[[dp cp] k0] p] m' (Hk & Hk4 & -> & -> & -> & ->) Hcond. clear Hcond.
      apply wp_bind, (wp_while _ _ (fun '(dp, cp, k, p) m' =>
        0 <= k <= n /\ (k mod 4 = 0 \/ k = n) /\ cp = (k + 3) / 4 /\ dp = rdp S n k /\ p = pv prev R k /\ m' = rmem m out (pre R k))
        (fun '(_, _, k, _) => n - k)).
      * split; [lia|]. split; [left; Z.to_euclidean_division_equations; lia|]. split; [|done]. Z.to_euclidean_division_equations; lia.
      * lia.
      * unfold rfuel. lia.
      * clear k0 Hk Hk4. intros [[[dp cp] k] p] m' (Hk & Hk4 & -> & -> & -> & ->) Hcond _. apply Z.ltb_lt in Hcond.
        assert (Hkn : k < n) by (rewrite <- Hcl in Hcond; Z.to_euclidean_division_equations; lia).
        destruct Hk4 as [Hk4|]; [|lia].
        assert (Hcp : (k + 3) / 4 = k / 4) by (Z.to_euclidean_division_equations; lia). rewrite Hcp.
        rewrite (isub_small n k) by lia.
        replace (if 4 <? n - k then 4 else n - k) with (Z.min 4 (n - k)) by (destruct (Z.ltb_spec 4 (n - k)); lia).
        set (j := Z.min 4 (n - k)).
        assert (Hj : 1 <= j <= 4 /\ k + j <= n /\ (j = 4 \/ k + j = n)) by lia.
        assert (Hd : 0 <= k / 4 /\ k / 4 + 1 <= rcl n /\ (k + j + 3) / 4 = k / 4 + 1 /\ ((k + j) mod 4 = 0 \/ k + j = n)) by (clearbody j; clear -Hj Hk Hk4 Hkn Hc; Z.to_euclidean_division_equations; lia).
        clearbody j.
        pose proof (HMON k ltac:(lia)). pose proof (HMON (k + j) ltac:(lia)). pose proof (HGE k).
        pose proof (rdp_diff S n k (k + j) ltac:(lia) ltac:(lia) ltac:(lia)).
        rsl; [|lia]. rsl; [|lia].
        apply (wp_rctrl F pn m st out n S _ _ _ (k / 4)); try rsolve.
        apply (wp_rjd F pn m st out n S prev k (k + j) j); try rsolve. intros _ _.
        ints. apply (wp_rlast F pn m st out n S prev R (k + j) _ _ 0); try rsolve. intros _. cbn [wp]. split; [|lia]. split; [lia|]. split; [lia|]. split; [lia|]. split; [lia|]. split; done.
      * clear k0 Hk Hk4. intros [[[dp cp] k] p] m' (Hk & Hk4 & -> & -> & -> & ->) Hcond. apply Z.ltb_ge in Hcond.
        assert (k = n) as -> by (rewrite <- Hcl in Hcond; Z.to_euclidean_division_equations; lia).
        rewrite pre_ge by lia. cbn [wp]. exact HQ.
Qed.
