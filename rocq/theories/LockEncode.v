(** * Encoders in lock step: numbers of the same byte lengths *)
From stdpp Require Import prelude gmap list.
From Coq Require Import ZArith Lia.
From Verif Require Import Spec SpecLemmas GoSem Tables TableProof Shared Asm AsmProgs SimdProof AsmProof Encode EncodeProof EncodeProof2 Wp Lockstep.
Local Open Scope Z_scope.

Definition anyV (_ : nat) (_ _ _ : Z) : Prop := True.

(** ** Assembly *)
Section asm.
Context (VB VW : nat -> Z -> Z -> Z -> Prop).
Lemma sim_exec_cons a f f' ro i r s s' (Q : astate -> astate -> Prop) :
  sim VB VW (fun t t' => sim VB VW Q (exec a f ro r t) (exec a f' ro r t')) (exec1 f ro i s) (exec1 f' ro i s') ->
  sim VB VW Q (exec a f ro (i :: r) s) (exec a f' ro (i :: r) s').
Proof.
  intros H. simpl. destruct (supports a (needs i)); [|constructor].
  eapply sim_bind; [exact H|]. intros t t' Ht. exact Ht.
Qed.
Lemma sim_readBs n b i : sim VB VW (fun l l' => length l = n /\ length l' = n) (readBs n b i) (readBs n b i).
Proof.
  revert i. induction n as [|n IH]; intros i; cbn [readBs]; constructor; [done|]. intros v v' _.
  eapply sim_bind; [apply IH|]. intros l l' [E E']. constructor. cbn. by rewrite E, E'.
Qed.
Lemma sim_readWs n b i : sim VB VW (fun l l' => length l = n /\ length l' = n /\
  forall k v v', l !! k = Some v -> l' !! k = Some v' -> VW b (i + Z.of_nat k) v v') (readWs n b i) (readWs n b i).
Proof.
  revert i. induction n as [|n IH]; intros i; cbn [readWs]; constructor; [done|]. intros v v' Hv.
  eapply sim_bind; [apply IH|]. intros l l' (E & E' & H). constructor. cbn. rewrite E, E'. split; [done|]. split; [done|].
  intros [|k] u u' Hu Hu'; cbn in Hu, Hu'.
  - injection Hu as <-. injection Hu' as <-. rewrite Z.add_0_r. exact Hv.
  - replace (i + Z.of_nat (S k)) with (i + 1 + Z.of_nat k) by lia. by apply H.
Qed.
Lemma sim_writeBs b l l' (Q : unit -> unit -> Prop) : (forall i v v', VB b i v v') -> length l = length l' -> Q tt tt ->
  forall i, sim VB VW Q (writeBs b i l) (writeBs b i l').
Proof.
  intros Hv El HQ. revert l' El. induction l as [|v l IH]; intros [|v' l'] El i; try discriminate El; cbn [writeBs]; constructor; [done| |].
  - apply Hv.
  - apply IH. by injection El.
Qed.
Lemma sim_writeWs b l l' (Q : unit -> unit -> Prop) : (forall i v v', VW b i v v') -> length l = length l' -> Q tt tt ->
  forall i, sim VB VW Q (writeWs b i l) (writeWs b i l').
Proof.
  intros Hv El HQ. revert l' El. induction l as [|v l IH]; intros [|v' l'] El i; try discriminate El; cbn [writeWs]; constructor; [done| |].
  - apply Hv.
  - apply IH. by injection El.
Qed.
(** The tables are not in memory. *)
Lemma sim_load128_T t o d : sim VB VW (fun l l' => l = l' /\ length l = 16%nat) (load128 (PT t o) d) (load128 (PT t o) d).
Proof.
  unfold load128. destruct (0 <=? o + d) eqn:E1, (o + d + 16 <=? Z.of_nat (length t)) eqn:E2; simpl; constructor.
  split; [done|]. rewrite take_length, drop_length. lia.
Qed.
Lemma sim_load8_T t o : sim VB VW eq (load8 (PT t o)) (load8 (PT t o)).
Proof. unfold load8. destruct (_ && _); constructor. done. Qed.
Lemma sim_load128_B b o d : sim VB VW (fun l l' => length l = 16%nat /\ length l' = 16%nat) (load128 (PB b o) d) (load128 (PB b o) d).
Proof. apply sim_readBs. Qed.
Lemma sim_load128_W b o d k : o + d = 4 * k -> sim VB VW (fun l l' => exists x0 x1 x2 x3 y0 y1 y2 y3, l = bytes32 [x0; x1; x2; x3] /\ l' = bytes32 [y0; y1; y2; y3] /\
  VW b k x0 y0 /\ VW b (k + 1) x1 y1 /\ VW b (k + 2) x2 y2 /\ VW b (k + 3) x3 y3) (load128 (PW b o) d) (load128 (PW b o) d).
Proof.
  intros E. unfold load128. rewrite E, Z.mul_comm, Z.mod_mul, Z.div_mul by lia. cbn [Z.eqb].
  eapply sim_bind; [apply sim_readWs|]. intros l l' (El & El' & H). constructor.
  destruct l as [|x0 [|x1 [|x2 [|x3 [|]]]]]; try discriminate El. destruct l' as [|y0 [|y1 [|y2 [|y3 [|]]]]]; try discriminate El'.
  exists x0, x1, x2, x3, y0, y1, y2, y3. split; [done|]. split; [done|].
  pose proof (H 0%nat _ _ eq_refl eq_refl). pose proof (H 1%nat _ _ eq_refl eq_refl). pose proof (H 2%nat _ _ eq_refl eq_refl).
  pose proof (H 3%nat _ _ eq_refl eq_refl). rewrite Z.add_0_r in *. done.
Qed.
Lemma sim_store128_B b o d l l' (Q : unit -> unit -> Prop) : (forall i v v', VB b i v v') -> length l = 16%nat -> length l' = 16%nat -> Q tt tt ->
  sim VB VW Q (store128 (PB b o) d l) (store128 (PB b o) d l').
Proof. intros Hv E E' HQ. unfold store128. rewrite E, E'. cbn [Nat.eqb]. apply sim_writeBs; [done|by rewrite E, E'|done]. Qed.
Lemma lanes32_length l n : length l = (4 * n)%nat -> length (lanes32 l) = n.
Proof.
  revert l. induction n as [|n IH]; intros l E; [by destruct l|].
  destruct l as [|a [|b [|c [|d l]]]]; cbn in E; try lia. cbn. f_equal. apply IH. lia.
Qed.
Lemma sim_store128_W b o d l l' (Q : unit -> unit -> Prop) : (forall i v v', VW b i v v') -> length l = 16%nat -> length l' = 16%nat -> Q tt tt ->
  sim VB VW Q (store128 (PW b o) d l) (store128 (PW b o) d l').
Proof.
  intros Hv E E' HQ. unfold store128. rewrite E, E'. cbn [Nat.eqb]. destruct (_ =? 0); [|constructor].
  apply sim_writeWs; [done| |done]. by rewrite !(lanes32_length _ 4).
Qed.
End asm.

Ltac new_state2 st st' :=
  let H := fresh "R" in let H' := fresh "R" in
  eassert (H : regs _ _ _ _ _ _ _ _ _ _ _ _ _ st) by regs_done;
  eassert (H' : regs _ _ _ _ _ _ _ _ _ _ _ _ _ st') by regs_done;
  revert H H'; generalize st st';
  repeat match goal with
  | H : gp ?s _ = _ |- _ => clear H
  | H : xm ?s _ = _ |- _ => clear H
  | H : aret ?s = _ |- _ => clear H
  end;
  repeat match goal with s : astate |- _ => clear s end;
  intros s s' (HAX & HBX & HCX & HDX & HSI & HDI & HX0 & HX1 & HX2 & HX3 & HX4 & HX5 & HRT)
    (GAX & GBX & GCX & GDX & GSI & GDI & GX0 & GX1 & GX2 & GX3 & GX4 & GX5 & GRT).
Ltac lnext := lazymatch goal with |- sim _ _ _ (exec _ _ _ _ ?st) (exec _ _ _ _ ?st') => new_state2 st st' end.
(** One instruction on both sides; memory accesses are left. *)
Ltac lstep :=
  apply sim_exec_cons;
  cbn [exec1 frame_get Z.eqb Pos.eqb]; try unfold op2;
  repeat match goal with
  | H : gp ?s ?r = _ |- context [gp ?s ?r] => rewrite H
  | H : xm ?s ?r = _ |- context [xm ?s ?r] => rewrite H
  end; cbn [vadd];
  lazymatch goal with
  | |- sim _ _ _ (Ret _) (Ret _) => apply si_ret; cbv beta; lnext
  | |- sim _ _ _ (bind _ _) (bind _ _) => eapply sim_bind
  end.

(** ** Encoders *)
Section encode.
Context (VW : nat -> Z -> Z -> Z -> Prop).
Notation esim := (sim anyV VW).

Lemma sim_encodeOne x x' out : is_u32 x -> is_u32 x' -> nbytes x = nbytes x' -> esim eq (encodeOne x out) (encodeOne x' out).
Proof.
  intros Hx Hx' E. unfold encodeOne. rewrite !LeadingZeros32_size, <- E by done.
  eapply (sim_bind _ _ (fun _ _ => True)); [|intros; constructor; done].
  cbv zeta. repeat sim1; done.
Qed.

(** The [n] elements from [o] of allocation [b] have the same byte lengths in both memories. *)
Definition alike_nums (b : nat) (o n : Z) : Prop :=
  forall k v v', 0 <= k < n -> VW b (o + k) v v' -> is_u32 v /\ is_u32 v' /\ nbytes v = nbytes v'.
(** What comes before element [o+j]. *)
Definition prevAt (b : nat) (o j p p' q q' : Z) : Prop :=
  if j =? 0 then q = p /\ q' = p' else VW b (o + j - 1) q q'.
(** Their differences have the same byte lengths; [p] and [p'] come before. *)
Definition alike_deltas (b : nat) (o n p p' : Z) : Prop :=
  forall k v v', 0 <= k < n -> VW b (o + k) v v' -> is_u32 v /\ is_u32 v' /\
    forall q q', prevAt b o k p p' q q' -> is_u32 q /\ is_u32 q' /\ nbytes (u32 (v - q)) = nbytes (u32 (v' - q')).
Lemma alike_nums_at b o n j k : alike_nums b o n -> 0 <= j -> j + k <= n -> alike_nums b (o + j) k.
Proof. intros H Hj Hn i v v' Hi. rewrite <- Z.add_assoc. apply H. lia. Qed.
Lemma alike_deltas_at b o n p p' j k q q' : alike_deltas b o n p p' -> 0 <= j -> j + k <= n -> prevAt b o j p p' q q' -> alike_deltas b (o + j) k q q'.
Proof.
  intros H Hj Hn Hq i v v' Hi. rewrite <- Z.add_assoc. intros Hv. destruct (H (j + i) v v' ltac:(lia) Hv) as (U & U' & D). split; [done|]. split; [done|].
  intros r r' Hr. apply D. unfold prevAt in *. destruct (i =? 0) eqn:E.
  - destruct Hr as [-> ->]. replace (j + i) with j by lia. exact Hq.
  - replace (j + i =? 0) with false by lia. replace (o + (j + i) - 1) with (o + j + i - 1) by lia. exact Hr.
Qed.

Ltac elem H := lazymatch goal with V : VW _ _ ?x ?y |- is_u32 ?x => idtac end.
Lemma sim_Put4 inp out : alike_nums (s_blk inp) (s_off inp) 4 -> esim eq (Put4uint32Scalar inp out) (Put4uint32Scalar inp out).
Proof.
  intros H. unfold Put4uint32Scalar. do 5 sim1.
  repeat match goal with V : VW _ (_ + ?k) _ _ |- _ => apply (H k) in V; [destruct V as (? & ? & ?)|lia] end.
  repeat (match goal with |- sim _ _ _ (bind (encodeOne _ _) _) _ => eapply sim_bind; [apply sim_encodeOne; assumption|intros ? ? <-] | _ => sim1 end).
  done.
Qed.
Lemma u32_is x : is_u32 (u32 x).
Proof. unfold u32, is_u32. apply Z.mod_pos_bound. lia. Qed.
Lemma sim_Put4Delta inp out p p' : alike_deltas (s_blk inp) (s_off inp) 4 p p' -> esim eq (Put4uint32DeltaScalar inp out p) (Put4uint32DeltaScalar inp out p').
Proof.
  intros H. unfold Put4uint32DeltaScalar. do 8 sim1.
  repeat (match goal with
    | |- sim _ _ _ (bind (encodeOne _ _) _) _ =>
        eapply sim_bind; [apply sim_encodeOne; [apply u32_is|apply u32_is|]|intros ? ? <-];
        [match goal with V : VW _ (_ + ?k) ?x ?y |- nbytes (u32 (?x - ?q)) = nbytes (u32 (?y - ?q')) =>
           apply (proj2 (proj2 (H k _ _ ltac:(lia) V)) q q'); unfold prevAt; cbn [Z.eqb];
           first [split; reflexivity | match goal with W : VW _ (_ + ?j) q q' |- _ => let R := fresh in assert (R : s_off inp + k - 1 = s_off inp + j) by lia; rewrite R; exact W end] end|]
    | _ => sim1 end).
  done.
Qed.
Lemma sim_Put inp out c : alike_nums (s_blk inp) (s_off inp) (Z.min 4 c) -> esim eq (PutUint32Scalar inp out c) (PutUint32Scalar inp out c).
Proof.
  intros H. unfold PutUint32Scalar. destruct (c =? 0); [by constructor|]. cbv zeta. set (n := if 4 <? c then 4 else c).
  assert (Hn : n = Z.min 4 c) by (subst n; destruct (4 <? c) eqn:?; lia). clearbody n. rewrite <- Hn in H.
  assert (Hn4 : n <= 4) by lia. clear Hn.
  eapply sim_bind.
  - apply (sim_while _ _ (fun st st' => st = st' /\ let '(i, ctrl, shift, total) := st in 0 <= i)).
    + intros [[[i ctrl] shift] total] ? [<- _]. done.
    + intros [[[i ctrl] shift] total] ? [<- Hi] Hc. do 2 sim1.
      destruct (H i _ _ ltac:(lia) ltac:(eassumption)) as (? & ? & ?).
      eapply sim_bind; [apply sim_encodeOne; assumption|intros ? ? <-]. sim1. split; [done|].
      rewrite iadd_small by lia. lia.
    + split; [done|]. lia.
  - intros [[[i ctrl] shift] total] ? [[<- _] _]. by constructor.
Qed.
Lemma sim_PutDelta inp out c p p' : alike_deltas (s_blk inp) (s_off inp) (Z.min 4 c) p p' ->
  esim eq (PutUint32DeltaScalar inp out c p) (PutUint32DeltaScalar inp out c p').
Proof.
  intros H. unfold PutUint32DeltaScalar. destruct (c =? 0); [by constructor|]. cbv zeta. set (n := if 4 <? c then 4 else c).
  assert (Hn : n = Z.min 4 c) by (subst n; destruct (4 <? c) eqn:?; lia). clearbody n. rewrite <- Hn in H.
  assert (Hn4 : n <= 4) by lia. clear Hn.
  eapply sim_bind.
  - apply (sim_while _ _ (fun st st' => st.1 = st'.1 /\ let '(i, ctrl, shift, total, q) := st in 0 <= i /\ prevAt (s_blk inp) (s_off inp) i p p' q (st'.2))).
    + intros [[[[i ctrl] shift] total] q] [st' q'] [E _]. cbn in E. subst st'. done.
    + intros [[[[i ctrl] shift] total] q] [st' q'] [E Hi] Hc. cbn in E. subst st'. cbn [snd] in Hi. destruct Hi as [Hi Hq].
      do 2 sim1.
      eapply sim_bind; [apply sim_encodeOne; [apply u32_is|apply u32_is|]|intros ? ? <-].
      { match goal with V : VW _ _ ?x ?y |- nbytes (u32 (?x - _)) = _ => apply (proj2 (proj2 (H i _ _ ltac:(lia) V))) end. exact Hq. }
      do 2 sim1. cbn [fst snd]. split; [done|]. rewrite iadd_small by lia. split; [lia|]. unfold prevAt. replace (i + 1 =? 0) with false by lia.
      replace (s_off inp + (i + 1) - 1) with (s_off inp + i) by lia. assumption.
    + cbn [fst snd]. split; [done|]. split; [lia|]. unfold prevAt. done.
  - intros [[[[i ctrl] shift] total] q] [st' q'] [[E _] _]. cbn in E. subst st'. by constructor.
Qed.
Lemma alike_nums_le b o n k : alike_nums b o n -> k <= n -> alike_nums b o k.
Proof. intros H Hk i v v' Hi. apply H. lia. Qed.
Lemma alike_deltas_le b o n p p' k : alike_deltas b o n p p' -> k <= n -> alike_deltas b o k p p'.
Proof. intros H Hk i v v' Hi. apply H. lia. Qed.
Lemma sim_Put8 inp out : alike_nums (s_blk inp) (s_off inp) 8 -> esim eq (Put8uint32Scalar inp out) (Put8uint32Scalar inp out).
Proof.
  intros H. unfold Put8uint32Scalar. eapply sim_bind; [apply sim_Put4; apply (alike_nums_le _ _ 8 4 H); lia|].
  intros ? ? <-. cbv zeta. do 2 sim1. eapply sim_bind; [apply sim_Put4; apply (alike_nums_at _ _ 8 4 4 H); lia|]. intros ? ? <-. by constructor.
Qed.
Lemma sim_Put8Delta inp out p p' : alike_deltas (s_blk inp) (s_off inp) 8 p p' -> esim eq (Put8uint32DeltaScalar inp out p) (Put8uint32DeltaScalar inp out p').
Proof.
  intros H. unfold Put8uint32DeltaScalar. eapply sim_bind; [apply sim_Put4Delta; apply (alike_deltas_le _ _ 8 _ _ 4 H); lia|].
  intros ? ? <-. cbv zeta. do 3 sim1. eapply sim_bind; [apply sim_Put4Delta|intros ? ? <-; by constructor].
  apply (alike_deltas_at _ _ 8 p p' 4 4 _ _ H); [lia|lia|]. unfold prevAt. cbn [Z.eqb].
  replace (s_off inp + 4 - 1) with (s_off inp + 3) by lia. assumption.
Qed.

Lemma pshufb_length v mask : length (pshufb v mask) = length mask.
Proof. apply map_length. Qed.
(** encode_amd64.s:11-45 *)
Lemma sim_Put8Asm a inp out : alike_nums (s_blk inp) (s_off inp) 8 ->
  esim eq (Put8uint32FastAsm a inp out EncodeShuffleTable PerControlLenTable) (Put8uint32FastAsm a inp out EncodeShuffleTable PerControlLenTable).
Proof.
  intros H. unfold Put8uint32FastAsm, with_result, call_asm.
  change (layout 0 _) with ([(0, C64 (PW (s_blk inp) (4 * s_off inp))); (8, C64 (VI (s_len inp))); (16, C64 (VI (s_cap inp)));
    (24, C64 (PB (s_blk out) (s_off out))); (32, C64 (VI (s_len out))); (40, C64 (VI (s_cap out)));
    (48, C64 (PT (concat EncodeShuffleTable) 0)); (56, C64 (PT PerControlLenTable 0))], 64).
  cbv beta iota. apply sim_assoc. eapply (sim_bind _ _ (fun s s' => aret s = aret s'));
    [|intros s s' E; cbn [bind]; rewrite E; destruct (aret s'); constructor; done].
  unfold Put8uint32FastAsm_code, astate0.
  lstep.
  lstep; [eapply (sim_load128_W _ _ _ _ _ (s_off inp)); lia|]. intros ? ? (x0 & x1 & x2 & x3 & y0 & y1 & y2 & y3 & -> & -> & V0 & V1 & V2 & V3).
  apply si_ret. lnext.
  lstep; [eapply (sim_load128_W _ _ _ _ _ (s_off inp + 4)); lia|]. intros ? ? (x4 & x5 & x6 & x7 & y4 & y5 & y6 & y7 & -> & -> & V4 & V5 & V6 & V7).
  apply si_ret. lnext.
  do 8 lstep.
  assert (C : ctrl16_of [x0; x1; x2; x3; x4; x5; x6; x7] = ctrl16_of [y0; y1; y2; y3; y4; y5; y6; y7] /\
    Forall is_u32 [x0; x1; x2; x3; x4; x5; x6; x7] /\ Forall is_u32 [y0; y1; y2; y3; y4; y5; y6; y7]).
  { replace (s_off inp + 4 + 1) with (s_off inp + 5) in * by lia. replace (s_off inp + 4 + 2) with (s_off inp + 6) in * by lia.
    replace (s_off inp + 4 + 3) with (s_off inp + 7) in * by lia. rewrite <- (Z.add_0_r (s_off inp)) in V0.
    repeat match goal with V : VW _ (_ + ?k) _ _ |- _ => apply (H k) in V; [destruct V as (? & ? & ?)|lia] end.
    split; [|split; repeat (apply Forall_cons_2; [assumption|]); apply Forall_nil_2].
    unfold ctrl16_of, ctrl_of. cbn [take drop]. congruence. }
  destruct C as (C & U & U').
  assert (EX : simd_ctrl (bytes32 [x0; x1; x2; x3]) (bytes32 [x4; x5; x6; x7]) = ctrl16_of [y0; y1; y2; y3; y4; y5; y6; y7])
    by (rewrite simd_ctrl_eq by done; done).
  assert (EY : simd_ctrl (bytes32 [y0; y1; y2; y3]) (bytes32 [y4; y5; y6; y7]) = ctrl16_of [y0; y1; y2; y3; y4; y5; y6; y7])
    by (rewrite simd_ctrl_eq by done; done).
  rewrite EX in HAX. rewrite EY in GAX. clear EX EY C U U'. set (c := ctrl16_of _) in *. clearbody c.
  do 9 lstep.
  lstep; [apply sim_load128_T|]. intros ? ? [<- Em0]. apply si_ret. lnext.
  lstep; [apply sim_load128_T|]. intros ? ? [<- Em1]. apply si_ret. lnext.
  do 5 lstep.
  lstep; [apply sim_load8_T|]. intros ? ? <-. apply si_ret. lnext.
  lstep.
  lstep; [apply (sim_store128_B _ _ _ _ _ _ _ (fun _ _ => True)); [done|by rewrite pshufb_length|by rewrite pshufb_length|done]|]. intros _ _ _. apply si_ret.
  lstep; [apply (sim_store128_B _ _ _ _ _ _ _ (fun _ _ => True)); [done|by rewrite pshufb_length|by rewrite pshufb_length|done]|]. intros _ _ _. apply si_ret.
  apply si_ret. by rewrite HRT, GRT.
Qed.
(** encode_amd64.s:47-86 *)
Lemma sim_Put8DeltaAsm a inp out p p' : alike_deltas (s_blk inp) (s_off inp) 8 p p' ->
  esim eq (Put8uint32DeltaFastAsm a inp out p EncodeShuffleTable PerControlLenTable) (Put8uint32DeltaFastAsm a inp out p' EncodeShuffleTable PerControlLenTable).
Proof.
  intros H. unfold Put8uint32DeltaFastAsm, with_result, call_asm.
  change (layout 0 [argW inp; argB out; PU32 p; _; _]) with ([(0, C64 (PW (s_blk inp) (4 * s_off inp))); (8, C64 (VI (s_len inp))); (16, C64 (VI (s_cap inp)));
    (24, C64 (PB (s_blk out) (s_off out))); (32, C64 (VI (s_len out))); (40, C64 (VI (s_cap out)));
    (48, C32 p);
    (56, C64 (PT (concat EncodeShuffleTable) 0)); (64, C64 (PT PerControlLenTable 0))], 72).
  change (layout 0 [argW inp; argB out; PU32 p'; _; _]) with ([(0, C64 (PW (s_blk inp) (4 * s_off inp))); (8, C64 (VI (s_len inp))); (16, C64 (VI (s_cap inp)));
    (24, C64 (PB (s_blk out) (s_off out))); (32, C64 (VI (s_len out))); (40, C64 (VI (s_cap out)));
    (48, C32 p');
    (56, C64 (PT (concat EncodeShuffleTable) 0)); (64, C64 (PT PerControlLenTable 0))], 72).
  cbv beta iota. apply sim_assoc. eapply (sim_bind _ _ (fun s s' => aret s = aret s'));
    [|intros s s' E; cbn [bind]; rewrite E; destruct (aret s'); constructor; done].
  unfold Put8uint32DeltaFastAsm_code, astate0.
  lstep.
  lstep; [eapply (sim_load128_W _ _ _ _ _ (s_off inp)); lia|]. intros ? ? (x0 & x1 & x2 & x3 & y0 & y1 & y2 & y3 & -> & -> & V0 & V1 & V2 & V3).
  apply si_ret. lnext.
  lstep; [eapply (sim_load128_W _ _ _ _ _ (s_off inp + 4)); lia|]. intros ? ? (x4 & x5 & x6 & x7 & y4 & y5 & y6 & y7 & -> & -> & V4 & V5 & V6 & V7).
  apply si_ret. lnext.
  do 5 lstep.
  assert (C : Forall is_u32 [p; x0; x1; x2; x3; x4; x5; x6; x7] /\ Forall is_u32 [p'; y0; y1; y2; y3; y4; y5; y6; y7] /\
    ctrl16_of (deltas p [x0; x1; x2; x3; x4; x5; x6; x7]) = ctrl16_of (deltas p' [y0; y1; y2; y3; y4; y5; y6; y7])).
  { replace (s_off inp + 4 + 1) with (s_off inp + 5) in * by lia. replace (s_off inp + 4 + 2) with (s_off inp + 6) in * by lia.
    replace (s_off inp + 4 + 3) with (s_off inp + 7) in * by lia. rewrite <- (Z.add_0_r (s_off inp)) in V0.
    assert (K : forall k x y q q', 0 <= k < 8 -> VW (s_blk inp) (s_off inp + k) x y -> prevAt (s_blk inp) (s_off inp) k p p' q q' ->
      (is_u32 x /\ is_u32 y) /\ is_u32 q /\ is_u32 q' /\ nbytes ((x - q) mod 2 ^ 32) = nbytes ((y - q') mod 2 ^ 32)).
    { intros k x y q q' Hk V Hq. destruct (H k x y Hk V) as (Ux & Uy & D). split; [done|]. by apply D. }
    assert (K' : forall k x y q q', 0 < k < 8 -> VW (s_blk inp) (s_off inp + k) x y -> VW (s_blk inp) (s_off inp + (k - 1)) q q' ->
      (is_u32 x /\ is_u32 y) /\ is_u32 q /\ is_u32 q' /\ nbytes ((x - q) mod 2 ^ 32) = nbytes ((y - q') mod 2 ^ 32)).
    { intros k x y q q' Hk V Hq. apply (K k); [lia|done|]. unfold prevAt. replace (k =? 0) with false by lia. by rewrite Z.add_sub_assoc in Hq. }
    destruct (K 0 _ _ p p' ltac:(lia) V0 ltac:(done)) as ([? ?] & ? & ? & N0).
    destruct (K' 1 _ _ _ _ ltac:(lia) V1 V0) as ([? ?] & _ & _ & N1). destruct (K' 2 _ _ _ _ ltac:(lia) V2 V1) as ([? ?] & _ & _ & N2).
    destruct (K' 3 _ _ _ _ ltac:(lia) V3 V2) as ([? ?] & _ & _ & N3). destruct (K' 4 _ _ _ _ ltac:(lia) V4 V3) as ([? ?] & _ & _ & N4).
    destruct (K' 5 _ _ _ _ ltac:(lia) V5 V4) as ([? ?] & _ & _ & N5). destruct (K' 6 _ _ _ _ ltac:(lia) V6 V5) as ([? ?] & _ & _ & N6).
    destruct (K' 7 _ _ _ _ ltac:(lia) V7 V6) as ([? ?] & _ & _ & N7).
    split; [repeat (apply Forall_cons_2; [assumption|]); apply Forall_nil_2|]. split; [repeat (apply Forall_cons_2; [assumption|]); apply Forall_nil_2|].
    unfold ctrl16_of, ctrl_of. cbn [take drop deltas]. rewrite N0, N1, N2, N3, N4, N5, N6, N7. reflexivity. }
  destruct C as (U & U' & C). clear H V0 V1 V2 V3 V4 V5 V6 V7.
  assert (D : forall p x0 x1 x2 x3 x4 x5 x6 x7, Forall is_u32 [p; x0; x1; x2; x3; x4; x5; x6; x7] ->
    exists y0 y1 y2 y3 y4 y5 y6 y7, deltas p [x0; x1; x2; x3; x4; x5; x6; x7] = [y0; y1; y2; y3; y4; y5; y6; y7] /\
    psubd (bytes32 [x0; x1; x2; x3]) (palignr 12 (bytes32 (replicate 4 p)) (bytes32 [x0; x1; x2; x3])) = bytes32 [y0; y1; y2; y3] /\
    psubd (bytes32 [x4; x5; x6; x7]) (palignr 12 (bytes32 [x0; x1; x2; x3]) (bytes32 [x4; x5; x6; x7])) = bytes32 [y4; y5; y6; y7]).
  { clear. intros p x0 x1 x2 x3 x4 x5 x6 x7 U. do 8 eexists. split; [reflexivity|]. cbn [replicate].
    rewrite !palignr_lanes, !psubd_lanes by split_forall. done. }
  destruct (D _ _ _ _ _ _ _ _ _ U) as (a0 & a1 & a2 & a3 & a4 & a5 & a6 & a7 & Ea & Ea0 & Ea1).
  destruct (D _ _ _ _ _ _ _ _ _ U') as (b0 & b1 & b2 & b3 & b4 & b5 & b6 & b7 & Eb & Eb0 & Eb1). clear D.
  rewrite Ea0 in HX0. rewrite Ea1 in HX1. rewrite Eb0 in GX0. rewrite Eb1 in GX1.
  pose proof (deltas_u32 p [x0; x1; x2; x3; x4; x5; x6; x7]) as Ua. pose proof (deltas_u32 p' [y0; y1; y2; y3; y4; y5; y6; y7]) as Ub.
  rewrite Ea in Ua, C. rewrite Eb in Ub, C. clear Ea Ea0 Ea1 Eb Eb0 Eb1 U U'.
  do 8 lstep.
  assert (EX : simd_ctrl (bytes32 [a0; a1; a2; a3]) (bytes32 [a4; a5; a6; a7]) = ctrl16_of [b0; b1; b2; b3; b4; b5; b6; b7])
    by (rewrite simd_ctrl_eq by done; done).
  assert (EY : simd_ctrl (bytes32 [b0; b1; b2; b3]) (bytes32 [b4; b5; b6; b7]) = ctrl16_of [b0; b1; b2; b3; b4; b5; b6; b7])
    by (rewrite simd_ctrl_eq by done; done).
  rewrite EX in HAX. rewrite EY in GAX. clear EX EY C Ua Ub. set (c := ctrl16_of _) in *. clearbody c.
  do 9 lstep.
  lstep; [apply sim_load128_T|]. intros ? ? [<- Em0]. apply si_ret. lnext.
  lstep; [apply sim_load128_T|]. intros ? ? [<- Em1]. apply si_ret. lnext.
  do 5 lstep.
  lstep; [apply sim_load8_T|]. intros ? ? <-. apply si_ret. lnext.
  lstep.
  lstep; [apply (sim_store128_B _ _ _ _ _ _ _ (fun _ _ => True)); [done|by rewrite pshufb_length|by rewrite pshufb_length|done]|]. intros _ _ _. apply si_ret.
  lstep; [apply (sim_store128_B _ _ _ _ _ _ _ (fun _ _ => True)); [done|by rewrite pshufb_length|by rewrite pshufb_length|done]|]. intros _ _ _. apply si_ret.
  apply si_ret. by rewrite HRT, GRT.
Qed.
End encode.
