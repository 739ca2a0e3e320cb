(** * Rules for the scalar decoders *)
From stdpp Require Import prelude gmap list.
From Coq Require Import ZArith Lia.
From Verif Require Import Spec SpecLemmas GoSem Tables Shared Asm Wp Encode Decode TableProof EncodeProof EncodeProof2 SimdProof AsmProof.
Local Open Scope Z_scope.
Implicit Types (F : event -> Prop) (pn : Prop).

Lemma lor_hi a b n : 0 <= n -> 0 <= a < 2 ^ n -> Z.lor (b * 2 ^ n) a = b * 2 ^ n + a.
Proof. intros. rewrite Z.lor_comm, <- Z.shiftl_mul_pow2 by done. rewrite lor_shift by done. rewrite Z.shiftl_mul_pow2 by done. lia. Qed.
Lemma u32_shl b n : is_byte b -> 0 <= n <= 24 -> u32 (Z.shiftl b n) = b * 2 ^ n.
Proof.
  unfold is_byte. intros. rewrite Z.shiftl_mul_pow2 by lia. apply u32_small.
  assert (0 < 2 ^ n <= 2 ^ 24) by (split; [apply Z.pow_pos_nonneg; lia|apply Z.pow_le_mono_r; lia]). nia.
Qed.
Lemma u32_byte b : is_byte b -> u32 b = b.
Proof. unfold is_byte. intros. apply u32_small. lia. Qed.
Lemma dec4_val b0 b1 b2 b3 : Forall is_byte [b0; b1; b2; b3] ->
  Z.lor (Z.lor (Z.lor (u32 (Z.shiftl (u32 b3) 24)) (u32 (Z.shiftl (u32 b2) 16))) (u32 (Z.shiftl (u32 b1) 8))) (u32 b0) = le_val [b0; b1; b2; b3].
Proof.
  intros H. repeat (apply Forall_cons_1 in H as [? H]). repeat match goal with B : is_byte ?b |- context [u32 ?b] => rewrite (u32_byte b B) end. rewrite !u32_shl by (done || lia). unfold is_byte in *.
  rewrite (lor_hi (b2 * 2 ^ 16) b3 24) by lia.
  replace (b3 * 2 ^ 24 + b2 * 2 ^ 16) with ((b3 * 2 ^ 8 + b2) * 2 ^ 16) by lia. rewrite lor_hi by lia.
  replace ((b3 * 2 ^ 8 + b2) * 2 ^ 16 + b1 * 2 ^ 8) with ((b3 * 2 ^ 16 + b2 * 2 ^ 8 + b1) * 2 ^ 8) by lia. rewrite lor_hi by lia.
  cbn [le_val]. lia.
Qed.
Lemma dec3_val b0 b1 b2 : Forall is_byte [b0; b1; b2] ->
  Z.lor (Z.lor (u32 (Z.shiftl (u32 b2) 16)) (u32 (Z.shiftl (u32 b1) 8))) (u32 b0) = le_val [b0; b1; b2].
Proof.
  intros H. repeat (apply Forall_cons_1 in H as [? H]). repeat match goal with B : is_byte ?b |- context [u32 ?b] => rewrite (u32_byte b B) end. rewrite !u32_shl by (done || lia). unfold is_byte in *.
  rewrite (lor_hi (b1 * 2 ^ 8) b2 16) by lia.
  replace (b2 * 2 ^ 16 + b1 * 2 ^ 8) with ((b2 * 2 ^ 8 + b1) * 2 ^ 8) by lia. rewrite lor_hi by lia.
  cbn [le_val]. lia.
Qed.
Lemma dec2_val b0 b1 : Forall is_byte [b0; b1] -> Z.lor (u32 (Z.shiftl (u32 b1) 8)) (u32 b0) = le_val [b0; b1].
Proof.
  intros H. repeat (apply Forall_cons_1 in H as [? H]). repeat match goal with B : is_byte ?b |- context [u32 ?b] => rewrite (u32_byte b B) end. rewrite !u32_shl by (done || lia). unfold is_byte in *.
  rewrite lor_hi by lia. cbn [le_val]. lia.
Qed.

Lemma sub_S o n l : 0 <= o -> 0 < n -> o + 1 <= zlen l -> sub o n l = at_ l o :: sub (o + 1) (n - 1) l.
Proof.
  intros. replace n with (1 + (n - 1)) at 1 by lia. rewrite sub_app by lia.
  change (at_ l o :: ?r) with ([at_ l o] ++ r). f_equal.
  unfold sub. change (Z.to_nat 1) with 1%nat. rewrite (drop_S _ _ _ (lookup_at l o ltac:(lia))). done.
Qed.
Lemma Forall_at (P : Z -> Prop) l i : Forall P l -> 0 <= i < zlen l -> P (at_ l i).
Proof. intros H Hi. eapply Forall_lookup_1; [done|]. by apply lookup_at. Qed.

(** decode.go:176-188 *)
Lemma wp_decodeOne F pn b size m (Q : Z -> mem -> Prop) :
  1 <= size <= 4 -> inb (mb m) b -> Forall is_byte (blk (mb m) (s_blk b)) ->
  (size <= s_len b ->
    (forall j, s_off b <= j < s_off b + size -> F (ERdB (s_blk b) j)) /\
    Q (le_val (sub (s_off b) size (blk (mb m) (s_blk b)))) m) ->
  (s_len b < size -> pn) ->
  wp F pn (decodeOne b size) m Q.
Proof.
  intros Hs Hin Hb HQ Hp. assert (Hin' := Hin). destruct Hin as (Ho & Hl & Hc).
  set (L := blk (mb m) (s_blk b)) in *. set (o := s_off b) in *.
  unfold decodeOne.
  destruct (decide (s_len b < size)) as [Hlt|Hge].
  { assert (size = 1 \/ size = 2 \/ size = 3 \/ size = 4) as [->|[->|[->| ->]]] by lia; cbn [Z.eqb Pos.eqb];
      apply wp_bind, wp_getB; try done; intros; try lia; apply Hp; lia. }
  destruct HQ as [HF HQ]; [lia|]. clear Hp.
  assert (E : forall i, i + 0 = i) by (intros; lia).
  assert (BY : forall i, 0 <= i < size -> is_byte (at_ L (o + i))) by (intros; apply Forall_at; [done|lia]).
  assert (size = 1 \/ size = 2 \/ size = 3 \/ size = 4) as [->|[->|[->| ->]]] by lia; cbn [Z.eqb Pos.eqb].
  - apply wp_bind, wp_getB; [done| |lia]; intros _; split; [apply HF; lia|].
    cbn [wp]. fold o L. rewrite sub_S in HQ by lia. cbn [sub take Z.to_nat Z.sub] in HQ.
    change (sub (o + 1) (1 - 1) L) with (@nil Z) in HQ. cbn [le_val] in HQ. replace (o + 0) with o by lia.
    rewrite u32_byte by (replace o with (o + 0) by lia; apply BY; lia).
    replace (at_ L o) with (at_ L o + 256 * 0) by lia. done.
  - do 2 (apply wp_bind, wp_getB; [done| |lia]; intros _; split; [apply HF; lia|]).
    cbn [wp]. fold o L. rewrite dec2_val by (repeat apply List.Forall_cons; try apply List.Forall_nil; apply BY; lia).
    rewrite (sub_S o), (sub_S (o + 1)) in HQ by lia. replace (o + 0) with o by lia. done.
  - do 3 (apply wp_bind, wp_getB; [done| |lia]; intros _; split; [apply HF; lia|]).
    cbn [wp]. fold o L. rewrite dec3_val by (repeat apply List.Forall_cons; try apply List.Forall_nil; apply BY; lia).
    rewrite (sub_S o), (sub_S (o + 1)), (sub_S (o + 1 + 1)) in HQ by lia. replace (o + 0) with o by lia.
    replace (o + 1 + 1) with (o + 2) in HQ by lia. done.
  - do 4 (apply wp_bind, wp_getB; [done| |lia]; intros _; split; [apply HF; lia|]).
    cbn [wp]. fold o L. rewrite dec4_val by (repeat apply List.Forall_cons; try apply List.Forall_nil; apply BY; lia).
    rewrite (sub_S o), (sub_S (o + 1)), (sub_S (o + 1 + 1)), (sub_S (o + 1 + 1 + 1)) in HQ by lia. replace (o + 0) with o by lia.
    replace (o + 1 + 1 + 1) with (o + 3) in HQ by lia. replace (o + 1 + 1) with (o + 2) in HQ by lia. done.
Qed.

(** The next number at byte [t] of [inp]. *)
Lemma wp_dec_step {B} F pn inp t size m (k : Z -> prog B) (Q : B -> mem -> Prop) :
  1 <= size <= 4 -> 0 <= t -> inb (mb m) inp -> Forall is_byte (blk (mb m) (s_blk inp)) ->
  (t + size <= s_len inp ->
    (forall j, s_off inp + t <= j < s_off inp + t + size -> F (ERdB (s_blk inp) j)) /\
    wp F pn (k (le_val (sub (s_off inp + t) size (blk (mb m) (s_blk inp))))) m Q) ->
  (s_len inp < t + size -> pn) ->
  wp F pn (let! i := slice_from inp t in let! v := decodeOne i size in k v) m Q.
Proof.
  intros Hs Ht Hin Hb HQ Hp. destruct Hin as (Ho & Hl & Hc).
  apply wp_bind, wp_slice_from; [|intros; apply Hp; lia]. intros Ht'.
  apply wp_bind, wp_decodeOne; cbn [s_blk s_off s_len s_cap]; [done| |done| |intros; apply Hp; lia].
  - repeat split; cbn [s_blk s_off s_len s_cap]; lia.
  - intros. apply HQ. lia.
Qed.

(** Numbers of one group. *)
Definition nums4 (c : Z) (data : list Z) : list Z := map le_val (cut (ctrl_lens c) data).
Lemma perNumLen_lens c i : is_byte c -> (i < 4)%nat -> perNumLen c i = Z.of_nat (nth i (ctrl_lens c) 0%nat).
Proof.
  intros Hc Hi. apply Z.eqb_eq. revert c Hc. apply byte_sweep.
  destruct i as [|[|[|[|i]]]]; [vm_compute; reflexivity..|lia].
Qed.
Lemma ctrl_lens4 c : exists l0 l1 l2 l3, ctrl_lens c = [l0; l1; l2; l3] /\
  (1 <= l0 <= 4 /\ 1 <= l1 <= 4 /\ 1 <= l2 <= 4 /\ 1 <= l3 <= 4)%nat.
Proof.
  pose proof (ctrl_lens_range c) as Hr. unfold ctrl_lens in *. do 4 eexists. split; [reflexivity|].
  repeat (apply Forall_cons_1 in Hr as [? Hr]). done.
Qed.
Lemma nums4_subs c o l l0 l1 l2 l3 : ctrl_lens c = [l0; l1; l2; l3] -> 0 <= o ->
  nums4 c (drop (Z.to_nat o) l) =
  [le_val (sub o (Z.of_nat l0) l); le_val (sub (o + Z.of_nat l0) (Z.of_nat l1) l);
   le_val (sub (o + (Z.of_nat l0 + Z.of_nat l1)) (Z.of_nat l2) l);
   le_val (sub (o + (Z.of_nat l0 + Z.of_nat l1 + Z.of_nat l2)) (Z.of_nat l3) l)].
Proof.
  intros E Ho. unfold nums4. rewrite E. cbn [cut map]. unfold sub. rewrite !Nat2Z.id.
  change (firstn ?n ?d) with (take n d). change (skipn ?n ?d) with (drop n d). rewrite !drop_drop.
  repeat f_equal; lia.
Qed.
Lemma splice4 o a b c d l : 0 <= o -> o + 4 <= zlen l ->
  splice o [a] (splice (o + 1) [b] (splice (o + 2) [c] (splice (o + 3) [d] l))) = splice o [a; b; c; d] l.
Proof.
  intros. change (o + 3) with (o + (2 + zlen [d])).
  replace (o + 2) with (o + 1 + 1) by lia. replace (o + (2 + zlen [d])) with (o + 1 + 1 + 1) by (rewrite zlen_cons, zlen_nil; lia).
  rewrite (splice_cons_r (o + 1 + 1)) by (rewrite ?zlen_cons, ?zlen_nil; lia).
  rewrite (splice_cons_r (o + 1)) by (rewrite ?zlen_cons, ?zlen_nil; lia).
  rewrite (splice_cons_r o) by (rewrite ?zlen_cons, ?zlen_nil; lia). done.
Qed.

(** decode.go:63-75 *)
Lemma wp_Get4uint32Scalar F pn inp out c m (Q : unit -> mem -> Prop) :
  let sz := Z.of_nat (sum_nat (ctrl_lens c)) in
  is_byte c -> inb (mb m) inp -> inb (mw m) out -> Forall is_byte (blk (mb m) (s_blk inp)) ->
  (forall j, s_off inp <= j < s_off inp + sz -> j < s_off inp + s_len inp -> F (ERdB (s_blk inp) j)) ->
  (forall j, s_off out <= j < s_off out + 4 -> j < s_off out + s_len out -> F (EWrW (s_blk out) j)) ->
  (sz <= s_len inp -> 4 <= s_len out ->
    Q tt (setw m (s_blk out) (splice (s_off out)
       (nums4 c (drop (Z.to_nat (s_off inp)) (blk (mb m) (s_blk inp)))) (blk (mw m) (s_blk out))))) ->
  (s_len inp < sz \/ s_len out < 4 -> pn) ->
  wp F pn (Get4uint32Scalar inp out c) m Q.
Proof.
  intros sz Hc Hi Ho Hb HF1 HF2 HQ Hp. unfold Get4uint32Scalar.
  assert (Hi' := Hi). destruct Hi as (Hi1 & Hi2 & Hi3). assert (Ho' := Ho). destruct Ho as (Ho1 & Ho2 & Ho3).
  set (L := blk (mb m) (s_blk inp)) in *. set (W := blk (mw m) (s_blk out)) in *.
  rewrite !perNumLen_lens by (done || lia).
  destruct (ctrl_lens4 c) as (l0 & l1 & l2 & l3 & E & R0 & R1 & R2 & R3).
  rewrite (nums4_subs c _ _ _ _ _ _ E) in HQ by lia.
  subst sz. rewrite E in *. cbn [sum_nat fold_right nth] in *.
  rewrite !(u8_small (Z.of_nat l0 + Z.of_nat l1)) by lia. rewrite !(u8_small (Z.of_nat l0 + Z.of_nat l1 + Z.of_nat l2)) by lia.
  apply wp_dec_step; [lia|lia|done|done| |intros; apply Hp; lia]. intros G3. split; [intros; apply HF1; lia|]. fold L.
  apply wp_bind, wp_setW; [done| |intros; apply Hp; lia]. intros G3'. split; [apply HF2; lia|]. fold W.
  set (v3 := le_val _).
  assert (S1 : length (splice (s_off out + 3) [v3] W) = length W) by (apply splice_length; rewrite ?zlen_cons, ?zlen_nil; lia).
  assert (Z1 : zlen (splice (s_off out + 3) [v3] W) = zlen W) by (unfold zlen; by rewrite S1).
  apply wp_dec_step; [lia|lia|done|done| |lia]. intros _. split; [intros; apply HF1; lia|].
  change (mb (setw m ?b ?l)) with (mb m). fold L.
  apply wp_bind, wp_setW; [by apply inb_setw| |lia]. intros _. split; [apply HF2; lia|].
  rewrite blk_setw by done. rewrite setw_setw.
  set (v2 := le_val (sub _ (Z.of_nat l2) L)).
  assert (S2 : length (splice (s_off out + 2) [v2] (splice (s_off out + 3) [v3] W)) = length W)
    by (rewrite splice_length; rewrite ?zlen_cons, ?zlen_nil, ?Z1; done || lia).
  assert (Z2 : zlen (splice (s_off out + 2) [v2] (splice (s_off out + 3) [v3] W)) = zlen W) by (unfold zlen; by rewrite S2).
  apply wp_dec_step; [lia|lia|done|done| |lia]. intros _. split; [intros; apply HF1; lia|].
  change (mb (setw m ?b ?l)) with (mb m). fold L.
  apply wp_bind, wp_setW; [by apply inb_setw| |lia]. intros _. split; [apply HF2; lia|].
  rewrite blk_setw by done. rewrite setw_setw.
  set (v1 := le_val (sub _ (Z.of_nat l1) L)).
  assert (S3 : length (splice (s_off out + 1) [v1] (splice (s_off out + 2) [v2] (splice (s_off out + 3) [v3] W))) = length W)
    by (rewrite splice_length; rewrite ?zlen_cons, ?zlen_nil, ?Z2; done || lia).
  apply wp_bind, wp_decodeOne; [lia|done|done| |lia]. intros _. split; [intros; apply HF1; lia|].
  change (mb (setw m ?b ?l)) with (mb m). fold L.
  apply wp_setW; [by apply inb_setw| |lia]. intros _. split; [apply HF2; lia|].
  rewrite blk_setw by done. rewrite setw_setw. rewrite Z.add_0_r. rewrite splice4 by lia.
  apply HQ; lia.
Qed.

(** decode.go:160-174 *)
Lemma wp_Get4uint32DeltaScalar F pn inp out c prev m (Q : unit -> mem -> Prop) :
  let sz := Z.of_nat (sum_nat (ctrl_lens c)) in
  is_byte c -> inb (mb m) inp -> inb (mw m) out -> Forall is_byte (blk (mb m) (s_blk inp)) ->
  (forall j, s_off inp <= j < s_off inp + sz -> j < s_off inp + s_len inp -> F (ERdB (s_blk inp) j)) ->
  (forall j, s_off out <= j < s_off out + 4 -> j < s_off out + s_len out -> F (EWrW (s_blk out) j) /\ F (ERdW (s_blk out) j)) ->
  (sz <= s_len inp -> 4 <= s_len out ->
    Q tt (setw m (s_blk out) (splice (s_off out)
       (running_sums prev (nums4 c (drop (Z.to_nat (s_off inp)) (blk (mb m) (s_blk inp))))) (blk (mw m) (s_blk out))))) ->
  (s_len inp < sz \/ s_len out < 4 -> pn) ->
  wp F pn (Get4uint32DeltaScalar inp out c prev) m Q.
Proof.
  intros sz Hc Hi Ho Hb HF1 HF2 HQ Hp. unfold Get4uint32DeltaScalar.
  assert (Hi' := Hi). destruct Hi as (Hi1 & Hi2 & Hi3). assert (Ho' := Ho). destruct Ho as (Ho1 & Ho2 & Ho3).
  set (L := blk (mb m) (s_blk inp)) in *. set (W := blk (mw m) (s_blk out)) in *.
  rewrite !perNumLen_lens by (done || lia).
  destruct (ctrl_lens4 c) as (l0 & l1 & l2 & l3 & E & R0 & R1 & R2 & R3).
  rewrite (nums4_subs c _ _ _ _ _ _ E) in HQ by lia.
  subst sz. rewrite E in *. cbn [sum_nat fold_right nth] in *. cbn [running_sums] in HQ.
  rewrite !(u8_small (Z.of_nat l0 + Z.of_nat l1)) by lia. rewrite !(u8_small (Z.of_nat l0 + Z.of_nat l1 + Z.of_nat l2)) by lia.
  set (o := s_off out) in *.
  (* after the numbers R have been written *)
  assert (SL : forall R, zlen R <= 4 -> 4 <= s_len out -> length (splice o R W) = length W) by (intros; apply splice_length; lia).
  assert (RD : forall R x R' i, R' = R ++ [x] -> i = o + zlen R -> zlen R <= 3 -> 4 <= s_len out -> at_ (splice o R' W) i = x).
  { intros R x R' i -> -> HR HL. pose proof (zlen_nonneg R).
    apply (inj Some). rewrite <- lookup_at.
    - rewrite splice_lookup by (rewrite ?zlen_app, ?zlen_cons, ?zlen_nil; lia).
      rewrite zlen_app, zlen_cons, zlen_nil.
      repeat case_decide; try lia. rewrite lookup_app_r by (unfold zlen in *; lia).
      replace (_ - _ - _)%nat with 0%nat by (unfold zlen in *; lia). done.
    - rewrite splice_zlen; rewrite ?zlen_app, ?zlen_cons, ?zlen_nil; lia. }
  assert (AP : forall R x i, i = o + zlen R -> zlen R <= 3 -> 4 <= s_len out -> splice i [x] (splice o R W) = splice o (R ++ [x]) W).
  { intros R x i -> ? ?. apply splice_app_l; [done|]. rewrite zlen_cons, zlen_nil. lia. }
  apply wp_bind, wp_check_idx; [|intros; apply Hp; lia]. intros H4.
  apply wp_bind, wp_decodeOne; [lia|done|done| |intros; apply Hp; lia]. intros G0. split; [intros; apply HF1; lia|]. fold L.
  set (v0 := le_val _) in *.
  apply wp_bind, wp_setW; [done| |lia]. intros _. split; [apply HF2; lia|]. fold W o. rewrite Z.add_0_r.
  rewrite (Z.add_comm v0). unfold u32 at 1. set (r0 := (prev + v0) mod 2 ^ 32) in *.
  apply wp_dec_step; [lia|lia|done|done| |intros; apply Hp; lia]. intros G1. split; [intros; apply HF1; lia|].
  change (mb (setw m ?b ?l)) with (mb m). fold L. set (v1 := le_val (sub _ (Z.of_nat l1) L)) in *.
  apply wp_bind, wp_getW; [apply inb_setw; [apply (SL [r0]); [done|lia]|done]| |lia]. intros _. split; [apply HF2; lia|]. fold o.
  rewrite blk_setw by (apply (SL [r0]); [done|lia]). rewrite (RD [] r0) by (done || cbn; lia).
  apply wp_bind, wp_setW; [apply inb_setw; [apply (SL [r0]); [done|lia]|done]| |lia]. intros _. split; [apply HF2; lia|]. fold o.
  rewrite blk_setw by (apply (SL [r0]); [done|lia]). rewrite setw_setw. rewrite AP by (done || lia). cbn [app].
  rewrite (Z.add_comm v1). unfold u32 at 1. set (r1 := (r0 + v1) mod 2 ^ 32) in *.
  apply wp_dec_step; [lia|lia|done|done| |intros; apply Hp; lia]. intros G2. split; [intros; apply HF1; lia|].
  change (mb (setw m ?b ?l)) with (mb m). fold L. set (v2 := le_val (sub _ (Z.of_nat l2) L)) in *.
  apply wp_bind, wp_getW; [apply inb_setw; [apply (SL [r0; r1]); [done|lia]|done]| |unfold zlen in *; cbn in *; lia]. intros _. split; [apply HF2; unfold zlen in *; cbn in *; lia|]. fold o.
  rewrite blk_setw by (apply (SL [r0; r1]); [done|lia]). rewrite (RD [r0] r1) by (done || cbn; lia).
  apply wp_bind, wp_setW; [apply inb_setw; [apply (SL [r0; r1]); [done|lia]|done]| |lia]. intros _. split; [apply HF2; lia|]. fold o.
  rewrite blk_setw by (apply (SL [r0; r1]); [done|lia]). rewrite setw_setw. rewrite AP by (done || lia). cbn [app].
  rewrite (Z.add_comm v2). unfold u32 at 1. set (r2 := (r1 + v2) mod 2 ^ 32) in *.
  apply wp_dec_step; [lia|lia|done|done| |intros; apply Hp; lia]. intros G3. split; [intros; apply HF1; lia|].
  change (mb (setw m ?b ?l)) with (mb m). fold L. set (v3 := le_val (sub _ (Z.of_nat l3) L)) in *.
  apply wp_bind, wp_getW; [apply inb_setw; [apply (SL [r0; r1; r2]); [done|lia]|done]| |lia]. intros _. split; [apply HF2; lia|]. fold o.
  rewrite blk_setw by (apply (SL [r0; r1; r2]); [done|lia]). rewrite (RD [r0; r1] r2) by (done || cbn; lia).
  apply wp_setW; [apply inb_setw; [apply (SL [r0; r1; r2]); [done|lia]|done]| |lia]. intros _. split; [apply HF2; lia|]. fold o.
  rewrite blk_setw by (apply (SL [r0; r1; r2]); [done|lia]). rewrite setw_setw. rewrite AP by (done || lia). cbn [app].
  rewrite (Z.add_comm v3). unfold u32 at 1. apply HQ; lia.
Qed.
