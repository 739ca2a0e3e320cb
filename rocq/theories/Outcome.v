(** * What a program leaves in memory, also when it panics

    [outcome p m Q P]: run from [m], [p] returns with [Q] of the value and the final
    memory, or panics with [P] of the memory at that point. *)
From stdpp Require Import prelude gmap list.
From Coq Require Import ZArith Lia.
From Verif Require Import Spec SpecLemmas GoSem Tables Shared Asm Wp Encode EncodeProof EncodeProof2 TableProof SimdProof AsmProof Decode DecodeProof DecodeProof2 Reader ReaderProof Api ApiLemmas.
Local Open Scope Z_scope.

Definition outcome {A} (p : prog A) (m : mem) (Q : A -> mem -> Prop) (P : mem -> Prop) : Prop :=
  match result (run p m) with
  | Ok a => Q a (final (run p m))
  | Panicked => P (final (run p m))
  | _ => False
  end.

Implicit Types (P : mem -> Prop).
Lemma oc_mono {A} (p : prog A) m (Q Q' : A -> mem -> Prop) (P P' : mem -> Prop) :
  (forall a m', Q a m' -> Q' a m') -> (forall m', P m' -> P' m') -> outcome p m Q P -> outcome p m Q' P'.
Proof. intros HQ HP. unfold outcome. destruct (result (run p m)); auto. Qed.
Lemma oc_bind {A B} (p : prog A) (f : A -> prog B) m Q P :
  outcome p m (fun a m' => outcome (f a) m' Q P) P -> outcome (bind p f) m Q P.
Proof.
  unfold outcome. rewrite run_bind. destruct (result (run p m)) as [a| | | |]; try done.
Qed.
Lemma oc_ret {A} (a : A) m (Q : A -> mem -> Prop) P : Q a m -> outcome (Ret a) m Q P.
Proof. done. Qed.
Lemma oc_while {S} (I : S -> mem -> Prop) (meas : S -> Z) (cond : S -> bool) body fuel s m (Q : S -> mem -> Prop) P :
  I s m -> 0 <= meas s -> meas s < Z.of_nat fuel ->
  (forall s m, I s m -> cond s = true -> 0 <= meas s ->
     outcome (body s) m (fun s' m' => I s' m' /\ 0 <= meas s' < meas s) P) ->
  (forall s m, I s m -> cond s = false -> Q s m) ->
  outcome (while fuel cond body s) m Q P.
Proof.
  intros HI H0 Hm Hb HQ. revert s m HI H0 Hm.
  induction fuel as [|n IH]; intros s m HI H0 Hm; [lia|].
  cbn [while]. destruct (cond s) eqn:E; [|by apply oc_ret, HQ].
  apply oc_bind. eapply oc_mono; [| |apply Hb; auto]; [|auto].
  intros a m' (HI' & Hm'). apply IH; auto; lia.
Qed.
(** A program that does not panic. *)
Lemma oc_ok {A} (p : prog A) m (Q : A -> mem -> Prop) P : wp (fun _ => True) False p m Q -> outcome p m Q P.
Proof. intros H. apply wp_run in H as [_ H]. unfold outcome. destruct (result (run p m)); done. Qed.
(** A program that only reads. *)
Definition is_read (e : event) : Prop := match e with ERdB _ _ | ERdW _ _ => True | _ => False end.
Lemma reads_final {A} (p : prog A) m : Forall is_read (trace (run p m)) -> final (run p m) = m.
Proof.
  revert m. induction p as [a| | | | |b i k IH|b i v k IH|b i k IH|b i v k IH|b n k IH]; intros m H; try done; cbn [run] in *.
  - destruct (hget (mb m) b i) as [v|]; [|done]. specialize (IH v m). destruct (run (k v) m) as [[r m'] t].
    unfold final, trace in *. cbn in *. apply IH. by inversion H; subst.
  - exfalso. destruct (hput (mb m) b i v) as [h|]; [destruct (run k _) as [[r m'] t]|];
      unfold trace in H; cbn in H; by inversion H; subst.
  - destruct (hget (mw m) b i) as [v|]; [|done]. specialize (IH v m). destruct (run (k v) m) as [[r m'] t].
    unfold final, trace in *. cbn in *. apply IH. by inversion H; subst.
  - exfalso. destruct (hput (mw m) b i v) as [h|]; [destruct (run k _) as [[r m'] t]|];
      unfold trace in H; cbn in H; by inversion H; subst.
  - destruct (mb m !! b) as [l|]; [done|]. exfalso. destruct (run k _) as [[r m'] t].
    unfold trace in H. cbn in H. by inversion H; subst.
Qed.
Lemma oc_reads {A} (p : prog A) m (pn : Prop) (Q : A -> mem -> Prop) (P : mem -> Prop) :
  (pn -> P m) -> wp is_read pn p m Q -> outcome p m Q P.
Proof.
  intros HP H. apply wp_run in H as [HF H]. apply reads_final in HF. unfold outcome. rewrite HF in *.
  destruct (result (run p m)); auto.
Qed.

Lemma oc_slice_from s lo m (Q : slice -> mem -> Prop) P :
  (0 <= lo <= s_len s -> Q (Slice (s_blk s) (s_off s + lo) (s_len s - lo) (s_cap s - lo)) m) ->
  (~ (0 <= lo <= s_len s) -> P m) -> outcome (slice_from s lo) m Q P.
Proof. intros. apply (oc_reads _ _ (~ (0 <= lo <= s_len s))); [done|]. by apply wp_slice_from. Qed.
Lemma oc_slice_range s lo hi m (Q : slice -> mem -> Prop) P :
  (0 <= lo <= hi /\ hi <= s_cap s -> Q (Slice (s_blk s) (s_off s + lo) (hi - lo) (s_cap s - lo)) m) ->
  (~ (0 <= lo <= hi /\ hi <= s_cap s) -> P m) -> outcome (slice_range s lo hi) m Q P.
Proof. intros. apply (oc_reads _ _ (~ (0 <= lo <= hi /\ hi <= s_cap s))); [done|]. by apply wp_slice_range. Qed.
Lemma oc_check_idx s i m (Q : unit -> mem -> Prop) P :
  (0 <= i < s_len s -> Q tt m) -> (~ (0 <= i < s_len s) -> P m) -> outcome (check_idx s i) m Q P.
Proof. intros. apply (oc_reads _ _ (~ (0 <= i < s_len s))); [done|]. by apply wp_check_idx. Qed.
Lemma oc_getB s i m (Q : Z -> mem -> Prop) P : inb (mb m) s ->
  (0 <= i < s_len s -> Q (at_ (blk (mb m) (s_blk s)) (s_off s + i)) m) -> (~ (0 <= i < s_len s) -> P m) -> outcome (getB s i) m Q P.
Proof. intros. apply (oc_reads _ _ (~ (0 <= i < s_len s))); [done|]. apply wp_getB; [done| |done]. intros. split; [done|auto]. Qed.
Lemma oc_getW s i m (Q : Z -> mem -> Prop) P : inb (mw m) s ->
  (0 <= i < s_len s -> Q (at_ (blk (mw m) (s_blk s)) (s_off s + i)) m) -> (~ (0 <= i < s_len s) -> P m) -> outcome (getW s i) m Q P.
Proof. intros. apply (oc_reads _ _ (~ (0 <= i < s_len s))); [done|]. apply wp_getW; [done| |done]. intros. split; [done|auto]. Qed.
Lemma idx_dec i n : 0 <= i < n \/ ~ (0 <= i < n).
Proof. lia. Qed.
Lemma oc_setB s i v m (Q : unit -> mem -> Prop) P : inb (mb m) s ->
  (0 <= i < s_len s -> Q tt (setb m (s_blk s) (splice (s_off s + i) [v] (blk (mb m) (s_blk s))))) ->
  (~ (0 <= i < s_len s) -> P m) -> outcome (setB s i v) m Q P.
Proof.
  intros Hin HQ HP. destruct (idx_dec i (s_len s)) as [Hi|Hi].
  - apply oc_ok, wp_setB; [done| |done]. intros _. auto.
  - unfold setB. apply oc_bind, oc_check_idx; [done|auto].
Qed.
Lemma oc_setW s i v m (Q : unit -> mem -> Prop) P : inb (mw m) s ->
  (0 <= i < s_len s -> Q tt (setw m (s_blk s) (splice (s_off s + i) [v] (blk (mw m) (s_blk s))))) ->
  (~ (0 <= i < s_len s) -> P m) -> outcome (setW s i v) m Q P.
Proof.
  intros Hin HQ HP. destruct (idx_dec i (s_len s)) as [Hi|Hi].
  - apply oc_ok, wp_setW; [done| |done]. intros _. auto.
  - unfold setW. apply oc_bind, oc_check_idx; [done|auto].
Qed.

(** ** Encoders *)
(** encode.go:213-229: the highest byte is stored first, so nothing is stored
    unless everything fits. *)
Lemma oc_encodeOne num out m (Q : Z -> mem -> Prop) P : is_u32 num -> inb (mb m) out ->
  (Z.of_nat (nbytes num) <= s_len out ->
     Q (Z.of_nat (nbytes num)) (setb m (s_blk out) (splice (s_off out) (enc1 num) (blk (mb m) (s_blk out))))) ->
  (s_len out < Z.of_nat (nbytes num) -> P m) ->
  outcome (encodeOne num out) m Q P.
Proof.
  intros Hu Hin HQ HP. destruct (Z_lt_le_dec (s_len out) (Z.of_nat (nbytes num))) as [Hs|Hs].
  - unfold encodeOne. rewrite LeadingZeros32_size by done. cbv zeta. pose proof (nbytes_range num) as Hr.
    assert (T : forall i v (R : unit -> mem -> Prop), i = Z.of_nat (nbytes num) - 1 -> outcome (setB out i v) m R P).
    { intros i v R ->. apply oc_setB; [done|lia|auto]. }
    assert (Hn : nbytes num = 1%nat \/ nbytes num = 2%nat \/ nbytes num = 3%nat \/ nbytes num = 4%nat) by lia.
    apply oc_bind. destruct Hn as [Hn|[Hn|[Hn|Hn]]]; rewrite Hn in *; cbn [Z.of_nat Z.eqb];
      change (Z.of_nat 1) with 1 in *; change (Z.of_nat 2) with 2 in *; change (Z.of_nat 3) with 3 in *; change (Z.of_nat 4) with 4 in *;
      cbn [Z.eqb Pos.eqb]; first [apply T; lia | apply oc_bind, T; lia].
  - apply oc_ok, wp_encodeOne; [done|done|done|auto|lia].
Qed.
Lemma oc_enc_step {B} (D : list Z) x out t m (k : Z -> prog B) (Q : B -> mem -> Prop) P :
  is_u32 x -> inb (mb m) out -> t = zlen D -> zlen D <= s_len out ->
  (zlen D + Z.of_nat (nbytes x) <= s_len out ->
     outcome (k (Z.of_nat (nbytes x))) (bmem m out (D ++ enc1 x)) Q P) ->
  (s_len out < zlen D + Z.of_nat (nbytes x) -> P (bmem m out D)) ->
  outcome (let! o := slice_from out t in let! size := encodeOne x o in k size) (bmem m out D) Q P.
Proof.
  intros Hu Hin -> HD HQ HP. pose proof (zlen_nonneg D). assert (Hin' := Hin). destruct Hin as (Ho & Hl & Hc).
  assert (Hsl : length (splice (s_off out) D (blk (mb m) (s_blk out))) = length (blk (mb m) (s_blk out))) by (apply splice_length; lia).
  apply oc_bind, oc_slice_from; [|lia]. intros _. unfold bmem at 1.
  apply oc_bind, oc_encodeOne; cbn [s_blk s_off s_len s_cap]; [done| | |intros; apply HP; lia].
  - apply inb_setb; [done|]. repeat split; cbn [s_blk s_off s_len s_cap]; lia.
  - intros Hle. rewrite blk_setb by done. rewrite setb_setb. rewrite splice_app_l; [|done|rewrite zlen_enc1; lia].
    apply HQ. lia.
Qed.
Lemma oc_put4_tail xs out m (Q : Z -> mem -> Prop) P a b c d : xs = [a; b; c; d] ->
  Forall is_u32 xs -> inb (mb m) out ->
  (zlen (enc_data xs) <= s_len out -> Q (ctrl_of xs) (bmem m out (enc_data xs))) ->
  (forall k, (k < 4)%nat -> zlen (enc_data (take k xs)) <= s_len out < zlen (enc_data (take (S k) xs)) ->
     P (bmem m out (enc_data (take k xs)))) ->
  outcome (put4_tail a b c d out) m Q P.
Proof.
  intros -> Hu Hin HQ HP. assert (Hin' := Hin). destruct Hin as (Ho & Hl & Hc).
  destruct (Z_lt_le_dec (s_len out) (zlen (enc_data [a; b; c; d]))) as [Hs|Hs].
  2:{ apply oc_ok, wp_put4_tail; [done|done|done|auto|lia]. }
  apply Forall_cons_1 in Hu as [Ha Hu]. apply Forall_cons_1 in Hu as [Hb Hu].
  apply Forall_cons_1 in Hu as [Hc' Hu]. apply Forall_cons_1 in Hu as [Hd _].
  pose proof (HP 0%nat ltac:(lia)) as P0. pose proof (HP 1%nat ltac:(lia)) as P1.
  pose proof (HP 2%nat ltac:(lia)) as P2. pose proof (HP 3%nat ltac:(lia)) as P3. clear HP HQ.
  cbn [take enc_data] in *. rewrite ?app_nil_r in *. rewrite !zlen_app, !zlen_enc1 in *. rewrite !app_assoc in *. change (zlen (@nil Z)) with 0 in *.
  pose proof (nbytes_range a). pose proof (nbytes_range b). pose proof (nbytes_range c). pose proof (nbytes_range d).
  unfold put4_tail. assert (E0 : m = bmem m out []) by (unfold bmem; rewrite splice_nil; by rewrite setb_id).
  apply oc_bind, oc_encodeOne; [done|done| |intros; rewrite E0; apply P0; lia]. intros B1. fold (bmem m out (enc1 a)). ints.
  apply oc_enc_step; [done|done|by rewrite zlen_enc1|rewrite zlen_enc1; lia| |rewrite zlen_enc1; intros; apply P1; lia].
  rewrite zlen_enc1. intros B2. ints.
  apply oc_enc_step; [done|done|by rewrite zlen_app, !zlen_enc1|rewrite zlen_app, !zlen_enc1; lia| |rewrite zlen_app, !zlen_enc1; intros; apply P2; lia].
  rewrite zlen_app, !zlen_enc1. intros B3. ints.
  apply oc_enc_step; [done|done|by rewrite !zlen_app, !zlen_enc1|rewrite !zlen_app, !zlen_enc1; lia| |rewrite !zlen_app, !zlen_enc1; intros; apply P3; lia].
  rewrite !zlen_app, !zlen_enc1. intros B4. exfalso. lia.
Qed.

(** The memories an encoder of the numbers [ys] may leave when it panics: the
    encodings of the first [k] numbers, where number [k] does not fit. *)
Definition stuck_put (m : mem) (out : slice) (ys : list Z) (k : nat) : Prop :=
  (k < length ys)%nat /\ zlen (enc_data (take k ys)) <= s_len out < zlen (enc_data (take (S k) ys)).
Lemma oc_Put4uint32Scalar inp out m (Q : Z -> mem -> Prop) P :
  let xs := sub (s_off inp) 4 (blk (mw m) (s_blk inp)) in
  inb (mw m) inp -> inb (mb m) out -> Forall is_u32 (blk (mw m) (s_blk inp)) ->
  (4 <= s_len inp -> zlen (enc_data xs) <= s_len out -> Q (ctrl_of xs) (bmem m out (enc_data xs))) ->
  (s_len inp < 4 -> P m) ->
  (4 <= s_len inp -> forall k, stuck_put m out xs k -> P (bmem m out (enc_data (take k xs)))) ->
  outcome (Put4uint32Scalar inp out) m Q P.
Proof.
  intros xs Hi Ho Hu HQ HP1 HP2. unfold Put4uint32Scalar.
  apply oc_bind, oc_check_idx; [|intros; apply HP1; lia]. intros H4. assert (Hi' := Hi). destruct Hi as (? & ? & ?).
  do 4 (apply oc_bind, oc_getW; [done| |lia]; intros _).
  assert (Hxs : Forall is_u32 xs) by (by apply Forall_sub).
  subst xs. rewrite sub4 in * by lia.
  eapply (oc_put4_tail _ out m Q P); [reflexivity|done|done|intros; apply HQ; [lia|done]|].
  intros k Hk Hf. apply HP2; [lia|]. split; [cbn; lia|done].
Qed.
Lemma oc_Put4uint32DeltaScalar inp out prev m (Q : Z -> mem -> Prop) P :
  let xs := deltas prev (sub (s_off inp) 4 (blk (mw m) (s_blk inp))) in
  inb (mw m) inp -> inb (mb m) out ->
  (4 <= s_len inp -> zlen (enc_data xs) <= s_len out -> Q (ctrl_of xs) (bmem m out (enc_data xs))) ->
  (s_len inp < 4 -> P m) ->
  (4 <= s_len inp -> forall k, stuck_put m out xs k -> P (bmem m out (enc_data (take k xs)))) ->
  outcome (Put4uint32DeltaScalar inp out prev) m Q P.
Proof.
  intros xs Hi Ho HQ HP1 HP2. unfold Put4uint32DeltaScalar.
  apply oc_bind, oc_check_idx; [|intros; apply HP1; lia]. intros H4. assert (Hi' := Hi). destruct Hi as (? & ? & ?).
  do 7 (apply oc_bind, oc_getW; [done| |lia]; intros _).
  assert (Hxs : Forall is_u32 xs) by apply deltas_u32.
  subst xs. rewrite sub4 in * by lia. cbn [deltas] in *.
  eapply (oc_put4_tail _ out m Q P); [reflexivity|done|done|intros; apply HQ; [lia|done]|].
  intros k Hk Hf. apply HP2; [lia|]. split; [cbn; lia|done].
Qed.

(** Up to four numbers.  [i] numbers are stored when the next is missing or does not fit. *)
Lemma oc_PutUint32Scalar inp out count m (Q : Z -> mem -> Prop) P :
  let n := clip count in
  let W := blk (mw m) (s_blk inp) in
  let xs i := sub (s_off inp) i W in
  inb (mw m) inp -> inb (mb m) out -> Forall is_u32 W ->
  (n <= s_len inp -> zlen (enc_data (xs n)) <= s_len out -> Q (ctrl_of (xs n)) (bmem m out (enc_data (xs n)))) ->
  (forall i, 0 <= i < n -> i <= s_len inp -> zlen (enc_data (xs i)) <= s_len out ->
     s_len inp = i \/ s_len out < zlen (enc_data (xs (i + 1))) -> P (bmem m out (enc_data (xs i)))) ->
  outcome (PutUint32Scalar inp out count) m Q P.
Proof.
  intros n W xs Hi Ho Hu HQ Hp.
  assert (Hi' := Hi). destruct Hi as (Hi1 & Hi2 & Hi3).
  assert (Ho' := Ho). destruct Ho as (Ho1 & Ho2 & Ho3).
  assert (E0 : bmem m out [] = m) by (unfold bmem; rewrite splice_nil; by rewrite setb_id).
  unfold PutUint32Scalar.
  destruct (Z.eqb_spec count 0) as [->|Hc0].
  { apply oc_ret. change (ctrl_of (xs n)) with 0 in HQ. change (enc_data (xs n)) with (@nil Z) in HQ.
    rewrite E0 in HQ. apply HQ; [change n with 0; lia|change (zlen []) with 0; lia]. }
  set (cnt := if 4 <? count then 4 else count).
  assert (Hn : n = Z.max 0 cnt) by (subst n cnt; unfold clip; destruct (Z.ltb_spec 4 count); lia).
  assert (Hn4 : 0 <= n <= 4) by (subst n; unfold clip; lia).
  apply oc_bind.
  apply (oc_while (fun '(i, ctrl, shift, total) m' =>
      0 <= i <= n /\ i <= s_len inp /\ shift = 2 * i /\
      ctrl = ctrl_of (xs i) /\ total = zlen (enc_data (xs i)) /\ total <= s_len out /\
      m' = bmem m out (enc_data (xs i)))
    (fun '(i, _, _, _) => n - i)).
  - unfold xs. rewrite !sub_0. cbn [enc_data ctrl_of]. change (zlen (@nil Z)) with 0. repeat split; lia || done.
  - lia.
  - lia.
  - intros [[[i ctrl] shift] total] m' (Hin & Hil & -> & -> & -> & Htot & ->) Hcond _.
    apply Z.ltb_lt in Hcond. assert (i < n) by lia.
    assert (HD4 : zlen (xs i) <= i) by (apply sub_zlen_le; lia). pose proof (enc_data_zlen_bounds (xs i)).
    apply oc_bind, oc_getW; [done| |intros; apply Hp; lia].
    intros Hii. change (mw (bmem m out ?D)) with (mw m). fold W.
    set (x := at_ W (s_off inp + i)).
    assert (Hx : xs (i + 1) = xs i ++ [x]) by (apply sub_snoc; subst W; lia).
    pose proof (nbytes_range x).
    assert (HzD : zlen (xs i) = i) by (apply sub_zlen; subst W; lia).
    assert (Hz1 : zlen (enc_data (xs (i + 1))) = zlen (enc_data (xs i)) + Z.of_nat (nbytes x)) by (rewrite Hx, zlen_enc_data_app, zlen_enc_data_one; done).
    apply oc_enc_step; [|done|done|done| |intros; apply Hp; lia].
    { assert (HF : Forall is_u32 (xs i ++ [x])) by (rewrite <- Hx; by apply Forall_sub).
      apply Forall_app in HF as [_ HF]. by apply Forall_cons_1 in HF as [? _]. }
    intros Hfit. ints. apply oc_ret. split; [|lia].
    split; [lia|]. split; [lia|]. split; [lia|]. rewrite Hx.
    split; [replace (2 * i) with (2 * zlen (xs i)) by lia; apply ctrl_step; unfold zlen in HzD; lia|].
    rewrite <- Hx. split; [done|]. split; [lia|]. rewrite Hx, enc_data_app, enc_data_one. done.
  - intros [[[i ctrl] shift] total] m' (Hin & Hil & -> & -> & -> & Htot & ->) Hcond.
    apply Z.ltb_ge in Hcond. assert (i = n) as -> by lia. apply oc_ret. apply HQ; [lia|done].
Qed.
Lemma oc_PutUint32DeltaScalar inp out count prev m (Q : Z -> mem -> Prop) P :
  let n := clip count in
  let W := blk (mw m) (s_blk inp) in
  let xs i := deltas prev (sub (s_off inp) i W) in
  inb (mw m) inp -> inb (mb m) out ->
  (n <= s_len inp -> zlen (enc_data (xs n)) <= s_len out -> Q (ctrl_of (xs n)) (bmem m out (enc_data (xs n)))) ->
  (forall i, 0 <= i < n -> i <= s_len inp -> zlen (enc_data (xs i)) <= s_len out ->
     s_len inp = i \/ s_len out < zlen (enc_data (xs (i + 1))) -> P (bmem m out (enc_data (xs i)))) ->
  outcome (PutUint32DeltaScalar inp out count prev) m Q P.
Proof.
  intros n W xs Hi Ho HQ Hp.
  assert (Hi' := Hi). destruct Hi as (Hi1 & Hi2 & Hi3).
  assert (Ho' := Ho). destruct Ho as (Ho1 & Ho2 & Ho3).
  assert (E0 : bmem m out [] = m) by (unfold bmem; rewrite splice_nil; by rewrite setb_id).
  unfold PutUint32DeltaScalar.
  destruct (Z.eqb_spec count 0) as [->|Hc0].
  { apply oc_ret. change (ctrl_of (xs n)) with 0 in HQ. change (enc_data (xs n)) with (@nil Z) in HQ.
    rewrite E0 in HQ. apply HQ; [change n with 0; lia|change (zlen []) with 0; lia]. }
  set (cnt := if 4 <? count then 4 else count).
  assert (Hn : n = Z.max 0 cnt) by (subst n cnt; unfold clip; destruct (Z.ltb_spec 4 count); lia).
  assert (Hn4 : 0 <= n <= 4) by (subst n; unfold clip; lia).
  apply oc_bind.
  apply (oc_while (fun '(i, ctrl, shift, total, pv) m' =>
      0 <= i <= n /\ i <= s_len inp /\ shift = 2 * i /\
      ctrl = ctrl_of (xs i) /\ total = zlen (enc_data (xs i)) /\ total <= s_len out /\
      pv = default prev (last (sub (s_off inp) i W)) /\
      m' = bmem m out (enc_data (xs i)))
    (fun '(i, _, _, _, _) => n - i)).
  - unfold xs. rewrite !sub_0. cbn [enc_data ctrl_of deltas]. change (zlen (@nil Z)) with 0. repeat split; lia || done.
  - lia.
  - lia.
  - intros [[[[i ctrl] shift] total] pv] m' (Hin & Hil & -> & -> & -> & Htot & -> & ->) Hcond _.
    apply Z.ltb_lt in Hcond. assert (i < n) by lia. 
    assert (HD4 : zlen (xs i) <= i) by (unfold xs, zlen; rewrite deltas_length; apply sub_zlen_le; lia).
    pose proof (enc_data_zlen_bounds (xs i)).
    apply oc_bind, oc_getW; [done| |intros; apply Hp; lia].
    intros Hii. change (mw (bmem m out ?D)) with (mw m). fold W.
    set (x := at_ W (s_off inp + i)).
    set (d := u32 (x - default prev (last (sub (s_off inp) i W)))).
    assert (HzD : zlen (xs i) = i). { unfold xs, zlen. rewrite deltas_length. apply sub_zlen; subst W; lia. }
    assert (Hx' : sub (s_off inp) (i + 1) W = sub (s_off inp) i W ++ [x]) by (apply sub_snoc; subst W; lia).
    assert (Hx : xs (i + 1) = xs i ++ [d]) by (unfold xs; rewrite Hx'; apply deltas_snoc).
    pose proof (nbytes_range d).
    assert (Hz1 : zlen (enc_data (xs (i + 1))) = zlen (enc_data (xs i)) + Z.of_nat (nbytes d)) by (rewrite Hx, zlen_enc_data_app, zlen_enc_data_one; done).
    apply oc_enc_step; [|done|done|done| |intros; apply Hp; lia].
    { unfold d, u32, is_u32. apply Z.mod_pos_bound. lia. }
    intros Hfit. ints.
    apply oc_bind, oc_getW; [done| |lia]. intros _.
    change (mw (bmem m out ?D)) with (mw m). fold W. fold x.
    apply oc_ret. split; [|lia].
    split; [lia|]. split; [lia|]. split; [lia|]. rewrite Hx.
    split; [replace (2 * i) with (2 * zlen (xs i)) by lia; apply ctrl_step; unfold zlen in HzD; lia|].
    rewrite <- Hx. split; [done|]. split; [lia|]. split; [by rewrite Hx', last_snoc|]. rewrite Hx, enc_data_app, enc_data_one. done.
  - intros [[[[i ctrl] shift] total] pv] m' (Hin & Hil & -> & -> & -> & Htot & -> & ->) Hcond.
    apply Z.ltb_ge in Hcond. assert (i = n) as -> by lia. apply oc_ret. apply HQ; [lia|done].
Qed.

(** ** Decoders *)
Lemma oc_dec_step {B} inp t size m (k : Z -> prog B) (Q : B -> mem -> Prop) P :
  1 <= size <= 4 -> 0 <= t -> inb (mb m) inp -> Forall is_byte (blk (mb m) (s_blk inp)) ->
  (t + size <= s_len inp -> outcome (k (le_val (sub (s_off inp + t) size (blk (mb m) (s_blk inp))))) m Q P) ->
  (s_len inp < t + size -> P m) ->
  outcome (let! i := slice_from inp t in let! v := decodeOne i size in k v) m Q P.
Proof.
  intros Hs Ht Hin Hb HQ Hp. destruct Hin as (Ho & Hl & Hc).
  apply oc_bind, oc_slice_from; [|intros; apply Hp; lia]. intros Ht'.
  apply oc_bind, (oc_reads _ _ (s_len inp < t + size)); [done|].
  apply wp_decodeOne; cbn [s_blk s_off s_len s_cap]; [done| |done| |lia].
  - repeat split; cbn [s_blk s_off s_len s_cap]; lia.
  - intros. split; [done|]. apply HQ. lia.
Qed.
(** decode.go:63-75: the last number is decoded and stored first, so nothing is stored
    unless everything is there. *)
Lemma oc_Get4uint32Scalar inp out c m (Q : unit -> mem -> Prop) P :
  let sz := Z.of_nat (sum_nat (ctrl_lens c)) in
  is_byte c -> inb (mb m) inp -> inb (mw m) out -> Forall is_byte (blk (mb m) (s_blk inp)) ->
  (sz <= s_len inp -> 4 <= s_len out ->
    Q tt (rmem m out (nums4 c (drop (Z.to_nat (s_off inp)) (blk (mb m) (s_blk inp)))))) ->
  (s_len inp < sz \/ s_len out < 4 -> P m) ->
  outcome (Get4uint32Scalar inp out c) m Q P.
Proof.
  intros sz Hc Hi Ho Hb HQ Hp.
  assert (D : (sz <= s_len inp /\ 4 <= s_len out) \/ (s_len inp < sz \/ s_len out < 4)) by lia.
  destruct D as [[D1 D2]|D].
  { apply oc_ok, wp_Get4uint32Scalar; [done|done|done|done|done|done|auto|lia]. }
  specialize (Hp D). unfold Get4uint32Scalar. rewrite !perNumLen_lens by (done || lia).
  destruct (ctrl_lens4 c) as (l0 & l1 & l2 & l3 & E & R0 & R1 & R2 & R3).
  subst sz. rewrite E in *. cbn [sum_nat fold_right nth] in *.
  rewrite !(u8_small (Z.of_nat l0 + Z.of_nat l1)) by lia. rewrite !(u8_small (Z.of_nat l0 + Z.of_nat l1 + Z.of_nat l2)) by lia.
  apply oc_dec_step; [lia|lia|done|done| |done]. intros G.
  apply oc_bind, oc_setW; [done| |done]. lia.
Qed.

(** decode.go:160-174: numbers are decoded and stored in order. *)
Lemma oc_Get4uint32DeltaScalar inp out c prev m (Q : unit -> mem -> Prop) P :
  let sz := Z.of_nat (sum_nat (ctrl_lens c)) in
  let D := drop (Z.to_nat (s_off inp)) (blk (mb m) (s_blk inp)) in
  is_byte c -> inb (mb m) inp -> inb (mw m) out -> Forall is_byte (blk (mb m) (s_blk inp)) ->
  (sz <= s_len inp -> 4 <= s_len out -> Q tt (rmem m out (running_sums prev (nums4 c D)))) ->
  (s_len out < 4 -> P m) ->
  (4 <= s_len out -> forall k, (k < 4)%nat -> sizek c k <= s_len inp < sizek c (S k) ->
     P (rmem m out (running_sums prev (numsk c k D)))) ->
  outcome (Get4uint32DeltaScalar inp out c prev) m Q P.
Proof.
  intros sz D Hc Hi Ho Hb HQ Hp1 Hp2.
  destruct (Z_lt_le_dec (s_len out) 4) as [H4|H4].
  { unfold Get4uint32DeltaScalar. cbv zeta. apply oc_bind, oc_check_idx; [lia|auto]. }
  destruct (Z_lt_le_dec (s_len inp) sz) as [Hsz|Hsz].
  2:{ apply oc_ok, wp_Get4uint32DeltaScalar; [done|done|done|done|done|done|auto|lia]. }
  specialize (Hp2 H4). clear HQ Hp1.
  assert (Hi' := Hi). destruct Hi as (Hi1 & Hi2 & Hi3). assert (Ho' := Ho). destruct Ho as (Ho1 & Ho2 & Ho3).
  set (L := blk (mb m) (s_blk inp)) in *.
  pose proof (fun k H => numsk_S c k (s_off inp) L H Hi1) as HN. fold D in HN.
  pose proof (HN 0%nat ltac:(lia)) as N1. pose proof (HN 1%nat ltac:(lia)) as N2. pose proof (HN 2%nat ltac:(lia)) as N3. clear HN.
  pose proof (sizek_S c 0 ltac:(lia)) as S1. pose proof (sizek_S c 1 ltac:(lia)) as S2. pose proof (sizek_S c 2 ltac:(lia)) as S3. pose proof (sizek_S c 3 ltac:(lia)) as S4.
  pose proof (nth_ctrl_lens c 0 ltac:(lia)). pose proof (nth_ctrl_lens c 1 ltac:(lia)). pose proof (nth_ctrl_lens c 2 ltac:(lia)). pose proof (nth_ctrl_lens c 3 ltac:(lia)).
  change (sizek c 0) with 0 in *. change (numsk c 0 D) with (@nil Z) in *.
  unfold sz in Hsz. rewrite <- sizek_4 in Hsz.
  pose proof (Hp2 0%nat ltac:(lia)) as P0. pose proof (Hp2 1%nat ltac:(lia)) as P1. pose proof (Hp2 2%nat ltac:(lia)) as P2. pose proof (Hp2 3%nat ltac:(lia)) as P3. clear Hp2.
  change (numsk c 0 D) with (@nil Z) in *. rewrite Z.add_0_r in N1. change (sizek c 0) with 0 in *.
  cbn [running_sums] in P0. rewrite rmem_nil in P0.
  unfold Get4uint32DeltaScalar. rewrite !perNumLen_lens by (done || lia).
  set (l0 := Z.of_nat (nth 0 (ctrl_lens c) 0%nat)) in *. set (l1 := Z.of_nat (nth 1 (ctrl_lens c) 0%nat)) in *.
  set (l2 := Z.of_nat (nth 2 (ctrl_lens c) 0%nat)) in *. set (l3 := Z.of_nat (nth 3 (ctrl_lens c) 0%nat)) in *.
  rewrite !(u8_small (l0 + l1)) by lia. rewrite !(u8_small (l0 + l1 + l2)) by lia.
  apply oc_bind, oc_check_idx; [|lia]. intros _.
  apply oc_bind, (oc_reads _ _ (s_len inp < l0)); [intros; apply P0; lia|].
  apply wp_decodeOne; [done|done|done| |done]. intros G1. split; [done|]. fold L.
  set (v0 := le_val (sub (s_off inp) l0 L)) in *.
  (* one step: after the numbers R, store the next sum *)
  assert (STORE : forall (R : list Z) v p i (k : prog unit), zlen R = i -> 0 <= i < 4 -> p = default prev (last (running_sums prev R)) ->
     outcome k (rmem m out (running_sums prev (R ++ [v]))) Q P ->
     outcome (setW out i (u32 (v + p)) ;;; k) (rmem m out (running_sums prev R)) Q P).
  { intros R v p i k HR Hi4 Hp Hk. assert (HRs : zlen (running_sums prev R) = i) by (rewrite zlen_running_sums; done).
    destruct (rmem_blk m out (running_sums prev R) Ho' ltac:(lia)) as [B1 B2].
    apply oc_bind, oc_setW; [apply rmem_inb; [done|lia|done]| |lia]. intros _.
    rewrite B1. unfold rmem at 1. rewrite setw_setw. rewrite <- HRs at 1. rewrite splice_app_l; [|lia|rewrite zlen_cons, zlen_nil; lia].
    rewrite rs_snoc in Hk. rewrite <- Hp in Hk. unfold u32. rewrite (Z.add_comm v p). exact Hk. }
  (* reading back the last sum *)
  assert (BACK : forall (R : list Z) v i (k : Z -> prog unit), zlen R = i -> 0 <= i < 4 ->
     outcome (k (default prev (last (running_sums prev (R ++ [v]))))) (rmem m out (running_sums prev (R ++ [v]))) Q P ->
     outcome (let! x := getW out i in k x) (rmem m out (running_sums prev (R ++ [v]))) Q P).
  { intros R v i k HR Hi4 Hk. assert (HRs : zlen (running_sums prev (R ++ [v])) = i + 1) by (rewrite zlen_running_sums, zlen_app, zlen_cons, zlen_nil; lia).
    destruct (rmem_blk m out (running_sums prev (R ++ [v])) Ho' ltac:(lia)) as [B1 B2].
    apply oc_bind, oc_getW; [apply rmem_inb; [done|lia|done]| |lia]. intros _.
    rewrite B1, at_splice by lia. rewrite last_at in Hk by (intros E; rewrite E in HRs; unfold zlen in HRs; cbn in HRs; lia).
    rewrite HRs in Hk. replace (s_off out + i - s_off out) with (i + 1 - 1) by lia. exact Hk. }
  assert (Zk : forall k, (k <= 4)%nat -> zlen (numsk c k D) = Z.of_nat k) by (intros; by apply numsk_length).
  rewrite <- (rmem_nil m out) at 1. change (@nil Z) with (running_sums prev []) at 1.
  apply STORE; [done|lia|done|]. cbn [app]. 
  change [v0] with ([] ++ [v0]). rewrite <- N1.
  apply oc_dec_step; [lia|lia|done|done| |intros; apply P1; lia]. intros G2.
  change (mb (rmem m out ?r)) with (mb m). fold L. set (v1 := le_val (sub (s_off inp + l0) l1 L)) in *.
  rewrite N1 at 1. apply BACK; [done|lia|]. rewrite <- N1.
  replace (sizek c 1) with l0 in N2 by lia. 
  apply STORE; [by apply Zk; lia|lia|done|]. fold v1 in N2. rewrite <- N2.
  apply oc_dec_step; [lia|lia|done|done| |intros; apply P2; lia]. intros G3.
  change (mb (rmem m out ?r)) with (mb m). fold L. set (v2 := le_val (sub (s_off inp + (l0 + l1)) l2 L)) in *.
  rewrite N2 at 1. apply BACK; [by apply Zk; lia|lia|]. rewrite <- N2.
  replace (sizek c 2) with (l0 + l1) in N3 by lia.
  apply STORE; [by apply Zk; lia|lia|done|]. fold v2 in N3. rewrite <- N3.
  apply oc_dec_step; [lia|lia|done|done| |intros; apply P3; lia]. intros G4. exfalso. lia.
Qed.
