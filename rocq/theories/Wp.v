(** * Weakest preconditions for [prog], list splicing, primitive rules *)
From stdpp Require Import prelude gmap list.
From Coq Require Import ZArith Lia.
From Verif Require Import Spec GoSem Shared Asm.
Local Open Scope Z_scope.

Definition zlen {A} (l : list A) : Z := Z.of_nat (length l).

(** Contents of a block; a missing block is empty. *)
Definition blk (h : gmap nat (list Z)) (b : nat) : list Z := default [] (h !! b).
(** Replace the contents of an existing block. *)
Definition put (h : gmap nat (list Z)) (b : nat) (l : list Z) : gmap nat (list Z) :=
  match h !! b with Some _ => <[b := l]> h | None => h end.

Lemma blk_put_eq h b l : length l = length (blk h b) -> blk (put h b l) b = l.
Proof.
  unfold blk, put. destruct (h !! b) eqn:E; intros Hl.
  - rewrite lookup_insert. done.
  - rewrite E. simpl in *. by destruct l.
Qed.
Lemma blk_put_ne h b b' l : b <> b' -> blk (put h b l) b' = blk h b'.
Proof.
  intros. unfold blk, put. destruct (h !! b) eqn:E; [rewrite lookup_insert_ne; done | done].
Qed.
Lemma lookup_put_ne h b b' l : b <> b' -> put h b l !! b' = h !! b'.
Proof. intros. unfold put. destruct (h !! b) eqn:E; [rewrite lookup_insert_ne; done | done]. Qed.
Lemma put_put h b l l' : put (put h b l) b l' = put h b l'.
Proof.
  unfold put. destruct (h !! b) eqn:E.
  - rewrite lookup_insert, insert_insert. done.
  - by rewrite E.
Qed.
Lemma put_id h b : put h b (blk h b) = h.
Proof.
  unfold put, blk. destruct (h !! b) eqn:E; [|done]. simpl. by apply insert_id.
Qed.
Lemma put_comm h b b' l l' : b <> b' -> put (put h b l) b' l' = put (put h b' l') b l.
Proof.
  intros. unfold put. destruct (h !! b) eqn:E, (h !! b') eqn:E';
  rewrite ?lookup_insert_ne, ?E, ?E' by done; try done.
  by rewrite insert_commute by done.
Qed.

(** ** Splicing *)
Definition splice (p : Z) (bs l : list Z) : list Z :=
  take (Z.to_nat p) l ++ bs ++ drop (Z.to_nat p + length bs) l.

Lemma splice_lookup p bs l j : 0 <= p -> p + zlen bs <= zlen l ->
  splice p bs l !! j =
  (if decide (Z.of_nat j < p) then l !! j
   else if decide (Z.of_nat j < p + zlen bs) then bs !! (j - Z.to_nat p)%nat else l !! j).
Proof.
  unfold zlen, splice. intros Hp Hl.
  destruct (decide (Z.of_nat j < p)).
  - rewrite lookup_app_l by (rewrite take_length; lia). apply lookup_take. lia.
  - rewrite lookup_app_r by (rewrite take_length; lia).
    rewrite take_length. replace (Nat.min (Z.to_nat p) (length l)) with (Z.to_nat p) by lia.
    destruct (decide (Z.of_nat j < p + Z.of_nat (length bs))).
    + by rewrite lookup_app_l by lia.
    + rewrite lookup_app_r by lia. rewrite lookup_drop. f_equal. lia.
Qed.
Lemma splice_length p bs l : 0 <= p -> p + zlen bs <= zlen l -> length (splice p bs l) = length l.
Proof.
  unfold zlen, splice. intros. rewrite !app_length, take_length, drop_length. lia.
Qed.
Lemma splice_zlen p bs l : 0 <= p -> p + zlen bs <= zlen l -> zlen (splice p bs l) = zlen l.
Proof. intros. unfold zlen at 1. by rewrite splice_length. Qed.
Lemma splice_nil p l : splice p [] l = l.
Proof. unfold splice. simpl. rewrite Nat.add_0_r. apply take_drop. Qed.
Lemma zlen_app {A} (a b : list A) : zlen (a ++ b) = zlen a + zlen b.
Proof. unfold zlen. rewrite app_length. lia. Qed.
Lemma zlen_cons {A} (a : A) b : zlen (a :: b) = 1 + zlen b.
Proof. unfold zlen. cbn [length]. lia. Qed.
Lemma zlen_nil {A} : zlen (@nil A) = 0.
Proof. done. Qed.
Lemma zlen_nonneg {A} (l : list A) : 0 <= zlen l.
Proof. unfold zlen. lia. Qed.
Lemma zlen_replicate {A} n (x : A) : zlen (replicate n x) = Z.of_nat n.
Proof. unfold zlen. by rewrite replicate_length. Qed.
Lemma zlen_take {A} n (l : list A) : 0 <= n <= zlen l -> zlen (take (Z.to_nat n) l) = n.
Proof. unfold zlen. rewrite take_length. lia. Qed.
Lemma zlen_drop {A} n (l : list A) : 0 <= n <= zlen l -> zlen (drop (Z.to_nat n) l) = zlen l - n.
Proof. unfold zlen. rewrite drop_length. lia. Qed.

Lemma splice_app_r p a b l : 0 <= p -> p + zlen a + zlen b <= zlen l ->
  splice p a (splice (p + zlen a) b l) = splice p (a ++ b) l.
Proof.
  intros. pose proof (zlen_nonneg a). pose proof (zlen_nonneg b).
  apply list_eq. intros j.
  rewrite !splice_lookup by (rewrite ?splice_zlen, ?zlen_app; lia).
  rewrite zlen_app. repeat case_decide; try lia; try done.
  - rewrite lookup_app_l by (unfold zlen in *; lia). done.
  - rewrite lookup_app_r by (unfold zlen in *; lia). f_equal. unfold zlen in *; lia.
Qed.
Lemma splice_app_l p a b l : 0 <= p -> p + zlen a + zlen b <= zlen l ->
  splice (p + zlen a) b (splice p a l) = splice p (a ++ b) l.
Proof.
  intros. pose proof (zlen_nonneg a). pose proof (zlen_nonneg b).
  apply list_eq. intros j.
  rewrite !splice_lookup by (rewrite ?splice_zlen, ?zlen_app; lia).
  rewrite zlen_app. repeat case_decide; try lia; try done.
  - rewrite lookup_app_l by (unfold zlen in *; lia). done.
  - rewrite lookup_app_r by (unfold zlen in *; lia). f_equal. unfold zlen in *; lia.
Qed.
Lemma splice_comm p q a b l : 0 <= p -> p + zlen a <= q -> q + zlen b <= zlen l ->
  splice p a (splice q b l) = splice q b (splice p a l).
Proof.
  intros. pose proof (zlen_nonneg a). pose proof (zlen_nonneg b).
  apply list_eq. intros j.
  rewrite !splice_lookup by (rewrite ?splice_zlen; lia).
  repeat case_decide; try lia; done.
Qed.
(** A later, longer splice at the same place wins. *)
Lemma splice_over p a b l : 0 <= p -> zlen a <= zlen b -> p + zlen b <= zlen l ->
  splice p b (splice p a l) = splice p b l.
Proof.
  intros. pose proof (zlen_nonneg a).
  apply list_eq. intros j.
  rewrite !splice_lookup by (rewrite ?splice_zlen; lia).
  repeat case_decide; try lia; done.
Qed.
Lemma splice_insert i v l : 0 <= i < zlen l -> <[Z.to_nat i := v]> l = splice i [v] l.
Proof.
  intros. apply list_eq. intros j. rewrite splice_lookup by (rewrite ?zlen_cons, ?zlen_nil; lia).
  rewrite zlen_cons, zlen_nil.
  repeat case_decide.
  - apply list_lookup_insert_ne. lia.
  - replace j with (Z.to_nat i) by lia. rewrite list_lookup_insert by (unfold zlen in *; lia).
    by rewrite Nat.sub_diag.
  - apply list_lookup_insert_ne. lia.
Qed.
Lemma splice_take_drop p bs l : 0 <= p -> p + zlen bs <= zlen l ->
  take (length bs) (drop (Z.to_nat p) (splice p bs l)) = bs.
Proof.
  intros. unfold splice, zlen in *.
  rewrite drop_app_ge by (rewrite take_length; lia).
  rewrite take_length. replace (Z.to_nat p - _)%nat with 0%nat by lia.
  rewrite drop_0. by rewrite take_app.
Qed.

(** ** Sub-list view: [sub p n l] = the [n] elements of [l] from position [p]. *)
Definition sub (p n : Z) (l : list Z) : list Z := take (Z.to_nat n) (drop (Z.to_nat p) l).
Lemma sub_zlen p n l : 0 <= p -> 0 <= n -> p + n <= zlen l -> zlen (sub p n l) = n.
Proof. unfold zlen, sub. intros. rewrite take_length, drop_length. lia. Qed.
Lemma sub_lookup p n l j : 0 <= p -> 0 <= n -> Z.of_nat j < n ->
  sub p n l !! j = l !! (Z.to_nat p + j)%nat.
Proof. intros. unfold sub. rewrite lookup_take by lia. by rewrite lookup_drop. Qed.
Lemma sub_app p n k l : 0 <= p -> 0 <= n -> 0 <= k -> sub p (n + k) l = sub p n l ++ sub (p + n) k l.
Proof.
  intros. unfold sub. rewrite Z2Nat.inj_add by lia. rewrite <- take_take_drop.
  rewrite drop_drop. do 3 f_equal. lia.
Qed.
Lemma sub_splice_out p n q bs l : 0 <= p -> 0 <= n -> 0 <= q -> p + n <= zlen l -> q + zlen bs <= zlen l ->
  p + n <= q \/ q + zlen bs <= p -> sub p n (splice q bs l) = sub p n l.
Proof.
  intros. apply list_eq. intros j.
  destruct (decide (Z.of_nat j < n)).
  - rewrite !sub_lookup by lia. rewrite splice_lookup by lia.
    repeat case_decide; try done; lia.
  - rewrite !lookup_ge_None_2; [done | |]; unfold sub; rewrite take_length; lia.
Qed.
Lemma sub_splice_in p bs l : 0 <= p -> p + zlen bs <= zlen l -> sub p (zlen bs) (splice p bs l) = bs.
Proof. intros. unfold sub. unfold zlen at 1. rewrite Nat2Z.id. by apply splice_take_drop. Qed.

(** Element of a list at a Z position. *)
Definition at_ (l : list Z) (i : Z) : Z := nth (Z.to_nat i) l 0.
Lemma lookup_at l i : 0 <= i < zlen l -> l !! Z.to_nat i = Some (at_ l i).
Proof.
  intros. unfold at_. rewrite nth_lookup.
  destruct (lookup_lt_is_Some_2 l (Z.to_nat i)) as [x Hx]; [unfold zlen in *; lia|].
  by rewrite Hx.
Qed.

(** ** Weakest precondition.
    [wp F pn p m Q]: every access of [p] satisfies [F]; [p] does not fault and does
    not diverge; if it returns, [Q] holds of the value and final memory; if it
    panics, [pn] holds. *)
Fixpoint wp {A} (F : event -> Prop) (pn : Prop) (p : prog A) (m : mem) (Q : A -> mem -> Prop) : Prop :=
  match p with
  | Ret a => Q a m
  | GoPanic => pn
  | Fault => False
  | BadInstr => False
  | Diverge => False
  | ReadB b i k => F (ERdB b i) /\ exists v, hget (mb m) b i = Some v /\ wp F pn (k v) m Q
  | WriteB b i v k => F (EWrB b i) /\ exists h, hput (mb m) b i v = Some h /\ wp F pn k (Mem h (mw m)) Q
  | ReadW b i k => F (ERdW b i) /\ exists v, hget (mw m) b i = Some v /\ wp F pn (k v) m Q
  | WriteW b i v k => F (EWrW b i) /\ exists h, hput (mw m) b i v = Some h /\ wp F pn k (Mem (mb m) h) Q
  | AllocB b n k => F (EAlB b) /\ mb m !! b = None /\
      wp F pn k (Mem (<[b := replicate (Z.to_nat n) 0]> (mb m)) (mw m)) Q
  end.

Theorem wp_run {A} F pn (p : prog A) m Q :
  wp F pn p m Q ->
  Forall F (trace (run p m)) /\
  match result (run p m) with
  | Ok a => Q a (final (run p m))
  | Panicked => pn
  | _ => False
  end.
Proof.
  revert m. induction p as [a| | | | |b i k IH|b i v k IH|b i k IH|b i v k IH|b n k IH]; intros m Hw;
    cbn in *; try (split; [constructor|done]); try done.
  - destruct Hw as (HF & v & Hv & Hw). rewrite Hv. specialize (IH v m Hw).
    destruct (run (k v) m) as [[r m'] t]. cbn in *. destruct IH. split; [by constructor|done].
  - destruct Hw as (HF & h & Hv & Hw). rewrite Hv. specialize (IH _ Hw).
    destruct (run k _) as [[r m'] t]. cbn in *. destruct IH. split; [by constructor|done].
  - destruct Hw as (HF & v & Hv & Hw). rewrite Hv. specialize (IH v m Hw).
    destruct (run (k v) m) as [[r m'] t]. cbn in *. destruct IH. split; [by constructor|done].
  - destruct Hw as (HF & h & Hv & Hw). rewrite Hv. specialize (IH _ Hw).
    destruct (run k _) as [[r m'] t]. cbn in *. destruct IH. split; [by constructor|done].
  - destruct Hw as (HF & Hv & Hw). rewrite Hv. specialize (IH _ Hw).
    destruct (run k _) as [[r m'] t]. cbn in *. destruct IH. split; [by constructor|done].
Qed.

Lemma wp_mono {A} (F F' : event -> Prop) (pn pn' : Prop) (p : prog A) m (Q Q' : A -> mem -> Prop) :
  (forall e, F e -> F' e) -> (pn -> pn') -> (forall a m', Q a m' -> Q' a m') ->
  wp F pn p m Q -> wp F' pn' p m Q'.
Proof.
  intros HF Hp HQ. revert m.
  induction p as [a| | | | |b i k IH|b i v k IH|b i k IH|b i v k IH|b n k IH]; intros m Hw; cbn in *; auto.
  - destruct Hw as (? & v & ? & ?). split; [auto|]. exists v. auto.
  - destruct Hw as (? & v' & ? & ?). split; [auto|]. exists v'. auto.
  - destruct Hw as (? & v & ? & ?). split; [auto|]. exists v. auto.
  - destruct Hw as (? & v' & ? & ?). split; [auto|]. exists v'. auto.
  - destruct Hw as (? & ? & ?). auto.
Qed.

Lemma wp_bind {A B} F pn (p : prog A) (f : A -> prog B) m Q :
  wp F pn p m (fun a m' => wp F pn (f a) m' Q) -> wp F pn (bind p f) m Q.
Proof.
  revert m. induction p as [a| | | | |b i k IH|b i v k IH|b i k IH|b i v k IH|b n k IH]; intros m Hw; cbn in *; auto.
  - destruct Hw as (? & v & ? & ?). split; [auto|]. exists v. auto.
  - destruct Hw as (? & v' & ? & ?). split; [auto|]. exists v'. auto.
  - destruct Hw as (? & v & ? & ?). split; [auto|]. exists v. auto.
  - destruct Hw as (? & v' & ? & ?). split; [auto|]. exists v'. auto.
  - destruct Hw as (? & ? & ?). auto.
Qed.

Lemma wp_while {S} F pn (I : S -> mem -> Prop) (meas : S -> Z) (cond : S -> bool) body fuel s m (Q : S -> mem -> Prop) :
  I s m -> (0 <= meas s) -> (meas s < Z.of_nat fuel) ->
  (forall s m, I s m -> cond s = true -> 0 <= meas s ->
     wp F pn (body s) m (fun s' m' => I s' m' /\ 0 <= meas s' < meas s)) ->
  (forall s m, I s m -> cond s = false -> Q s m) ->
  wp F pn (while fuel cond body s) m Q.
Proof.
  intros HI H0 Hm Hb HQ. revert s m HI H0 Hm.
  induction fuel as [|n IH]; intros s m HI H0 Hm; [lia|].
  cbn. destruct (cond s) eqn:E; [|cbn; auto].
  apply wp_bind. eapply wp_mono; [| | |apply Hb; auto]; auto.
  intros a m' (HI' & Hm'). apply IH; auto; lia.
Qed.

(** ** Primitive rules *)
Implicit Types (F : event -> Prop) (pn : Prop).
Lemma hget_blk h b i : 0 <= i < zlen (blk h b) -> hget h b i = Some (at_ (blk h b) i).
Proof.
  intros H. unfold hget. rewrite (proj2 (Z.leb_le 0 i)) by lia.
  unfold blk in *. destruct (h !! b); simpl in *.
  - by apply lookup_at.
  - unfold zlen in H. cbn in H. lia.
Qed.
Lemma hput_blk h b i v : 0 <= i < zlen (blk h b) -> hput h b i v = Some (put h b (splice i [v] (blk h b))).
Proof.
  intros H. unfold hput, put. rewrite (proj2 (Z.leb_le 0 i)) by lia.
  unfold blk in *. destruct (h !! b) as [l|]; simpl in *.
  - rewrite (proj2 (Nat.ltb_lt _ _)) by (unfold zlen in *; lia). by rewrite splice_insert.
  - unfold zlen in H. cbn in H. lia.
Qed.

Lemma wp_ReadB {A} F pn b i (k : Z -> prog A) m Q :
  F (ERdB b i) -> 0 <= i < zlen (blk (mb m) b) ->
  wp F pn (k (at_ (blk (mb m) b) i)) m Q -> wp F pn (ReadB b i k) m Q.
Proof. intros. cbn. split; [done|]. eexists. split; [by apply hget_blk|done]. Qed.
Lemma wp_ReadW {A} F pn b i (k : Z -> prog A) m Q :
  F (ERdW b i) -> 0 <= i < zlen (blk (mw m) b) ->
  wp F pn (k (at_ (blk (mw m) b) i)) m Q -> wp F pn (ReadW b i k) m Q.
Proof. intros. cbn. split; [done|]. eexists. split; [by apply hget_blk|done]. Qed.

(** Memory with one block changed. *)
Definition setb (m : mem) (b : nat) (l : list Z) : mem := Mem (put (mb m) b l) (mw m).
Definition setw (m : mem) (b : nat) (l : list Z) : mem := Mem (mb m) (put (mw m) b l).

Lemma setb_setb m b l l' : setb (setb m b l) b l' = setb m b l'.
Proof. unfold setb. simpl. by rewrite put_put. Qed.
Lemma setw_setw m b l l' : setw (setw m b l) b l' = setw m b l'.
Proof. unfold setw. simpl. by rewrite put_put. Qed.
Lemma setb_id m b : setb m b (blk (mb m) b) = m.
Proof. unfold setb. rewrite put_id. by destruct m. Qed.
Lemma setw_id m b : setw m b (blk (mw m) b) = m.
Proof. unfold setw. rewrite put_id. by destruct m. Qed.
Lemma blk_setb m b l : length l = length (blk (mb m) b) -> blk (mb (setb m b l)) b = l.
Proof. apply blk_put_eq. Qed.
Lemma blk_setw m b l : length l = length (blk (mw m) b) -> blk (mw (setw m b l)) b = l.
Proof. apply blk_put_eq. Qed.
Lemma mw_setb m b l : mw (setb m b l) = mw m. Proof. done. Qed.
Lemma mb_setw m b l : mb (setw m b l) = mb m. Proof. done. Qed.

Lemma wp_WriteB {A} F pn b i v (k : prog A) m Q :
  F (EWrB b i) -> 0 <= i < zlen (blk (mb m) b) ->
  wp F pn k (setb m b (splice i [v] (blk (mb m) b))) Q -> wp F pn (WriteB b i v k) m Q.
Proof. intros. cbn. split; [done|]. eexists. split; [by apply hput_blk|done]. Qed.
Lemma wp_WriteW {A} F pn b i v (k : prog A) m Q :
  F (EWrW b i) -> 0 <= i < zlen (blk (mw m) b) ->
  wp F pn k (setw m b (splice i [v] (blk (mw m) b))) Q -> wp F pn (WriteW b i v k) m Q.
Proof. intros. cbn. split; [done|]. eexists. split; [by apply hput_blk|done]. Qed.

(** A slice lies inside its block. *)
Definition inb (h : gmap nat (list Z)) (s : slice) : Prop :=
  0 <= s_off s /\ 0 <= s_len s <= s_cap s /\ s_off s + s_cap s <= zlen (blk h (s_blk s)).

Lemma wp_slice_from F pn s lo m (Q : slice -> mem -> Prop) :
  (0 <= lo <= s_len s -> Q (Slice (s_blk s) (s_off s + lo) (s_len s - lo) (s_cap s - lo)) m) ->
  (~ (0 <= lo <= s_len s) -> pn) ->
  wp F pn (slice_from s lo) m Q.
Proof.
  intros H H'. unfold slice_from.
  destruct (Z.leb_spec 0 lo), (Z.leb_spec lo (s_len s)); cbn; (apply H || apply H'); lia.
Qed.
Lemma wp_slice_range F pn s lo hi m (Q : slice -> mem -> Prop) :
  (0 <= lo <= hi /\ hi <= s_cap s -> Q (Slice (s_blk s) (s_off s + lo) (hi - lo) (s_cap s - lo)) m) ->
  (~ (0 <= lo <= hi /\ hi <= s_cap s) -> pn) ->
  wp F pn (slice_range s lo hi) m Q.
Proof.
  intros H H'. unfold slice_range.
  destruct (Z.leb_spec 0 lo), (Z.leb_spec lo hi), (Z.leb_spec hi (s_cap s)); cbn; (apply H || apply H'); lia.
Qed.
Lemma wp_check_idx F pn s i m (Q : unit -> mem -> Prop) :
  (0 <= i < s_len s -> Q tt m) -> (~ (0 <= i < s_len s) -> pn) -> wp F pn (check_idx s i) m Q.
Proof.
  intros H H'. unfold check_idx.
  destruct (Z.leb_spec 0 i), (Z.ltb_spec i (s_len s)); cbn; (apply H || apply H'); lia.
Qed.
Lemma wp_getB F pn s i m (Q : Z -> mem -> Prop) :
  inb (mb m) s ->
  (0 <= i < s_len s -> F (ERdB (s_blk s) (s_off s + i)) /\ Q (at_ (blk (mb m) (s_blk s)) (s_off s + i)) m) ->
  (~ (0 <= i < s_len s) -> pn) ->
  wp F pn (getB s i) m Q.
Proof.
  intros Hin H H'. unfold getB. apply wp_bind. apply wp_check_idx; [|done].
  intros Hi. destruct (H Hi). destruct Hin as (? & ? & ?). apply wp_ReadB; [done|lia|done].
Qed.
Lemma wp_getW F pn s i m (Q : Z -> mem -> Prop) :
  inb (mw m) s ->
  (0 <= i < s_len s -> F (ERdW (s_blk s) (s_off s + i)) /\ Q (at_ (blk (mw m) (s_blk s)) (s_off s + i)) m) ->
  (~ (0 <= i < s_len s) -> pn) ->
  wp F pn (getW s i) m Q.
Proof.
  intros Hin H H'. unfold getW. apply wp_bind. apply wp_check_idx; [|done].
  intros Hi. destruct (H Hi). destruct Hin as (? & ? & ?). apply wp_ReadW; [done|lia|done].
Qed.
Lemma wp_setB F pn s i v m (Q : unit -> mem -> Prop) :
  inb (mb m) s ->
  (0 <= i < s_len s -> F (EWrB (s_blk s) (s_off s + i)) /\
     Q tt (setb m (s_blk s) (splice (s_off s + i) [v] (blk (mb m) (s_blk s))))) ->
  (~ (0 <= i < s_len s) -> pn) ->
  wp F pn (setB s i v) m Q.
Proof.
  intros Hin H H'. unfold setB. apply wp_bind. apply wp_check_idx; [|done].
  intros Hi. destruct (H Hi). destruct Hin as (? & ? & ?). apply wp_WriteB; [done|lia|done].
Qed.
Lemma wp_setW F pn s i v m (Q : unit -> mem -> Prop) :
  inb (mw m) s ->
  (0 <= i < s_len s -> F (EWrW (s_blk s) (s_off s + i)) /\
     Q tt (setw m (s_blk s) (splice (s_off s + i) [v] (blk (mw m) (s_blk s))))) ->
  (~ (0 <= i < s_len s) -> pn) ->
  wp F pn (setW s i v) m Q.
Proof.
  intros Hin H H'. unfold setW. apply wp_bind. apply wp_check_idx; [|done].
  intros Hi. destruct (H Hi). destruct Hin as (? & ? & ?). apply wp_WriteW; [done|lia|done].
Qed.

(** Consecutive accesses. *)
Lemma wp_readBs F pn n b i m (Q : list Z -> mem -> Prop) :
  0 <= i -> i + Z.of_nat n <= zlen (blk (mb m) b) ->
  (forall j, i <= j < i + Z.of_nat n -> F (ERdB b j)) ->
  Q (sub i (Z.of_nat n) (blk (mb m) b)) m ->
  wp F pn (readBs n b i) m Q.
Proof.
  revert i Q. induction n as [|n IH]; intros i Q Hi Hl HF HQ.
  - cbn. done.
  - cbn [readBs]. apply wp_ReadB; [apply HF; lia|lia|].
    apply wp_bind. apply IH; [lia|lia|intros; apply HF; lia|]. cbn.
    replace (at_ _ i :: _) with (sub i (Z.of_nat (S n)) (blk (mb m) b)); [done|].
    replace (Z.of_nat (S n)) with (1 + Z.of_nat n) by lia. rewrite sub_app by lia.
    change (at_ ?l i :: ?r) with ([at_ l i] ++ r). f_equal.
    unfold sub. change (Z.to_nat 1) with 1%nat.
    rewrite (drop_S _ _ _ (lookup_at (blk (mb m) b) i ltac:(lia))). cbn [take]. done.
Qed.
Lemma wp_readWs F pn n b i m (Q : list Z -> mem -> Prop) :
  0 <= i -> i + Z.of_nat n <= zlen (blk (mw m) b) ->
  (forall j, i <= j < i + Z.of_nat n -> F (ERdW b j)) ->
  Q (sub i (Z.of_nat n) (blk (mw m) b)) m ->
  wp F pn (readWs n b i) m Q.
Proof.
  revert i Q. induction n as [|n IH]; intros i Q Hi Hl HF HQ.
  - cbn. done.
  - cbn [readWs]. apply wp_ReadW; [apply HF; lia|lia|].
    apply wp_bind. apply IH; [lia|lia|intros; apply HF; lia|]. cbn.
    replace (at_ _ i :: _) with (sub i (Z.of_nat (S n)) (blk (mw m) b)); [done|].
    replace (Z.of_nat (S n)) with (1 + Z.of_nat n) by lia. rewrite sub_app by lia.
    change (at_ ?l i :: ?r) with ([at_ l i] ++ r). f_equal.
    unfold sub. change (Z.to_nat 1) with 1%nat.
    rewrite (drop_S _ _ _ (lookup_at (blk (mw m) b) i ltac:(lia))). cbn [take]. done.
Qed.
Lemma wp_writeBs F pn b i vs m (Q : unit -> mem -> Prop) :
  0 <= i -> i + zlen vs <= zlen (blk (mb m) b) ->
  (forall j, i <= j < i + zlen vs -> F (EWrB b j)) ->
  Q tt (setb m b (splice i vs (blk (mb m) b))) ->
  wp F pn (writeBs b i vs) m Q.
Proof.
  revert i m Q. induction vs as [|v vs IH]; intros i m Q Hi Hl HF HQ.
  - cbn. rewrite splice_nil, setb_id in HQ. done.
  - pose proof (zlen_nonneg vs). rewrite zlen_cons in *. cbn [writeBs].
    apply wp_WriteB; [apply HF; lia|lia|].
    assert (Hlen : length (splice i [v] (blk (mb m) b)) = length (blk (mb m) b)).
    { apply splice_length; [done|]. rewrite zlen_cons, zlen_nil. lia. }
    apply IH; [lia| |intros; apply HF; lia|].
    + rewrite blk_setb by done. unfold zlen at 2. rewrite Hlen. change (Z.of_nat _) with (zlen (blk (mb m) b)). lia.
    + rewrite blk_setb by done. rewrite setb_setb.
      change (i + 1) with (i + zlen [v]). rewrite splice_app_l; [done|done|].
      rewrite zlen_cons, zlen_nil. lia.
Qed.
Lemma wp_writeWs F pn b i vs m (Q : unit -> mem -> Prop) :
  0 <= i -> i + zlen vs <= zlen (blk (mw m) b) ->
  (forall j, i <= j < i + zlen vs -> F (EWrW b j)) ->
  Q tt (setw m b (splice i vs (blk (mw m) b))) ->
  wp F pn (writeWs b i vs) m Q.
Proof.
  revert i m Q. induction vs as [|v vs IH]; intros i m Q Hi Hl HF HQ.
  - cbn. rewrite splice_nil, setw_id in HQ. done.
  - pose proof (zlen_nonneg vs). rewrite zlen_cons in *. cbn [writeWs].
    apply wp_WriteW; [apply HF; lia|lia|].
    assert (Hlen : length (splice i [v] (blk (mw m) b)) = length (blk (mw m) b)).
    { apply splice_length; [done|]. rewrite zlen_cons, zlen_nil. lia. }
    apply IH; [lia| |intros; apply HF; lia|].
    + rewrite blk_setw by done. unfold zlen at 2. rewrite Hlen. change (Z.of_nat _) with (zlen (blk (mw m) b)). lia.
    + rewrite blk_setw by done. rewrite setw_setw.
      change (i + 1) with (i + zlen [v]). rewrite splice_app_l; [done|done|].
      rewrite zlen_cons, zlen_nil. lia.
Qed.

(** ** Machine integers *)
Lemma i64_small x : - 2 ^ 63 <= x < 2 ^ 63 -> i64 x = x.
Proof. intros. unfold i64. rewrite Z.mod_small by lia. lia. Qed.
Lemma iadd_small a b : - 2 ^ 63 <= a + b < 2 ^ 63 -> iadd a b = a + b.
Proof. apply i64_small. Qed.
Lemma isub_small a b : - 2 ^ 63 <= a - b < 2 ^ 63 -> isub a b = a - b.
Proof. apply i64_small. Qed.
Lemma imul_small a b : - 2 ^ 63 <= a * b < 2 ^ 63 -> imul a b = a * b.
Proof. apply i64_small. Qed.
Lemma idiv_pos a b : 0 <= a < 2 ^ 63 -> 0 < b -> idiv a b = a / b.
Proof.
  intros. unfold idiv. rewrite Z.quot_div_nonneg by lia. apply i64_small.
  pose proof (Z.div_pos a b ltac:(lia) ltac:(lia)).
  assert (a / b <= a) by (apply Z.div_le_upper_bound; nia). lia.
Qed.
(** a &^ (2^k - 1) clears the low bits. *)
Lemma iandnot_pow2 a k : 0 <= k -> iandnot a (2 ^ k - 1) = a / 2 ^ k * 2 ^ k.
Proof.
  intros. unfold iandnot. replace (2 ^ k - 1) with (Z.ones k) by (rewrite Z.ones_equiv; lia).
  rewrite Z.ldiff_ones_r by lia. rewrite Z.shiftl_mul_pow2, Z.shiftr_div_pow2 by lia. done.
Qed.
Lemma u8_small x : 0 <= x < 256 -> u8 x = x.
Proof. intros. unfold u8. apply Z.mod_small. lia. Qed.
Lemma u16_small x : 0 <= x < 65536 -> u16 x = x.
Proof. intros. unfold u16. apply Z.mod_small. lia. Qed.
Lemma u32_small x : 0 <= x < 2 ^ 32 -> u32 x = x.
Proof. intros. unfold u32. apply Z.mod_small. lia. Qed.
Lemma u64_small x : 0 <= x < 2 ^ 64 -> u64 x = x.
Proof. intros. unfold u64. apply Z.mod_small. lia. Qed.

(** Rewrite away wraps whose range side condition lia can prove. *)
Ltac ints :=
  repeat match goal with
  | |- context [iadd ?a ?b] => rewrite (iadd_small a b) by lia
  | |- context [isub ?a ?b] => rewrite (isub_small a b) by lia
  | |- context [imul ?a ?b] => rewrite (imul_small a b) by lia
  end.

(** ** Accesses never listed leave memory alone *)
Definition hlen (h : gmap nat (list Z)) (b : nat) : option nat := length <$> h !! b.

Lemma hput_frame h b i v h' : hput h b i v = Some h' ->
  (forall b' i', (b', i') <> (b, i) -> hget h' b' i' = hget h b' i') /\
  (forall b', hlen h' b' = hlen h b').
Proof.
  unfold hput, hget, hlen. destruct (0 <=? i) eqn:E0; [|done].
  destruct (h !! b) as [l|] eqn:El; [|done].
  destruct (Nat.ltb_spec (Z.to_nat i) (length l)); [|done]. intros [= <-].
  split.
  - intros b' i' Hne. destruct (decide (b' = b)) as [->|].
    + rewrite lookup_insert, El. destruct (0 <=? i') eqn:E1; [|done].
      assert (i' <> i) by congruence. apply list_lookup_insert_ne. lia.
    + by rewrite lookup_insert_ne.
  - intros b'. destruct (decide (b' = b)) as [->|].
    + rewrite lookup_insert, El. simpl. by rewrite insert_length.
    + by rewrite lookup_insert_ne.
Qed.

Theorem run_frame {A} (p : prog A) m :
  let x := run p m in
  (forall b i, ~ In (EWrB b i) (trace x) -> ~ In (EAlB b) (trace x) -> hget (mb (final x)) b i = hget (mb m) b i) /\
  (forall b i, ~ In (EWrW b i) (trace x) -> hget (mw (final x)) b i = hget (mw m) b i) /\
  (forall b, ~ In (EAlB b) (trace x) -> hlen (mb (final x)) b = hlen (mb m) b) /\
  (forall b, hlen (mw (final x)) b = hlen (mw m) b).
Proof.
  cbn zeta. revert m.
  induction p as [a| | | | |b i k IH|b i v k IH|b i k IH|b i v k IH|b n k IH]; intros m; cbn;
    try (repeat split; done).
  - destruct (hget (mb m) b i) as [v|]; [|repeat split; done].
    specialize (IH v m). destruct (run (k v) m) as [[r m'] t]. cbn in *.
    destruct IH as (I1 & I2 & I3 & I4). repeat split; intros; auto 10.
  - destruct (hput (mb m) b i v) as [h|] eqn:E; [|repeat split; done].
    apply hput_frame in E as [E1 E2].
    specialize (IH (Mem h (mw m))). destruct (run k _) as [[r m'] t]. cbn in *.
    destruct IH as (I1 & I2 & I3 & I4). repeat split; intros; auto.
    + rewrite I1 by tauto. apply E1. intros [= -> ->]. tauto.
    + rewrite I3 by tauto. apply E2.
  - destruct (hget (mw m) b i) as [v|]; [|repeat split; done].
    specialize (IH v m). destruct (run (k v) m) as [[r m'] t]. cbn in *.
    destruct IH as (I1 & I2 & I3 & I4). repeat split; intros; auto 10.
  - destruct (hput (mw m) b i v) as [h|] eqn:E; [|repeat split; done].
    apply hput_frame in E as [E1 E2].
    specialize (IH (Mem (mb m) h)). destruct (run k _) as [[r m'] t]. cbn in *.
    destruct IH as (I1 & I2 & I3 & I4). repeat split; intros; auto.
    + rewrite I2 by tauto. apply E1. intros [= -> ->]. tauto.
    + rewrite I4. apply E2.
  - destruct (mb m !! b) as [l|] eqn:E; [repeat split; done|].
    specialize (IH (Mem (<[b := replicate (Z.to_nat n) 0]> (mb m)) (mw m))).
    destruct (run k _) as [[r m'] t]. cbn in *.
    destruct IH as (I1 & I2 & I3 & I4). repeat split; intros; auto.
    + rewrite I1 by tauto. unfold hget. rewrite lookup_insert_ne by (intros ->; tauto). done.
    + rewrite I3 by tauto. unfold hlen. rewrite lookup_insert_ne by (intros ->; tauto). done.
Qed.

(** A list is determined by its length and elements. *)
Lemma heap_ext h h' b : hlen h' b = hlen h b -> (forall i, hget h' b i = hget h b i) -> h' !! b = h !! b.
Proof.
  unfold hlen, hget. intros Hl Hg. destruct (h !! b) as [l|] eqn:E, (h' !! b) as [l'|] eqn:E'; try done.
  f_equal. apply list_eq. intros j. specialize (Hg (Z.of_nat j)).
  rewrite (proj2 (Z.leb_le 0 _)) in Hg by lia. by rewrite Nat2Z.id in Hg.
Qed.
