(** * Facts about the format specification (no code involved) *)
From stdpp Require Import prelude list.
From Coq Require Import ZArith Lia.
From Verif Require Import Spec.
Local Open Scope Z_scope.

Lemma nbytes_range x : (1 <= nbytes x <= 4)%nat.
Proof. unfold nbytes. repeat case_match; lia. Qed.

Lemma le_length n x : length (le n x) = n.
Proof. revert x. induction n; intros; cbn; auto. Qed.
Lemma le_bytes n x : Forall is_byte (le n x).
Proof.
  revert x. induction n; intros; cbn; constructor; auto.
  unfold is_byte. apply Z.mod_pos_bound. lia.
Qed.
Lemma le_val_le n x : le_val (le n x) = x mod 256 ^ Z.of_nat n.
Proof.
  revert x. induction n as [|n IH]; intros x.
  - cbn. by rewrite Z.mod_1_r.
  - cbn [le le_val]. rewrite IH. rewrite Nat2Z.inj_succ, Z.pow_succ_r by lia.
    rewrite Z.rem_mul_r by lia. done.
Qed.
Lemma le_val_range bs : Forall is_byte bs -> 0 <= le_val bs < 256 ^ Z.of_nat (length bs).
Proof.
  induction 1 as [|b bs Hb _ IH]; [cbn; lia|].
  cbn [le_val length]. rewrite Nat2Z.inj_succ, Z.pow_succ_r by lia. unfold is_byte in Hb. lia.
Qed.
Lemma le_le_val bs : Forall is_byte bs -> le (length bs) (le_val bs) = bs.
Proof.
  induction 1 as [|b bs Hb _ IH]; [done|]. cbn [length le le_val]. unfold is_byte in Hb.
  f_equal.
  - rewrite Z.mul_comm, Z.mod_add by lia. apply Z.mod_small. lia.
  - replace ((b + 256 * le_val bs) / 256) with (le_val bs); [done|].
    rewrite Z.mul_comm, Z.div_add by lia. rewrite Z.div_small by lia. lia.
Qed.
Lemma le_val_app a b : le_val (a ++ b) = le_val a + 256 ^ Z.of_nat (length a) * le_val b.
Proof.
  induction a as [|x a IH]; cbn [app le_val length]; [lia|].
  rewrite IH, Nat2Z.inj_succ, Z.pow_succ_r by lia. lia.
Qed.
Lemma le_val_zeros n : le_val (replicate n 0) = 0.
Proof. induction n; cbn [replicate le_val]; lia. Qed.
(** Enough bytes keep the value. *)
Lemma nbytes_fits x : is_u32 x -> 0 <= x < 256 ^ Z.of_nat (nbytes x).
Proof.
  unfold is_u32, nbytes. intros.
  destruct (Z.ltb_spec x (2 ^ 8)); [cbn; lia|].
  destruct (Z.ltb_spec x (2 ^ 16)); [cbn; lia|].
  destruct (Z.ltb_spec x (2 ^ 24)); cbn; lia.
Qed.
(** ... and no shorter little-endian string holds the value. *)
Lemma nbytes_minimal x n : (1 <= n <= 4)%nat -> x < 256 ^ Z.of_nat n -> (nbytes x <= n)%nat.
Proof.
  intros Hn Hx. unfold nbytes.
  destruct (Z.ltb_spec x (2 ^ 8)); [lia|].
  destruct n as [|[|n]]; [lia| change (256 ^ Z.of_nat 1) with 256 in Hx; lia|].
  destruct (Z.ltb_spec x (2 ^ 16)); [lia|].
  destruct n as [|n]; [change (256 ^ Z.of_nat 2) with 65536 in Hx; lia|].
  destruct (Z.ltb_spec x (2 ^ 24)); [lia|].
  destruct n as [|n]; [change (256 ^ Z.of_nat 3) with 16777216 in Hx; lia|]. lia.
Qed.
Lemma enc1_length x : length (enc1 x) = nbytes x.
Proof. apply le_length. Qed.
Lemma enc1_val x : is_u32 x -> le_val (enc1 x) = x.
Proof. intros. unfold enc1. rewrite le_val_le. apply Z.mod_small. by apply nbytes_fits. Qed.
Lemma enc1_bytes x : Forall is_byte (enc1 x).
Proof. apply le_bytes. Qed.

Lemma enc_data_app a b : enc_data (a ++ b) = enc_data a ++ enc_data b.
Proof. induction a as [|x a IH]; cbn; [done|]. rewrite IH. by rewrite app_assoc. Qed.
Lemma enc_data_length xs : length (enc_data xs) = sum_nat (map nbytes xs).
Proof. induction xs as [|x xs IH]; cbn; [done|]. rewrite app_length, enc1_length, IH. done. Qed.
Lemma enc_data_bytes xs : Forall is_byte (enc_data xs).
Proof. induction xs; cbn; [constructor|]. apply Forall_app; split; [apply enc1_bytes|done]. Qed.
Lemma sum_nat_app a b : sum_nat (a ++ b) = (sum_nat a + sum_nat b)%nat.
Proof. unfold sum_nat. induction a as [|x a IH]; cbn in *; lia. Qed.
Lemma enc_data_bounds xs : (length xs <= length (enc_data xs) <= 4 * length xs)%nat.
Proof.
  rewrite enc_data_length. induction xs as [|x xs IH]; cbn [map sum_nat fold_right length]; [cbn; lia|].
  pose proof (nbytes_range x). unfold sum_nat in *. lia.
Qed.

(** Induction four at a time. *)
Lemma list_ind4 {A} (P : list A -> Prop) :
  P [] -> (forall a, P [a]) -> (forall a b, P [a; b]) -> (forall a b c, P [a; b; c]) ->
  (forall a b c d r, P r -> P (a :: b :: c :: d :: r)) -> forall l, P l.
Proof.
  intros H0 H1 H2 H3 H4 l. remember (length l) as n eqn:E.
  revert l E. induction n as [n IH] using lt_wf_ind. intros l E.
  destruct l as [|a [|b [|c [|d r]]]]; auto.
  apply H4. apply (IH (length r)); [|done]. cbn in E. lia.
Qed.

Lemma groups4_app a b : (length a mod 4 = 0)%nat -> groups4 (a ++ b) = groups4 a ++ groups4 b.
Proof.
  induction a as [|x|x y|x y z|x y z w r IH] using list_ind4; intros H; try (cbn in H; lia); [done|].
  cbn [app groups4]. rewrite IH; [done|].
  cbn [length] in H. replace (S (S (S (S (length r))))) with (length r + 1 * 4)%nat in H by lia.
  by rewrite Nat.mod_add in H by lia.
Qed.
Lemma enc_ctrls_app a b : (length a mod 4 = 0)%nat -> enc_ctrls (a ++ b) = enc_ctrls a ++ enc_ctrls b.
Proof. intros. unfold enc_ctrls. by rewrite groups4_app, map_app. Qed.
Lemma enc_ctrls_length xs : length (enc_ctrls xs) = nctrl (length xs).
Proof.
  unfold enc_ctrls, nctrl. rewrite map_length.
  induction xs as [|x|x y|x y z|x y z w r IH] using list_ind4; try done.
  cbn [groups4 length]. rewrite IH.
  replace (S (S (S (S (length r)))) + 3)%nat with (length r + 3 + 1 * 4)%nat by lia.
  rewrite Nat.div_add by lia. lia.
Qed.
Lemma nctrl_step n : nctrl (S (S (S (S n)))) = S (nctrl n).
Proof.
  unfold nctrl. replace (S (S (S (S n))) + 3)%nat with (n + 3 + 1 * 4)%nat by lia.
  rewrite Nat.div_add by lia. lia.
Qed.
Lemma ctrl_of_range xs : 0 <= ctrl_of xs < 4 ^ Z.of_nat (length xs).
Proof.
  induction xs as [|x xs IH]; [cbn; lia|]. cbn [ctrl_of length].
  rewrite Nat2Z.inj_succ, Z.pow_succ_r by lia. pose proof (nbytes_range x). lia.
Qed.
Lemma ctrl_of_byte xs : (length xs <= 4)%nat -> is_byte (ctrl_of xs).
Proof.
  intros. pose proof (ctrl_of_range xs). unfold is_byte.
  assert (4 ^ Z.of_nat (length xs) <= 4 ^ 4) by (apply Z.pow_le_mono_r; lia). lia.
Qed.
Lemma groups4_short xs : Forall (fun g => (length g <= 4)%nat) (groups4 xs).
Proof.
  induction xs as [|x|x y|x y z|x y z w r IH] using list_ind4; cbn; repeat constructor; cbn; auto with lia.
Qed.
Lemma enc_ctrls_bytes xs : Forall is_byte (enc_ctrls xs).
Proof.
  unfold enc_ctrls. apply Forall_map. eapply Forall_impl; [apply groups4_short|].
  intros g Hg. cbn in Hg. cbn. by apply ctrl_of_byte.
Qed.
Lemma stream_of_bytes xs : Forall is_byte (stream_of xs).
Proof. apply Forall_app; split; [apply enc_ctrls_bytes|apply enc_data_bytes]. Qed.
Lemma stream_of_length xs : length (stream_of xs) = (nctrl (length xs) + sum_nat (map nbytes xs))%nat.
Proof. unfold stream_of. by rewrite app_length, enc_ctrls_length, enc_data_length. Qed.

(** The control byte announces the byte lengths. *)
Lemma ctrl_lens_of xs : (length xs <= 4)%nat -> firstn (length xs) (ctrl_lens (ctrl_of xs)) = map nbytes xs.
Proof.
  intros H. unfold ctrl_lens.
  assert (G : forall x c, Z.to_nat ((Z.of_nat (nbytes x) - 1 + 4 * c) mod 4 + 1) = nbytes x).
  { intros x c. rewrite Z.mul_comm, Z.mod_add by lia. pose proof (nbytes_range x).
    rewrite Z.mod_small by lia. lia. }
  assert (D : forall x c, (Z.of_nat (nbytes x) - 1 + 4 * c) / 4 = c).
  { intros x c. rewrite Z.mul_comm, Z.div_add by lia. pose proof (nbytes_range x).
    rewrite Z.div_small by lia. lia. }
  assert (E : forall c, c / 16 = c / 4 / 4) by (intros; rewrite Z.div_div by lia; done).
  assert (E' : forall c, c / 64 = c / 4 / 4 / 4) by (intros; rewrite !Z.div_div by lia; done).
  rewrite E, E'.
  destruct xs as [|a [|b [|c [|d [|e r]]]]]; cbn [length firstn map ctrl_of] in *; try lia;
    rewrite ?D, ?G; try done.
Qed.

Lemma ctrl_lens_length c : length (ctrl_lens c) = 4%nat.
Proof. done. Qed.
Lemma ctrl_lens_range c : Forall (fun n => (1 <= n <= 4)%nat) (ctrl_lens c).
Proof.
  unfold ctrl_lens. repeat (apply List.Forall_cons); try apply List.Forall_nil;
  match goal with |- context [?x mod 4] => pose proof (Z.mod_pos_bound x 4 ltac:(lia)); lia end.
Qed.

(** Lengths announced by the control bytes of a written stream. *)
Lemma enc_ctrls_lens xs rest :
  firstn (length xs) (concat (map ctrl_lens (enc_ctrls xs)) ++ rest) = map nbytes xs.
Proof.
  revert rest. induction xs as [|x|x y|x y z|x y z w r IH] using list_ind4; intros rest;
    unfold enc_ctrls in *; cbn [groups4 map concat].
  - done.
  - exact (ctrl_lens_of [x] ltac:(cbn; lia)).
  - exact (ctrl_lens_of [x; y] ltac:(cbn; lia)).
  - exact (ctrl_lens_of [x; y; z] ltac:(cbn; lia)).
  - pose proof (ctrl_lens_of [x; y; z; w] ltac:(cbn; lia)) as H.
    cbn [length] in *. rewrite firstn_all2 in H by done. rewrite H. cbn [map app firstn].
    do 4 f_equal. apply IH.
Qed.
Lemma stream_lens_written xs junk : stream_lens (length xs) (stream_of xs ++ junk) = map nbytes xs.
Proof.
  unfold stream_lens, stream_of. rewrite <- enc_ctrls_length at 1.
  rewrite <- app_assoc, firstn_app, Nat.sub_diag. cbn [firstn]. rewrite app_nil_r, firstn_all.
  rewrite <- (enc_ctrls_lens xs []), app_nil_r at 1. done.
Qed.
Lemma cut_enc_data xs junk : cut (map nbytes xs) (enc_data xs ++ junk) = map enc1 xs.
Proof.
  induction xs as [|x xs IH]; [done|]. cbn [map cut enc_data].
  rewrite <- app_assoc. rewrite <- (enc1_length x).
  rewrite firstn_app, firstn_all, Nat.sub_diag, firstn_O, app_nil_r.
  rewrite skipn_app, skipn_all, Nat.sub_diag, skipn_O. cbn [app]. by rewrite IH.
Qed.
(** Specification-level round trip, with arbitrary bytes following. *)
Lemma decode_written xs junk : Forall is_u32 xs -> decode_stream (length xs) (stream_of xs ++ junk) = xs.
Proof.
  intros H. unfold decode_stream. rewrite stream_lens_written.
  unfold stream_of. rewrite <- enc_ctrls_length, <- app_assoc, drop_app.
  rewrite cut_enc_data, map_map.
  rewrite <- (map_id xs) at 2. apply map_ext_in. intros x Hx. apply enc1_val.
  rewrite Forall_forall in H. apply H. by apply elem_of_list_In.
Qed.
Lemma written_well_formed xs junk : Forall is_byte junk -> well_formed (length xs) (stream_of xs ++ junk).
Proof.
  intros Hj. unfold well_formed, stream_size. rewrite stream_lens_written, app_length, stream_of_length.
  repeat split; [|lia|lia]. apply Forall_app; split; [apply stream_of_bytes|done].
Qed.
Lemma written_size xs junk : stream_size (length xs) (stream_of xs ++ junk) = length (stream_of xs).
Proof. unfold stream_size. by rewrite stream_lens_written, stream_of_length. Qed.

(** ** Differential coding *)
Lemma deltas_length p xs : length (deltas p xs) = length xs.
Proof. revert p. induction xs; intros; cbn; auto. Qed.
Lemma running_sums_length p xs : length (running_sums p xs) = length xs.
Proof. revert p. induction xs; intros; cbn; auto. Qed.
Lemma deltas_u32 p xs : Forall is_u32 (deltas p xs).
Proof.
  revert p. induction xs; intros; cbn; constructor; auto.
  unfold is_u32. apply Z.mod_pos_bound. lia.
Qed.
Lemma running_sums_u32 p xs : Forall is_u32 (running_sums p xs).
Proof.
  revert p. induction xs; intros; cbn; constructor; auto.
  unfold is_u32. apply Z.mod_pos_bound. lia.
Qed.
Lemma running_sums_deltas p xs : Forall is_u32 xs -> running_sums p (deltas p xs) = xs.
Proof.
  intros H. revert p. induction H as [|x xs Hx _ IH]; intros p; [done|]. cbn [deltas running_sums].
  assert (E : (p + (x - p) mod 2 ^ 32) mod 2 ^ 32 = x).
  { rewrite Zplus_mod_idemp_r. replace (p + (x - p)) with x by lia. by apply Z.mod_small. }
  by rewrite E, IH.
Qed.
Lemma last_cons_default {A} (x p : A) xs : default p (last (x :: xs)) = default x (last xs).
Proof. destruct xs as [|y ys]; [done|]. cbn [last]. destruct (last (y :: ys)) eqn:E; [done|].
  exfalso. revert y E. induction ys; intros; cbn in *; [done|]. eauto. Qed.
Lemma deltas_app p a b : deltas p (a ++ b) = deltas p a ++ deltas (default p (last a)) b.
Proof.
  revert p. induction a as [|x a IH]; intros p; [done|].
  cbn [app deltas]. rewrite IH. rewrite last_cons_default. done.
Qed.
Lemma running_sums_app p a b :
  running_sums p (a ++ b) = running_sums p a ++ running_sums (default p (last (running_sums p a))) b.
Proof.
  revert p. induction a as [|x a IH]; intros p; [done|].
  cbn [app running_sums]. rewrite IH. cbn [app]. by rewrite last_cons_default.
Qed.

(** ** Cutting *)
Lemma cut_app a b d : cut (a ++ b) d = cut a d ++ cut b (skipn (sum_nat a) d).
Proof.
  revert d. induction a as [|n a IH]; intros d; cbn [app cut]; [done|].
  rewrite IH. cbn [sum_nat fold_right app]. change (fold_right Nat.add 0%nat a) with (sum_nat a).
  by rewrite drop_drop.
Qed.
Lemma cut_length a d : length (cut a d) = length a.
Proof. revert d. induction a; intros; cbn; auto. Qed.
