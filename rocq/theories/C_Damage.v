(** * What one damaged byte of a stream does to the numbers read: C58 *)
From stdpp Require Import prelude gmap list.
From Coq Require Import ZArith Lia.
From Verif Require Import Spec SpecLemmas GoSem Shared Tables Asm Wp Reader Api ApiLemmas Witness C_Reader.
Local Open Scope Z_scope.

(** ** Vocabulary *)
(** [S'] is [S] with another byte at position [i]. *)
Definition damaged (i : nat) (S S' : list Z) : Prop :=
  length S' = length S /\ (i < length S)%nat /\ nth i S' 0 <> nth i S 0 /\ (forall j, j <> i -> nth j S' 0 = nth j S 0).
(** Where number [k] of a stream begins. *)
Definition start (n : nat) (S : list Z) (k : nat) : nat := (nctrl n + sum_nat (firstn k (stream_lens n S)))%nat.
(** The call returns and leaves these numbers in out[0:n]. *)
Definition reads (r : reader) (n : Z) (st out : slice) (m : mem) (xs : list Z) : Prop :=
  exists m', returns (read r n st out) m tt m' /\ take (Z.to_nat n) (words m' out) = xs.
Definition reads_delta (r : reader) (n : Z) (st out : slice) (prev : Z) (m : mem) (xs : list Z) : Prop :=
  exists m', returns (read_delta r n st out prev) m tt m' /\ take (Z.to_nat n) (words m' out) = xs.

(** ** Lists *)
Lemma damaged_insert i S S' : damaged i S S' -> S' = <[i := nth i S' 0]> S.
Proof.
  intros (L & Hi & _ & H). apply list_eq. intros j. destruct (Nat.eq_dec j i) as [-> | Hne].
  - rewrite list_lookup_insert by done. rewrite nth_lookup. destruct (S' !! i) eqn:E; [done|]. apply lookup_ge_None in E. lia.
  - rewrite list_lookup_insert_ne by done. specialize (H j Hne). rewrite !nth_lookup in H.
    destruct (S' !! j) eqn:E, (S !! j) eqn:E'; cbn in H; try congruence.
    + apply lookup_lt_Some in E. apply lookup_ge_None in E'. lia.
    + apply lookup_lt_Some in E'. apply lookup_ge_None in E. lia.
Qed.
Lemma cut_insert b : forall lens i data, (i < sum_nat lens)%nat -> (sum_nat lens <= length data)%nat ->
  exists k j, (k < length lens)%nat /\ (j < nth k lens 0)%nat /\ i = (sum_nat (take k lens) + j)%nat /\
    cut lens (<[i := b]> data) = <[k := <[j := b]> (nth k (cut lens data) [])]> (cut lens data) /\
    nth j (nth k (cut lens data) []) 0 = nth i data 0 /\ length (nth k (cut lens data) []) = nth k lens 0%nat.
Proof.
  induction lens as [|l lens IH]; intros i data Hi Hd; [cbn in Hi; lia|]. cbn [sum_nat fold_right] in Hi, Hd.
  change (fold_right Nat.add 0%nat lens) with (sum_nat lens) in *. cbn [cut].
  destruct (Nat.lt_ge_cases i l) as [Hlt|Hge].
  - exists 0%nat, i. cbn [length nth take sum_nat fold_right]. split; [lia|split; [done|split; [done|]]].
    rewrite take_insert_lt by done. rewrite drop_insert_gt by done. split; [done|].
    split; [rewrite !nth_lookup, lookup_take by done; done|]. rewrite take_length. lia.
  - destruct (IH (i - l)%nat (drop l data)) as (k & j & H1 & H2 & H3 & H4 & H5 & H6); [lia|rewrite drop_length; lia|].
    exists (S k), j. cbn [length nth take sum_nat fold_right]. change (fold_right Nat.add 0%nat (take k lens)) with (sum_nat (take k lens)).
    split; [lia|split; [done|split; [lia|]]]. rewrite take_insert by done. rewrite drop_insert_le by done. split; [by rewrite H4|].
    split; [|done]. rewrite H5. rewrite !nth_lookup, lookup_drop. do 2 f_equal. lia.
Qed.
Lemma le_val_insert b : forall l j, (j < length l)%nat -> le_val (<[j := b]> l) = le_val l + (b - nth j l 0) * 256 ^ Z.of_nat j.
Proof.
  induction l as [|a l IH]; intros j Hj; [cbn in Hj; lia|]. destruct j as [|j].
  - cbn. lia.
  - change (<[Datatypes.S j := b]> (a :: l)) with (a :: <[j := b]> l). cbn [le_val nth length] in *. rewrite IH by lia.
    rewrite Nat2Z.inj_succ, Z.pow_succ_r by lia. lia.
Qed.
Lemma map_insert_le k f (l : list (list Z)) x : map f (<[k := x]> l) = <[k := f x : Z]> (map f l).
Proof. revert k. induction l as [|a l IH]; intros [|k]; cbn; try done. f_equal. apply IH. Qed.
(** Prefix sums started a constant apart stay this constant apart. *)
Lemma sums_shift d : forall l p, running_sums ((p + d) mod 2 ^ 32) l = map (fun v => (v + d) mod 2 ^ 32) (running_sums p l).
Proof.
  induction l as [|x l IH]; intros p; [done|]. cbn [running_sums map].
  assert (E : ((p + d) mod 2 ^ 32 + x) mod 2 ^ 32 = ((p + x) mod 2 ^ 32 + d) mod 2 ^ 32).
  { rewrite Z.add_mod_idemp_l, Z.add_mod_idemp_l by lia. f_equal. lia. }
  rewrite E, IH. done.
Qed.
Lemma sums_insert d : forall l k p, (k < length l)%nat ->
  running_sums p (<[k := nth k l 0 + d]> l) = take k (running_sums p l) ++ map (fun v => (v + d) mod 2 ^ 32) (drop k (running_sums p l)).
Proof.
  induction l as [|x l IH]; intros k p Hk; [cbn in Hk; lia|]. destruct k as [|k].
  - change (<[0%nat := nth 0 (x :: l) 0 + d]> (x :: l)) with ((x + d) :: l). cbn [running_sums take drop map app].
    assert (E : (p + (x + d)) mod 2 ^ 32 = ((p + x) mod 2 ^ 32 + d) mod 2 ^ 32).
    { rewrite Z.add_mod_idemp_l by lia. f_equal. lia. }
    rewrite E, sums_shift. done.
  - change (<[S k := nth (S k) (x :: l) 0 + d]> (x :: l)) with (x :: <[k := nth k l 0 + d]> l). cbn [running_sums take drop app length] in *.
    rewrite IH by lia. done.
Qed.

(** ** A damaged data byte *)
Section data.
Context (n : nat) (S S' : list Z) (i : nat).
Context (Hd : damaged i S S') (Hb : Forall is_byte S) (Hb' : Forall is_byte S').
Context (Hwf : well_formed n S) (Hi : (nctrl n <= i < stream_size n S)%nat).
Lemma lens_same : stream_lens n S' = stream_lens n S.
Proof. rewrite (damaged_insert i S S' Hd). unfold stream_lens. rewrite take_insert by lia. done. Qed.
Lemma wf_same : well_formed n S'.
Proof.
  destruct Hwf as (_ & H1 & H2). split; [done|]. pose proof (proj1 Hd) as L. unfold stream_size in *. rewrite lens_same, L. done.
Qed.
(** The number whose bytes include the position changes, by the change of the byte. *)
Lemma data_number : exists k j, (start n S k <= i)%nat /\ (i < start n S (Datatypes.S k))%nat /\ i = (start n S k + j)%nat /\ (j < 4)%nat /\ (k < length (decode_stream n S))%nat /\
  decode_stream n S' = <[k := nth k (decode_stream n S) 0 + (nth i S' 0 - nth i S 0) * 256 ^ Z.of_nat j]> (decode_stream n S).
Proof.
  destruct Hwf as (_ & H1 & H2). unfold decode_stream. rewrite lens_same.
  assert (E : skipn (nctrl n) S' = <[(i - nctrl n)%nat := nth i S' 0]> (skipn (nctrl n) S)).
  { rewrite (damaged_insert i S S' Hd) at 1. by rewrite drop_insert_le by lia. }
  rewrite E. unfold stream_size in *.
  destruct (cut_insert (nth i S' 0) (stream_lens n S) (i - nctrl n) (skipn (nctrl n) S)) as (k & j & K1 & K2 & K3 & K4 & K5 & K6); [lia|rewrite drop_length; lia|].
  set (C := cut (stream_lens n S) (skipn (nctrl n) S)) in *.
  assert (LC : length C = length (stream_lens n S)).
  { clear. unfold C. generalize (skipn (nctrl n) S). induction (stream_lens n S) as [|l ls IH]; intros d; [done|]. cbn [cut length]. by rewrite IH. }
  assert (T : sum_nat (take (Datatypes.S k) (stream_lens n S)) = (sum_nat (take k (stream_lens n S)) + nth k (stream_lens n S) 0)%nat).
  { clear -K1. revert k K1. generalize (stream_lens n S). intros ls. induction ls as [|l ls IH]; intros k K1; [cbn in K1; lia|]. destruct k as [|k]; [done || (cbn; rewrite ?Nat.add_0_r; done)|].
    cbn [length] in K1. specialize (IH k ltac:(lia)). cbn [take nth sum_nat fold_right] in *. unfold sum_nat in IH. lia. }
  assert (L4 : (nth k (stream_lens n S) 0 <= 4)%nat).
  { assert (F : Forall (fun l => (1 <= l <= 4)%nat) (stream_lens n S)).
    { unfold stream_lens. apply Forall_take, Forall_concat, Forall_map, Forall_true. intros c. apply ctrl_lens_range. }
    pose proof (proj1 (Forall_nth (fun l => (1 <= l <= 4)%nat) 0%nat (stream_lens n S)) F k K1) as Q. cbv beta in Q. lia. }
  exists k, j. unfold start. rewrite T. split; [lia|split; [lia|split; [lia|split; [lia|split; [rewrite map_length; lia|]]]]].
  rewrite K4, map_insert_le. f_equal. rewrite le_val_insert by lia.
  assert (N : nth (i - nctrl n) (drop (nctrl n) S) 0 = nth i S 0).
  { rewrite !nth_lookup, lookup_drop. do 2 f_equal. lia. }
  rewrite K5, N. f_equal. rewrite (nth_indep _ 0 (le_val [])) by (rewrite map_length; lia). by rewrite map_nth.
Qed.
Lemma change_visible j : (j < 4)%nat -> ((nth i S' 0 - nth i S 0) * 256 ^ Z.of_nat j) mod 2 ^ 32 <> 0.
Proof.
  clear Hwf Hi. intros Hj. destruct Hd as (L & Hl & Hne & _).
  assert (B : is_byte (nth i S 0)) by (apply (proj1 (Forall_nth is_byte 0 _)); [done|lia]). assert (B' : is_byte (nth i S' 0)) by (apply (proj1 (Forall_nth is_byte 0 _)); [done|lia]).
  unfold is_byte in *. set (e := nth i S' 0 - nth i S 0) in *. assert (He : -256 < e < 256 /\ e <> 0) by lia. clearbody e. clear -He Hj.
  intros H. apply Z.mod_divide in H; [|lia]. destruct H as [q Hq].
  destruct j as [|[|[|[|]]]]; try lia; vm_compute (256 ^ _) in Hq; change (2 ^ 32) with 4294967296 in Hq; lia.
Qed.
End data.

(** ** A damaged control byte, and bytes after the stream *)
Lemma lens_take : forall i l, take (4 * i) (concat (map ctrl_lens l)) = concat (map ctrl_lens (take i l)).
Proof.
  induction i as [|i IH]; intros l; [done|]. destruct l as [|c l]; [done|].
  replace (4 * S i)%nat with (4 + 4 * i)%nat by lia. cbn [map concat take]. rewrite take_add_app by apply ctrl_lens_length. by rewrite IH.
Qed.
Lemma lens_drop : forall i l, drop (4 * i) (concat (map ctrl_lens l)) = concat (map ctrl_lens (drop i l)).
Proof.
  induction i as [|i IH]; intros l; [done|]. destruct l as [|c l]; [done|].
  replace (4 * S i)%nat with (4 + 4 * i)%nat by lia. cbn [map concat drop]. rewrite skipn_app, skipn_all2 by (rewrite ctrl_lens_length; lia); rewrite ctrl_lens_length, Nat.add_comm, Nat.add_sub; cbn [app]. by rewrite IH.
Qed.
Lemma cut_take_n : forall k lens data, take k (cut lens data) = cut (take k lens) data.
Proof. induction k as [|k IH]; intros [|l lens] data; cbn [cut take]; [done..|]. by rewrite IH. Qed.
Lemma cut_drop_n : forall k lens data, drop k (cut lens data) = cut (drop k lens) (drop (sum_nat (take k lens)) data).
Proof.
  induction k as [|k IH]; intros [|l lens] data; cbn [cut drop take]; try done.
  rewrite IH, drop_drop. done.
Qed.
Section control.
Context (n : nat) (S S' : list Z) (i : nat) (Hd : damaged i S S') (Hi : (i < nctrl n)%nat).
Lemma before_same : take (4 * i) (decode_stream n S') = take (4 * i) (decode_stream n S).
Proof.
  unfold decode_stream. rewrite !firstn_map, !cut_take_n.
  rewrite (damaged_insert i S S' Hd) at 2. rewrite drop_insert_gt by done. do 2 f_equal.
  unfold stream_lens. rewrite !take_take, !(Nat.min_comm (4 * i)), <- !take_take, !lens_take, !take_take, Nat.min_l by lia.
  rewrite (damaged_insert i S S' Hd), take_insert by lia. done.
Qed.
Lemma after_same : stream_size n S' = stream_size n S -> drop (4 * i + 4) (decode_stream n S') = drop (4 * i + 4) (decode_stream n S).
Proof.
  intros Hsz. unfold stream_size in Hsz. unfold decode_stream. rewrite !skipn_map, !cut_drop_n.
  assert (A : drop (4 * i + 4) (stream_lens n S') = drop (4 * i + 4) (stream_lens n S)).
  { unfold stream_lens. rewrite !skipn_firstn_comm. f_equal. replace (4 * i + 4)%nat with (4 * Datatypes.S i)%nat by lia. rewrite !lens_drop.
    rewrite !skipn_firstn_comm. assert (B : drop (Datatypes.S i) S' = drop (Datatypes.S i) S) by (rewrite (damaged_insert i S S' Hd), drop_insert_gt by lia; done).
    by rewrite B. }
  assert (E : forall l : list nat, sum_nat (take (4 * i + 4) l) = (sum_nat l - sum_nat (drop (4 * i + 4) l))%nat).
  { intros l. rewrite <- (take_drop (4 * i + 4) l) at 2. rewrite sum_nat_app. lia. }
  rewrite !E, A. replace (sum_nat (stream_lens n S')) with (sum_nat (stream_lens n S)) by lia.
  assert (B : drop (nctrl n) S' = drop (nctrl n) S) by (rewrite (damaged_insert i S S' Hd), drop_insert_gt by lia; done). by rewrite B.
Qed.
End control.
Lemma beyond_same n S S' i : damaged i S S' -> well_formed n S -> (stream_size n S <= i)%nat ->
  stream_lens n S' = stream_lens n S /\ decode_stream n S' = decode_stream n S.
Proof.
  intros Hd (_ & H1 & H2) Hi. assert (L : stream_lens n S' = stream_lens n S).
  { rewrite (damaged_insert i S S' Hd). unfold stream_lens. rewrite take_insert; [done|]. unfold stream_size in Hi. lia. }
  split; [done|]. rewrite <- (C07_only_the_stream_matters n S), <- (C07_only_the_stream_matters n S').
  unfold stream_size at 1. rewrite L. fold (stream_size n S). rewrite (damaged_insert i S S' Hd), take_insert by done. done.
Qed.

(** ** The readers *)
Definition callable (r : reader) (n : Z) (st out : slice) (m : mem) : Prop :=
  typed m /\ validB m st /\ validW m out /\ 0 <= n <= s_len out /\ room r n st m.
Lemma reads_ok r n st out m : callable r n st out m -> well_formed (Z.to_nat n) (bytes m st) ->
  reads r n st out m (decode_stream (Z.to_nat n) (bytes m st)) /\ length (decode_stream (Z.to_nat n) (bytes m st)) = Z.to_nat n.
Proof.
  intros (Ht & Hs & Ho & Hn & Hr) Hwf. pose proof (dec_zlen m st out n Hn Hwf) as L. split.
  - eexists. split; [by apply (read_run r m st out n)|]. apply rmem_take; [apply Ho|done|lia].
  - unfold zlen in L. lia.
Qed.
Lemma reads_delta_ok r n st out prev m : is_u32 prev -> callable r n st out m -> well_formed (Z.to_nat n) (bytes m st) ->
  reads_delta r n st out prev m (decode_stream_delta (Z.to_nat n) (bytes m st) prev).
Proof.
  intros Hp (Ht & Hs & Ho & Hn & Hr) Hwf. pose proof (dec_delta_zlen m st out n Hn Hwf prev) as L.
  eexists. split; [by apply (read_delta_run r m st out n)|]. apply rmem_take; [apply Ho|done|lia].
Qed.
Lemma nth_insert k (x : Z) l j : nth j (<[k := x]> l) 0 = if decide (j = k /\ (k < length l)%nat) then x else nth j l 0.
Proof.
  destruct (decide _) as [[-> H]|H].
  - apply nth_lookup_Some. by rewrite list_lookup_insert.
  - rewrite !nth_lookup. destruct (decide (j = k)) as [-> |Hne].
    + rewrite !lookup_ge_None_2; [done|lia|rewrite insert_length; lia].
    + by rewrite list_lookup_insert_ne.
Qed.

(** A data byte: exactly the number it belongs to changes, by the change of the byte at its place. *)
Theorem C58_data : forall r n st out m1 m2 i, callable r n st out m1 -> callable r n st out m2 ->
  well_formed (Z.to_nat n) (bytes m1 st) -> damaged i (bytes m1 st) (bytes m2 st) ->
  (nctrl (Z.to_nat n) <= i < stream_size (Z.to_nat n) (bytes m1 st))%nat ->
  exists xs xs' k j, reads r n st out m1 xs /\ reads r n st out m2 xs' /\ Z.of_nat k < n /\
    i = (start (Z.to_nat n) (bytes m1 st) k + j)%nat /\ (i < start (Z.to_nat n) (bytes m1 st) (S k))%nat /\
    nth k xs' 0 = nth k xs 0 + (nth i (bytes m2 st) 0 - nth i (bytes m1 st) 0) * 256 ^ Z.of_nat j /\ nth k xs' 0 <> nth k xs 0 /\
    forall l, l <> k -> nth l xs' 0 = nth l xs 0.
Proof.
  intros r n st out m1 m2 i H1 H2 Hwf Hd Hi.
  assert (B1 : Forall is_byte (bytes m1 st)) by (apply typed_bytes, H1). assert (B2 : Forall is_byte (bytes m2 st)) by (apply typed_bytes, H2).
  assert (Hwf' : well_formed (Z.to_nat n) (bytes m2 st)) by (by apply (wf_same _ (bytes m1 st) _ i)).
  destruct (reads_ok r n st out m1 H1 Hwf) as [R1 L1]. destruct (reads_ok r n st out m2 H2 Hwf') as [R2 L2].
  destruct (data_number _ _ _ i Hd Hwf Hi) as (k & j & K1 & K2 & K3 & K4 & K5 & K6).
  eexists _, _, k, j. split; [exact R1|split; [exact R2|]]. rewrite K6.
  split; [destruct H1 as (_ & _ & _ & ? & _); lia|]. split; [done|split; [done|]].
  rewrite nth_insert. rewrite decide_True by done. split; [done|split].
  - pose proof (change_visible _ _ i Hd B1 B2 j K4) as V. intros E. apply V.
    replace ((nth i (bytes m2 st) 0 - nth i (bytes m1 st) 0) * 256 ^ Z.of_nat j) with 0 by lia. done.
  - intros l Hl. rewrite nth_insert. rewrite decide_False by (intros [? _]; done). done.
Qed.
(** In a delta stream every number from there on changes, all by the same amount modulo 2^32. *)
Theorem C58_data_delta : forall r n st out prev m1 m2 i, is_u32 prev -> callable r n st out m1 -> callable r n st out m2 ->
  well_formed (Z.to_nat n) (bytes m1 st) -> damaged i (bytes m1 st) (bytes m2 st) ->
  (nctrl (Z.to_nat n) <= i < stream_size (Z.to_nat n) (bytes m1 st))%nat ->
  exists xs xs' k d, reads_delta r n st out prev m1 xs /\ reads_delta r n st out prev m2 xs' /\ Z.of_nat k < n /\
    (start (Z.to_nat n) (bytes m1 st) k <= i < start (Z.to_nat n) (bytes m1 st) (S k))%nat /\
    (forall l, (l < k)%nat -> nth l xs' 0 = nth l xs 0) /\
    (forall l, (k <= l < Z.to_nat n)%nat -> nth l xs' 0 = (nth l xs 0 + d) mod 2 ^ 32 /\ nth l xs' 0 <> nth l xs 0).
Proof.
  intros r n st out prev m1 m2 i Hp H1 H2 Hwf Hd Hi.
  assert (B1 : Forall is_byte (bytes m1 st)) by (apply typed_bytes, H1). assert (B2 : Forall is_byte (bytes m2 st)) by (apply typed_bytes, H2).
  assert (Hwf' : well_formed (Z.to_nat n) (bytes m2 st)) by (by apply (wf_same _ (bytes m1 st) _ i)).
  pose proof (reads_delta_ok r n st out prev m1 Hp H1 Hwf) as R1. pose proof (reads_delta_ok r n st out prev m2 Hp H2 Hwf') as R2.
  destruct (reads_ok r n st out m1 H1 Hwf) as [_ L1].
  destruct (data_number _ _ _ i Hd Hwf Hi) as (k & j & K1 & K2 & K3 & K4 & K5 & K6).
  pose proof (change_visible _ _ i Hd B1 B2 j K4) as V.
  set (d := (nth i (bytes m2 st) 0 - nth i (bytes m1 st) 0) * 256 ^ Z.of_nat j) in *.
  eexists _, _, k, d. split; [exact R1|split; [exact R2|]].
  split; [destruct H1 as (_ & _ & _ & ? & _); lia|]. split; [done|].
  unfold decode_stream_delta. rewrite K6, sums_insert by done.
  set (D := decode_stream (Z.to_nat n) (bytes m1 st)) in *.
  assert (LS : length (running_sums prev D) = Z.to_nat n) by (rewrite running_sums_length; done).
  assert (Lk : length (take k (running_sums prev D)) = k) by (rewrite take_length; lia).
  split.
  - intros l Hl. rewrite app_nth1 by lia. rewrite !nth_lookup, lookup_take by done. done.
  - intros l Hl. rewrite app_nth2 by lia. rewrite Lk.
    assert (E : nth (l - k) (map (fun v => (v + d) mod 2 ^ 32) (drop k (running_sums prev D))) 0 = (nth l (running_sums prev D) 0 + d) mod 2 ^ 32).
    { rewrite !nth_lookup. change (map ?f ?x) with (f <$> x). rewrite list_lookup_fmap, lookup_drop. replace (k + (l - k))%nat with l by lia.
      destruct (running_sums prev D !! l) eqn:E; [done|]. apply lookup_ge_None in E. lia. }
    rewrite E. split; [done|]. intros F. apply V.
    assert (U : is_u32 (nth l (running_sums prev D) 0)) by (rewrite <- F; unfold is_u32; apply Z.mod_pos_bound; lia).
    set (v := nth l (running_sums prev D) 0) in *. unfold is_u32 in U. clearbody v d. clear -F U.
    assert (G : (v + d - v) mod 2 ^ 32 = 0) by (rewrite Zminus_mod, F, (Z.mod_small v) by lia; rewrite Z.sub_diag; done).
    replace (v + d - v) with d in G by lia. done.
Qed.
(** A control byte: the numbers of the groups before it stay; if the damaged stream still has
    the same size, so do those of the groups after it. *)
Theorem C58_control : forall r n st out m1 m2 i, callable r n st out m1 -> callable r n st out m2 ->
  well_formed (Z.to_nat n) (bytes m1 st) -> well_formed (Z.to_nat n) (bytes m2 st) -> damaged i (bytes m1 st) (bytes m2 st) ->
  (i < nctrl (Z.to_nat n))%nat ->
  exists xs xs', reads r n st out m1 xs /\ reads r n st out m2 xs' /\ take (4 * i) xs' = take (4 * i) xs /\
    (stream_size (Z.to_nat n) (bytes m2 st) = stream_size (Z.to_nat n) (bytes m1 st) -> drop (4 * i + 4) xs' = drop (4 * i + 4) xs).
Proof.
  intros r n st out m1 m2 i H1 H2 Hwf Hwf' Hd Hi.
  destruct (reads_ok r n st out m1 H1 Hwf) as [R1 _]. destruct (reads_ok r n st out m2 H2 Hwf') as [R2 _].
  eexists _, _. split; [exact R1|split; [exact R2|split; [by apply before_same|by apply after_same]]].
Qed.
Lemma sums_take : forall k l p, take k (running_sums p l) = running_sums p (take k l).
Proof. induction k as [|k IH]; intros [|x l] p; cbn [running_sums take]; [done..|]. by rewrite IH. Qed.
Theorem C58_control_delta : forall r n st out prev m1 m2 i, is_u32 prev -> callable r n st out m1 -> callable r n st out m2 ->
  well_formed (Z.to_nat n) (bytes m1 st) -> well_formed (Z.to_nat n) (bytes m2 st) -> damaged i (bytes m1 st) (bytes m2 st) ->
  (i < nctrl (Z.to_nat n))%nat ->
  exists xs xs', reads_delta r n st out prev m1 xs /\ reads_delta r n st out prev m2 xs' /\ take (4 * i) xs' = take (4 * i) xs.
Proof.
  intros r n st out prev m1 m2 i Hp H1 H2 Hwf Hwf' Hd Hi.
  eexists _, _. split; [by apply reads_delta_ok|split; [by apply reads_delta_ok|]].
  unfold decode_stream_delta. rewrite !sums_take. f_equal. by apply before_same.
Qed.
(** A damaged control byte is not always noticed, and the damage need not stay in its group. *)
Theorem C58_control_spreads : exists S S', damaged 0 S S' /\ well_formed 8 S /\ well_formed 8 S' /\
  forall k, (k < 8)%nat -> nth k (decode_stream 8 S') 0 <> nth k (decode_stream 8 S) 0.
Proof.
  exists ([0; 0] ++ [1; 2; 3; 4; 5; 6; 7; 8; 9; 10; 11]), ([3; 0] ++ [1; 2; 3; 4; 5; 6; 7; 8; 9; 10; 11]).
  split; [split; [done|split; [cbn; lia|split; [done|]]]|].
  { intros [|j] Hj; [done|]. reflexivity. }
  split; [|split].
  - split; [repeat (apply List.Forall_cons; [unfold is_byte; lia|]); apply List.Forall_nil|]. vm_compute. lia.
  - split; [repeat (apply List.Forall_cons; [unfold is_byte; lia|]); apply List.Forall_nil|]. vm_compute. lia.
  - intros k Hk. do 8 (destruct k as [|k]; [vm_compute; discriminate|]). lia.
Qed.
(** Bytes after the stream do not matter. *)
Theorem C58_beyond : forall r n st out m1 m2 i, callable r n st out m1 -> callable r n st out m2 ->
  well_formed (Z.to_nat n) (bytes m1 st) -> damaged i (bytes m1 st) (bytes m2 st) -> (stream_size (Z.to_nat n) (bytes m1 st) <= i)%nat ->
  exists xs, reads r n st out m1 xs /\ reads r n st out m2 xs.
Proof.
  intros r n st out m1 m2 i H1 H2 Hwf Hd Hi. destruct (beyond_same _ _ _ i Hd Hwf Hi) as [EL ED].
  assert (Hwf' : well_formed (Z.to_nat n) (bytes m2 st)).
  { destruct Hwf as (_ & W1 & W2). split; [apply typed_bytes, H2|]. unfold stream_size in *. rewrite EL, (proj1 Hd). done. }
  destruct (reads_ok r n st out m1 H1 Hwf) as [R1 _]. destruct (reads_ok r n st out m2 H2 Hwf') as [R2 _].
  rewrite ED in R2. eauto.
Qed.
(** 18 numbers, the SIMD reader, one byte changed: the hypotheses hold; a number of two bytes changes. *)
Definition ex58 (b : Z) : mem := Mem {[ 3%nat := [228; 0; 17; 255; 1; 1; b] ++ map (fun i => Z.of_nat i) (seq 3 40) ]} (mw ex_mem).
Lemma ex58_typed b : is_byte b -> typed (ex58 b).
Proof.
  intros Hb. split; [|apply ex_typed]. intros x l. unfold ex58. cbn [mb]. rewrite lookup_singleton_Some. intros [_ <-].
  apply Forall_app. split; [repeat (apply List.Forall_cons; [unfold is_byte in *; lia|]); apply List.Forall_nil|].
  apply List.Forall_forall. intros y Hy. apply in_map_iff in Hy as (k & <- & Hk). apply in_seq in Hk. unfold is_byte. lia.
Qed.
Lemma ex58_callable b : is_byte b -> callable (RFast true) 18 ex7_st ex_out (ex58 b).
Proof.
  intros Hb. split; [by apply ex58_typed|]. split; [split; [unfold fits; vm_compute; intuition discriminate|vm_compute; discriminate]|].
  split; [fits|]. split; [vm_compute; intuition discriminate|]. vm_compute. discriminate.
Qed.
Example C58_example : callable (RFast true) 18 ex7_st ex_out (ex58 2) /\ callable (RFast true) 18 ex7_st ex_out (ex58 200) /\
  well_formed 18 (bytes (ex58 2) ex7_st) /\ damaged 6 (bytes (ex58 2) ex7_st) (bytes (ex58 200) ex7_st) /\ (nctrl 18 <= 6 < stream_size 18 (bytes (ex58 2) ex7_st))%nat /\
  take 3 (decode_stream 18 (bytes (ex58 2) ex7_st)) = [1; 2 + 3 * 256; 4 + 5 * 256 + 6 * 65536] /\
  take 3 (decode_stream 18 (bytes (ex58 200) ex7_st)) = [1; 200 + 3 * 256; 4 + 5 * 256 + 6 * 65536].
Proof.
  split; [apply ex58_callable; unfold is_byte; lia|]. split; [apply ex58_callable; unfold is_byte; lia|].
  split; [split; [apply typed_bytes, ex58_typed; unfold is_byte; lia|vm_compute; lia]|].
  split; [|split; [vm_compute; lia|split; vm_compute; reflexivity]].
  split; [reflexivity|]. split; [vm_compute; lia|]. split; [vm_compute; discriminate|].
  intros j Hj. do 6 (destruct j as [|j]; [reflexivity|]). destruct j as [|j]; [done|reflexivity].
Qed.
