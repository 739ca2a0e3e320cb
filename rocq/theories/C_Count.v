(** * Theorems: reading with the wrong count (C67)

    The number of values is not part of a stream.  A count that is too small is never
    noticed, a count that is too large always. *)
From stdpp Require Import prelude gmap list.
From Coq Require Import ZArith Lia.
From Verif Require Import Spec SpecLemmas GoSem Shared Asm Wp Writer Reader ReaderProof WriterProof WriterProof2 Api ApiLemmas Witness C_Writer C_Reader C_ReaderFast C_Group8 C_Compose C_Conc.
Local Open Scope Z_scope.

(** ** Sizes *)
Lemma nctrl_mono k n : (k <= n)%nat -> (nctrl k <= nctrl n)%nat.
Proof. intros H. unfold nctrl. apply Nat.div_le_mono; lia. Qed.
Lemma nctrl_bound k : (k <= 4 * nctrl k)%nat.
Proof. unfold nctrl. pose proof (Nat.div_mod (k + 3) 4 ltac:(lia)). pose proof (Nat.mod_upper_bound (k + 3) 4 ltac:(lia)). lia. Qed.
Lemma concat_lens_length l : length (concat (map ctrl_lens l)) = (4 * length l)%nat.
Proof. induction l as [|c l IH]; [done|]. cbn [map concat length]. rewrite app_length, IH, ctrl_lens_length. lia. Qed.
Lemma lens_take k n S : (k <= n)%nat -> (nctrl k <= length S)%nat -> stream_lens k S = take k (stream_lens n S).
Proof.
  intros H L. unfold stream_lens. pose proof (nctrl_mono k n H) as M. rewrite take_take, Nat.min_l by done.
  replace (take (nctrl n) S) with (take (nctrl k) S ++ take (nctrl n - nctrl k) (drop (nctrl k) S)).
  - rewrite map_app, concat_app, take_app_le; [done|]. rewrite concat_lens_length, take_length. pose proof (nctrl_bound k). lia.
  - rewrite <- (take_drop (nctrl k) (take (nctrl n) S)), take_take, Nat.min_l by done. f_equal. by rewrite skipn_firstn_comm.
Qed.
Lemma lens_length n S : (nctrl n <= length S)%nat -> length (stream_lens n S) = n.
Proof. intros L. unfold stream_lens. rewrite take_length, concat_lens_length, take_length. pose proof (nctrl_bound n). lia. Qed.
Lemma lens_range n S : Forall (fun l => (1 <= l <= 4)%nat) (stream_lens n S).
Proof.
  unfold stream_lens. apply Forall_take. generalize (take (nctrl n) S). intros l. induction l as [|c l IH]; [constructor|]. cbn [map concat].
  apply Forall_app. split; [apply ctrl_lens_range|done].
Qed.
Lemma sum_at_least l : Forall (fun x => (1 <= x <= 4)%nat) l -> (length l <= sum_nat l)%nat.
Proof. induction 1 as [|x l H _ IH]; [done|]. cbn [length sum_nat fold_right]. change (fold_right Nat.add 0%nat l) with (sum_nat l). lia. Qed.
Lemma size_grows k n S : (k <= n)%nat -> (nctrl n <= length S)%nat -> (stream_size k S + (nctrl n - nctrl k) + (n - k) <= stream_size n S)%nat.
Proof.
  intros H L. pose proof (nctrl_mono k n H) as M. unfold stream_size. rewrite (lens_take k n S H) by lia.
  pose proof (lens_length n S L) as Ln. pose proof (lens_range n S) as R. rewrite <- (take_drop k (stream_lens n S)) in R. apply Forall_app in R as [_ R].
  apply sum_at_least in R. rewrite drop_length, Ln in R. rewrite <- (take_drop k (stream_lens n S)) at 2. rewrite sum_nat_app. lia.
Qed.
Lemma wf_fewer k n S : (k <= n)%nat -> well_formed n S -> well_formed k S.
Proof. intros H (B & L1 & L2). pose proof (size_grows k n S H L1). pose proof (nctrl_mono k n H). split; [done|]. lia. Qed.
Lemma not_more n k S : length S = stream_size n S -> (n < k)%nat -> ~ well_formed k S.
Proof. intros E H (_ & L1 & L2). pose proof (size_grows n k S ltac:(lia) L1). lia. Qed.
(** Where reading [n] numbers stays inside the allocation, reading fewer does. *)
Lemma room_fewer r k n st m : 0 <= k <= n -> well_formed (Z.to_nat n) (bytes m st) -> room r n st m -> room r k st m.
Proof.
  intros H (_ & L1 & L2). unfold room, reach. intros R.
  pose proof (size_grows (Z.to_nat k) (Z.to_nat n) (bytes m st) ltac:(lia) L1) as G.
  assert (O : (if is_simd r then overread k else 0) <= (if is_simd r then overread n else 0) + (n - k)).
  { destruct (is_simd r); [|lia]. unfold overread. destruct (Z.leb_spec k 16), (Z.leb_spec n 16); Z.to_euclidean_division_equations; lia. }
  lia.
Qed.

(** ** Values *)
Lemma le_val_inj a b : Forall is_byte a -> Forall is_byte b -> length a = length b -> le_val a = le_val b -> a = b.
Proof. intros A B L E. rewrite <- (le_le_val a A), <- (le_le_val b B). by rewrite L, E. Qed.
Lemma cut_inj lens a b : Forall is_byte a -> Forall is_byte b -> (sum_nat lens <= length a)%nat -> (sum_nat lens <= length b)%nat ->
  map le_val (cut lens a) = map le_val (cut lens b) <-> take (sum_nat lens) a = take (sum_nat lens) b.
Proof.
  revert a b. induction lens as [|l lens IH]; intros a b A B La Lb; [done|]. cbn [sum_nat fold_right] in *. change (fold_right Nat.add 0%nat lens) with (sum_nat lens) in *.
  cbn [cut map]. specialize (IH (drop l a) (drop l b)). rewrite !drop_length in IH.
  specialize (IH (Forall_drop _ _ _ A) (Forall_drop _ _ _ B) ltac:(lia) ltac:(lia)).
  assert (Sp : forall x : list Z, take (l + sum_nat lens) x = take l x ++ take (sum_nat lens) (drop l x)).
  { intros x. rewrite <- (take_drop l (take (l + sum_nat lens) x)), take_take, Nat.min_l, skipn_firstn_comm by lia. do 2 f_equal. lia. }
  rewrite !Sp. split.
  - intros [= E1 E2]. apply IH in E2. rewrite E2. f_equal. apply le_val_inj; [by apply Forall_take..| |done]. rewrite !take_length. lia.
  - intros E. apply app_inj_1 in E as [E1 E2]; [|rewrite !take_length; lia]. rewrite E1. f_equal. by apply IH.
Qed.
Lemma take_cut k lens d : take k (cut lens d) = cut (take k lens) d.
Proof. revert lens d. induction k as [|k IH]; intros [|l lens] d; cbn [take cut]; [done..|]. by rewrite IH. Qed.
Lemma sums_take' k l p : take k (running_sums p l) = running_sums p (take k l).
Proof. revert l p. induction k as [|k IH]; intros [|x l] p; cbn [running_sums take]; [done..|]. by rewrite IH. Qed.
Lemma sums_inj a b p : Forall is_u32 a -> Forall is_u32 b -> running_sums p a = running_sums p b -> a = b.
Proof.
  revert b p. induction a as [|x a IH]; intros [|y b] p A B E; [done|discriminate..|]. cbn [running_sums] in E. injection E as E1 E2.
  apply List.Forall_cons_iff in A as [Ax A]. apply List.Forall_cons_iff in B as [Bx B]. rewrite E1 in E2. f_equal; [|by apply (IH b _ A B E2)].
  unfold is_u32 in *. rewrite <- (Z.mod_small x (2 ^ 32)), <- (Z.mod_small y (2 ^ 32)) by lia.
  replace x with ((p + x) - p) by lia. replace y with ((p + y) - p) by lia. rewrite <- (Zminus_mod_idemp_l (p + x)), <- (Zminus_mod_idemp_l (p + y)). by rewrite E1.
Qed.
Lemma decode_u32 n S : Forall is_byte S -> Forall is_u32 (decode_stream n S).
Proof.
  intros B. unfold decode_stream. pose proof (lens_range n S) as R. apply (Forall_drop _ (nctrl n)) in B. revert B. generalize (drop (nctrl n) S).
  induction R as [|l lens Hl _ IH]; intros d B; [constructor|]. cbn [cut map]. constructor; [|apply IH; by apply Forall_drop].
  pose proof (le_val_range (take l d) (Forall_take _ _ _ B)) as V. rewrite take_length in V. unfold is_u32. split; [apply V|].
  eapply Z.lt_le_trans; [apply V|]. change (2 ^ 32) with (256 ^ 4). apply Z.pow_le_mono_r; lia.
Qed.
(** The values read with two counts agree as far as the bytes do. *)
Lemma values_iff k n S prev : (k <= n)%nat -> well_formed n S -> prev_ok prev ->
  read_value prev k S = take k (read_value prev n S) <->
  take (sum_nat (stream_lens k S)) (drop (nctrl k) S) = take (sum_nat (stream_lens k S)) (drop (nctrl n) S).
Proof.
  intros H W Hp. pose proof (wf_fewer k n S H W) as Wk. destruct W as (B & L1 & L2), Wk as (_ & K1 & K2).
  assert (D : decode_stream k S = take k (decode_stream n S) <->
    take (sum_nat (stream_lens k S)) (drop (nctrl k) S) = take (sum_nat (stream_lens k S)) (drop (nctrl n) S)).
  { pose proof (size_grows k n S H L1) as G. unfold decode_stream. rewrite firstn_map, take_cut, <- (lens_take k n S H K1).
    apply cut_inj; [by apply Forall_drop..| |]; rewrite drop_length; unfold stream_size in *; lia. }
  rewrite <- D. destruct prev as [p|]; [|done]. cbn [read_value]. unfold decode_stream_delta. rewrite sums_take'. split; [|by intros ->].
  intros E. apply sums_inj in E; [done|by apply decode_u32|apply Forall_take; by apply decode_u32].
Qed.
Lemma stores_read r n st out prev m : typed m -> validB m st -> validW m out -> 0 <= n <= s_len out -> well_formed (Z.to_nat n) (bytes m st) -> room r n st m -> prev_ok prev ->
  exists m', returns (read_prev r n st out prev) m tt m' /\ take (Z.to_nat n) (words m' out) = read_value prev (Z.to_nat n) (bytes m st).
Proof.
  intros Ht Hs Ho Hn Hw Hr Hp. destruct prev as [p|]; cbn [read_prev read_value].
  - pose proof (dec_delta_zlen m st out n Hn Hw p) as L. eexists. split; [by apply (read_delta_run r m st out n)|]. apply rmem_take; [apply Ho|done|lia].
  - pose proof (dec_zlen m st out n Hn Hw) as L. eexists. split; [by apply (read_run r m st out n)|]. apply rmem_take; [apply Ho|done|lia].
Qed.
Lemma first_byte l d b r : d = b :: r -> (1 <= l)%nat -> is_byte b -> le_val (take l d) mod 256 = b.
Proof.
  intros -> Hl Hb. destruct l as [|l]; [lia|]. cbn [take le_val]. rewrite Z.mul_comm, Z.mod_add by lia. apply Z.mod_small. exact Hb.
Qed.

(** ** The theorems *)
(** The call returns and leaves these numbers in out[0:n]. *)
Definition gives (r : reader) (n : Z) (st out : slice) (prev : option Z) (m : mem) (ys : list Z) : Prop :=
  exists m', returns (read_prev r n st out prev) m tt m' /\ take (Z.to_nat n) (words m' out) = ys.
(** *** Too small *)
(** The call returns.  The numbers are right if and only if the data bytes of the first [k]
    numbers are found again as many places earlier as control bytes were left out; the byte
    taken for the lowest of the first number is a control byte. *)
Theorem C67_too_small : forall w B inp prev m, typed m -> validW m inp -> mb m !! B = None -> prev_ok prev ->
  exists st m1, returns (write_prev w B inp prev) m st m1 /\
  forall r k m2 st2 junk out, typed m2 -> validB m2 st2 -> bytes m2 st2 = bytes m1 st ++ junk -> validW m2 out ->
  0 <= k <= s_len inp -> k <= s_len out -> room r (s_len inp) st2 m2 ->
  let xs := words m inp in let S := bytes m2 st2 in
  let c := Z.to_nat ((k + 3) / 4) in let d := Z.to_nat ((s_len inp + 3) / 4) in
  let L := length (enc_data (to_code prev (take (Z.to_nat k) xs))) in
  exists ys, gives r k st2 out prev m2 ys /\
    (ys = take (Z.to_nat k) xs <-> take L (drop c S) = take L (drop d S)) /\
    (0 < k -> (c < d)%nat -> nth 0 (to_code prev ys) 0 mod 256 = ctrl_of (take 4 (drop (4 * c) (to_code prev xs)))).
Proof.
  intros w B inp prev m Ht Hi Hf Hp. destruct (written_prev w B inp prev m Ht Hi Hf Hp) as (st & m1 & R & Eb). exists st, m1. split; [done|].
  intros r k m2 st2 junk out Ht2 Hs2 Eb2 Ho2 Hk Hk2 Hr xs S c d L. rewrite Eb in Eb2.
  set (X := to_code prev xs) in *. assert (Lx : length xs = Z.to_nat (s_len inp)). { pose proof (contents_zlen _ _ (proj1 Hi)) as E. unfold zlen in E. change (contents (mw m) inp) with xs in E. lia. }
  assert (LX : length X = Z.to_nat (s_len inp)) by (unfold X; destruct prev; cbn [to_code]; rewrite ?deltas_length; done).
  assert (Ux : Forall is_u32 xs) by (by apply typed_words).
  assert (UX : Forall is_u32 X) by (unfold X; destruct prev; cbn [to_code]; [apply deltas_u32|done]).
  assert (Bj : Forall is_byte junk). { pose proof (typed_bytes m2 st2 Ht2) as Q. rewrite Eb2 in Q. by apply Forall_app in Q as [_ Q]. }
  assert (Wn : well_formed (Z.to_nat (s_len inp)) S). { unfold S. rewrite Eb2, <- LX. by apply written_well_formed. }
  pose proof (wf_fewer (Z.to_nat k) (Z.to_nat (s_len inp)) S ltac:(lia) Wn) as Wk. pose proof (room_fewer r k (s_len inp) st2 m2 Hk Wn Hr) as Rk.
  destruct (stores_read r k st2 out prev m2 Ht2 Hs2 Ho2 ltac:(lia) Wk Rk Hp) as (m3 & R3 & E3).
  exists (read_value prev (Z.to_nat k) S). split; [by exists m3|].
  assert (Ec : nctrl (Z.to_nat k) = c). { unfold c. apply Nat2Z.inj. rewrite nctrl_div, !Z2Nat.id; try lia. apply Z.div_pos; lia. }
  assert (Ed : nctrl (Z.to_nat (s_len inp)) = d). { unfold d. apply Nat2Z.inj. rewrite nctrl_div, !Z2Nat.id; try lia. apply Z.div_pos; lia. }
  assert (Vn : read_value prev (Z.to_nat (s_len inp)) S = xs).
  { unfold S. rewrite Eb2, <- LX. destruct prev as [p|]; cbn [read_value]; unfold decode_stream_delta; rewrite decode_written by done; [|done]. unfold X. cbn [to_code]. by apply running_sums_deltas. }
  assert (EL : sum_nat (stream_lens (Z.to_nat k) S) = L).
  { rewrite (lens_take (Z.to_nat k) (Z.to_nat (s_len inp)) S); [|lia|apply Wk]. unfold S. rewrite Eb2, <- LX, stream_lens_written, firstn_map, <- enc_data_length.
    unfold L, X. by rewrite take_to_code. }
  split.
  - pose proof (values_iff (Z.to_nat k) (Z.to_nat (s_len inp)) S prev ltac:(lia) Wn Hp) as V. by rewrite Vn, Ec, Ed, EL in V.
  - intros Hk0 Hcd.
    assert (Ef : to_code prev (read_value prev (Z.to_nat k) S) = decode_stream (Z.to_nat k) S).
    { destruct prev as [p|]; cbn [to_code read_value]; [|done]. apply (sums_inj _ _ p); [apply deltas_u32|apply decode_u32, Wk|].
      unfold decode_stream_delta. apply running_sums_deltas, running_sums_u32. }
    rewrite Ef.
    assert (Ln : length (stream_lens (Z.to_nat k) S) = Z.to_nat k) by (apply lens_length, Wk).
    pose proof (lens_range (Z.to_nat k) S) as Rg. unfold decode_stream. rewrite Ec.
    destruct (stream_lens (Z.to_nat k) S) as [|l lens]; [cbn in Ln; lia|]. apply List.Forall_cons_iff in Rg as [Rl _]. cbn [cut map nth].
    assert (Gc : (4 * c < length X)%nat).
    { rewrite LX. rewrite <- Ed in Hcd. unfold nctrl in Hcd. pose proof (Nat.div_mod (Z.to_nat (s_len inp) + 3) 4 ltac:(lia)). pose proof (Nat.mod_upper_bound (Z.to_nat (s_len inp) + 3) 4 ltac:(lia)). lia. }
    destruct (located X c S junk ltac:(lia) Eb2) as (_ & _ & N). specialize (N Gc).
    assert (Hc : (c < length S)%nat). { destruct Wn as (_ & W1 & _). rewrite Ed in W1. lia. }
    destruct (drop c S) as [|b rest] eqn:D. { apply (f_equal length) in D. rewrite drop_length in D. cbn in D. lia. }
    assert (Nb : nth c S 0 = b). { rewrite nth_lookup. rewrite <- (Nat.add_0_r c), <- lookup_drop, D. done. }
    rewrite (first_byte l (b :: rest) b rest eq_refl ltac:(lia)); [congruence|].
    pose proof (Forall_drop _ c _ (proj1 Wn)) as Q. rewrite D in Q. by apply List.Forall_cons_iff in Q as [Q _].
Qed.
(** *** Too large *)
(** On the stream as written, no call with a larger count returns; the scalar readers panic,
    the SIMD readers panic or fault, and panic if the allocations extend a little further. *)
Theorem C67_too_large : forall w B inp prev m, typed m -> validW m inp -> mb m !! B = None -> prev_ok prev ->
  exists st m1, returns (write_prev w B inp prev) m st m1 /\
  forall r k m2 st2 out, typed m2 -> validB m2 st2 -> bytes m2 st2 = bytes m1 st -> validW m2 out ->
  s_len inp < k < 2 ^ 63 ->
  (is_simd r = false \/ slack st2 out m2 -> panics (read_prev r k st2 out prev) m2) /\
  (result (run (read_prev r k st2 out prev) m2) = Panicked \/ result (run (read_prev r k st2 out prev) m2) = Faulted).
Proof.
  intros w B inp prev m Ht Hi Hf Hp. destruct (written_prev w B inp prev m Ht Hi Hf Hp) as (st & m1 & R & Eb). exists st, m1. split; [done|].
  intros r k m2 st2 out Ht2 Hs2 Eb2 Ho2 Hk. rewrite Eb in Eb2. set (xs := words m inp) in *. set (X := to_code prev xs) in *.
  assert (Lx : length xs = Z.to_nat (s_len inp)). { pose proof (contents_zlen _ _ (proj1 Hi)) as E. unfold zlen in E. change (contents (mw m) inp) with xs in E. lia. }
  assert (LX : length X = Z.to_nat (s_len inp)) by (unfold X; destruct prev; cbn [to_code]; rewrite ?deltas_length; done).
  assert (P0 : 0 <= s_len inp) by (destruct Hi as [(? & ? & ?) ?]; lia).
  assert (N : ~ well_formed (Z.to_nat k) (bytes m2 st2)).
  { apply (not_more (Z.to_nat (s_len inp))); [|lia]. rewrite Eb2, <- LX. pose proof (written_size X []) as W. rewrite app_nil_r in W. done. }
  destruct (is_simd r) eqn:Er.
  - assert (I : incomplete k st2 out m2) by (by left). split.
    + intros [|Sl]; [done|]. destruct prev as [p|]; cbn [read_prev]; [apply C14_fast_slack_delta_partial|apply C14_fast_slack_partial]; (done || lia).
    + destruct prev as [p|]; cbn [read_prev]; [apply C14_fast_delta_partial|apply C14_fast_partial]; (done || lia).
  - assert (P : panics (read_prev r k st2 out prev) m2).
    { destruct prev as [p|]; cbn [read_prev].
      - assert (E : read_delta r k st2 out p = ReadAllDeltaScalar k st2 out p) by (destruct r as [|b|[[] b|]]; (discriminate || reflexivity)). rewrite E. apply C14_scalar_delta; (done || lia).
      - assert (E : read r k st2 out = ReadAllScalar k st2 out) by (destruct r as [|b|[[] b|]]; (discriminate || reflexivity)). rewrite E. apply C14_scalar; (done || lia). }
    split; [done|by left].
Qed.
(** *** Examples *)
(** Five numbers, read with count 4: four wrong numbers, no panic.  Eight zeros read with count
    4: right.  Five numbers and one more byte, read with count 6: no panic either. *)
Definition ex67 (S : list Z) : mem := Mem {[ 3%nat := S ]} {[ 0%nat := replicate 8 7 ]}.
Definition st67 (S : list Z) : slice := Slice 3 0 (Z.of_nat (length S)) (Z.of_nat (length S)).
Definition try67 (S : list Z) (k : Z) : option (list Z) :=
  let x := run (ReadAllScalar k (st67 S) (Slice 0 0 8 8)) (ex67 S) in
  match result x with Ok _ => Some (take (Z.to_nat k) (words (final x) (Slice 0 0 8 8))) | _ => None end.
Example C67_example :
  let S := stream_of [1; 2; 3; 4; 300] in
  try67 S 5 = Some [1; 2; 3; 4; 300] /\ try67 S 4 = Some [1; 1; 2; 3] /\ try67 S 3 = Some [1; 1; 2] /\ try67 S 6 = None /\
  try67 (S ++ [9]) 6 = Some [1; 2; 3; 4; 300; 9] /\ try67 (stream_of (replicate 8 0)) 4 = Some [0; 0; 0; 0].
Proof. vm_compute. repeat split. Qed.
Example C67_hypotheses : let S := stream_of [1; 2; 3; 4; 300] in
  typed (ex67 S) /\ validB (ex67 S) (st67 S) /\ validW (ex67 S) (Slice 0 0 8 8) /\ room (RFast true) 5 (st67 S) (ex67 S).
Proof.
  split; [|split; [fits|split; [fits|vm_compute; discriminate]]].
  split.
  - intros b l E. cbn [mb ex67] in E. apply lookup_singleton_Some in E as [_ <-]. change (stream_of [1; 2; 3; 4; 300]) with [0; 1; 1; 2; 3; 4; 44; 1]. repeat (apply List.Forall_cons; [unfold is_byte; lia|]); apply List.Forall_nil.
  - intros b l E. cbn [mw ex67] in E. apply lookup_singleton_Some in E as [_ <-]. cbn [replicate]. repeat (apply List.Forall_cons; [unfold is_u32; lia|]); apply List.Forall_nil.
Qed.
