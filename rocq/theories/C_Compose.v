(** * Working on parts of a stream: C34 and C35 *)
From stdpp Require Import prelude gmap list.
From Coq Require Import ZArith Lia.
From Verif Require Import Spec SpecLemmas GoSem Shared Tables TableProof Asm Wp Encode Decode Writer EncodeProof AsmProof Api ApiLemmas Witness C_Writer C_Reader C_Prims C_Group8.
Local Open Scope Z_scope.

(** ** Sub-slices *)
(** s[k:] *)
Definition tail (s : slice) (k : Z) : slice := Slice (s_blk s) (s_off s + k) (s_len s - k) (s_cap s - k).
Lemma slice_from_tail s k m : 0 <= k <= s_len s -> s_len s < 2 ^ 63 -> returns (slice_from s k) m (tail s k) m.
Proof.
  intros Hk Hs. unfold slice_from. destruct (Z.leb_spec 0 k); [|lia]. destruct (Z.leb_spec k (s_len s)); [|lia]. done.
Qed.
Lemma contents_tail h s k : 0 <= s_off s -> 0 <= k <= s_len s -> contents h (tail s k) = drop (Z.to_nat k) (contents h s).
Proof.
  intros Ho Hk. unfold contents, tail. cbn. rewrite skipn_firstn_comm, drop_drop.
  f_equal; [lia|]. f_equal. lia.
Qed.
Lemma tail_fits h s k : fits h s -> 0 <= k <= s_len s -> fits h (tail s k).
Proof. unfold fits, tail. cbn. lia. Qed.
Lemma tail_validB m s k : validB m s -> 0 <= k <= s_len s -> validB m (tail s k).
Proof. intros [H1 H2] Hk. split; [by apply tail_fits|]. cbn. lia. Qed.
Lemma tail_validW m s k : validW m s -> 0 <= k <= s_len s -> validW m (tail s k).
Proof. intros [H1 H2] Hk. split; [by apply tail_fits|]. cbn. lia. Qed.

(** ** C34 *)
(** Where the data of group [g] starts in a stream [S] of [n] numbers, computed with
    the library's function. *)
Definition locate (n : nat) (S : list Z) (g : nat) : Z :=
  Z.of_nat (nctrl n) + fold_right Z.add 0 (map ControlByteToSize (take g S)).
Definition write_prev (w : writer) (B : nat) (inp : slice) (prev : option Z) : prog slice :=
  match prev with None => write w B inp | Some p => write_delta w B inp p end.
Definition get_part (prev : option Z) (inp out : slice) (c n : Z) : prog Z :=
  match prev with None => GetUint32Scalar inp out c n | Some p => GetUint32DeltaScalar inp out c n p end.
Definition get4 (prev : option Z) (inp out : slice) (c : Z) : prog unit :=
  match prev with None => Get4uint32Scalar inp out c | Some p => Get4uint32DeltaScalar inp out c p end.
(** The starting value for the numbers after [xs]. *)
Definition after (prev : option Z) (xs : list Z) : option Z := match prev with None => None | Some p => Some (default p (last xs)) end.

Lemma after_ok prev xs : prev_ok prev -> Forall is_u32 xs -> prev_ok (after prev xs).
Proof.
  destruct prev as [p|]; [|done]. cbn. intros Hp Hx. destruct (last xs) as [x|] eqn:E; [|done]. cbn.
  apply last_Some_elem_of in E. by eapply Forall_forall in Hx.
Qed.
Lemma to_code_app prev a b : to_code prev (a ++ b) = to_code prev a ++ to_code (after prev a) b.
Proof. destruct prev; [apply deltas_app|done]. Qed.
Lemma take_to_code prev n xs : take n (to_code prev xs) = to_code prev (take n xs).
Proof.
  destruct prev as [p|]; [|done]. cbn [to_code]. revert n p. induction xs as [|x xs IH]; intros [|n] p; cbn [take deltas]; [done..|]. by rewrite IH.
Qed.
Lemma sum_sizes a : (length a mod 4 = 0)%nat -> fold_right Z.add 0 (map ControlByteToSize (enc_ctrls a)) = Z.of_nat (length (enc_data a)).
Proof.
  induction a as [| | | |x y z t r IH] using list_ind4; cbn [length]; try done. intros H.
  change (enc_ctrls (x :: y :: z :: t :: r)) with (ctrl_of [x; y; z; t] :: enc_ctrls r).
  assert (H' : (length r mod 4 = 0)%nat) by (clear -H; pose proof (Nat.div_mod (S (S (S (S (length r))))) 4 ltac:(lia)) as E; rewrite H in E;
    symmetry; apply (Nat.mod_unique _ _ (S (S (S (S (length r)))) / 4 - 1)); lia).
  cbn [map fold_right]. rewrite IH, ControlByteToSize_ctrl_of by done.
  change (x :: y :: z :: t :: r) with ([x; y; z; t] ++ r). rewrite enc_data_app, app_length. unfold zlen. lia.
Qed.
Lemma located (xs : list Z) g S junk : (4 * g <= length xs)%nat -> S = stream_of xs ++ junk ->
  locate (length xs) S g = Z.of_nat (nctrl (length xs) + length (enc_data (take (4 * g) xs))) /\
  drop (Z.to_nat (locate (length xs) S g)) S = enc_data (drop (4 * g) xs) ++ junk /\
  ((4 * g < length xs)%nat -> nth g S 0 = ctrl_of (take 4 (drop (4 * g) xs))).
Proof.
  intros Hg ->. set (a := take (4 * g) xs). set (b := drop (4 * g) xs).
  assert (Ex : xs = a ++ b) by (symmetry; apply take_drop). assert (La : length a = (4 * g)%nat) by (unfold a; rewrite take_length; lia).
  assert (Lm : (length a mod 4 = 0)%nat) by (rewrite La, Nat.mul_comm; by apply Nat.mod_mul).
  assert (Lc : length (enc_ctrls a) = g). { rewrite enc_ctrls_length, La. unfold nctrl. symmetry. apply (Nat.div_unique _ 4 g 3); lia. }
  assert (ES : stream_of xs ++ junk = enc_ctrls a ++ enc_ctrls b ++ enc_data a ++ enc_data b ++ junk).
  { unfold stream_of. rewrite Ex at 1 2. rewrite enc_ctrls_app, enc_data_app by done. by rewrite <- !app_assoc. }
  assert (E1 : locate (length xs) (stream_of xs ++ junk) g = Z.of_nat (nctrl (length xs) + length (enc_data a))).
  { unfold locate. rewrite ES. rewrite <- Lc at 1. rewrite take_app, sum_sizes by done. lia. }
  split; [done|]. split.
  - rewrite E1, Nat2Z.id. rewrite <- enc_ctrls_length. unfold stream_of. rewrite <- app_assoc, drop_app_ge by lia. rewrite (Nat.add_comm (length (enc_ctrls xs))), Nat.add_sub.
    pose proof (f_equal enc_data Ex) as Ed. rewrite enc_data_app in Ed. rewrite Ed, <- app_assoc. apply drop_app.
  - intros Hlt. rewrite ES. rewrite app_nth2 by lia. rewrite Lc, Nat.sub_diag.
    assert (Lb : (0 < length b)%nat) by (unfold b; rewrite drop_length; lia). clearbody b. clear -Lb.
    destruct b as [|x1 [|x2 [|x3 [|x4 r]]]]; [cbn in Lb; lia|done..].
Qed.
Lemma written_prev w B inp prev m : typed m -> validW m inp -> mb m !! B = None -> prev_ok prev ->
  exists st m1, returns (write_prev w B inp prev) m st m1 /\ bytes m1 st = stream_of (to_code prev (words m inp)).
Proof. intros. destruct prev as [p|]; [by apply C04_delta_bytes|by apply C03_written_bytes]. Qed.

Section locate.
Variables (w : writer) (B : nat) (inp : slice) (prev : option Z) (m : mem).
Hypotheses (Ht : typed m) (Hi : validW m inp) (Hf : mb m !! B = None) (Hp : prev_ok prev).
Let xs := words m inp.
Let S := stream_of (to_code prev xs).
Lemma group_data st junk m2 g : validB m2 st -> bytes m2 st = S ++ junk -> (4 * g < length xs)%nat ->
  let off := locate (length xs) (bytes m2 st) g in
  0 <= off <= s_len st /\ validB m2 (tail st off) /\
  nth g (bytes m2 st) 0 = ctrl_of (to_code (after prev (take (4 * g) xs)) (take 4 (drop (4 * g) xs))) /\
  bytes m2 (tail st off) = enc_data (to_code (after prev (take (4 * g) xs)) (drop (4 * g) xs)) ++ junk.
Proof.
  intros Hs Eb Hg. cbn. destruct (located (to_code prev xs) g (bytes m2 st) junk) as (L1 & L2 & L3); [rewrite to_code_length; lia|done|].
  rewrite to_code_length in *. specialize (L3 Hg). set (off := locate _ _ _) in *.
  assert (Ed : drop (4 * g) (to_code prev xs) = to_code (after prev (take (4 * g) xs)) (drop (4 * g) xs)).
  { rewrite <- (take_drop (4 * g) xs) at 1. rewrite to_code_app, drop_app_alt; [done|]. rewrite to_code_length, take_length. lia. }
  assert (Hoff : 0 <= off <= s_len st).
  { split; [lia|]. pose proof (f_equal length Eb) as Lb. unfold bytes in Lb. rewrite contents_length in Lb by apply Hs.
    unfold S in Lb. rewrite app_length, stream_of_length, <- enc_data_length, to_code_length in Lb.
    pose proof (f_equal enc_data (take_drop (4 * g) (to_code prev xs))) as G. rewrite enc_data_app in G. apply (f_equal length) in G. rewrite app_length in G.
    destruct Hs as [(? & ? & ?) _]. lia. }
  split; [done|]. split; [by apply tail_validB|]. split.
  - by rewrite L3, Ed, take_to_code.
  - unfold bytes at 1. rewrite contents_tail; [|apply Hs|done]. fold (bytes m2 st). by rewrite L2, Ed.
Qed.
End locate.

(** A reader of group [g] alone: control byte st[g], data from st[off:] on. *)
Definition read_group (prev : option Z) (st out : slice) (g off : Z) : prog unit :=
  let! c := getB st g in let! t := slice_from st off in get4 prev t out c.
Definition read_part (prev : option Z) (st out : slice) (g off n : Z) : prog Z :=
  let! c := getB st g in let! t := slice_from st off in get_part prev t out c n.
(** Two groups at once, by any implementation of Get8uint32. *)
Definition read_pair (e : impl) (prev : option Z) (st out : slice) (g off : Z) : prog unit :=
  let! c0 := getB st g in let! c1 := getB st (g + 1) in let! t := slice_from st off in get8 e prev t out (c0 + 256 * c1).

Lemma getB_returns m s i : fits (mb m) s -> 0 <= i < s_len s -> returns (getB s i) m (nth (Z.to_nat i) (bytes m s) 0) m.
Proof.
  intros Hf Hi. pose proof Hf as (F1 & F2 & F3). unfold getB, check_idx. destruct (Z.leb_spec 0 i); [|lia]. destruct (Z.ltb_spec i (s_len s)); [|lia]. cbn.
  unfold returns, result, final. cbn. unfold hget, bytes, contents. destruct (Z.leb_spec 0 (s_off s + i)); [|lia]. cbn.
  destruct (mb m !! s_blk s) as [l|] eqn:E; cbn in *; [|lia].
  destruct (lookup_lt_is_Some_2 l (Z.to_nat (s_off s + i)) ltac:(lia)) as [x Hx]. rewrite Hx. cbn. split; [|done]. f_equal.
  symmetry. apply nth_lookup_Some. rewrite lookup_take by lia. rewrite lookup_drop. rewrite <- Hx. f_equal. lia.
Qed.
Lemma getW_returns m s i : fits (mw m) s -> 0 <= i < s_len s -> returns (getW s i) m (nth (Z.to_nat i) (words m s) 0) m.
Proof.
  intros Hf Hi. pose proof Hf as (F1 & F2 & F3). unfold getW, check_idx. destruct (Z.leb_spec 0 i); [|lia]. destruct (Z.ltb_spec i (s_len s)); [|lia]. cbn.
  unfold returns, result, final. cbn. unfold hget, words, contents. destruct (Z.leb_spec 0 (s_off s + i)); [|lia]. cbn.
  destruct (mw m !! s_blk s) as [l|] eqn:E; cbn in *; [|lia].
  destruct (lookup_lt_is_Some_2 l (Z.to_nat (s_off s + i)) ltac:(lia)) as [x Hx]. rewrite Hx. cbn. split; [|done]. f_equal.
  symmetry. apply nth_lookup_Some. rewrite lookup_take by lia. rewrite lookup_drop. rewrite <- Hx. f_equal. lia.
Qed.
Lemma get4_inverts prev xs inp out m : typed m -> validB m inp -> validW m out -> Forall is_u32 xs -> length xs = 4%nat ->
  let D := enc_data (to_code prev xs) in take (length D) (bytes m inp) = D -> 4 <= s_len out ->
  exists m', returns (get4 prev inp out (ctrl_of (to_code prev xs))) m tt m' /\ stores_words m m' out xs.
Proof. intros Ht Hi Ho Hx H4 D HS H4o. destruct prev as [p|]; [by apply C21_Get4Delta_inverts|by apply C21_Get4_inverts]. Qed.
Lemma get_part_inverts prev xs inp out m n : typed m -> validB m inp -> validW m out -> Forall is_u32 xs -> (length xs <= 4)%nat ->
  let D := enc_data (to_code prev xs) in take (length D) (bytes m inp) = D -> Z.of_nat (length xs) <= s_len out -> n = Z.of_nat (length xs) ->
  exists m', returns (get_part prev inp out (ctrl_of (to_code prev xs)) n) m (Z.of_nat (length D)) m' /\ stores_words m m' out xs.
Proof.
  intros Ht Hi Ho Hx H4 D HS H4o Hn. assert (Hc : clipped n = Z.of_nat (length xs)) by (unfold clipped; lia).
  destruct prev as [p|]; [by apply C20_GetDelta_inverts|by apply C20_Get_inverts].
Qed.
(** The bytes of [st2] are those the writer returned, perhaps followed by others. *)
Theorem C34_group : forall w B inp prev m, typed m -> validW m inp -> mb m !! B = None -> prev_ok prev ->
  exists st m1, returns (write_prev w B inp prev) m st m1 /\
  forall m2 st2 junk out g, typed m2 -> validB m2 st2 -> bytes m2 st2 = bytes m1 st ++ junk -> validW m2 out -> 4 <= s_len out ->
  (4 * g + 4 <= length (words m inp))%nat ->
  exists m3, returns (read_group (after prev (take (4 * g) (words m inp))) st2 out (Z.of_nat g) (locate (length (words m inp)) (bytes m2 st2) g)) m2 tt m3 /\
    stores_words m2 m3 out (take 4 (drop (4 * g) (words m inp))).
Proof.
  intros w B inp prev m Ht Hi Hf Hp. destruct (written_prev w B inp prev m Ht Hi Hf Hp) as (st & m1 & R & Eb). exists st, m1. split; [done|].
  intros m2 st2 junk out g Ht2 Hs2 Eb2 Ho2 H4 Hg. rewrite Eb in Eb2. set (xs := words m inp) in *.
  destruct (group_data inp prev m st2 junk m2 g Hs2 Eb2 ltac:(fold xs; lia)) as (G1 & G2 & G3 & G4). fold xs in G1, G2, G3, G4. set (off := locate _ _ _) in *.
  set (ys := take 4 (drop (4 * g) xs)) in *. set (pv := after prev _) in *.
  assert (Ly : length ys = 4%nat) by (unfold ys; rewrite take_length, drop_length; lia).
  destruct (get4_inverts pv ys (tail st2 off) out m2) as (m3 & R3 & S3); try done.
  - apply Forall_take, Forall_drop. by apply typed_words.
  - rewrite G4. rewrite <- (take_drop 4 (drop (4 * g) xs)). fold ys. rewrite to_code_app, enc_data_app, <- app_assoc. apply take_app.
  - exists m3. split; [|done]. unfold read_group. eapply returns_bind; [apply getB_returns; [apply Hs2|]|].
    + pose proof (f_equal length Eb2) as Lb. unfold bytes in Lb. rewrite contents_length in Lb by apply Hs2.
      rewrite app_length, stream_of_length, <- enc_data_length, to_code_length in Lb. pose proof (enc_data_bounds (to_code prev xs)) as Hb. rewrite to_code_length in Hb.
      destruct Hs2 as [(? & ? & ?) _]. lia.
    + rewrite Nat2Z.id, G3. eapply returns_bind; [apply slice_from_tail; [done|destruct Hs2 as [(? & ? & ?) ?]; lia]|done].
Qed.
(** The last group may be shorter. *)
Theorem C34_last_group : forall w B inp prev m, typed m -> validW m inp -> mb m !! B = None -> prev_ok prev ->
  exists st m1, returns (write_prev w B inp prev) m st m1 /\
  forall m2 st2 junk out g, typed m2 -> validB m2 st2 -> bytes m2 st2 = bytes m1 st ++ junk -> validW m2 out ->
  let ys := take 4 (drop (4 * g) (words m inp)) in
  (4 * g < length (words m inp))%nat -> Z.of_nat (length ys) <= s_len out ->
  exists m3, returns (read_part (after prev (take (4 * g) (words m inp))) st2 out (Z.of_nat g) (locate (length (words m inp)) (bytes m2 st2) g) (Z.of_nat (length ys)))
      m2 (Z.of_nat (length (enc_data (to_code (after prev (take (4 * g) (words m inp))) ys)))) m3 /\
    stores_words m2 m3 out ys.
Proof.
  intros w B inp prev m Ht Hi Hf Hp. destruct (written_prev w B inp prev m Ht Hi Hf Hp) as (st & m1 & R & Eb). exists st, m1. split; [done|].
  intros m2 st2 junk out g Ht2 Hs2 Eb2 Ho2 ys Hg H4. rewrite Eb in Eb2. set (xs := words m inp) in *.
  destruct (group_data inp prev m st2 junk m2 g Hs2 Eb2 ltac:(fold xs; lia)) as (G1 & G2 & G3 & G4). fold xs in G1, G2, G3, G4. set (off := locate _ _ _) in *.
  fold ys in G3. set (pv := after prev _) in *.
  assert (Ly : (length ys <= 4)%nat) by (unfold ys; rewrite take_length; lia).
  destruct (get_part_inverts pv ys (tail st2 off) out m2 (Z.of_nat (length ys))) as (m3 & R3 & S3); try done.
  - apply Forall_take, Forall_drop. by apply typed_words.
  - rewrite G4. rewrite <- (take_drop 4 (drop (4 * g) xs)). fold ys. rewrite to_code_app, enc_data_app, <- app_assoc. apply take_app.
  - exists m3. split; [|done]. unfold read_part. eapply returns_bind; [apply getB_returns; [apply Hs2|]|].
    + pose proof (f_equal length Eb2) as Lb. unfold bytes in Lb. rewrite contents_length in Lb by apply Hs2.
      rewrite app_length, stream_of_length, <- enc_data_length, to_code_length in Lb. pose proof (enc_data_bounds (to_code prev xs)) as Hb. rewrite to_code_length in Hb.
      destruct Hs2 as [(? & ? & ?) _]. lia.
    + rewrite Nat2Z.id, G3. eapply returns_bind; [apply slice_from_tail; [done|destruct Hs2 as [(? & ? & ?) ?]; lia]|done].
Qed.
(** Two neighbouring groups with Get8uint32; a SIMD implementation needs the 16
    bytes it loads for each group to exist. *)
Theorem C34_pair : forall w B inp prev m, typed m -> validW m inp -> mb m !! B = None -> prev_ok prev ->
  exists st m1, returns (write_prev w B inp prev) m st m1 /\
  forall e m2 st2 junk out g, typed m2 -> validB m2 st2 -> bytes m2 st2 = bytes m1 st ++ junk -> validW m2 out -> 8 <= s_len out ->
  let off := locate (length (words m inp)) (bytes m2 st2) g in
  (4 * g + 8 <= length (words m inp))%nat ->
  (get_simd e = true -> s_off st2 + off + 32 <= Z.of_nat (length (default [] (mb m2 !! s_blk st2)))) ->
  exists m3, returns (read_pair e (after prev (take (4 * g) (words m inp))) st2 out (Z.of_nat g) off) m2 tt m3 /\
    stores_words m2 m3 out (take 8 (drop (4 * g) (words m inp))).
Proof.
  intros w B inp prev m Ht Hi Hf Hp. destruct (written_prev w B inp prev m Ht Hi Hf Hp) as (st & m1 & R & Eb). exists st, m1. split; [done|].
  intros e m2 st2 junk out g Ht2 Hs2 Eb2 Ho2 H8 off Hg Hroom. rewrite Eb in Eb2. set (xs := words m inp) in *.
  destruct (group_data inp prev m st2 junk m2 g Hs2 Eb2 ltac:(fold xs; lia)) as (G1 & G2 & G3 & G4). fold xs in G1, G2, G3, G4. fold off in G1, G2, G3, G4.
  destruct (group_data inp prev m st2 junk m2 (g + 1) Hs2 Eb2 ltac:(fold xs; lia)) as (_ & _ & G5 & _). fold xs in G5.
  set (ys := take 8 (drop (4 * g) xs)) in *. set (pv := after prev (take (4 * g) xs)) in *.
  assert (Ly : length ys = 8%nat) by (unfold ys; rewrite take_length, drop_length; lia).
  assert (Hx : Forall is_u32 xs) by (by apply typed_words).
  assert (Hpv : prev_ok pv) by (apply after_ok; [done|by apply Forall_take]).
  assert (Ec : nth g (bytes m2 st2) 0 + 256 * nth (g + 1) (bytes m2 st2) 0 = ctrl8_of (to_code pv ys)).
  { rewrite G3, G5. unfold ctrl8_of. f_equal; [|f_equal]; f_equal.
    - rewrite take_to_code. unfold ys. by rewrite take_take.
    - assert (Ey : ys = take 4 (drop (4 * g) xs) ++ take 4 (drop (4 * (g + 1)) xs)).
      { unfold ys. rewrite <- (take_drop 4 (take 8 _)). rewrite take_take. f_equal. rewrite skipn_firstn_comm, drop_drop. do 2 f_equal. lia. }
      rewrite Ey, to_code_app, drop_app_alt by (rewrite to_code_length, take_length, drop_length; lia).
      f_equal. unfold pv, after. destruct prev as [p|]; [|done]. f_equal.
      assert (Et : take (4 * (g + 1)) xs = take (4 * g) xs ++ take 4 (drop (4 * g) xs)).
      { rewrite <- (take_drop (4 * g) (take (4 * (g + 1)) xs)), take_take, skipn_firstn_comm. f_equal; f_equal; lia. }
      rewrite Et, last_app.
      destruct (last (take 4 (drop (4 * g) xs))) eqn:El; [done|].
      apply last_None in El. apply (f_equal length) in El. rewrite take_length, drop_length in El. cbn [length] in El. lia. }
  destruct (C17_get8_inverts e pv ys (tail st2 off) out m2) as (m3 & R3 & S3); try done.
  - by apply Forall_take, Forall_drop.
  - rewrite G4. rewrite <- (take_drop 8 (drop (4 * g) xs)). fold ys. rewrite to_code_app, enc_data_app, <- app_assoc. apply take_app.
  - unfold get_room, tail. cbn [s_off s_blk]. destruct (get_simd e) eqn:Es.
    + pose proof (looks_le e (ctrl8_of (to_code pv ys))). specialize (Hroom eq_refl). lia.
    + unfold looks. rewrite Es, ctrl8_lens_of, <- enc_data_length by (by rewrite to_code_length).
      pose proof (f_equal length G4) as L4. unfold bytes in L4. rewrite contents_length in L4 by apply G2. unfold tail in L4. cbn [s_len] in L4. rewrite app_length in L4.
      rewrite <- (take_drop 8 (drop (4 * g) xs)) in L4. fold ys in L4. rewrite to_code_app, enc_data_app, app_length in L4.
      destruct Hs2 as [(? & ? & ?) _]. lia.
  - exists m3. split; [|done]. unfold read_pair.
    assert (Hlen : Z.of_nat g + 1 < s_len st2).
    { pose proof (f_equal length Eb2) as Lb. unfold bytes in Lb. rewrite contents_length in Lb by apply Hs2.
      rewrite app_length, stream_of_length, <- enc_data_length, to_code_length in Lb. pose proof (enc_data_bounds (to_code prev xs)) as Hb. rewrite to_code_length in Hb.
      destruct Hs2 as [(? & ? & ?) _]. lia. }
    eapply returns_bind; [apply getB_returns; [apply Hs2|lia]|].
    eapply returns_bind; [apply getB_returns; [apply Hs2|lia]|].
    eapply returns_bind; [apply slice_from_tail; [done|destruct Hs2 as [(? & ? & ?) ?]; lia]|].
    rewrite Nat2Z.id. replace (Z.to_nat (Z.of_nat g + 1)) with (g + 1)%nat by lia. rewrite Ec. done.
Qed.
Example C34_case :
  let r := run (let! st := WriteAllDelta (AMD64 true true) 9 ex_in 3 in
                read_pair (Dispatch (AMD64 true false)) (after (Some 3) (take 12 ex_nums)) st ex_out 3 (locate 37 (stream_of (deltas 3 ex_nums)) 3)) ex_mem in
  result r = Ok tt /\ take 8 (words (final r) ex_out) = take 8 (drop 12 ex_nums).
Proof. vm_compute. done. Qed.

(** ** C35 *)
(** Encode one batch of eight after the other, each with an implementation of its
    own: the data bytes go to [out] one batch after the other, the controls are returned. *)
Fixpoint put_batches (es : list impl) (prev : option Z) (inp out : slice) : prog (list Z) :=
  match es with
  | [] => Ret []
  | e :: r =>
      let! c := put8 e prev inp out in
      let! out' := slice_from out (ControlByteToSizeTwo c) in
      let! p := (match prev with None => Ret None | Some _ => let! x := getW inp 7 in Ret (Some x) end) in
      let! inp' := slice_from inp 8 in
      let! cs := put_batches r p inp' out' in
      Ret (c :: cs)
  end.
Fixpoint get_batches (ecs : list (impl * Z)) (prev : option Z) (inp out : slice) : prog unit :=
  match ecs with
  | [] => Ret tt
  | (e, c) :: r =>
      get8 e prev inp out c ;;;
      let! inp' := slice_from inp (ControlByteToSizeTwo c) in
      let! p := (match prev with None => Ret None | Some _ => let! x := getW out 7 in Ret (Some x) end) in
      let! out' := slice_from out 8 in
      get_batches r p inp' out'
  end.

(** *** Successive stores *)
Definition stores (h h' : gmap nat (list Z)) (s : slice) (D : list Z) : Prop :=
  same_except h h' (s_blk s) (s_off s) (Z.of_nat (length D)) /\ take (length D) (contents h' s) = D.
Lemma stores_fits h h' s D s' : stores h h' s D -> fits h s' -> fits h' s'.
Proof.
  intros ((H1 & H2 & _) & _) (A1 & A2 & A3). split; [done|]. split; [done|].
  destruct (decide (s_blk s' = s_blk s)) as [E|E]; [rewrite E in *; by rewrite H2|by rewrite H1].
Qed.
Lemma contents_hget h s i : fits h s -> 0 <= i < s_len s -> contents h s !! Z.to_nat i = hget h (s_blk s) (s_off s + i).
Proof.
  intros (A1 & A2 & A3) Hi. unfold contents, hget. destruct (Z.leb_spec 0 (s_off s + i)); [|lia]. cbn.
  rewrite lookup_take by lia. rewrite lookup_drop. destruct (h !! s_blk s); cbn; [f_equal; lia|done].
Qed.
Lemma stores_iff h h' s D : fits h s -> Z.of_nat (length D) <= s_len s -> stores h h' s D <->
  (forall b', b' <> s_blk s -> h' !! b' = h !! b') /\
  length (default [] (h' !! s_blk s)) = length (default [] (h !! s_blk s)) /\
  forall i, hget h' (s_blk s) (s_off s + i) = if (0 <=? i) && (i <? Z.of_nat (length D)) then D !! Z.to_nat i else hget h (s_blk s) (s_off s + i).
Proof.
  intros Hf HD. pose proof Hf as (A1 & A2 & A3). split.
  - intros HS. pose proof (stores_fits _ _ _ _ s HS Hf) as Hf'. destruct HS as ((H1 & H2 & H3) & H4).
    split; [done|]. split; [done|]. intros i. destruct (Z.leb_spec 0 i), (Z.ltb_spec i (Z.of_nat (length D))); cbn.
    + rewrite <- (contents_hget h' s i) by (done || lia). rewrite <- H4 at 1. by rewrite lookup_take by lia.
    + apply H3. lia. + apply H3. lia. + apply H3. lia.
  - intros (H1 & H2 & H3). assert (Hf' : fits h' s) by (unfold fits; rewrite H2; lia). split; [split; [done|split; [done|]]|].
    + intros i Hi. specialize (H3 (i - s_off s)). replace (s_off s + (i - s_off s)) with i in H3 by lia. rewrite H3.
      destruct (Z.leb_spec 0 (i - s_off s)), (Z.ltb_spec (i - s_off s) (Z.of_nat (length D))); cbn; (done || lia).
    + apply list_eq. intros i. destruct (decide (i < length D)%nat) as [Hi|Hi].
      * rewrite lookup_take by done. rewrite <- (Nat2Z.id i) at 1. rewrite contents_hget by (done || lia). rewrite H3.
        destruct (Z.leb_spec 0 (Z.of_nat i)), (Z.ltb_spec (Z.of_nat i) (Z.of_nat (length D))); try lia. cbn. by rewrite Nat2Z.id.
      * rewrite !lookup_ge_None_2; [done|lia|]. rewrite take_length. lia.
Qed.
Lemma stores_then h h1 h2 s (D1 Z1 E : list Z) : fits h s -> Z.of_nat (length (D1 ++ Z1)) <= s_len s ->
  Z.of_nat (length D1 + length E) <= s_len s ->
  stores h h1 s (D1 ++ Z1) -> stores h1 h2 (tail s (Z.of_nat (length D1))) E ->
  stores h h2 s (D1 ++ E ++ drop (length E) Z1).
Proof.
  intros Hf L1 L2 S1 S2. pose proof (stores_fits _ _ _ _ s S1 Hf) as Hf1.
  assert (Hft : fits h1 (tail s (Z.of_nat (length D1)))) by (apply tail_fits; [done|lia]).
  apply (stores_iff h h1) in S1; [|done|done]. apply (stores_iff h1 h2) in S2; [|done|unfold tail; cbn; lia].
  apply stores_iff; [done| |].
  { rewrite !app_length, drop_length in *. lia. }
  destruct S1 as (P1 & P2 & P3), S2 as (Q1 & Q2 & Q3). cbn in Q1, Q2. split; [intros b' Hb; by rewrite Q1, P1|]. split; [congruence|].
  intros i. specialize (Q3 (i - Z.of_nat (length D1))). unfold tail in Q3. cbn [s_off s_blk] in Q3.
  replace (s_off s + Z.of_nat (length D1) + (i - Z.of_nat (length D1))) with (s_off s + i) in Q3 by lia. rewrite Q3, P3. clear Q3.
  rewrite !app_length, drop_length in *.
  destruct (Z.leb_spec 0 (i - Z.of_nat (length D1))), (Z.ltb_spec (i - Z.of_nat (length D1)) (Z.of_nat (length E))), (Z.leb_spec 0 i); try lia; cbn [andb].
  - destruct (Z.ltb_spec i (Z.of_nat (length D1 + (length E + (length Z1 - length E))))); [|lia].
    rewrite lookup_app_r by lia. rewrite lookup_app_l by lia. f_equal. lia.
  - destruct (Z.ltb_spec i (Z.of_nat (length D1 + length Z1))), (Z.ltb_spec i (Z.of_nat (length D1 + (length E + (length Z1 - length E))))); try lia; try done.
    rewrite !lookup_app_r by lia. rewrite lookup_drop. f_equal. lia.
  - destruct (Z.ltb_spec i (Z.of_nat (length D1 + length Z1))), (Z.ltb_spec i (Z.of_nat (length D1 + (length E + (length Z1 - length E))))); try lia; try done.
    all: try (rewrite !lookup_app_l by lia; done).
  - done.
Qed.
Lemma stores_all (P : Z -> Prop) h h' s D : (forall b l, h !! b = Some l -> Forall P l) -> fits h s -> Z.of_nat (length D) <= s_len s ->
  stores h h' s D -> Forall P D -> forall b l, h' !! b = Some l -> Forall P l.
Proof.
  intros Hall Hf HD HS HP b l Hl. pose proof Hf as (A1 & A2 & A3). apply (stores_iff h h') in HS as (H1 & H2 & H3); [|done|done].
  destruct (decide (b = s_blk s)) as [->|E]; [|rewrite H1 in Hl by done; by eapply Hall].
  apply Forall_lookup. intros i x Hx. specialize (H3 (Z.of_nat i - s_off s)). replace (s_off s + (Z.of_nat i - s_off s)) with (Z.of_nat i) in H3 by lia.
  unfold hget in H3. destruct (Z.leb_spec 0 (Z.of_nat i)); [|lia]. rewrite Hl in H3. cbn [mbind option_bind] in H3. rewrite Nat2Z.id, Hx in H3.
  destruct ((0 <=? Z.of_nat i - s_off s) && (Z.of_nat i - s_off s <? Z.of_nat (length D))).
  - eapply Forall_lookup; [exact HP|by symmetry].
  - destruct (h !! s_blk s) as [l0|] eqn:E0; cbn in H3; [|done]. eapply Forall_lookup; [by eapply Hall|by symmetry].
Qed.
Lemma stores_words_typed m m' s D : typed m -> validW m s -> Z.of_nat (length D) <= s_len s -> stores_words m m' s D -> Forall is_u32 D -> typed m'.
Proof.
  intros [Tb Tw] Hv HD (H0 & HS) HF. split; [by rewrite H0|]. eapply stores_all; [exact Tw|apply Hv|exact HD|exact HS|exact HF].
Qed.
Lemma stores_words_validW m m' s D s' : stores_words m m' s D -> validW m s' -> validW m' s'.
Proof. intros (_ & HS) [H1 H2]. split; [by eapply stores_fits|done]. Qed.
Lemma stores_words_validB m m' s D s' : stores_words m m' s D -> validB m s' -> validB m' s'.
Proof. intros (H & _). unfold validB, fits. by rewrite H. Qed.
Lemma stores_nil h s : stores h h s [].
Proof. split; [done|by rewrite take_0]. Qed.

(** *** Encoding *)
Lemma le2_ctrl8 ys : length ys = 8%nat -> le 2 (ctrl8_of ys) = enc_ctrls ys.
Proof.
  intros H. pose proof (ctrl_of_byte (take 4 ys) ltac:(rewrite take_length; lia)) as B1. pose proof (ctrl_of_byte (drop 4 ys) ltac:(rewrite drop_length; lia)) as B2.
  assert (E : enc_ctrls ys = [ctrl_of (take 4 ys); ctrl_of (drop 4 ys)]) by (destruct ys as [|a [|b [|c [|d [|e [|f [|g [|h [|]]]]]]]]]; done).
  rewrite E. unfold ctrl8_of. generalize dependent (ctrl_of (take 4 ys)). generalize dependent (ctrl_of (drop 4 ys)). unfold is_byte.
  intros c1 H1 c0 H0. cbn [le]. assert (E1 : (c0 + 256 * c1) mod 256 = c0) by (clear -H0; Z.to_euclidean_division_equations; lia).
  assert (E2 : (c0 + 256 * c1) / 256 = c1) by (clear -H0; Z.to_euclidean_division_equations; lia).
  rewrite E1, E2, Z.mod_small by lia. done.
Qed.
Lemma size_ctrl8 ys : length ys = 8%nat -> ControlByteToSizeTwo (ctrl8_of ys) = Z.of_nat (length (enc_data ys)).
Proof.
  intros H. rewrite ControlByteToSizeTwo_lens by (by apply ctrl8_of_u16). pose proof (ctrl8_lens_of ys H) as E. unfold ctrl8_lens in E.
  apply (f_equal sum_nat) in E. rewrite sum_nat_app in E. rewrite E, enc_data_length. done.
Qed.
Lemma last_take8 (l : list Z) p : (8 <= length l)%nat -> default p (last (take 8 l)) = nth 7 l 0.
Proof. intros H. destruct l as [|a [|b [|c [|d [|e [|f [|g [|h r]]]]]]]]; cbn in H; try lia. done. Qed.
(** [prev] for the next batch, read from memory. *)
Lemma next_prev (prev : option Z) m s : fits (mw m) s -> 8 <= s_len s ->
  returns (match prev with None => Ret None | Some _ => let! x := getW s 7 in Ret (Some x) end) m (after prev (take 8 (words m s))) m.
Proof.
  intros Hf H8. destruct prev as [p|]; [|done]. eapply returns_bind; [apply getW_returns; [done|lia]|].
  unfold after. rewrite last_take8; [done|]. unfold words. rewrite contents_length by done. lia.
Qed.
Lemma take_8_n {A} n (l : list A) : take (8 * S n) l = take 8 l ++ take (8 * n) (drop 8 l).
Proof. rewrite <- (take_drop 8 (take (8 * S n) l)), take_take, skipn_firstn_comm. f_equal; f_equal; lia. Qed.

Theorem C35_encode : forall es prev inp out m, typed m -> validW m inp -> validB m out -> prev_ok prev ->
  8 * Z.of_nat (length es) <= s_len inp -> 32 * Z.of_nat (length es) <= s_len out ->
  let ys := to_code prev (take (8 * length es) (words m inp)) in
  exists cs m' zeros, returns (put_batches es prev inp out) m cs m' /\
    concat (map (le 2) cs) = enc_ctrls ys /\
    stores_bytes m m' out (enc_data ys ++ replicate zeros 0) /\ (length (enc_data ys) + zeros <= 32 * length es)%nat.
Proof.
  induction es as [|e es IH]; intros prev inp out m Ht Hi Ho Hp Hin Hout ys.
  - exists [], m, 0%nat. assert (Ey : ys = []) by (unfold ys; cbn; by destruct prev). rewrite Ey.
    split; [done|]. split; [done|]. split; [|cbn; lia]. split; [done|]. apply (stores_nil (mb m) out).
  - cbn [length] in Hin, Hout. set (xs := words m inp) in *. set (x1 := take 8 xs). set (y1 := to_code prev x1).
    destruct (C15_put8 e prev inp out m Ht Hi Ho Hp ltac:(lia) ltac:(lia)) as (m1 & R1 & S1 & L1 & _). fold xs x1 y1 in R1, S1, L1.
    assert (Lx : length xs = Z.to_nat (s_len inp)) by (apply contents_length, Hi).
    assert (Ly : length y1 = 8%nat) by (unfold y1, x1; rewrite to_code_length, take_length; lia).
    set (D1 := enc_data y1) in *. set (Z1 := replicate (pad e y1) 0) in *.
    assert (LD : length (D1 ++ Z1) = (length D1 + pad e y1)%nat) by (unfold Z1; by rewrite app_length, replicate_length).
    set (out' := tail out (Z.of_nat (length D1))). set (inp' := tail inp 8). set (p' := after prev x1).
    assert (Hx : Forall is_u32 xs) by (by apply typed_words).
    assert (Ht1 : typed m1). { eapply stores_bytes_typed; [exact Ht|exact Ho| |exact S1|]; [lia|]. apply Forall_app. split; [apply enc_data_bytes|]. apply Forall_replicate. unfold is_byte. lia. }
    assert (Hi1 : validW m1 inp) by (by eapply stores_bytes_validW). assert (Ho1 : validB m1 out) by (by eapply stores_bytes_valid).
    assert (Ew : words m1 inp = xs) by (unfold xs, words; by rewrite (proj1 S1)).
    assert (Ew' : words m1 inp' = drop 8 xs) by (unfold words, inp'; rewrite contents_tail; [fold (words m1 inp); by rewrite Ew|apply Hi|lia]).
    destruct (IH p' inp' out' m1) as (cs & m2 & z2 & R2 & C2 & S2 & L2); [done|apply tail_validW; [done|lia]|apply tail_validB; [done|lia]|apply after_ok; [done|by apply Forall_take]|cbn; lia|cbn; lia|].
    rewrite Ew' in C2, S2, L2. set (y2 := to_code p' (take (8 * length es) (drop 8 xs))) in *.
    assert (Ey : ys = y1 ++ y2). { unfold ys. cbn [length]. rewrite take_8_n. fold x1. by rewrite to_code_app. }
    exists (ctrl8_of y1 :: cs), m2, (z2 + (pad e y1 - (length (enc_data y2) + z2)))%nat. split; [|split; [|split]].
    + cbn [put_batches]. eapply returns_bind; [exact R1|]. rewrite size_ctrl8 by done. fold D1.
      eapply returns_bind; [apply slice_from_tail; [lia|destruct Ho as [(? & ? & ?) ?]; lia]|]. fold out'.
      eapply returns_bind; [apply (next_prev prev m1 inp); [apply Hi1|lia]|]. rewrite Ew. fold x1 p'.
      eapply returns_bind; [apply slice_from_tail; [lia|destruct Hi as [(? & ? & ?) ?]; lia]|]. fold inp'.
      eapply returns_bind; [exact R2|]. done.
    + cbn [map concat]. rewrite C2, le2_ctrl8, Ey, enc_ctrls_app by (done || by rewrite Ly). done.
    + destruct S1 as (W1 & S1), S2 as (W2 & S2). split; [congruence|].
      pose proof (stores_then (mb m) (mb m1) (mb m2) out D1 Z1 (enc_data y2 ++ replicate z2 0) (proj1 Ho) ltac:(rewrite LD; lia) ltac:(rewrite app_length, replicate_length; lia) S1 S2) as G.
      assert (E : enc_data ys ++ replicate (z2 + (pad e y1 - (length (enc_data y2) + z2))) 0 = D1 ++ (enc_data y2 ++ replicate z2 0) ++ drop (length (enc_data y2 ++ replicate z2 0)) Z1).
      { rewrite Ey, enc_data_app. unfold Z1. rewrite drop_replicate, app_length, replicate_length. rewrite replicate_add. by rewrite <- !app_assoc. }
      rewrite E. exact G.
    + rewrite Ey, enc_data_app, app_length. fold D1. cbn [length]. lia.
Qed.
(** These are the bytes of the stream WriteAll / WriteAllDelta makes of the same numbers. *)
Theorem C35_same_as_stream : forall w B es prev inp out m, typed m -> validW m inp -> validB m out -> mb m !! B = None -> prev_ok prev ->
  8 * Z.of_nat (length es) = s_len inp -> 32 * Z.of_nat (length es) <= s_len out ->
  exists cs D m' st m1, returns (put_batches es prev inp out) m cs m' /\ returns (write_prev w B inp prev) m st m1 /\
    bytes m1 st = concat (map (le 2) cs) ++ D /\ take (length D) (bytes m' out) = D.
Proof.
  intros w B es prev inp out m Ht Hi Ho Hf Hp Hin Hout.
  destruct (C35_encode es prev inp out m Ht Hi Ho Hp ltac:(lia) Hout) as (cs & m' & z & R & C & S & L).
  destruct (written_prev w B inp prev m Ht Hi Hf Hp) as (st & m1 & R1 & E1). exists cs, (enc_data (to_code prev (words m inp))), m', st, m1. split; [done|]. split; [done|].
  assert (Lx : length (words m inp) = (8 * length es)%nat) by (unfold words; rewrite contents_length by apply Hi; lia).
  rewrite take_ge in C, S, L by lia. rewrite C, E1. split; [done|].
  destruct S as (_ & _ & S). apply (f_equal (take (length (enc_data (to_code prev (words m inp)))))) in S.
  rewrite take_take, take_app, app_length, Nat.min_l in S by lia. done.
Qed.

(** *** Decoding *)
Lemma of_code_app prev a b : of_code prev (a ++ b) = of_code prev a ++ of_code (after prev (of_code prev a)) b.
Proof. destruct prev; [apply running_sums_app|done]. Qed.
Lemma numbers_app a b S : numbers (a ++ b) S = numbers a S ++ numbers b (drop (sum_nat a) S).
Proof. unfold numbers. by rewrite cut_app, map_app. Qed.
Lemma numbers8_u32 c S : Forall is_byte S -> Forall is_u32 (numbers (ctrl8_lens c) S).
Proof.
  intros H. unfold ctrl8_lens. rewrite numbers_app. apply Forall_app. split; apply le_val_cut_u32; [done|by apply Forall_drop].
Qed.
Lemma of_code_u32 prev xs : Forall is_u32 xs -> Forall is_u32 (of_code prev xs).
Proof. destruct prev; [intros; apply running_sums_u32|done]. Qed.
Lemma looks_12 e c : looks e c <= Z.of_nat (sum_nat (ctrl8_lens c)) + (if get_simd e then 12 else 0).
Proof.
  unfold looks, ctrl8_lens. rewrite sum_nat_app. pose proof (sum_ctrl_lens_range (c mod 256)). pose proof (sum_ctrl_lens_range (c / 256)).
  destruct (get_simd e); lia.
Qed.
(** Any controls; the SIMD decoders look up to 12 bytes past the data they need. *)
Definition batch_lens (ecs : list (impl * Z)) : list nat := concat (map (fun ec => ctrl8_lens (snd ec)) ecs).
Theorem C35_decode : forall ecs prev inp out m, typed m -> validB m inp -> validW m out -> prev_ok prev ->
  Forall (fun ec => is_u16 (snd ec)) ecs ->
  Z.of_nat (sum_nat (batch_lens ecs)) <= s_len inp -> 8 * Z.of_nat (length ecs) <= s_len out ->
  (Exists (fun ec => get_simd (fst ec) = true) ecs -> s_off inp + Z.of_nat (sum_nat (batch_lens ecs)) + 12 <= Z.of_nat (length (default [] (mb m !! s_blk inp)))) ->
  exists m', returns (get_batches ecs prev inp out) m tt m' /\
    stores_words m m' out (of_code prev (numbers (batch_lens ecs) (bytes m inp))).
Proof.
  induction ecs as [|[e c] ecs IH]; intros prev inp out m Ht Hi Ho Hp Hu Hin Hout Hroom.
  - exists m. split; [done|]. split; [done|]. assert (E : of_code prev (numbers (batch_lens []) (bytes m inp)) = []) by (by destruct prev). rewrite E. apply stores_nil.
  - apply Forall_cons_1 in Hu as [Hc Hu]. cbn [snd] in Hc. change (batch_lens ((e, c) :: ecs)) with (ctrl8_lens c ++ batch_lens ecs) in *. rewrite sum_nat_app in Hin, Hroom. cbn [length] in Hout.
    set (n1 := sum_nat (ctrl8_lens c)) in *. set (n2 := sum_nat (batch_lens ecs)) in *.
    destruct (C16_get8 e prev inp out m c Ht Hi Ho Hp Hc ltac:(fold n1; lia)) as (m1 & R1 & S1 & _); [|lia|].
    { unfold get_room. pose proof (looks_12 e c) as Hl. fold n1 in Hl. destruct Hi as [(I1 & I2 & I3) _].
      destruct (get_simd e) eqn:Eg; [|lia]. specialize (Hroom ltac:(by apply Exists_cons_hd)). lia. }
    set (r1 := of_code prev (numbers (ctrl8_lens c) (bytes m inp))) in *.
    assert (Lr : length r1 = 8%nat) by (unfold r1; rewrite of_code_length, numbers_length; done).
    assert (Hb : Forall is_byte (bytes m inp)) by (by apply typed_bytes).
    assert (Hr1 : Forall is_u32 r1) by (by apply of_code_u32, numbers8_u32).
    assert (Ht1 : typed m1) by (eapply (stores_words_typed m m1 out r1); [done|done|lia|done|done]).
    assert (Hi1 : validB m1 inp) by (by eapply stores_words_validB). assert (Ho1 : validW m1 out) by (by eapply stores_words_validW).
    assert (Eo : take 8 (words m1 out) = r1) by (destruct S1 as (_ & _ & S1); by rewrite Lr in S1).
    set (inp' := tail inp (Z.of_nat n1)). set (out' := tail out 8).
    assert (Eb : bytes m1 inp' = drop n1 (bytes m inp)).
    { unfold bytes, inp'. rewrite contents_tail; [|apply Hi|lia]. rewrite Nat2Z.id. by rewrite (proj1 S1). }
    destruct (IH (after prev r1) inp' out' m1) as (m2 & R2 & S2); [done|apply tail_validB; [done|lia]|apply tail_validW; [done|lia]|by apply after_ok|done|fold n2; unfold inp', tail; cbn [s_len]; lia|unfold out', tail; cbn [s_len]; lia| |].
    { intros HE. specialize (Hroom ltac:(by apply Exists_cons_tl)). unfold inp', tail. cbn [s_off s_blk]. fold n2. rewrite (proj1 S1). lia. }
    rewrite Eb in S2. exists m2. split.
    + cbn [get_batches]. eapply returns_bind; [exact R1|].
      assert (Es : ControlByteToSizeTwo c = Z.of_nat n1). { rewrite ControlByteToSizeTwo_lens by done. unfold n1, ctrl8_lens. by rewrite sum_nat_app. }
      rewrite Es. eapply returns_bind; [apply slice_from_tail; [lia|destruct Hi as [(? & ? & ?) ?]; lia]|]. fold inp'.
      eapply returns_bind; [apply (next_prev prev m1 out); [apply Ho1|lia]|]. rewrite Eo.
      eapply returns_bind; [apply slice_from_tail; [lia|destruct Ho as [(? & ? & ?) ?]; lia]|]. exact R2.
    + rewrite numbers_app. rewrite of_code_app. fold r1 n1. destruct S1 as (W1 & S1), S2 as (W2 & S2). split; [congruence|].
      set (r2 := of_code (after prev r1) (numbers (batch_lens ecs) (drop n1 (bytes m inp)))) in *.
      assert (Lr2 : Z.of_nat (length r2) <= s_len out - 8).
      { unfold r2. rewrite of_code_length, numbers_length. assert (E : length (batch_lens ecs) = (8 * length ecs)%nat); [|lia].
        clear. induction ecs as [|[e c] r IH]; [done|]. change (batch_lens ((e, c) :: r)) with (ctrl8_lens c ++ batch_lens r). rewrite app_length, IH. cbn. lia. }
      pose proof (stores_then (mw m) (mw m1) (mw m2) out r1 [] r2 (proj1 Ho)) as G. rewrite !app_nil_r, drop_nil, app_nil_r, Lr in G. apply G; [lia|lia|done|done].
Qed.
(** Batch-wise decoding of a stream gives the numbers the format says (which are those
    ReadAll / ReadAllDelta deliver: C06, C07). *)
Lemma batch_lens_zip es cs : length cs = length es -> Forall is_u16 cs ->
  batch_lens (zip es cs) = concat (map ctrl_lens (concat (map (le 2) cs))).
Proof.
  intros HL HF. revert es HL. induction HF as [|c cs Hc _ IH]; intros [|e es] HL; try done. injection HL as HL.
  change (batch_lens (zip (e :: es) (c :: cs))) with (ctrl8_lens c ++ batch_lens (zip es cs)). rewrite IH by done. cbn [map concat le app].
  unfold ctrl8_lens. rewrite <- app_assoc. do 3 f_equal. symmetry. apply Z.mod_small. unfold is_u16 in Hc. clear -Hc. Z.to_euclidean_division_equations; lia.
Qed.
Lemma nctrl_8 k : nctrl (8 * k) = (2 * k)%nat.
Proof. unfold nctrl. symmetry. apply (Nat.div_unique _ 4 _ 3); lia. Qed.
Lemma concat_ctrl_lens_length S : length (concat (map ctrl_lens S)) = (4 * length S)%nat.
Proof. induction S as [|c S IH]; [done|]. cbn [map concat length]. rewrite app_length, IH, ctrl_lens_length. lia. Qed.
Theorem C35_decode_stream : forall es cs prev st out m, typed m -> validB m st -> validW m out -> prev_ok prev ->
  length cs = length es -> Forall is_u16 cs -> concat (map (le 2) cs) = take (2 * length es) (bytes m st) ->
  well_formed (8 * length es) (bytes m st) -> 8 * Z.of_nat (length es) <= s_len out ->
  (Exists (fun e => get_simd e = true) es -> s_off st + Z.of_nat (stream_size (8 * length es) (bytes m st)) + 12 <= Z.of_nat (length (default [] (mb m !! s_blk st)))) ->
  exists m', returns (let! d := slice_from st (2 * Z.of_nat (length es)) in get_batches (zip es cs) prev d out) m tt m' /\
    stores_words m m' out (of_code prev (decode_stream (8 * length es) (bytes m st))).
Proof.
  intros es cs prev st out m Ht Hs Ho Hp HL HF HC (W1 & W2 & W3) Hout Hroom. rewrite nctrl_8 in W2.
  pose proof (contents_length _ _ (proj1 Hs)) as Lb. change (contents (mb m) st) with (bytes m st) in Lb.
  assert (El : batch_lens (zip es cs) = stream_lens (8 * length es) (bytes m st)).
  { rewrite batch_lens_zip by done. unfold stream_lens. rewrite nctrl_8, HC. symmetry. apply firstn_all2. rewrite concat_ctrl_lens_length, take_length. lia. }
  unfold stream_size in W3, Hroom. rewrite nctrl_8, <- El in W3, Hroom. destruct Hs as [(F1 & F2 & F3) F4].
  set (d := tail st (2 * Z.of_nat (length es))).
  assert (Eb : bytes m d = drop (2 * length es) (bytes m st)). { unfold bytes, d. rewrite contents_tail by lia. f_equal. lia. }
  destruct (C35_decode (zip es cs) prev d out m) as (m' & R & S); [done|apply tail_validB; [done|lia]|done|done| | | | |].
  - clear -HF HL. revert es HL. induction HF as [|c cs Hc _ IH]; intros [|e es] HL; try done; [by constructor..|]. injection HL as HL. constructor; [done|by apply IH].
  - unfold d, tail. cbn [s_len]. lia.
  - rewrite zip_with_length_l by lia. lia.
  - intros HE. assert (HE' : Exists (fun e => get_simd e = true) es).
    { clear -HE HL. revert cs HL HE. induction es as [|e es IH]; intros [|c cs] HL HE; try done; [by apply Exists_nil in HE|]. injection HL as HL.
      apply Exists_cons in HE as [HE|HE]; [by apply Exists_cons_hd|apply Exists_cons_tl; by eapply IH]. }
    specialize (Hroom HE'). unfold d, tail. cbn [s_off s_blk]. lia.
  - exists m'. split; [eapply returns_bind; [apply slice_from_tail; lia|exact R]|]. unfold decode_stream. rewrite nctrl_8, <- El. change skipn with (@drop Z). rewrite <- Eb. exact S.
Qed.
Definition ex35_es : list impl := [Scalar; Simd; Dispatch (AMD64 true true); Scalar].
Example C35_case :
  let buf := Slice 10 0 128 128 in
  let r := run (let! b := makeB 10 128 in put_batches ex35_es (Some 3) ex_in b) ex_mem in
  match result r with
  | Ok cs => cs = [16612; 49352; 50087; 835] /\
      concat (map (le 2) cs) ++ take 68 (bytes (final r) buf) = stream_of (deltas 3 (take 32 ex_nums)) /\
      let r2 := run (get_batches (zip (rev ex35_es) cs) (Some 3) buf ex_out) (final r) in
      result r2 = Ok tt /\ take 32 (words (final r2) ex_out) = take 32 ex_nums
  | _ => False
  end.
Proof. vm_compute. repeat split. Qed.
