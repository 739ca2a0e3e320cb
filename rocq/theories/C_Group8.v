(** * Groups of eight, every implementation: C15 - C19 *)
From stdpp Require Import prelude gmap list.
From Coq Require Import ZArith Lia.
From Verif Require Import Spec SpecLemmas GoSem Shared Tables TableProof Asm Wp Encode EncodeProof EncodeProof2 SimdProof AsmProof Decode DecodeProof DecodeProof2 ReaderProof Api ApiLemmas Witness C_Reader C_Prims.
Local Open Scope Z_scope.

(** ** Implementations *)
Inductive impl := Scalar | Simd | Dispatch (a : arch).
(** [prev = None]: the plain functions; [Some p]: the delta functions. *)
Definition put8 (e : impl) (prev : option Z) (inp out : slice) : prog Z :=
  match e, prev with
  | Scalar, None => Put8uint32Scalar inp out
  | Scalar, Some p => Put8uint32DeltaScalar inp out p
  | Simd, None => Put8uint32Fast (AMD64 true true) inp out
  | Simd, Some p => Put8uint32DeltaFast (AMD64 true true) inp out p
  | Dispatch a, None => Put8uint32 a inp out
  | Dispatch a, Some p => Put8uint32Delta a inp out p
  end.
Definition get8 (e : impl) (prev : option Z) (inp out : slice) (ctrl : Z) : prog unit :=
  match e, prev with
  | Scalar, None => Get8uint32Scalar inp out ctrl
  | Scalar, Some p => Get8uint32DeltaScalar inp out ctrl p
  | Simd, None => Get8uint32Fast (AMD64 true true) inp out ctrl
  | Simd, Some p => Get8uint32DeltaFast (AMD64 true true) inp out ctrl p
  | Dispatch a, None => Get8uint32 a inp out ctrl
  | Dispatch a, Some p => Get8uint32Delta a inp out ctrl p
  end.
Definition prev_ok (prev : option Z) : Prop := match prev with Some p => is_u32 p | None => True end.
(** The numbers actually encoded, and how the decoded numbers are used. *)
Definition to_code (prev : option Z) (xs : list Z) : list Z := match prev with Some p => deltas p xs | None => xs end.
Definition of_code (prev : option Z) (xs : list Z) : list Z := match prev with Some p => running_sums p xs | None => xs end.
(** Which implementation runs. *)
Definition put_simd (e : impl) : bool := match e with Scalar => false | Simd => true | Dispatch a => match a with AMD64 x y => x && y | OtherArch => false end end.
Definition get_simd (e : impl) : bool := match e with Scalar => false | Simd => true | Dispatch a => match a with AMD64 x _ => x | OtherArch => false end end.
(** Zero bytes the SIMD encoders write after the encoded bytes. *)
Definition pad (e : impl) (ys : list Z) : nat := if put_simd e then (16 - length (enc_data (drop 4 ys)))%nat else 0%nat.
(** Bytes the decoders load. *)
Definition looks (e : impl) (c : Z) : Z :=
  if get_simd e then Z.of_nat (sum_nat (ctrl_lens (c mod 256))) + 16 else Z.of_nat (sum_nat (ctrl8_lens c)).

Lemma to_code_length prev xs : length (to_code prev xs) = length xs.
Proof. destruct prev; [apply deltas_length|done]. Qed.
Lemma of_code_length prev xs : length (of_code prev xs) = length xs.
Proof. destruct prev; [apply running_sums_length|done]. Qed.
Lemma to_code_u32 prev xs : Forall is_u32 xs -> Forall is_u32 (to_code prev xs).
Proof. destruct prev; [intros; apply deltas_u32|done]. Qed.
Lemma of_to_code prev xs : Forall is_u32 xs -> of_code prev (to_code prev xs) = xs.
Proof. destruct prev; [apply running_sums_deltas|done]. Qed.

Lemma put8_dispatch e prev inp out : put8 e prev inp out = put8 (if put_simd e then Simd else Scalar) prev inp out.
Proof. destruct e as [| |[[] []|]]; reflexivity. Qed.

(** ** Encoders *)
(** Enough memory for a SIMD encoder: it is only the allocation that counts, since
    the assembly gets no lengths. *)
Definition put_room (e : impl) (m : mem) (out : slice) (ys : list Z) : Prop :=
  if put_simd e then s_off out + Z.of_nat (length (enc_data (take 4 ys))) + 16 <= Z.of_nat (length (default [] (mb m !! s_blk out)))
  else Z.of_nat (length (enc_data ys)) <= s_len out.
Lemma put8_pad_length e ys : length ys = 8%nat -> put_simd e = true -> enc_data ys ++ replicate (pad e ys) 0 = put8_bytes ys.
Proof. intros H E. unfold pad, put8_bytes. by rewrite E. Qed.

Section put8.
Context (e : impl) (prev : option Z) (inp out : slice) (m : mem) (Ht : typed m) (Hi : validW m inp) (Ho : validB m out) (Hp : prev_ok prev).
Context (H8 : 8 <= s_len inp).
Let ys := to_code prev (take 8 (words m inp)).
Lemma ys_length : length ys = 8%nat.
Proof. unfold ys. rewrite to_code_length. apply (take_words_length m inp 8); [apply Hi|lia]. Qed.
Lemma sub8_words : sub (s_off inp) 8 (blk (mw m) (s_blk inp)) = take 8 (words m inp).
Proof. by rewrite sub_words by lia. Qed.
Lemma put8_run : put_room e m out ys ->
  returns (put8 e prev inp out) m (ctrl8_of ys) (bmem m out (enc_data ys ++ replicate (pad e ys) 0)) /\
  accesses (put8 e prev inp out) m (encoder_may inp 8 out (Z.of_nat (length (enc_data ys) + pad e ys))).
Proof.
  intros Hr. pose proof ys_length as HL. destruct (put_simd e) eqn:E.
  - assert (HP : (length (enc_data ys) + pad e ys = length (put8_bytes ys))%nat) by (rewrite <- (put8_pad_length e) by done; by rewrite app_length, replicate_length).
    rewrite put8_pad_length, HP by done. fold (zlen (put8_bytes ys)). rewrite put8_bytes_zlen by done.
    unfold put_room in Hr. rewrite E in Hr. rewrite put8_dispatch, E. destruct Hi as [(A1 & A2 & A3) _]. destruct Ho as [(B1 & B2 & B3) _].
    apply wp_returns. destruct prev as [p|]; cbn [put8].
    + apply wp_Put8uint32DeltaFastAsm; rewrite ?sub8_words; fold ys.
      * done.
      * lia.
      * unfold zlen, blk. lia.
      * by apply typed_blk_w.
      * lia.
      * unfold zlen, blk. exact Hr.
      * cbn. unfold within. intros. split; [done|]. lia.
      * cbn. unfold within. intros. split; [done|]. lia.
      * done.
    + apply wp_Put8uint32FastAsm; rewrite ?sub8_words; fold ys.
      * lia.
      * unfold zlen, blk. lia.
      * by apply typed_blk_w.
      * lia.
      * unfold zlen, blk. exact Hr.
      * cbn. unfold within. intros. split; [done|]. lia.
      * cbn. unfold within. intros. split; [done|]. lia.
      * done.
  - unfold pad, put_room in *. rewrite E in *. cbn [replicate]. rewrite app_nil_r, Nat.add_0_r. rewrite put8_dispatch, E.
    assert (G : encodes_at (put8 Scalar prev inp out) inp 8 out m (ctrl8_of ys) (enc_data ys)).
    { destruct prev as [p|]; [by apply Put8DeltaScalar_at|by apply Put8Scalar_at]. }
    destruct G as (G1 & _ & G3). split; [by apply G1|]. eapply Forall_impl; [exact G3|]. intros ev. apply encoder_may_mono; [lia|].
    unfold enc_reach. destruct (Z.leb_spec 8 (s_len inp)); lia.
Qed.
Lemma enc_take_le : (length (enc_data (take 4 ys)) <= 16)%nat /\ (length (enc_data ys) <= 32)%nat /\ (length (enc_data ys) + pad e ys <= 32)%nat /\
  (put_simd e = true -> length (enc_data ys) + pad e ys = length (enc_data (take 4 ys)) + 16)%nat.
Proof.
  pose proof ys_length as HL. pose proof (enc_data_bounds (take 4 ys)) as G1. pose proof (enc_data_bounds ys) as G2. pose proof (enc_data_bounds (drop 4 ys)) as G3.
  rewrite take_length in G1. rewrite drop_length in G3.
  assert (G4 : length (enc_data ys) = (length (enc_data (take 4 ys)) + length (enc_data (drop 4 ys)))%nat) by (by rewrite <- app_length, <- enc_data_app, take_drop).
  unfold pad. destruct (put_simd e); (split; [lia|]; split; [lia|]; split; [lia|]; intros; (discriminate || lia)).
Qed.
End put8.

(** C15: given 32 bytes of [out] every implementation returns the control of the
    eight numbers and stores their bytes at the start of [out]; the SIMD code
    follows them with zeros up to 16 bytes after the first group, nothing else
    changes, and nothing else is touched. *)
Theorem C15_put8 : forall e prev inp out m, typed m -> validW m inp -> validB m out -> prev_ok prev ->
  8 <= s_len inp -> 32 <= s_len out ->
  let ys := to_code prev (take 8 (words m inp)) in
  exists m', returns (put8 e prev inp out) m (ctrl8_of ys) m' /\
    stores_bytes m m' out (enc_data ys ++ replicate (pad e ys) 0) /\ (length (enc_data ys) + pad e ys <= 32)%nat /\
    accesses (put8 e prev inp out) m (encoder_may inp 8 out (Z.of_nat (length (enc_data ys) + pad e ys))).
Proof.
  intros e prev inp out m Ht Hi Ho Hp H8 H32 ys. destruct (enc_take_le e prev inp m Hi H8) as (G1 & G2 & G3 & G4).
  fold ys in G1, G2, G3, G4.
  destruct (put8_run e prev inp out m Ht Hi Ho Hp H8) as [R1 R2].
  - fold ys. unfold put_room. destruct Ho as [(B1 & B2 & B3) _]. destruct (put_simd e); lia.
  - eexists. split; [exact R1|]. split; [|done]. apply bmem_spec; [apply Ho|]. rewrite zlen_app. unfold zlen. rewrite replicate_length. fold ys. lia.
Qed.
(** In particular the result and the encoded bytes do not depend on the implementation. *)
Theorem C15_implementation_independent : forall e e' prev inp out m, typed m -> validW m inp -> validB m out -> prev_ok prev ->
  8 <= s_len inp -> 32 <= s_len out ->
  exists c D m1 m2, returns (put8 e prev inp out) m c m1 /\ returns (put8 e' prev inp out) m c m2 /\
    c = ctrl8_of (to_code prev (take 8 (words m inp))) /\ D = enc_data (to_code prev (take 8 (words m inp))) /\
    take (length D) (bytes m1 out) = D /\ take (length D) (bytes m2 out) = D.
Proof.
  intros e e' prev inp out m Ht Hi Ho Hp H8 H32.
  destruct (C15_put8 e prev inp out m Ht Hi Ho Hp H8 H32) as (m1 & R1 & (_ & _ & S1) & _).
  destruct (C15_put8 e' prev inp out m Ht Hi Ho Hp H8 H32) as (m2 & R2 & (_ & _ & S2) & _).
  do 2 eexists. exists m1, m2. split; [exact R1|]. split; [exact R2|]. split; [done|]. split; [done|].
  split; [apply (f_equal (take (length (enc_data (to_code prev (take 8 (words m inp))))))) in S1; revert S1
         |apply (f_equal (take (length (enc_data (to_code prev (take 8 (words m inp))))))) in S2; revert S2];
    rewrite take_take, app_length, Nat.min_l, take_app by lia; done.
Qed.

(** ** Decoders *)
Definition get_room (e : impl) (m : mem) (inp : slice) (c : Z) : Prop :=
  s_off inp + looks e c <= Z.of_nat (length (default [] (mb m !! s_blk inp))).
Section get8fast.
Context (inp out : slice) (m : mem) (Ht : typed m) (Hi : validB m inp) (Ho : validW m out).
Context (c : Z) (Hc : is_u16 c) (Hlen : Z.of_nat (sum_nat (ctrl8_lens c)) <= s_len inp) (H8 : 8 <= s_len out).
Lemma Get8Fast_at avx2 : s_off inp + Z.of_nat (sum_nat (ctrl_lens (c mod 256))) + 16 <= Z.of_nat (length (default [] (mb m !! s_blk inp))) ->
  returns (Get8uint32Fast (AMD64 true avx2) inp out c) m tt (rmem m out (numbers (ctrl8_lens c) (bytes m inp))) /\
  accesses (Get8uint32Fast (AMD64 true avx2) inp out c) m (reader_may inp (Z.of_nat (sum_nat (ctrl_lens (c mod 256))) + 16) out 8).
Proof.
  intros Hr. destruct (u16_parts c Hc) as (H0 & H1 & Ec). destruct Hi as [(A1 & A2 & A3) _]. destruct Ho as [(B1 & B2 & B3) _].
  apply wp_returns. pose proof (wp_Get8uint32FastAsm (reader_may inp (Z.of_nat (sum_nat (ctrl_lens (c mod 256))) + 16) out 8) False avx2 inp out _ _ m
    (fun a m1 => a = tt /\ m1 = rmem m out (numbers (ctrl8_lens c) (bytes m inp))) H0 H1) as W.
  rewrite <- Ec in W. apply W; rewrite ?ControlByteToSize_lens by done.
  - lia.
  - unfold zlen, blk. lia.
  - by apply typed_blk_b.
  - lia.
  - unfold zlen, blk. lia.
  - cbn. unfold within. intros. split; [done|]. lia.
  - cbn. unfold within. intros. split; [done|]. lia.
  - split; [done|]. unfold nums8. fold (ctrl8_lens c). rewrite numbers_bytes by done. done.
Qed.
Lemma Get8DeltaFast_at avx2 p : s_off inp + Z.of_nat (sum_nat (ctrl_lens (c mod 256))) + 16 <= Z.of_nat (length (default [] (mb m !! s_blk inp))) ->
  is_u32 p -> returns (Get8uint32DeltaFast (AMD64 true avx2) inp out c p) m tt (rmem m out (running_sums p (numbers (ctrl8_lens c) (bytes m inp)))) /\
  accesses (Get8uint32DeltaFast (AMD64 true avx2) inp out c p) m (reader_may inp (Z.of_nat (sum_nat (ctrl_lens (c mod 256))) + 16) out 8).
Proof.
  intros Hr Hp. destruct (u16_parts c Hc) as (H0 & H1 & Ec). destruct Hi as [(A1 & A2 & A3) _]. destruct Ho as [(B1 & B2 & B3) _].
  apply wp_returns. pose proof (wp_Get8uint32DeltaFastAsm (reader_may inp (Z.of_nat (sum_nat (ctrl_lens (c mod 256))) + 16) out 8) False avx2 inp out _ _ p m
    (fun a m1 => a = tt /\ m1 = rmem m out (running_sums p (numbers (ctrl8_lens c) (bytes m inp)))) H0 H1) as W.
  rewrite <- Ec in W. apply W; rewrite ?ControlByteToSize_lens by done.
  - done.
  - lia.
  - unfold zlen, blk. lia.
  - by apply typed_blk_b.
  - lia.
  - unfold zlen, blk. lia.
  - cbn. unfold within. intros. split; [done|]. lia.
  - cbn. unfold within. intros. split; [done|]. lia.
  - split; [done|]. unfold nums8. fold (ctrl8_lens c). rewrite numbers_bytes by done. done.
Qed.
End get8fast.
Section get8.
Context (e : impl) (prev : option Z) (inp out : slice) (m : mem) (Ht : typed m) (Hi : validB m inp) (Ho : validW m out) (Hp : prev_ok prev).
Context (c : Z) (Hc : is_u16 c) (Hlen : Z.of_nat (sum_nat (ctrl8_lens c)) <= s_len inp) (H8 : 8 <= s_len out).
Let R := of_code prev (numbers (ctrl8_lens c) (bytes m inp)).
Lemma get8_run : get_room e m inp c ->
  returns (get8 e prev inp out c) m tt (rmem m out R) /\
  accesses (get8 e prev inp out c) m (reader_may inp (looks e c) out 8).
Proof.
  intros Hr. unfold get_room, looks in *. destruct (get_simd e) eqn:E.
  - assert (D : exists avx2, (prev = None -> get8 e prev inp out c = Get8uint32Fast (AMD64 true avx2) inp out c) /\
      (forall p, prev = Some p -> get8 e prev inp out c = Get8uint32DeltaFast (AMD64 true avx2) inp out c p)).
    { destruct e as [| |[[] b|]]; [discriminate E| | |discriminate E|discriminate E].
      - exists true. split; [intros ->; reflexivity|intros p ->; reflexivity].
      - exists b. split; [intros ->; reflexivity|intros p ->; reflexivity]. }
    destruct D as (avx2 & D1 & D2). destruct prev as [p|] eqn:Ep.
    + rewrite (D2 p eq_refl). apply Get8DeltaFast_at; (done || lia).
    + rewrite (D1 eq_refl). apply Get8Fast_at; (done || lia).
  - assert (D : get8 e prev inp out c = get8 Scalar prev inp out c).
    { destruct e as [| |[[] b|]]; [reflexivity|discriminate E|discriminate E|reflexivity|reflexivity]. }
    rewrite D. assert (G : decodes_at (get8 Scalar prev inp out c) inp (ctrl8_lens c) out m tt R).
    { unfold R. destruct prev as [p|]; [by apply Get8DeltaScalar_at|by apply Get8Scalar_at]. }
    destruct G as (G1 & _ & G3). split; [by apply G1|]. eapply Forall_impl; [exact G3|]. intros ev.
    assert (L8 : length (ctrl8_lens c) = 8%nat) by reflexivity. rewrite L8. apply reader_may_mono; lia.
Qed.
End get8.

(** C16: every 16-bit control, also such that no encoder produces. *)
Theorem C16_get8 : forall e prev inp out m c, typed m -> validB m inp -> validW m out -> prev_ok prev -> is_u16 c ->
  Z.of_nat (sum_nat (ctrl8_lens c)) <= s_len inp -> get_room e m inp c -> 8 <= s_len out ->
  exists m', returns (get8 e prev inp out c) m tt m' /\
    stores_words m m' out (of_code prev (numbers (ctrl8_lens c) (bytes m inp))) /\
    accesses (get8 e prev inp out c) m (reader_may inp (looks e c) out 8).
Proof.
  intros e prev inp out m c Ht Hi Ho Hp Hc Hlen Hr H8. destruct (get8_run e prev inp out m Ht Hi Ho Hp c Hc Hlen H8 Hr) as [R1 R2].
  eexists. split; [exact R1|]. split; [|done]. apply rmem_stores; [apply Ho|]. unfold zlen. by rewrite of_code_length, numbers_length.
Qed.
(** The room is there whenever [inp] has 32 bytes. *)
Lemma looks_le e c : looks e c <= 32.
Proof.
  unfold looks, ctrl8_lens. rewrite sum_nat_app. pose proof (sum_ctrl_lens_range (c mod 256)). pose proof (sum_ctrl_lens_range (c / 256)).
  destruct (get_simd e); lia.
Qed.
Lemma get_room_32 e m inp c : fits (mb m) inp -> looks e c <= s_cap inp -> get_room e m inp c.
Proof. intros (H1 & H2 & H3) ?. unfold get_room. lia. Qed.

(** ** C17: round trips *)
Lemma ctrl8_lens_of ys : length ys = 8%nat -> ctrl8_lens (ctrl8_of ys) = map nbytes ys.
Proof.
  intros H. assert (H1 : length (take 4 ys) = 4%nat) by (rewrite take_length; lia). assert (H2 : length (drop 4 ys) = 4%nat) by (rewrite drop_length; lia).
  pose proof (ctrl_of_byte (take 4 ys) ltac:(lia)) as B1. pose proof (ctrl_of_byte (drop 4 ys) ltac:(lia)) as B2. unfold is_byte in *.
  unfold ctrl8_lens, ctrl8_of.
  assert (E1 : (ctrl_of (take 4 ys) + 256 * ctrl_of (drop 4 ys)) mod 256 = ctrl_of (take 4 ys)) by (clear -B1; Z.to_euclidean_division_equations; lia).
  assert (E2 : (ctrl_of (take 4 ys) + 256 * ctrl_of (drop 4 ys)) / 256 = ctrl_of (drop 4 ys)) by (clear -B1; Z.to_euclidean_division_equations; lia).
  rewrite E1, E2. rewrite <- (take_drop 4 ys) at 3. rewrite map_app. f_equal.
  - rewrite <- ctrl_lens_of by lia. by rewrite H1.
  - rewrite <- ctrl_lens_of by lia. by rewrite H2.
Qed.
Lemma ctrl8_of_u16 ys : length ys = 8%nat -> is_u16 (ctrl8_of ys).
Proof.
  intros H. pose proof (ctrl_of_byte (take 4 ys) ltac:(rewrite take_length; lia)). pose proof (ctrl_of_byte (drop 4 ys) ltac:(rewrite drop_length; lia)).
  unfold is_u16, is_byte, ctrl8_of in *. lia.
Qed.
(** Any slice (in any memory) that starts with the bytes of eight numbers decodes to them. *)
Theorem C17_get8_inverts : forall e prev (xs : list Z) inp out m, typed m -> validB m inp -> validW m out -> prev_ok prev -> Forall is_u32 xs -> length xs = 8%nat ->
  let D := enc_data (to_code prev xs) in let c := ctrl8_of (to_code prev xs) in
  take (length D) (bytes m inp) = D -> get_room e m inp c -> 8 <= s_len out ->
  exists m', returns (get8 e prev inp out c) m tt m' /\ stores_words m m' out xs.
Proof.
  intros e prev xs inp out m Ht Hi Ho Hp Hx H8 D c HS Hr Hout.
  assert (HL : length (to_code prev xs) = 8%nat) by (by rewrite to_code_length).
  destruct (C16_get8 e prev inp out m c Ht Hi Ho Hp) as (m' & R1 & S1 & _).
  - by apply ctrl8_of_u16.
  - unfold c. rewrite ctrl8_lens_of, <- enc_data_length by done. fold D. apply take_prefix_length in HS. unfold bytes in HS.
    rewrite contents_length in HS by apply Hi. destruct Hi as [(? & ? & ?) ?]. lia.
  - done.
  - done.
  - exists m'. split; [done|]. unfold c in S1. rewrite ctrl8_lens_of in S1 by done. rewrite numbers_enc, of_to_code in S1 by (done || by apply to_code_u32). done.
Qed.
(** Put8uint32 into a 32-byte buffer, then Get8uint32 from it, for all combinations. *)
Theorem C17_round_trip : forall e e' prev inp buf out m, typed m -> validW m inp -> validB m buf -> validW m out -> prev_ok prev ->
  8 <= s_len inp -> 32 <= s_len buf -> 8 <= s_len out ->
  exists m', returns (let! c := put8 e prev inp buf in get8 e' prev buf out c) m tt m' /\
    take 8 (words m' out) = take 8 (words m inp).
Proof.
  intros e e' prev inp buf out m Ht Hi Hb Ho Hp H8 H32 Hout. set (xs := take 8 (words m inp)).
  assert (HL : length xs = 8%nat) by (apply (take_words_length m inp 8); [apply Hi|lia]).
  destruct (C15_put8 e prev inp buf m Ht Hi Hb Hp H8 H32) as (m1 & R1 & S1 & L1 & _). fold xs in R1, S1, L1.
  set (ys := to_code prev xs) in *. set (Dp := enc_data ys ++ replicate (pad e ys) 0) in *.
  assert (LD : length Dp = (length (enc_data ys) + pad e ys)%nat) by (unfold Dp; by rewrite app_length, replicate_length).
  destruct (C17_get8_inverts e' prev xs buf out m1) as (m' & R2 & S2).
  - eapply (stores_bytes_typed m m1 buf Dp); [done|done|lia|done|]. apply Forall_app. split; [apply enc_data_bytes|]. apply Forall_replicate. unfold is_byte. lia.
  - by eapply stores_bytes_valid.
  - by eapply stores_bytes_validW.
  - done.
  - apply Forall_take. by apply typed_words.
  - done.
  - fold ys. destruct S1 as (_ & _ & S1). apply (f_equal (take (length (enc_data ys)))) in S1. unfold Dp in S1 at 2.
    rewrite take_take, take_app in S1. rewrite Nat.min_l in S1 by lia. done.
  - apply get_room_32; [eapply stores_bytes_valid; [exact S1|exact Hb]|]. pose proof (looks_le e' (ctrl8_of ys)). destruct Hb as [(? & ? & ?) ?]. fold ys. lia.
  - done.
  - exists m'. split; [eapply returns_bind; [exact R1|exact R2]|]. rewrite <- HL at 1. apply S2.
Qed.

(** ** C18: scalar and SIMD encoders compared *)
(** Refuted as stated.  (1) The same call on the same memory leaves different bytes
    in [out] after the encoded ones. *)
Definition ex8_out : slice := Slice 5 4 32 56.
Theorem C18_refuted : ~ forall inp out m c m1, typed m -> validW m inp -> validB m out ->
  returns (Put8uint32Scalar inp out) m c m1 -> returns (Put8uint32Fast (AMD64 true true) inp out) m c m1.
Proof.
  intros H. set (r := run (Put8uint32Scalar ex_in ex8_out) ex_mem).
  assert (Hr : returns (Put8uint32Scalar ex_in ex8_out) ex_mem 20708 (final r)) by (split; [by vm_compute|done]).
  apply H in Hr as [_ Hr]; [|apply ex_typed|apply ex_in_valid|fits].
  apply (f_equal (fun m => nth 20 (bytes m ex8_out) (-1))) in Hr. vm_compute in Hr. discriminate.
Qed.
(** (2) With an [out] of exactly the size needed, bytes outside [out], and even
    outside its capacity, are overwritten. *)
Theorem C18_refuted_neighbour : ~ forall inp out m c m1 c2 m2, typed m -> validW m inp -> validB m out ->
  returns (Put8uint32Scalar inp out) m c m1 -> returns (Put8uint32Fast (AMD64 true true) inp out) m c2 m2 ->
  same_except (mb m) (mb m2) (s_blk out) (s_off out) (s_cap out).
Proof.
  intros H. set (o := Slice 5 4 16 16). set (r := run (Put8uint32Scalar ex_in o) ex_mem). set (r2 := run (Put8uint32Fast (AMD64 true true) ex_in o) ex_mem).
  destruct (H ex_in o ex_mem 20708 (final r) 20708 (final r2)) as (_ & _ & E).
  - apply ex_typed.
  - apply ex_in_valid.
  - fits.
  - split; [by vm_compute|done].
  - split; [by vm_compute|done].
  - specialize (E 20 ltac:(cbn; lia)). vm_compute in E. discriminate.
Qed.
(** (3) At the end of an allocation the SIMD code faults. *)
Theorem C18_refuted_fault : exists inp out m c m1, typed m /\ validW m inp /\ validB m out /\
  returns (Put8uint32Scalar inp out) m c m1 /\ result (run (Put8uint32Fast (AMD64 true true) inp out) m) = Faulted.
Proof.
  exists ex_in, (Slice 5 44 16 16), ex_mem, 20708, (final (run (Put8uint32Scalar ex_in (Slice 5 44 16 16)) ex_mem)).
  split; [apply ex_typed|]. split; [apply ex_in_valid|]. split; [fits|]. split; [split; [by vm_compute|done]|by vm_compute].
Qed.
(** Nor does the SIMD code notice a too short input. *)
Theorem C18_refuted_short_input : exists inp out m, typed m /\ validW m inp /\ validB m out /\
  panics (Put8uint32Scalar inp out) m /\ exists c m2, returns (Put8uint32Fast (AMD64 true true) inp out) m c m2.
Proof.
  exists (Slice 0 2 3 38), ex_buf, ex_mem.
  split; [apply ex_typed|]. split; [fits|]. split; [apply ex_buf_valid|]. split; [by vm_compute|]. exists 20708, (final (run (Put8uint32Fast (AMD64 true true) (Slice 0 2 3 38) ex_buf) ex_mem)).
  split; [by vm_compute|done].
Qed.
(** What holds: whenever the scalar encoder succeeds and the allocation has room for
    16 bytes after the first group, the SIMD encoder returns the same control, and
    the memories differ at most in the bytes between the end of the encoded data
    and that point. *)
Lemma bmem_app_except m out a b : fits (mb m) out -> s_off out + zlen a + zlen b <= zlen (blk (mb m) (s_blk out)) ->
  same_except (mb (bmem m out a)) (mb (bmem m out (a ++ b))) (s_blk out) (s_off out + zlen a) (zlen b).
Proof.
  intros (H1 & H2 & H3) HD. pose proof (zlen_nonneg a). pose proof (zlen_nonneg b).
  assert (E : blk (mb (bmem m out a)) (s_blk out) = splice (s_off out) a (blk (mb m) (s_blk out))).
  { unfold bmem, setb. cbn. apply blk_put_eq. apply splice_length; lia. }
  assert (E2 : mb (bmem m out (a ++ b)) = put (mb (bmem m out a)) (s_blk out) (splice (s_off out + zlen a) b (blk (mb (bmem m out a)) (s_blk out)))).
  { rewrite E, splice_app_l by lia. unfold bmem, setb. cbn. unfold put. destruct (mb m !! s_blk out) eqn:El.
    - by rewrite lookup_insert, insert_insert.
    - by rewrite El. }
  rewrite E2. apply put_same_except; [lia|]. rewrite E, splice_zlen by lia. lia.
Qed.
Theorem C18_same_partial : forall prev inp out m c m1, typed m -> validW m inp -> validB m out -> prev_ok prev ->
  returns (put8 Scalar prev inp out) m c m1 ->
  let ys := to_code prev (take 8 (words m inp)) in
  let n := Z.of_nat (length (enc_data ys)) in let n16 := Z.of_nat (length (enc_data (take 4 ys))) + 16 in
  s_off out + n16 <= Z.of_nat (length (default [] (mb m !! s_blk out))) ->
  exists m2, returns (put8 Simd prev inp out) m c m2 /\ mw m2 = mw m1 /\ n <= n16 /\
    same_except (mb m1) (mb m2) (s_blk out) (s_off out + n) (n16 - n) /\
    accesses (put8 Simd prev inp out) m (encoder_may inp 8 out n16).
Proof.
  intros prev inp out m c m1 Ht Hi Ho Hp R1 ys n n16 Hr.
  assert (G : encodes_at (put8 Scalar prev inp out) inp 8 out m (ctrl8_of ys) (enc_data ys)).
  { unfold ys. destruct prev as [p|]; [by apply Put8DeltaScalar_at|by apply Put8Scalar_at]. }
  destruct G as (G1 & G2 & G3). assert (Hok : 8 <= s_len inp /\ n <= s_len out).
  { destruct (decide (8 <= s_len inp /\ n <= s_len out)) as [|Hn]; [done|]. apply G2 in Hn. destruct R1 as [R1 _]. unfold panics in Hn. congruence. }
  destruct (returns_det _ _ _ _ _ _ R1 (G1 Hok)) as [-> ->]. destruct Hok as [H8 Hn].
  destruct (enc_take_le Simd prev inp m Hi H8) as (K1 & K2 & K3 & K4). fold ys in K1, K2, K3, K4. specialize (K4 eq_refl).
  destruct (put8_run Simd prev inp out m Ht Hi Ho Hp H8) as [R2 R3]; [unfold put_room; cbn [put_simd]; fold ys; lia|]. fold ys in R2, R3.
  eexists. split; [exact R2|]. split; [done|]. split; [lia|]. split.
  - replace (n16 - n) with (zlen (replicate (pad Simd ys) 0)) by (unfold zlen, n, n16; rewrite replicate_length; lia). apply bmem_app_except; [apply Ho|].
    unfold zlen, blk. rewrite replicate_length. lia.
  - eapply Forall_impl; [exact R3|]. intros ev. apply encoder_may_mono; lia.
Qed.

(** ** C19: scalar and SIMD decoders compared *)
(** Refuted as stated: with exactly the bytes needed in the allocation the SIMD
    decoder faults. *)
Definition ex8_in : slice := Slice 6 18 8 8.
Theorem C19_refuted : ~ forall inp out m c m1, typed m -> validB m inp -> validW m out -> is_u16 c ->
  returns (Get8uint32Scalar inp out c) m tt m1 -> returns (Get8uint32Fast (AMD64 true true) inp out c) m tt m1.
Proof.
  intros H. assert (Hr : returns (Get8uint32Scalar ex8_in ex_out 0) ex_mem tt (final (run (Get8uint32Scalar ex8_in ex_out 0) ex_mem))) by (split; [by vm_compute|done]).
  apply H in Hr as [Hr _]; [|apply ex_typed|fits|apply ex_out_valid|unfold is_u16; lia]. vm_compute in Hr. discriminate.
Qed.
(** With more memory behind, bytes outside [inp] are read (but do not matter). *)
Theorem C19_refuted_reads_outside : ~ forall inp out m c m1, typed m -> validB m inp -> validW m out -> is_u16 c ->
  returns (Get8uint32Scalar inp out c) m tt m1 -> accesses (Get8uint32Fast (AMD64 true true) inp out c) m (reader_may inp (s_cap inp) out 8).
Proof.
  intros H. set (i := Slice 6 2 8 8).
  assert (Hr : returns (Get8uint32Scalar i ex_out 0) ex_mem tt (final (run (Get8uint32Scalar i ex_out 0) ex_mem))) by (split; [by vm_compute|done]).
  apply H in Hr; [|apply ex_typed|fits|apply ex_out_valid|unfold is_u16; lia].
  assert (Hin : In (ERdB 6 15) (trace (run (Get8uint32Fast (AMD64 true true) i ex_out 0) ex_mem))) by (vm_compute; repeat (first [left; reflexivity|right])).
  unfold accesses in Hr. rewrite List.Forall_forall in Hr. apply Hr in Hin. cbn in Hin. unfold within in Hin. cbn in Hin. lia.
Qed.
(** What holds: with 16 readable bytes from the start of each half on, the same
    result and the same final memory. *)
Theorem C19_same_partial : forall e prev inp out m c m1, typed m -> validB m inp -> validW m out -> prev_ok prev -> is_u16 c ->
  returns (get8 Scalar prev inp out c) m tt m1 ->
  s_off inp + Z.of_nat (sum_nat (ctrl_lens (c mod 256))) + 16 <= Z.of_nat (length (default [] (mb m !! s_blk inp))) ->
  returns (get8 e prev inp out c) m tt m1 /\ accesses (get8 e prev inp out c) m (reader_may inp (Z.of_nat (sum_nat (ctrl_lens (c mod 256))) + 16) out 8).
Proof.
  intros e prev inp out m c m1 Ht Hi Ho Hp Hc R1 Hr. set (R := of_code prev (numbers (ctrl8_lens c) (bytes m inp))).
  assert (G : decodes_at (get8 Scalar prev inp out c) inp (ctrl8_lens c) out m tt R).
  { unfold R. destruct prev as [p|]; [by apply Get8DeltaScalar_at|by apply Get8Scalar_at]. }
  assert (L8 : length (ctrl8_lens c) = 8%nat) by reflexivity. destruct G as (G1 & G2 & _). rewrite L8 in G1, G2.
  destruct (decide (Z.of_nat (sum_nat (ctrl8_lens c)) <= s_len inp /\ Z.of_nat 8 <= s_len out)) as [[H1 H2]|Hn].
  2:{ apply G2 in Hn. destruct R1 as [R1 _]. unfold panics in Hn. congruence. }
  destruct (returns_det _ _ _ _ _ _ R1 (G1 (conj H1 H2))) as [_ ->].
  assert (HK : looks e c <= Z.of_nat (sum_nat (ctrl_lens (c mod 256))) + 16).
  { unfold looks, ctrl8_lens. rewrite sum_nat_app. pose proof (sum_ctrl_lens_range (c / 256)). destruct (get_simd e); lia. }
  destruct (get8_run e prev inp out m Ht Hi Ho Hp c Hc H1 ltac:(lia)) as [R2 R3]; [unfold get_room; lia|].
  split; [exact R2|]. eapply Forall_impl; [exact R3|]. intros ev. apply reader_may_mono; lia.
Qed.
(** Sufficient in practice: 32 bytes in [inp]; then nothing outside [inp] is read. *)
Theorem C19_inside_partial : forall e prev inp out m c m1, typed m -> validB m inp -> validW m out -> prev_ok prev -> is_u16 c ->
  returns (get8 Scalar prev inp out c) m tt m1 -> 32 <= s_len inp ->
  returns (get8 e prev inp out c) m tt m1 /\ accesses (get8 e prev inp out c) m (reader_may inp (s_len inp) out 8).
Proof.
  intros e prev inp out m c m1 Ht Hi Ho Hp Hc R1 H32. pose proof (sum_ctrl_lens_range (c mod 256)).
  destruct (C19_same_partial e prev inp out m c m1) as [G1 G2]; [done..| |].
  - destruct Hi as [(? & ? & ?) _]. lia.
  - split; [done|]. eapply Forall_impl; [exact G2|]. intros ev. apply reader_may_mono; lia.
Qed.

(** ** Concrete cases *)
Example C15_case : 8 <= s_len ex_in /\ 32 <= s_len ex8_out /\ validB ex_mem ex8_out /\
  bytes (final (run (put8 Simd None ex_in ex8_out) ex_mem)) ex8_out =
    [5; 44; 1; 112; 17; 1; 255; 255; 255; 255; 0; 255; 0; 1; 255; 255] ++ replicate 10 0 ++ replicate 6 170.
Proof. split; [vm_compute; discriminate|]. split; [vm_compute; discriminate|]. split; [fits|]. by vm_compute. Qed.
(** A control no encoder produces for these numbers (non-minimal lengths). *)
Example C16_case : is_u16 7140 /\ Z.of_nat (sum_nat (ctrl8_lens 7140)) <= s_len (Slice 6 2 21 24) /\ validB ex_mem (Slice 6 2 21 24) /\
  get_room (Dispatch (AMD64 true false)) ex_mem (Slice 6 0 22 24) 7140 /\
  take 9 (words (final (run (get8 (Dispatch (AMD64 true false)) (Some 10) (Slice 6 0 22 24) ex_out 7140) ex_mem)) ex_out) =
  take 9 (words (final (run (get8 Scalar (Some 10) (Slice 6 0 22 24) ex_out 7140) ex_mem)) ex_out).
Proof.
  split; [unfold is_u16; lia|]. split; [vm_compute; discriminate|]. split; [fits|]. split; [vm_compute; discriminate|]. by vm_compute.
Qed.
Example C17_case : let r := run (let! c := put8 Simd (Some 123456789) ex_in ex_buf in get8 Scalar (Some 123456789) ex_buf ex_out c) ex_mem in
  result r = Ok tt /\ take 9 (words (final r) ex_out) = [5; 300; 70000; 4294967295; 0; 255; 256; 65535; 7].
Proof. by vm_compute. Qed.
Example C18_case : exists c m1, returns (put8 Scalar None ex_in (Slice 5 4 16 16)) ex_mem c m1 /\
  4 + Z.of_nat (length (enc_data (take 4 (take 8 (words ex_mem ex_in))))) + 16 <= Z.of_nat (length (default [] (mb ex_mem !! 5%nat))).
Proof. do 2 eexists. split; [split; [vm_compute; reflexivity|reflexivity]|]. vm_compute. discriminate. Qed.
Example C19_case : exists m1, returns (get8 Scalar None (Slice 6 2 8 8) ex_out 0) ex_mem tt m1 /\ 2 + Z.of_nat (sum_nat (ctrl_lens (0 mod 256))) + 16 <= Z.of_nat (length (default [] (mb ex_mem !! 6%nat))).
Proof. eexists. split; [split; [vm_compute; reflexivity|reflexivity]|]. vm_compute. discriminate. Qed.
