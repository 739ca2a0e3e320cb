(** * Rules for the four assembly routines *)
From stdpp Require Import prelude gmap list.
From Coq Require Import ZArith Lia.
From Verif Require Import Spec SpecLemmas GoSem Tables Shared Asm AsmProgs Wp Encode Decode TableProof EncodeProof EncodeProof2 SimdProof.
Local Open Scope Z_scope.
Implicit Types (F : event -> Prop) (pn : Prop).

Lemma wp_exec_cons F pn a f ro i r s m (Q : astate -> mem -> Prop) :
  supports a (needs i) = true ->
  wp F pn (exec1 f ro i s) m (fun s' m' => wp F pn (exec a f ro r s') m' Q) ->
  wp F pn (exec a f ro (i :: r) s) m Q.
Proof. intros Hs Hw. cbn [exec]. rewrite Hs. by apply wp_bind. Qed.
Lemma wp_exec_nil F pn a f ro s m (Q : astate -> mem -> Prop) : Q s m -> wp F pn (exec a f ro [] s) m Q.
Proof. done. Qed.

Lemma wp_load128_B F pn b o disp m (Q : list Z -> mem -> Prop) :
  0 <= o + disp -> o + disp + 16 <= zlen (blk (mb m) b) ->
  (forall j, o + disp <= j < o + disp + 16 -> F (ERdB b j)) ->
  Q (sub (o + disp) 16 (blk (mb m) b)) m ->
  wp F pn (load128 (PB b o) disp) m Q.
Proof. intros. cbn [load128]. by apply wp_readBs. Qed.
Lemma wp_load128_W F pn b o disp k m (Q : list Z -> mem -> Prop) :
  o + disp = 4 * k -> 0 <= k -> k + 4 <= zlen (blk (mw m) b) ->
  (forall j, k <= j < k + 4 -> F (ERdW b j)) ->
  Q (bytes32 (sub k 4 (blk (mw m) b))) m ->
  wp F pn (load128 (PW b o) disp) m Q.
Proof.
  intros E ? ? ? ?. cbn [load128]. rewrite E, Z.mul_comm, Z.mod_mul, Z.div_mul by lia.
  apply wp_bind. by apply wp_readWs.
Qed.
Lemma wp_load128_T F pn t o disp m (Q : list Z -> mem -> Prop) :
  0 <= o + disp -> o + disp + 16 <= zlen t -> Q (take 16 (drop (Z.to_nat (o + disp)) t)) m ->
  wp F pn (load128 (PT t o) disp) m Q.
Proof.
  intros. cbn [load128]. change (Z.of_nat (length t)) with (zlen t).
  rewrite (proj2 (Z.leb_le 0 _)), (proj2 (Z.leb_le _ (zlen t))) by lia. done.
Qed.
Lemma wp_load8_T F pn t o m (Q : Z -> mem -> Prop) :
  0 <= o < zlen t -> Q (nth (Z.to_nat o) t 0) m -> wp F pn (load8 (PT t o)) m Q.
Proof.
  intros. cbn [load8]. change (Z.of_nat (length t)) with (zlen t).
  rewrite (proj2 (Z.leb_le 0 _)), (proj2 (Z.ltb_lt _ (zlen t))) by lia. done.
Qed.
Lemma wp_store128_B F pn b o disp v m (Q : unit -> mem -> Prop) :
  length v = 16%nat -> 0 <= o + disp -> o + disp + 16 <= zlen (blk (mb m) b) ->
  (forall j, o + disp <= j < o + disp + 16 -> F (EWrB b j)) ->
  Q tt (setb m b (splice (o + disp) v (blk (mb m) b))) ->
  wp F pn (store128 (PB b o) disp v) m Q.
Proof.
  intros E ? ? ? ?. unfold store128. rewrite E. cbn [Nat.eqb].
  assert (zlen v = 16) by (unfold zlen; lia).
  apply wp_writeBs; [lia|lia|intros; auto with lia|done].
Qed.
Lemma wp_store128_W F pn b o disp k ws m (Q : unit -> mem -> Prop) :
  length ws = 4%nat -> Forall is_u32 ws -> o + disp = 4 * k -> 0 <= k -> k + 4 <= zlen (blk (mw m) b) ->
  (forall j, k <= j < k + 4 -> F (EWrW b j)) ->
  Q tt (setw m b (splice k ws (blk (mw m) b))) ->
  wp F pn (store128 (PW b o) disp (bytes32 ws)) m Q.
Proof.
  intros El Hu E ? ? ? ?. unfold store128. rewrite bytes32_length, El. cbn [Nat.mul Nat.add Nat.eqb].
  rewrite E, Z.mul_comm, Z.mod_mul, Z.div_mul by lia. cbn [Z.eqb]. rewrite lanes32_bytes32 by done.
  assert (zlen ws = 4) by (unfold zlen; lia).
  apply wp_writeWs; [lia|lia|intros; auto with lia|done].
Qed.

Lemma shl4 c : is_byte c -> u64 (Z.shiftl c 4) = 16 * c.
Proof.
  unfold is_byte. intros. rewrite Z.shiftl_mul_pow2 by lia. rewrite u64_small by lia. lia.
Qed.
Lemma wp_load_enc F pn c m (Q : list Z -> mem -> Prop) :
  is_byte c -> Q (enc_mask c) m ->
  wp F pn (load128 (PT (concat EncodeShuffleTable) (0 + u64 (Z.shiftl c 4))) 0) m Q.
Proof.
  intros Hc HQ. rewrite shl4 by done. apply wp_load128_T; rewrite ?Z.add_0_l, ?Z.add_0_r.
  - unfold is_byte in Hc. lia.
  - unfold zlen. rewrite EncodeShuffleTable_size. unfold is_byte in Hc. lia.
  - by rewrite EncodeShuffleTable_mask.
Qed.
Lemma wp_load_dec F pn c m (Q : list Z -> mem -> Prop) :
  is_byte c -> Q (dec_mask c) m ->
  wp F pn (load128 (PT (concat DecodeShuffleTable) (0 + u64 (Z.shiftl c 4))) 0) m Q.
Proof.
  intros Hc HQ. rewrite shl4 by done. apply wp_load128_T; rewrite ?Z.add_0_l, ?Z.add_0_r.
  - unfold is_byte in Hc. lia.
  - unfold zlen. rewrite DecodeShuffleTable_size. unfold is_byte in Hc. lia.
  - by rewrite DecodeShuffleTable_mask.
Qed.
Lemma wp_load_len F pn c m (Q : Z -> mem -> Prop) :
  is_byte c -> Q (ControlByteToSize c) m ->
  wp F pn (load8 (PT PerControlLenTable (0 + c))) m Q.
Proof.
  intros Hc HQ. apply wp_load8_T; rewrite ?Z.add_0_l.
  - unfold zlen. rewrite PerControlLenTable_size. unfold is_byte in Hc. lia.
  - done.
Qed.

(** Split a 16-bit control. *)
Lemma u8_lo a b : is_byte a -> is_byte b -> u8 (a + 256 * b) = a.
Proof. unfold is_byte, u8. intros. change (2 ^ 8) with 256. Z.to_euclidean_division_equations; lia. Qed.
Lemma u16_hi a b : is_byte a -> is_byte b -> Z.shiftr (u16 (a + 256 * b)) 8 = b.
Proof.
  unfold is_byte. intros. rewrite u16_small by lia. rewrite Z.shiftr_div_pow2 by lia.
  change (2 ^ 8) with 256. Z.to_euclidean_division_equations; lia.
Qed.

(** Symbolic state: the contents of all registers. *)
Definition regs (ax bx cx dx si di : val) (x0 x1 x2 x3 x4 x5 : list Z) (rt : option Z) (s : astate) : Prop :=
  gp s AX = ax /\ gp s BX = bx /\ gp s CX = cx /\ gp s DX = dx /\ gp s SI = si /\ gp s DI = di /\
  xm s X0 = x0 /\ xm s X1 = x1 /\ xm s X2 = x2 /\ xm s X3 = x3 /\ xm s X4 = x4 /\ xm s X5 = x5 /\ aret s = rt.
Ltac regs_done :=
  unfold regs;
  refine (conj _ (conj _ (conj _ (conj _ (conj _ (conj _ (conj _ (conj _ (conj _ (conj _ (conj _ (conj _ _))))))))))));
  cbn [gp xm aret setg setx gpr_eqb xreg_eqb]; 
  lazymatch goal with
  | |- gp _ _ = _ => eassumption
  | |- xm _ _ = _ => eassumption
  | |- aret _ = _ => eassumption
  | |- _ => reflexivity
  end.
Ltac new_state st :=
  let H := fresh "R" in
  eassert (H : regs _ _ _ _ _ _ _ _ _ _ _ _ _ st) by regs_done;
  revert H; generalize st;
  repeat match goal with
  | H : gp ?s _ = _ |- _ => clear H
  | H : xm ?s _ = _ |- _ => clear H
  | H : aret ?s = _ |- _ => clear H
  end;
  repeat match goal with s : astate |- _ => clear s end;
  intros s (HAX & HBX & HCX & HDX & HSI & HDI & HX0 & HX1 & HX2 & HX3 & HX4 & HX5 & HRT).
(** Execute one instruction; for instructions touching memory, leave the access. *)
Ltac anext :=
  cbn [wp];
  lazymatch goal with
  | |- wp _ _ (exec _ _ _ _ ?st) _ _ => new_state st
  end.
Ltac astep :=
  apply wp_exec_cons; [reflexivity|];
  cbn [exec1 frame_get Z.eqb Pos.eqb]; try unfold op2;
  repeat match goal with
  | H : gp ?s ?r = _ |- context [gp ?s ?r] => rewrite H
  | H : xm ?s ?r = _ |- context [xm ?s ?r] => rewrite H
  end; cbn [vadd];
  lazymatch goal with
  | |- wp _ _ (Ret _) _ _ => anext
  | |- wp _ _ (bind _ _) _ _ => apply wp_bind
  end.
Ltac astart :=
  lazymatch goal with |- wp _ _ (exec _ _ _ _ ?st) _ _ => new_state st end.

(** Splicing over padding. *)
Lemma splice_pad p a z b l : 0 <= p -> zlen z <= zlen b -> p + zlen a + zlen b <= zlen l ->
  splice (p + zlen a) b (splice p (a ++ z) l) = splice p (a ++ b) l.
Proof.
  intros. pose proof (zlen_nonneg a). pose proof (zlen_nonneg b). pose proof (zlen_nonneg z).
  apply list_eq. intros j.
  rewrite !splice_lookup by (rewrite ?splice_zlen; rewrite ?zlen_app; lia).
  rewrite !zlen_app. repeat case_decide; try lia; try done.
  - rewrite !lookup_app_l by (unfold zlen in *; lia). done.
  - rewrite lookup_app_r by (unfold zlen in *; lia). f_equal. unfold zlen in *; lia.
Qed.

Lemma sub8 o l : 0 <= o -> o + 8 <= zlen l ->
  exists a b c d e f g h, sub o 4 l = [a; b; c; d] /\ sub (o + 4) 4 l = [e; f; g; h] /\
    sub o 8 l = [a; b; c; d; e; f; g; h].
Proof.
  intros. do 8 eexists. rewrite (sub4 o l), (sub4 (o + 4) l) by lia. split; [done|]. split; [done|].
  change 8 with (4 + 4) at 1. rewrite sub_app by lia. rewrite (sub4 o l), (sub4 (o + 4) l) by lia. done.
Qed.

(** Result of the fast encoders: the data, then zeros up to 16 bytes after the
    first group. *)
Definition put8_bytes (xs : list Z) : list Z :=
  enc_data xs ++ replicate (16 - length (enc_data (drop 4 xs))) 0.
Lemma put8_bytes_zlen xs : length xs = 8%nat -> zlen (put8_bytes xs) = zlen (enc_data (take 4 xs)) + 16.
Proof.
  intros. unfold put8_bytes. rewrite <- (take_drop 4 xs) at 1. rewrite enc_data_app.
  pose proof (enc_data_bounds (drop 4 xs)) as Hb. rewrite drop_length in Hb.
  rewrite !zlen_app. unfold zlen. rewrite replicate_length. lia.
Qed.

(** The common tail of the two encoders, from VPBROADCASTW on, on lanes. *)
Lemma put8_store F pn out xs (k0 k1 : list Z) m (Q : mem -> Prop) :
  length xs = 8%nat ->
  k0 = enc_data (take 4 xs) ++ replicate (16 - length (enc_data (take 4 xs))) 0 ->
  k1 = enc_data (drop 4 xs) ++ replicate (16 - length (enc_data (drop 4 xs))) 0 ->
  0 <= s_off out -> s_off out + zlen (enc_data (take 4 xs)) + 16 <= zlen (blk (mb m) (s_blk out)) ->
  (forall j, s_off out <= j < s_off out + zlen (enc_data (take 4 xs)) + 16 -> F (EWrB (s_blk out) j)) ->
  Q (setb m (s_blk out) (splice (s_off out) (put8_bytes xs) (blk (mb m) (s_blk out)))) ->
  wp F pn (store128 (PB (s_blk out) (s_off out)) 0 k0) m (fun _ m' =>
    wp F pn (store128 (PB (s_blk out) (s_off out + zlen (enc_data (take 4 xs)))) 0 k1) m' (fun _ => Q)).
Proof.
  intros Hl -> -> Ho Hc HF HQ.
  pose proof (enc_data_bounds (take 4 xs)) as B0. rewrite take_length in B0.
  pose proof (enc_data_bounds (drop 4 xs)) as B1. rewrite drop_length in B1.
  assert (zlen (enc_data (take 4 xs)) <= 16) by (unfold zlen; lia).
  pose proof (zlen_nonneg (enc_data (take 4 xs))).
  apply wp_store128_B; rewrite ?Z.add_0_r; [rewrite app_length, replicate_length; lia|lia|lia|intros; apply HF; lia|].
  set (L := blk (mb m) (s_blk out)) in *.
  assert (E : zlen (enc_data (take 4 xs) ++ replicate (16 - length (enc_data (take 4 xs))) 0) = 16)
    by (unfold zlen; rewrite app_length, replicate_length; lia).
  assert (E1 : zlen (enc_data (drop 4 xs) ++ replicate (16 - length (enc_data (drop 4 xs))) 0) = 16)
    by (unfold zlen; rewrite app_length, replicate_length; lia).
  assert (Hs : length (splice (s_off out) (enc_data (take 4 xs) ++ replicate (16 - length (enc_data (take 4 xs))) 0) L) = length L)
    by (apply splice_length; lia).
  apply wp_store128_B; rewrite ?Z.add_0_r; rewrite ?blk_setb by done.
  - rewrite app_length, replicate_length; lia.
  - lia.
  - unfold zlen at 2. rewrite Hs. fold (zlen L). lia.
  - intros; apply HF; lia.
  - rewrite setb_setb. rewrite splice_pad; [|done|unfold zlen in *; rewrite replicate_length; lia|lia].
    rewrite app_assoc, <- enc_data_app, take_drop. exact HQ.
Qed.

(** encode_amd64.s:13-45 *)
Lemma wp_Put8uint32FastAsm F pn inp out m (Q : Z -> mem -> Prop) :
  let xs := sub (s_off inp) 8 (blk (mw m) (s_blk inp)) in
  0 <= s_off inp -> s_off inp + 8 <= zlen (blk (mw m) (s_blk inp)) ->
  Forall is_u32 (blk (mw m) (s_blk inp)) ->
  0 <= s_off out -> s_off out + zlen (enc_data (take 4 xs)) + 16 <= zlen (blk (mb m) (s_blk out)) ->
  (forall j, s_off inp <= j < s_off inp + 8 -> F (ERdW (s_blk inp) j)) ->
  (forall j, s_off out <= j < s_off out + zlen (enc_data (take 4 xs)) + 16 -> F (EWrB (s_blk out) j)) ->
  Q (ctrl16_of xs) (setb m (s_blk out) (splice (s_off out) (put8_bytes xs) (blk (mb m) (s_blk out)))) ->
  wp F pn (Put8uint32FastAsm (AMD64 true true) inp out EncodeShuffleTable PerControlLenTable) m Q.
Proof.
  intros xs Hi1 Hi2 Hu Ho1 Ho2 HF1 HF2 HQ.
  destruct (sub8 (s_off inp) (blk (mw m) (s_blk inp)) Hi1 Hi2) as (x0 & x1 & x2 & x3 & x4 & x5 & x6 & x7 & E0 & E1 & Exs).
  fold xs in Exs.
  assert (Hux : Forall is_u32 xs) by (by apply Forall_sub).
  assert (B0 : is_byte (ctrl_of (take 4 xs))) by (apply ctrl_of_byte; rewrite take_length; lia).
  assert (B1 : is_byte (ctrl_of (drop 4 xs))) by (apply ctrl_of_byte; rewrite drop_length, Exs; cbn; lia).
  unfold Put8uint32FastAsm, with_result, call_asm.
  change (layout 0 _) with ([(0, C64 (PW (s_blk inp) (4 * s_off inp))); (8, C64 (VI (s_len inp))); (16, C64 (VI (s_cap inp)));
    (24, C64 (PB (s_blk out) (s_off out))); (32, C64 (VI (s_len out))); (40, C64 (VI (s_cap out)));
    (48, C64 (PT (concat EncodeShuffleTable) 0)); (56, C64 (PT PerControlLenTable 0))], 64).
  cbv beta iota. apply wp_bind, wp_bind. unfold Put8uint32FastAsm_code, astate0. astart.
  astep.
  astep. apply wp_load128_W with (k := s_off inp); [lia|lia|lia|intros; apply HF1; lia|]. rewrite E0. anext.
  astep. apply wp_load128_W with (k := s_off inp + 4); [lia|lia|lia|intros; apply HF1; lia|]. rewrite E1. anext.
  do 7 astep. astep.
  assert (C : simd_ctrl (bytes32 [x0; x1; x2; x3]) (bytes32 [x4; x5; x6; x7]) = ctrl16_of xs)
    by (rewrite simd_ctrl_eq by (rewrite <- Exs; done); by rewrite <- Exs).
  rewrite C in HAX. clear C.
  unfold ctrl16_of in HAX. set (c0 := ctrl_of (take 4 xs)) in *. set (c1 := ctrl_of (drop 4 xs)) in *.
  do 9 astep.
  rewrite u8_lo in HDX by done. rewrite u16_hi in HBX by done.
  astep. apply wp_load_enc; [done|]. anext.
  astep. apply wp_load_enc; [done|]. anext.
  assert (K0 : pshufb (bytes32 [x0; x1; x2; x3]) (enc_mask c0) =
    enc_data (take 4 xs) ++ replicate (16 - length (enc_data (take 4 xs))) 0)
    by (subst c0; rewrite Exs; apply compact4).
  assert (K1 : pshufb (bytes32 [x4; x5; x6; x7]) (enc_mask c1) =
    enc_data (drop 4 xs) ++ replicate (16 - length (enc_data (drop 4 xs))) 0)
    by (subst c1; rewrite Exs; apply compact4).
  rewrite K0 in HX0. rewrite K1 in HX1.
  do 5 astep. rewrite u8_lo in HAX by done.
  astep. apply wp_load_len; [done|]. anext.
  replace (ControlByteToSize c0) with (zlen (enc_data (take 4 xs))) in HAX
    by (subst c0; symmetry; apply ControlByteToSize_ctrl_of; rewrite Exs; done).
  do 2 astep. eapply wp_mono; [done|done| |eapply (put8_store F pn out xs _ _ m
    (fun m' => Q (ctrl16_of xs) m')); [rewrite Exs; done|reflexivity|reflexivity|done|done|done|done]].
  cbn [wp]. intros u m' Hw. astep.
  eapply wp_mono; [done|done| |exact Hw]. intros u' m'' HQ'. cbn [wp exec].
  rewrite HRT. cbn [wp]. rewrite u16_small; [exact HQ'|]. unfold is_byte in *. lia.
Qed.

(** encode_amd64.s:49-86 *)
Lemma wp_Put8uint32DeltaFastAsm F pn inp out prev m (Q : Z -> mem -> Prop) :
  let xs := deltas prev (sub (s_off inp) 8 (blk (mw m) (s_blk inp))) in
  is_u32 prev ->
  0 <= s_off inp -> s_off inp + 8 <= zlen (blk (mw m) (s_blk inp)) ->
  Forall is_u32 (blk (mw m) (s_blk inp)) ->
  0 <= s_off out -> s_off out + zlen (enc_data (take 4 xs)) + 16 <= zlen (blk (mb m) (s_blk out)) ->
  (forall j, s_off inp <= j < s_off inp + 8 -> F (ERdW (s_blk inp) j)) ->
  (forall j, s_off out <= j < s_off out + zlen (enc_data (take 4 xs)) + 16 -> F (EWrB (s_blk out) j)) ->
  Q (ctrl16_of xs) (setb m (s_blk out) (splice (s_off out) (put8_bytes xs) (blk (mb m) (s_blk out)))) ->
  wp F pn (Put8uint32DeltaFastAsm (AMD64 true true) inp out prev EncodeShuffleTable PerControlLenTable) m Q.
Proof.
  intros xs Hpv Hi1 Hi2 Hu Ho1 Ho2 HF1 HF2 HQ.
  destruct (sub8 (s_off inp) (blk (mw m) (s_blk inp)) Hi1 Hi2) as (x0 & x1 & x2 & x3 & x4 & x5 & x6 & x7 & E0 & E1 & Exs').
  assert (Hus : Forall is_u32 [x0; x1; x2; x3; x4; x5; x6; x7]) by (rewrite <- Exs'; by apply Forall_sub).
  assert (Hux : Forall is_u32 xs) by apply deltas_u32.
  assert (exists y0 y1 y2 y3 y4 y5 y6 y7, xs = [y0; y1; y2; y3; y4; y5; y6; y7] /\
    psubd (bytes32 [x0; x1; x2; x3]) (palignr 12 (bytes32 (replicate 4 prev)) (bytes32 [x0; x1; x2; x3])) = bytes32 [y0; y1; y2; y3] /\
    psubd (bytes32 [x4; x5; x6; x7]) (palignr 12 (bytes32 [x0; x1; x2; x3]) (bytes32 [x4; x5; x6; x7])) = bytes32 [y4; y5; y6; y7])
    as (y0 & y1 & y2 & y3 & y4 & y5 & y6 & y7 & Exs & EX0 & EX1).
  { do 8 eexists. split; [unfold xs; rewrite Exs'; reflexivity|]. cbn [replicate].
    rewrite !palignr_lanes, !psubd_lanes by split_forall. done. }
  clearbody xs.
  assert (B0 : is_byte (ctrl_of (take 4 xs))) by (apply ctrl_of_byte; rewrite take_length; lia).
  assert (B1 : is_byte (ctrl_of (drop 4 xs))) by (apply ctrl_of_byte; rewrite drop_length, Exs; cbn; lia).
  unfold Put8uint32DeltaFastAsm, with_result, call_asm.
  change (layout 0 _) with ([(0, C64 (PW (s_blk inp) (4 * s_off inp))); (8, C64 (VI (s_len inp))); (16, C64 (VI (s_cap inp)));
    (24, C64 (PB (s_blk out) (s_off out))); (32, C64 (VI (s_len out))); (40, C64 (VI (s_cap out)));
    (48, C32 prev);
    (56, C64 (PT (concat EncodeShuffleTable) 0)); (64, C64 (PT PerControlLenTable 0))], 72).
  cbv beta iota. apply wp_bind, wp_bind. unfold Put8uint32DeltaFastAsm_code, astate0. astart.
  astep.
  astep. apply wp_load128_W with (k := s_off inp); [lia|lia|lia|intros; apply HF1; lia|]. rewrite E0. anext.
  astep. apply wp_load128_W with (k := s_off inp + 4); [lia|lia|lia|intros; apply HF1; lia|]. rewrite E1. anext.
  do 5 astep. rewrite EX0 in HX0. rewrite EX1 in HX1.
  do 7 astep. astep.
  assert (C : simd_ctrl (bytes32 [y0; y1; y2; y3]) (bytes32 [y4; y5; y6; y7]) = ctrl16_of xs)
    by (rewrite simd_ctrl_eq by (rewrite <- Exs; done); by rewrite <- Exs).
  rewrite C in HAX. clear C.
  unfold ctrl16_of in HAX. set (c0 := ctrl_of (take 4 xs)) in *. set (c1 := ctrl_of (drop 4 xs)) in *.
  do 9 astep.
  rewrite u8_lo in HDX by done. rewrite u16_hi in HBX by done.
  astep. apply wp_load_enc; [done|]. anext.
  astep. apply wp_load_enc; [done|]. anext.
  assert (K0 : pshufb (bytes32 [y0; y1; y2; y3]) (enc_mask c0) =
    enc_data (take 4 xs) ++ replicate (16 - length (enc_data (take 4 xs))) 0)
    by (subst c0; rewrite Exs; apply compact4).
  assert (K1 : pshufb (bytes32 [y4; y5; y6; y7]) (enc_mask c1) =
    enc_data (drop 4 xs) ++ replicate (16 - length (enc_data (drop 4 xs))) 0)
    by (subst c1; rewrite Exs; apply compact4).
  rewrite K0 in HX0. rewrite K1 in HX1.
  do 5 astep. rewrite u8_lo in HAX by done.
  astep. apply wp_load_len; [done|]. anext.
  replace (ControlByteToSize c0) with (zlen (enc_data (take 4 xs))) in HAX
    by (subst c0; symmetry; apply ControlByteToSize_ctrl_of; rewrite Exs; done).
  do 2 astep. eapply wp_mono; [done|done| |eapply (put8_store F pn out xs _ _ m
    (fun m' => Q (ctrl16_of xs) m')); [rewrite Exs; done|reflexivity|reflexivity|done|done|done|done]].
  cbn [wp]. intros u m' Hw. astep.
  eapply wp_mono; [done|done| |exact Hw]. intros u' m'' HQ'. cbn [wp exec].
  rewrite HRT. cbn [wp]. rewrite u16_small; [exact HQ'|]. unfold is_byte in *. lia.
Qed.

(** ** Decoders *)
Lemma cut_take lens n d : (sum_nat lens <= n)%nat -> cut lens (take n d) = cut lens d.
Proof.
  revert n d. induction lens as [|k lens IH]; intros n d H; [done|].
  cbn [cut]. cbn [sum_nat fold_right] in H. change (fold_right Nat.add 0%nat lens) with (sum_nat lens) in H.
  change (firstn k ?l) with (take k l). change (skipn k ?l) with (drop k l). f_equal.
  - rewrite take_take. f_equal. lia.
  - rewrite <- IH with (n := (n - k)%nat) (d := drop k d) by lia. f_equal. rewrite take_drop_commute. do 2 f_equal. lia.
Qed.
(** The eight numbers of the format for control bytes [c0], [c1]. *)
Definition nums8 (c0 c1 : Z) (data : list Z) : list Z := map le_val (cut (ctrl_lens c0 ++ ctrl_lens c1) data).
Lemma drop_sub o n l : 0 <= o -> 0 <= n -> sub o n l = take (Z.to_nat n) (drop (Z.to_nat o) l).
Proof. done. Qed.
Lemma cut_sub16 c o l : 0 <= o ->
  cut (ctrl_lens c) (sub o 16 l) = cut (ctrl_lens c) (drop (Z.to_nat o) l).
Proof. intros. unfold sub. apply cut_take. pose proof (sum_ctrl_lens_range c). lia. Qed.
Lemma nums8_split c0 c1 o l : is_byte c0 -> 0 <= o ->
  nums8 c0 c1 (drop (Z.to_nat o) l) =
  map le_val (cut (ctrl_lens c0) (sub o 16 l)) ++
  map le_val (cut (ctrl_lens c1) (sub (o + ControlByteToSize c0) 16 l)).
Proof.
  intros H0 Ho. unfold nums8. rewrite cut_app, map_app.
  pose proof (ControlByteToSize_lens c0 H0).
  rewrite !cut_sub16 by lia. do 3 f_equal. rewrite drop_drop. f_equal. lia.
Qed.
Lemma cut4 c d : exists a b e f, map le_val (cut (ctrl_lens c) d) = [a; b; e; f].
Proof. do 4 eexists. reflexivity. Qed.
Lemma le_val_cut_u32 c d : Forall is_byte d -> Forall is_u32 (map le_val (cut (ctrl_lens c) d)).
Proof.
  intros Hd. pose proof (ctrl_lens_range c) as Hr. revert d Hd.
  induction (ctrl_lens c) as [|n r IH]; intros d Hd; [constructor|].
  apply Forall_cons_1 in Hr as [Hn Hr]. cbn [cut map]. constructor.
  - change (firstn n d) with (take n d). pose proof (le_val_range (take n d)) as H.
    assert (Hlen : (length (take n d) <= 4)%nat) by (rewrite take_length; lia).
    unfold is_u32. specialize (H ltac:(by apply Forall_take)).
    assert (256 ^ Z.of_nat (length (take n d)) <= 256 ^ 4) by (apply Z.pow_le_mono_r; lia). lia.
  - apply IH; [done|]. by apply Forall_drop.
Qed.
Lemma sub16_len o l : 0 <= o -> o + 16 <= zlen l -> length (sub o 16 l) = 16%nat.
Proof. intros. rewrite sub_length_exact by lia. done. Qed.

Lemma get8_store F pn out (ws0 ws1 : list Z) m (Q : mem -> Prop) :
  length ws0 = 4%nat -> length ws1 = 4%nat -> Forall is_u32 ws0 -> Forall is_u32 ws1 ->
  0 <= s_off out -> s_off out + 8 <= zlen (blk (mw m) (s_blk out)) ->
  (forall j, s_off out <= j < s_off out + 8 -> F (EWrW (s_blk out) j)) ->
  Q (setw m (s_blk out) (splice (s_off out) (ws0 ++ ws1) (blk (mw m) (s_blk out)))) ->
  wp F pn (store128 (PW (s_blk out) (4 * s_off out)) 0 (bytes32 ws0)) m (fun _ m' =>
    wp F pn (store128 (PW (s_blk out) (4 * s_off out)) 16 (bytes32 ws1)) m' (fun _ => Q)).
Proof.
  intros L0 L1 U0 U1 Ho Hc HF HQ.
  apply wp_store128_W with (k := s_off out); [done|done|lia|lia|lia|intros; apply HF; lia|].
  assert (Z0 : zlen ws0 = 4) by (unfold zlen; lia). assert (Z1 : zlen ws1 = 4) by (unfold zlen; lia).
  set (L := blk (mw m) (s_blk out)) in *.
  assert (Hs : length (splice (s_off out) ws0 L) = length L) by (apply splice_length; lia).
  apply wp_store128_W with (k := s_off out + 4); [done|done|lia|lia| |intros; apply HF; lia|];
    rewrite ?blk_setw by done.
  - unfold zlen. rewrite Hs. fold (zlen L). lia.
  - rewrite setw_setw. rewrite <- Z0. rewrite splice_app_l by lia. exact HQ.
Qed.

(** decode_amd64.s:7-31 *)
Lemma wp_Get8uint32FastAsm F pn avx2 inp out c0 c1 m (Q : unit -> mem -> Prop) :
  is_byte c0 -> is_byte c1 ->
  0 <= s_off inp -> s_off inp + ControlByteToSize c0 + 16 <= zlen (blk (mb m) (s_blk inp)) ->
  Forall is_byte (blk (mb m) (s_blk inp)) ->
  0 <= s_off out -> s_off out + 8 <= zlen (blk (mw m) (s_blk out)) ->
  (forall j, s_off inp <= j < s_off inp + ControlByteToSize c0 + 16 -> F (ERdB (s_blk inp) j)) ->
  (forall j, s_off out <= j < s_off out + 8 -> F (EWrW (s_blk out) j)) ->
  Q tt (setw m (s_blk out) (splice (s_off out)
     (nums8 c0 c1 (drop (Z.to_nat (s_off inp)) (blk (mb m) (s_blk inp)))) (blk (mw m) (s_blk out)))) ->
  wp F pn (Get8uint32FastAsm (AMD64 true avx2) inp out (c0 + 256 * c1) DecodeShuffleTable PerControlLenTable) m Q.
Proof.
  intros B0 B1 Hi1 Hi2 Hb Ho1 Ho2 HF1 HF2 HQ.
  pose proof (ControlByteToSize_lens c0 B0) as HS. pose proof (sum_ctrl_lens_range c0) as HS'.
  rewrite nums8_split in HQ by done.
  set (L := blk (mb m) (s_blk inp)) in *. set (sz := ControlByteToSize c0) in *.
  assert (Hd0 : length (sub (s_off inp) 16 L) = 16%nat) by (apply sub16_len; lia).
  assert (Hd1 : length (sub (s_off inp + sz) 16 L) = 16%nat) by (apply sub16_len; lia).
  assert (Hb0 : Forall is_byte (sub (s_off inp) 16 L)) by (by apply Forall_sub).
  assert (Hb1 : Forall is_byte (sub (s_off inp + sz) 16 L)) by (by apply Forall_sub).
  unfold Get8uint32FastAsm, without_result, call_asm.
  change (layout 0 _) with ([(0, C64 (PB (s_blk inp) (s_off inp))); (8, C64 (VI (s_len inp))); (16, C64 (VI (s_cap inp)));
    (24, C64 (PW (s_blk out) (4 * s_off out))); (32, C64 (VI (s_len out))); (40, C64 (VI (s_cap out)));
    (48, C16 (c0 + 256 * c1));
    (56, C64 (PT (concat DecodeShuffleTable) 0)); (64, C64 (PT PerControlLenTable 0))], 72).
  cbv beta iota. apply wp_bind, wp_bind. unfold Get8uint32FastAsm_code, astate0. astart.
  do 9 astep. rewrite u8_lo in HDX by done. rewrite u16_hi in HBX by done.
  do 5 astep. rewrite u8_lo in HAX by done.
  astep. apply wp_load_len; [done|]. fold sz. anext. astep.
  astep. apply wp_load128_B; rewrite ?Z.add_0_r; [lia|fold L; lia|intros; apply HF1; lia|]. fold L. anext.
  astep. apply wp_load128_B; rewrite ?Z.add_0_r; [lia|fold L; lia|intros; apply HF1; lia|]. fold L. anext.
  astep. apply wp_load_dec; [done|]. rewrite expand4 by done. anext.
  astep. apply wp_load_dec; [done|]. rewrite expand4 by done. anext.
  astep.
  astep. eapply wp_mono; [done|done| |eapply (get8_store F pn out _ (map le_val (cut (ctrl_lens c1) (sub (s_off inp + sz) 16 L))) m (fun m' => Q tt m'));
    [reflexivity|reflexivity|by apply le_val_cut_u32|by apply le_val_cut_u32|done|done|done|exact HQ]].
  cbn [wp]. intros u m' Hw. astep.
  eapply wp_mono; [done|done| |exact Hw]. intros u' m'' HQ'. cbn [wp exec]. exact HQ'.
Qed.

(** decode_amd64.s:35-71 *)
Lemma wp_Get8uint32DeltaFastAsm F pn avx2 inp out c0 c1 prev m (Q : unit -> mem -> Prop) :
  is_byte c0 -> is_byte c1 -> is_u32 prev ->
  0 <= s_off inp -> s_off inp + ControlByteToSize c0 + 16 <= zlen (blk (mb m) (s_blk inp)) ->
  Forall is_byte (blk (mb m) (s_blk inp)) ->
  0 <= s_off out -> s_off out + 8 <= zlen (blk (mw m) (s_blk out)) ->
  (forall j, s_off inp <= j < s_off inp + ControlByteToSize c0 + 16 -> F (ERdB (s_blk inp) j)) ->
  (forall j, s_off out <= j < s_off out + 8 -> F (EWrW (s_blk out) j)) ->
  Q tt (setw m (s_blk out) (splice (s_off out)
     (running_sums prev (nums8 c0 c1 (drop (Z.to_nat (s_off inp)) (blk (mb m) (s_blk inp))))) (blk (mw m) (s_blk out)))) ->
  wp F pn (Get8uint32DeltaFastAsm (AMD64 true avx2) inp out (c0 + 256 * c1) prev DecodeShuffleTable PerControlLenTable) m Q.
Proof.
  intros B0 B1 Hpv Hi1 Hi2 Hb Ho1 Ho2 HF1 HF2 HQ.
  pose proof (ControlByteToSize_lens c0 B0) as HS. pose proof (sum_ctrl_lens_range c0) as HS'.
  rewrite nums8_split in HQ by done.
  set (L := blk (mb m) (s_blk inp)) in *. set (sz := ControlByteToSize c0) in *.
  assert (Hd0 : length (sub (s_off inp) 16 L) = 16%nat) by (apply sub16_len; lia).
  assert (Hd1 : length (sub (s_off inp + sz) 16 L) = 16%nat) by (apply sub16_len; lia).
  assert (Hb0 : Forall is_byte (sub (s_off inp) 16 L)) by (by apply Forall_sub).
  assert (Hb1 : Forall is_byte (sub (s_off inp + sz) 16 L)) by (by apply Forall_sub).
  unfold Get8uint32DeltaFastAsm, without_result, call_asm.
  change (layout 0 _) with ([(0, C64 (PB (s_blk inp) (s_off inp))); (8, C64 (VI (s_len inp))); (16, C64 (VI (s_cap inp)));
    (24, C64 (PW (s_blk out) (4 * s_off out))); (32, C64 (VI (s_len out))); (40, C64 (VI (s_cap out)));
    (48, C16 (c0 + 256 * c1)); (52, C32 prev);
    (56, C64 (PT (concat DecodeShuffleTable) 0)); (64, C64 (PT PerControlLenTable 0))], 72).
  cbv beta iota. apply wp_bind, wp_bind. unfold Get8uint32DeltaFastAsm_code, astate0. astart.
  do 9 astep. rewrite u8_lo in HDX by done. rewrite u16_hi in HBX by done.
  do 5 astep. rewrite u8_lo in HAX by done.
  astep. apply wp_load_len; [done|]. fold sz. anext. astep.
  astep. apply wp_load128_B; rewrite ?Z.add_0_r; [lia|fold L; lia|intros; apply HF1; lia|]. fold L. anext.
  astep. apply wp_load128_B; rewrite ?Z.add_0_r; [lia|fold L; lia|intros; apply HF1; lia|]. fold L. anext.
  pose proof (le_val_cut_u32 c0 _ Hb0) as U0. pose proof (le_val_cut_u32 c1 _ Hb1) as U1.
  destruct (cut4 c0 (sub (s_off inp) 16 L)) as (a0 & a1 & a2 & a3 & EA).
  destruct (cut4 c1 (sub (s_off inp + sz) 16 L)) as (b0 & b1 & b2 & b3 & EB).
  astep. apply wp_load_dec; [done|]. rewrite expand4 by done. rewrite EA. anext.
  astep. apply wp_load_dec; [done|]. rewrite expand4 by done. rewrite EB. anext.
  rewrite EA, EB in HQ. rewrite EA in U0. rewrite EB in U1. clear EA EB.
  cbn [app running_sums] in HQ.
  do 6 astep. cbn [replicate] in *.
  rewrite (sum4_eq a0 a1 a2 a3 prev U0 Hpv) in HX0. cbn [running_sums] in HX0.
  astep. rewrite pshufd255_lanes in HX2 by split_forall.
  do 5 astep. rewrite (sum4_eq b0 b1 b2 b3 _ U1 ltac:(apply mod_u32)) in HX1. cbn [running_sums] in HX1.
  astep.
  astep. eapply wp_mono; [done|done| |match goal with H : xm s X1 = bytes32 ?ws |- _ =>
      eapply (get8_store F pn out _ ws m (fun m' => Q tt m')) end;
    [reflexivity|reflexivity|split_forall|split_forall|done|done|done|exact HQ]].
  cbn [wp]. intros u m' Hw. astep.
  eapply wp_mono; [done|done| |exact Hw]. intros u' m'' HQ'. cbn [wp exec]. exact HQ'.
Qed.
