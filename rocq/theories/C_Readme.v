(** * The README's description of the format and of the vector algorithm: C57

    README.md:172-484.  The definitions here follow the prose and the figures; they refer to
    the model only where a theorem compares them with the assembly code. *)
From stdpp Require Import prelude list.
From Coq Require Import ZArith Lia.
From Verif Require Import Spec UtilSpec SpecLemmas GoSem Tables Shared Asm AsmProgs Wp TableProof EncodeProof2 SimdProof Api C_Simd.
Local Open Scope Z_scope.

(** ** The steps for one integer (README.md:307-445) *)
Definition byte (i x : Z) : Z := x / 256 ^ i mod 256.
Definition msb (b : Z) : Z := b / 128.
(** README.md:323-332: a byte is 1 where the integer has a value. *)
Definition step_min (x : Z) : Z :=
  Z.min (byte 0 x) 1 + 256 * Z.min (byte 1 x) 1 + 256 ^ 2 * Z.min (byte 2 x) 1 + 256 ^ 3 * Z.min (byte 3 x) 1.
(** README.md:334-342: the two 16-bit halves, each at most 255. *)
Definition step_pack (x : Z) : Z := Z.min (step_min x mod 65536) 255 + 256 * Z.min (step_min x / 65536) 255.
(** README.md:356-364: signed 16-bit minimum with 0x0101. *)
Definition step_signed (x : Z) : Z :=
  if 32768 <=? step_pack x then step_pack x else Z.min (step_pack x) 257.
(** README.md:392-412: unsigned saturating addition of 0x7F00. *)
Definition step_add (x : Z) : Z := Z.min (step_signed x + 32512) 65535.
(** README.md:437-443: the most significant bits of the two bytes. *)
Definition step_move (x : Z) : Z := msb (byte 0 (step_add x)) + 2 * msb (byte 1 (step_add x)).

Lemma bytes_of x : is_u32 x -> x = byte 0 x + 256 * byte 1 x + 65536 * byte 2 x + 16777216 * byte 3 x /\
  is_byte (byte 0 x) /\ is_byte (byte 1 x) /\ is_byte (byte 2 x) /\ is_byte (byte 3 x).
Proof.
  unfold is_u32, is_byte, byte. change (2 ^ 32) with 4294967296. change (256 ^ 0) with 1. change (256 ^ 1) with 256.
  change (256 ^ 2) with 65536. change (256 ^ 3) with 16777216. intros H. repeat split; try (apply Z.mod_pos_bound; lia).
  Z.to_euclidean_division_equations. lia.
Qed.
Lemma min_cases b : is_byte b -> (b = 0 /\ Z.min b 1 = 0) \/ (1 <= b < 256 /\ Z.min b 1 = 1).
Proof. unfold is_byte. lia. Qed.

(** The number of bytes from the bytes. *)
Lemma nbytes_bytes x : is_u32 x ->
  nbytes x = if byte 3 x =? 0 then if byte 2 x =? 0 then if byte 1 x =? 0 then 1%nat else 2%nat else 3%nat else 4%nat.
Proof.
  intros Hx. destruct (bytes_of x Hx) as (E & R0 & R1 & R2 & R3). unfold is_byte in *.
  unfold nbytes. change (2 ^ 8) with 256. change (2 ^ 16) with 65536. change (2 ^ 24) with 16777216.
  destruct (Z.eqb_spec (byte 3 x) 0), (Z.eqb_spec (byte 2 x) 0), (Z.eqb_spec (byte 1 x) 0),
    (Z.ltb_spec x 256), (Z.ltb_spec x 65536), (Z.ltb_spec x 16777216); lia.
Qed.

(** The sixteen combinations of empty and non-empty bytes. *)
Local Ltac combos x Hx :=
  pose proof (nbytes_bytes x Hx) as NB; destruct (bytes_of x Hx) as (_ & R0 & R1 & R2 & R3);
  unfold step_move, step_add, step_signed, step_pack, step_min in *;
  try rewrite NB in *; clear NB Hx;
  set (b0 := byte 0 x) in *; set (b1 := byte 1 x) in *; set (b2 := byte 2 x) in *; set (b3 := byte 3 x) in *;
  clearbody b0 b1 b2 b3;
  destruct (min_cases b0 R0) as [[Z0 M0]|[Z0 M0]], (min_cases b1 R1) as [[Z1 M1]|[Z1 M1]],
           (min_cases b2 R2) as [[Z2 M2]|[Z2 M2]], (min_cases b3 R3) as [[Z3 M3]|[Z3 M3]];
  rewrite ?M0, ?M1, ?M2, ?M3 in *; clear R0 R1 R2 R3 M0 M1 M2 M3;
  try subst b0; try subst b1; try subst b2; try subst b3;
  repeat match goal with
  | [ H : 1 <= ?b < 256 |- _ ] => rewrite (proj2 (Z.eqb_neq b 0)) in * by lia; clear H
  end.

(** "the result will have a 1 at every byte that had a value in the original integer" *)
Theorem C57_min : forall x i, is_u32 x -> 0 <= i < 4 -> byte i (step_min x) = if byte i x =? 0 then 0 else 1.
Proof.
  intros x i Hx Hi. assert (I : i = 0 \/ i = 1 \/ i = 2 \/ i = 3) by lia. clear Hi.
  destruct I as [-> | [-> | [-> | ->]]]; combos x Hx; vm_compute; reflexivity.
Qed.

(** What the pack leaves: a byte is 255 if the upper byte of its half has a value, otherwise it
    says whether the lower one has. *)
Theorem C57_pack : forall x, is_u32 x ->
  byte 0 (step_pack x) = (if byte 1 x =? 0 then if byte 0 x =? 0 then 0 else 1 else 255) /\
  byte 1 (step_pack x) = (if byte 3 x =? 0 then if byte 2 x =? 0 then 0 else 1 else 255).
Proof. intros x Hx. combos x Hx; vm_compute; split; reflexivity. Qed.

(** "without this step ... the lowest bit is on": for integers of three bytes the pack alone
    gives a wrong lower bit exactly if the second byte has a value. *)
Theorem C57_signed_needed : forall x, is_u32 x -> nbytes x = 3%nat ->
  msb (byte 0 (step_pack x)) = (if byte 1 x =? 0 then 0 else 1) /\ msb (byte 1 (step_pack x)) = 0.
Proof. intros x Hx H3. combos x Hx; try discriminate H3; vm_compute; split; reflexivity. Qed.

(** "First, for 3-byte integers, it has the effect of turning off the MSB of the lowest byte." *)
Theorem C57_signed_3 : forall x, is_u32 x -> nbytes x = 3%nat -> step_signed x = 257 \/ step_signed x = 256.
Proof. intros x Hx H3. combos x Hx; try discriminate H3; vm_compute; auto. Qed.
Theorem C57_signed_3_msb : forall x, is_u32 x -> nbytes x = 3%nat -> msb (byte 0 (step_signed x)) = 0.
Proof. intros x Hx H3. destruct (C57_signed_3 x Hx H3) as [-> | ->]; reflexivity. Qed.

(** "Second, for 4-byte integers, the signed aspect has the effect of leaving both MSBs of the
    2 bytes on."  The upper one is on, the lower one only if the second byte has a value (as
    the README itself says further below, lines 432-435). *)
Definition both_on (w : Z) : Prop := msb (byte 0 w) = 1 /\ msb (byte 1 w) = 1.
Theorem C57_signed_4_refuted : ~ (forall x, is_u32 x -> nbytes x = 4%nat -> both_on (step_signed x)).
Proof.
  intros H. assert (F : both_on (step_signed 1073741824)) by (apply H; [unfold is_u32; lia|reflexivity]).
  destruct F as [F _]. vm_compute in F. discriminate.
Qed.
Theorem C57_signed_4 : forall x, is_u32 x -> nbytes x = 4%nat ->
  step_signed x = step_pack x /\ byte 1 (step_signed x) = 255 /\ msb (byte 0 (step_signed x)) = (if byte 1 x =? 0 then 0 else 1).
Proof. intros x Hx H4. combos x Hx; try discriminate H4; vm_compute; repeat split; reflexivity. Qed.
(** An unsigned minimum would lose both. *)
Theorem C57_signed_4_unsigned : forall x, is_u32 x -> nbytes x = 4%nat ->
  let w := Z.min (step_pack x) 257 in msb (byte 0 w) = 0 /\ msb (byte 1 w) = 0.
Proof. intros x Hx H4. cbv zeta. combos x Hx; try discriminate H4; vm_compute; split; reflexivity. Qed.

(** "Third, for 1 and 2 byte integers, it has no effect." *)
Theorem C57_signed_12 : forall x, is_u32 x -> (nbytes x <= 2)%nat ->
  step_signed x = step_pack x /\ msb (byte 0 (step_signed x)) = (if Nat.eqb (nbytes x) 2 then 1 else 0) /\ msb (byte 1 (step_signed x)) = 0.
Proof. intros x Hx H2. combos x Hx; try (exfalso; cbn in H2; lia); vm_compute; repeat split; reflexivity. Qed.

(** After the saturating addition both bits are right for every integer. *)
Theorem C57_add : forall x, is_u32 x ->
  msb (byte 0 (step_add x)) = (if Nat.even (nbytes x) then 1 else 0) /\ msb (byte 1 (step_add x)) = (if Nat.leb 3 (nbytes x) then 1 else 0).
Proof. intros x Hx. combos x Hx; vm_compute; split; reflexivity. Qed.
Theorem C57_bits : forall x, is_u32 x -> step_move x = Z.of_nat (nbytes x) - 1.
Proof. intros x Hx. combos x Hx; vm_compute; reflexivity. Qed.

(** "The unsigned saturation behavior is really important for 4-byte numbers": with an addition
    that wraps every integer of four bytes gets a wrong control, and only those. *)
Definition wrapped (x : Z) : Z :=
  let w := (step_signed x + 32512) mod 65536 in msb (byte 0 w) + 2 * msb (byte 1 w).
Theorem C57_saturation : forall x, is_u32 x -> (wrapped x = Z.of_nat (nbytes x) - 1 <-> nbytes x <> 4%nat).
Proof.
  intros x Hx. unfold wrapped. cbv zeta.
  combos x Hx; vm_compute; split; intros H; try reflexivity; try discriminate; try (exfalso; apply H; reflexivity).
Qed.

(** ** "assume it works in a vectorized form (it does)"

    After each instruction of the stretch that computes the control (encode_amd64.s:16-23) the
    register holds the README's step for every one of the eight integers. *)
Lemma le4 x : le 4 x = [byte 0 x; byte 1 x; byte 2 x; byte 3 x].
Proof.
  unfold byte. change (256 ^ 0) with 1. rewrite Z.div_1_r. cbn [le]. rewrite !Zdiv.Zdiv_Zdiv by lia. reflexivity.
Qed.
Lemma le4_min x : is_u32 x -> le 4 (step_min x) = [Z.min (byte 0 x) 1; Z.min (byte 1 x) 1; Z.min (byte 2 x) 1; Z.min (byte 3 x) 1].
Proof. intros Hx. rewrite le4. combos x Hx; vm_compute; reflexivity. Qed.
Lemma pack_lane x : is_u32 x ->
  [satu8 (Z.min (byte 0 x) 1 + 256 * Z.min (byte 1 x) 1); satu8 (Z.min (byte 2 x) 1 + 256 * Z.min (byte 3 x) 1)] = bytes16 [step_pack x].
Proof. intros Hx. combos x Hx; vm_compute; reflexivity. Qed.
Lemma signed_lane x : is_u32 x -> minsw (step_pack x) 257 = step_signed x /\ is_u16 (step_pack x) /\ is_u16 (step_signed x).
Proof. intros Hx. unfold is_u16. combos x Hx; vm_compute; repeat split; discriminate. Qed.
Lemma add_lane x : addusw (step_signed x) 32512 = step_add x.
Proof. reflexivity. Qed.

(** The five registers, in the order of the README. *)
Theorem C57_vector : forall f ro s xs, length xs = 8%nat -> Forall is_u32 xs ->
  xm s X0 = bytes32 (take 4 xs) -> xm s X1 = bytes32 (drop 4 xs) ->
  (exists s', exec (AMD64 true true) f ro (take 4 ctrl_code) s = Ret s' /\
     xm s' X4 = bytes32 (map step_min (take 4 xs)) /\ xm s' X5 = bytes32 (map step_min (drop 4 xs))) /\
  (exists s', exec (AMD64 true true) f ro (take 5 ctrl_code) s = Ret s' /\ xm s' X4 = bytes16 (map step_pack xs)) /\
  (exists s', exec (AMD64 true true) f ro (take 6 ctrl_code) s = Ret s' /\ xm s' X4 = bytes16 (map step_signed xs)) /\
  (exists s', exec (AMD64 true true) f ro (take 7 ctrl_code) s = Ret s' /\ xm s' X4 = bytes16 (map step_add xs)) /\
  (exists s', exec (AMD64 true true) f ro ctrl_code s = Ret s' /\
     gp s' AX = VI (fold_right (fun x r => step_move x + 4 * r) 0 xs)).
Proof.
  intros f ro s xs H8 Hx E0 E1. destruct xs as [|a [|b [|c [|d [|e [|g [|h [|i [|]]]]]]]]]; try done.
  cbn [take drop] in E0, E1. repeat (apply Forall_cons_1 in Hx as [? Hx]). clear Hx H8.
  assert (Hm : forall y z v w, is_u32 y -> is_u32 z -> is_u32 v -> is_u32 w ->
    pminub (bytes32 [y; z; v; w]) (bytes16 (replicate 8 257)) = bytes32 (map step_min [y; z; v; w])).
  { intros y z v w Hy Hz Hv Hw. cbn [map bytes32]. rewrite !le4_min by done. cbn [bytes32]. rewrite !le4. reflexivity. }
  assert (Hp : packuswb (bytes32 (map step_min [a; b; c; d])) (bytes32 (map step_min [e; g; h; i])) = bytes16 (map step_pack [a; b; c; d; e; g; h; i])).
  { cbn [map bytes32]. rewrite !le4_min by done. unfold packuswb.
    change (bytes16 [step_pack a; step_pack b; step_pack c; step_pack d; step_pack e; step_pack g; step_pack h; step_pack i]) with
      (bytes16 [step_pack a] ++ bytes16 [step_pack b] ++ bytes16 [step_pack c] ++ bytes16 [step_pack d] ++
       bytes16 [step_pack e] ++ bytes16 [step_pack g] ++ bytes16 [step_pack h] ++ bytes16 [step_pack i]).
    rewrite <- !pack_lane by done. reflexivity. }
  assert (Hs : pminsw (bytes16 (map step_pack [a; b; c; d; e; g; h; i])) (bytes16 (replicate 8 257)) = bytes16 (map step_signed [a; b; c; d; e; g; h; i])).
  { unfold pminsw. rewrite !lanes16_bytes16.
    - f_equal. cbn [map replicate map2]. rewrite !(fun x H => proj1 (signed_lane x H)) by done. reflexivity.
    - apply Forall_replicate. unfold is_u16. lia.
    - cbn [map]. repeat (apply List.Forall_cons); try apply List.Forall_nil; by apply signed_lane. }
  assert (Ha : paddusw (bytes16 (map step_signed [a; b; c; d; e; g; h; i])) (bytes16 (replicate 8 32512)) = bytes16 (map step_add [a; b; c; d; e; g; h; i])).
  { unfold paddusw. rewrite !lanes16_bytes16.
    - reflexivity.
    - apply Forall_replicate. unfold is_u16. lia.
    - cbn [map]. repeat (apply List.Forall_cons); try apply List.Forall_nil; by apply signed_lane. }
  rewrite <- Hp in Hs. rewrite <- Hs in Ha. rewrite <- (Hm a b c d), <- (Hm e g h i) in Hp, Hs, Ha by done.
  pose proof (Hm a b c d) as M0. pose proof (Hm e g h i) as M1. clear Hm. cbn [take drop].
  rewrite <- E0 in *. rewrite <- E1 in *.
  split; [eexists; split; [reflexivity|split; [exact (M0 ltac:(done) ltac:(done) ltac:(done) ltac:(done))|exact (M1 ltac:(done) ltac:(done) ltac:(done) ltac:(done))]]|].
  split; [eexists; split; [reflexivity|exact Hp]|].
  split; [eexists; split; [reflexivity|exact Hs]|].
  split; [eexists; split; [reflexivity|exact Ha]|].
  eexists. split; [reflexivity|].
  match goal with |- gp _ AX = _ => change (VI (simd_ctrl (xm s X0) (xm s X1)) = VI (fold_right (fun x r => step_move x + 4 * r) 0 [a; b; c; d; e; g; h; i])) end.
  f_equal. rewrite E0, E1, simd_ctrl_eq by (repeat (apply List.Forall_cons; [assumption|]); apply List.Forall_nil).
  cbn [fold_right]. rewrite !C57_bits by done. unfold ctrl16_of. cbn [take drop ctrl_of]. lia.
Qed.

(** ** The figures *)
Example C57_figures_control :
  (step_min 1234, step_pack 1234, step_signed 1234, step_add 1234, step_move 1234) = (0x00000101, 0x00FF, 0x00FF, 0x7FFF, 1) /\
  (step_min 789123, step_pack 789123, step_signed 789123, step_add 789123, step_move 789123) = (0x00010101, 0x01FF, 0x0101, 0x8001, 2) /\
  (step_min 1073741824, step_pack 1073741824, step_signed 1073741824, step_add 1073741824, step_move 1073741824) = (0x01000000, 0xFF00, 0xFF00, 0xFFFF, 3) /\
  step_move 111 = 0.
Proof. vm_compute. repeat split; reflexivity. Qed.
(** README.md:223-241: the group of four, its control byte and its data bytes. *)
Example C57_figures_group :
  ctrl_of [111; 1234; 789123; 1073741824] = 228 (* 0b11100100 *) /\
  enc_data [111; 1234; 789123; 1073741824] = [0x6F; 0xD2; 0x04; 0x83; 0x0A; 0x0C; 0x00; 0x00; 0x00; 0x40].
Proof. vm_compute. split; reflexivity. Qed.
(** README.md:447-475: the shuffle of two integers (the vector's other half is empty). *)
Example C57_figures_shuffle :
  pshufb (bytes32 [1234; 789123; 0; 0]) ([0x00; 0x01; 0x04; 0x05; 0x06] ++ replicate 11 0xff) =
    [0xD2; 0x04; 0x83; 0x0A; 0x0C] ++ replicate 11 0 /\
  enc_data [1234; 789123] = [0xD2; 0x04; 0x83; 0x0A; 0x0C] /\
  take 5 (nth (Z.to_nat (ctrl_of [1234; 789123; 0; 0])) EncodeShuffleTable []) = [0x00; 0x01; 0x04; 0x05; 0x06].
Proof. vm_compute. repeat split; reflexivity. Qed.
(** README.md:244-246: one byte for every four integers; 256 KB for 2^20 integers. *)
Theorem C57_cost : forall xs, (length (stream_of xs) = Nat.div (length xs + 3) 4 + length (enc_data xs))%nat.
Proof. intros xs. unfold stream_of. rewrite app_length, enc_ctrls_length. reflexivity. Qed.
Theorem C57_cost_2_20 : forall xs, Z.of_nat (length xs) = 2 ^ 20 -> Z.of_nat (length (stream_of xs)) = 256 * 1024 + Z.of_nat (length (enc_data xs)).
Proof.
  intros xs H. rewrite C57_cost, Nat2Z.inj_add, Nat2Z.inj_div, Nat2Z.inj_add, H. reflexivity.
Qed.

(** ** The program of the README (README.md:250-286)

    Slices of the literal: the capacity is the length, so slicing beyond the length panics
    ([None]).  Lengths are uint8. *)
Definition decodeOne (input : list Z) (size : Z) : option Z :=
  if Z.of_nat (length input) <? size then None
  else let buf := take 4 (take (Z.to_nat size) input ++ replicate 4 0) in
    let b i := nth i buf 0 in
    Some (Z.lor (Z.lor (Z.lor (b 0%nat) (Z.shiftl (b 1%nat) 8)) (Z.shiftl (b 2%nat) 16)) (Z.shiftl (b 3%nat) 24)).
Definition from (data : list Z) (k : Z) : option (list Z) :=
  if Z.of_nat (length data) <? k then None else Some (drop (Z.to_nat k) data).
Definition u8 (x : Z) : Z := x mod 256.
Definition readme_main (ctrl : Z) (data : list Z) : option (list Z) :=
  let len0 := u8 (Z.land ctrl 3 + 1) in
  let len1 := u8 (Z.land (Z.shiftr ctrl 2) 3 + 1) in
  let len2 := u8 (Z.land (Z.shiftr ctrl 4) 3 + 1) in
  let len3 := u8 (Z.land (Z.shiftr ctrl 6) 3 + 1) in
  x0 ← decodeOne data len0;
  d1 ← from data len0; x1 ← decodeOne d1 len1;
  d2 ← from data (u8 (len0 + len1)); x2 ← decodeOne d2 len2;
  d3 ← from data (u8 (u8 (len0 + len1) + len2)); x3 ← decodeOne d3 len3;
  Some [x0; x1; x2; x3].

Lemma lor_shift a b n : 0 <= n -> 0 <= a < 2 ^ n -> 0 <= b -> Z.lor a (Z.shiftl b n) = a + 2 ^ n * b.
Proof.
  intros Hn Ha Hb. rewrite Z.shiftl_mul_pow2, (Z.mul_comm b) by lia.
  rewrite <- Z.lxor_lor.
  - symmetry. apply Z.add_nocarry_lxor. apply Z.bits_inj'. intros k Hk. rewrite Z.land_spec, Z.bits_0, Z.mul_comm, <- Z.shiftl_mul_pow2 by lia.
    destruct (Z.ltb_spec k n).
    + rewrite Z.shiftl_spec_low by lia. apply andb_false_r.
    + rewrite <- (Z.mod_small a (2 ^ n)) by lia. rewrite Z.mod_pow2_bits_high by lia. reflexivity.
  - apply Z.bits_inj'. intros k Hk. rewrite Z.land_spec, Z.bits_0, Z.mul_comm, <- Z.shiftl_mul_pow2 by lia.
    destruct (Z.ltb_spec k n).
    + rewrite Z.shiftl_spec_low by lia. apply andb_false_r.
    + rewrite <- (Z.mod_small a (2 ^ n)) by lia. rewrite Z.mod_pow2_bits_high by lia. reflexivity.
Qed.
Lemma decodeOne_ok input size : Forall is_byte input -> 1 <= size <= 4 ->
  decodeOne input size = if Z.of_nat (length input) <? size then None else Some (le_val (take (Z.to_nat size) input)).
Proof.
  intros Hb Hs. unfold decodeOne. destruct (Z.ltb_spec (Z.of_nat (length input)) size); [done|]. f_equal.
  assert (N : Z.to_nat size = 1%nat \/ Z.to_nat size = 2%nat \/ Z.to_nat size = 3%nat \/ Z.to_nat size = 4%nat) by lia.
  assert (L : (Z.to_nat size <= length input)%nat) by lia.
  assert (B : forall a b c d, is_byte a -> is_byte b -> is_byte c -> is_byte d ->
    Z.lor (Z.lor (Z.lor a (Z.shiftl b 8)) (Z.shiftl c 16)) (Z.shiftl d 24) = le_val [a; b; c; d]).
  { unfold is_byte. intros a b c d Ha Hb' Hc Hd. rewrite (lor_shift a b 8) by lia. rewrite (lor_shift _ c 16) by lia.
    rewrite (lor_shift _ d 24) by lia. cbn [le_val]. lia. }
  assert (O : is_byte 0) by (unfold is_byte; lia).
  assert (T : forall i, is_byte (nth i (take (Z.to_nat size) input) 0)).
  { intros i. destruct (Nat.lt_ge_cases i (length (take (Z.to_nat size) input))).
    - apply Forall_nth; [|done]. by apply Forall_take.
    - rewrite nth_overflow by done. exact O. }
  assert (LT : length (take (Z.to_nat size) input) = Z.to_nat size) by (rewrite take_length; lia).
  set (t := take (Z.to_nat size) input) in *. clearbody t.
  pose proof (T 0%nat) as T0. pose proof (T 1%nat) as T1. pose proof (T 2%nat) as T2. pose proof (T 3%nat) as T3.
  destruct t as [|a [|b [|c [|d [|]]]]]; cbn [length] in LT; try lia; cbn [nth] in T0, T1, T2, T3;
  cbn [take app replicate nth]; rewrite B by assumption; cbn [le_val]; lia.
Qed.
Lemma lens_ok c n : 0 <= c -> 0 <= n -> u8 (Z.land (Z.shiftr c n) 3 + 1) = c / 2 ^ n mod 4 + 1.
Proof.
  intros Hc Hn. rewrite Z.shiftr_div_pow2 by lia. change 3 with (Z.ones 2). rewrite Z.land_ones by lia. change (2 ^ 2) with 4.
  unfold u8. apply Z.mod_small. pose proof (Z.mod_pos_bound (c / 2 ^ n) 4). lia.
Qed.
(** For every control byte and every data: the four numbers of the format if the data bytes
    are there, a panic otherwise. *)
Theorem C57_program : forall c data, is_byte c -> Forall is_byte data ->
  readme_main c data = if Nat.ltb (length data) (sum_nat (ctrl_lens c)) then None else Some (map le_val (cut (ctrl_lens c) data)).
Proof.
  intros c data Hc Hd. unfold is_byte in Hc. unfold readme_main. cbv zeta.
  change (Z.land c 3) with (Z.land (Z.shiftr c 0) 3). rewrite !lens_ok by lia.
  change (2 ^ 0) with 1. change (2 ^ 2) with 4. change (2 ^ 4) with 16. change (2 ^ 6) with 64. rewrite Z.div_1_r.
  unfold ctrl_lens. set (l0 := c mod 4 + 1). set (l1 := c / 4 mod 4 + 1). set (l2 := c / 16 mod 4 + 1). set (l3 := c / 64 mod 4 + 1).
  assert (R : 1 <= l0 <= 4 /\ 1 <= l1 <= 4 /\ 1 <= l2 <= 4 /\ 1 <= l3 <= 4).
  { subst l0 l1 l2 l3. pose proof (Z.mod_pos_bound c 4). pose proof (Z.mod_pos_bound (c / 4) 4).
    pose proof (Z.mod_pos_bound (c / 16) 4). pose proof (Z.mod_pos_bound (c / 64) 4). lia. }
  clearbody l0 l1 l2 l3. unfold u8. rewrite (Z.mod_small (l0 + l1)), (Z.mod_small (l0 + l1 + l2)) by lia.
  cbn [sum_nat fold_right cut map].
  assert (Q : forall k, Forall is_byte (drop k data)) by (intros k; by apply Forall_drop).
  unfold from. rewrite (decodeOne_ok data l0) by (done || lia).
  repeat match goal with
  | |- context [decodeOne (drop ?k data) ?l] => rewrite (decodeOne_ok (drop k data) l) by (apply Q || lia)
  | |- context [?a <? ?b] => destruct (Z.ltb_spec a b); cbn [mbind option_bind]; rewrite ?drop_length in *; try lia
  | |- context [Nat.ltb ?a ?b] => destruct (Nat.ltb_spec a b); rewrite ?drop_length in *; try lia
  end; try reflexivity.
  rewrite !drop_drop, !Z2Nat.inj_add by lia. rewrite ?Nat.add_assoc. reflexivity.
Qed.
Theorem C57_program_decodes : forall xs junk, length xs = 4%nat -> Forall is_u32 xs -> Forall is_byte junk ->
  readme_main (ctrl_of xs) (enc_data xs ++ junk) = Some xs.
Proof.
  intros xs junk H4 Hx Hj. assert (Hc : is_byte (ctrl_of xs)) by (apply ctrl_of_byte; lia).
  rewrite C57_program by (done || (apply Forall_app; split; [apply enc_data_bytes|done])).
  pose proof (ctrl_lens_of xs ltac:(lia)) as E. rewrite H4 in E. rewrite firstn_all2 in E by (by rewrite ctrl_lens_length).
  rewrite E, cut_enc_data, <- enc_data_length, app_length.
  destruct (Nat.ltb_spec (length (enc_data xs) + length junk) (length (enc_data xs))); [lia|].
  f_equal. rewrite map_map. rewrite <- (map_id xs) at 2. apply map_ext_in. intros x Hin. apply enc1_val.
  rewrite Forall_forall in Hx. apply Hx. by apply elem_of_list_In.
Qed.
Example C57_program_case :
  readme_main 228 [0x6F; 0xD2; 0x04; 0x83; 0x0A; 0x0C; 0x00; 0x00; 0x00; 0x40] = Some [111; 1234; 789123; 1073741824] /\
  readme_main 228 [0x6F; 0xD2; 0x04; 0x83; 0x0A; 0x0C; 0x00; 0x00; 0x00] = None.
Proof. vm_compute. split; reflexivity. Qed.

(** ** VByte (README.md:172-206)

    "you OR the last 7 bits of every byte shifted to the appropriate length to your 32-bit
    integer until you find a byte that doesn't have a continuation bit set" *)
Fixpoint vbyte_decode (acc shift : Z) (bytes : list Z) : option (Z * list Z) :=
  match bytes with
  | [] => None
  | b :: r => let acc' := Z.lor acc (Z.shiftl (Z.land b 127) shift) in
    if Z.land b 128 =? 0 then Some (acc', r) else vbyte_decode acc' (shift + 7) r
  end.
Lemma vbyte_uv n : forall x acc s r, 0 <= x < 128 ^ (Z.of_nat n + 1) -> 0 <= s -> 0 <= acc < 2 ^ s ->
  vbyte_decode acc s (uv n x ++ r) = Some (acc + 2 ^ s * x, r).
Proof.
  assert (B : forall b, 0 <= b < 256 -> Z.land b 127 = b mod 128 /\ (Z.land b 128 =? 0) = (b <? 128)).
  { intros b Hb. split; [change 127 with (Z.ones 7); by rewrite Z.land_ones by lia|].
    assert (E : Z.land b 128 = if b <? 128 then 0 else 128).
    { assert (K : (b < 128 /\ b / 128 = 0) \/ (128 <= b /\ b / 128 = 1)) by (Z.to_euclidean_division_equations; lia).
      change 128 with (2 ^ 7) at 1. apply Z.bits_inj'. intros k Hk. rewrite Z.land_spec, Z.pow2_bits_eqb by lia.
      destruct (Z.eqb_spec 7 k) as [<-|Hne].
      - rewrite andb_true_r, (Z.testbit_odd b), Z.shiftr_div_pow2 by lia. change (2 ^ 7) with 128.
        destruct (Z.ltb_spec b 128), K as [[? ->] | [? ->]]; try reflexivity; lia.
      - rewrite andb_false_r. destruct (b <? 128); [by rewrite Z.bits_0|]. change 128 with (2 ^ 7). rewrite Z.pow2_bits_eqb by lia.
        symmetry. by apply Z.eqb_neq. }
    rewrite E. by destruct (b <? 128). }
  induction n as [|n IH]; intros x acc s r Hx Hs Ha.
  - change (Z.of_nat 0 + 1) with 1 in Hx. cbn [uv app vbyte_decode]. destruct (B x ltac:(lia)) as [-> ->].
    rewrite (proj2 (Z.ltb_lt x 128)) by lia. rewrite lor_shift by (try apply Z.mod_pos_bound; lia). rewrite Z.mod_small by lia. reflexivity.
  - cbn [uv]. destruct (Z.ltb_spec x 128).
    + cbn [app vbyte_decode]. destruct (B x ltac:(lia)) as [-> ->].
      rewrite (proj2 (Z.ltb_lt x 128)) by lia. rewrite lor_shift by (try apply Z.mod_pos_bound; lia). rewrite Z.mod_small by lia. reflexivity.
    + pose proof (Z.mod_pos_bound x 128 ltac:(lia)). cbn [app vbyte_decode]. destruct (B (x mod 128 + 128) ltac:(lia)) as [-> ->].
      rewrite (proj2 (Z.ltb_ge _ 128)) by lia. rewrite <- Z.add_mod_idemp_r by lia. change (128 mod 128) with 0. rewrite Z.add_0_r, Z.mod_mod by lia.
      rewrite lor_shift by lia.
      assert (P : 2 ^ (s + 7) = 128 * 2 ^ s) by (rewrite Z.pow_add_r by lia; change (2 ^ 7) with 128; lia).
      rewrite IH.
      * f_equal. f_equal. rewrite P. rewrite (Z.div_mod x 128) at 3 by lia. lia.
      * split; [apply Z.div_pos; lia|]. apply Z.div_lt_upper_bound; [lia|].
        rewrite Nat2Z.inj_succ in Hx. replace (Z.succ (Z.of_nat n) + 1) with (1 + (Z.of_nat n + 1)) in Hx by lia.
        rewrite Z.pow_add_r in Hx by lia. change (128 ^ 1) with 128 in Hx. lia.
      * lia.
      * rewrite P. nia.
Qed.
(** "Note that this works the same for 64-bit numbers." *)
Theorem C57_vbyte : forall x r, 0 <= x < 2 ^ 64 -> vbyte_decode 0 0 (varint x ++ r) = Some (x, r).
Proof.
  intros x r Hx. unfold varint. rewrite vbyte_uv; [do 2 f_equal; lia| |lia|lia].
  split; [lia|]. apply Z.lt_le_trans with (2 ^ 64); [lia|]. vm_compute. discriminate.
Qed.
Example C57_figures_vbyte : varint 1234 = [0xD2; 0x09] /\ vbyte_decode 0 0 [0xD2; 0x09] = Some (1234, []) /\ varint 111 = [111].
Proof. vm_compute. repeat split; reflexivity. Qed.
Example C57_vector_case : exists s', exec (AMD64 true true) [] 0 (take 7 ctrl_code)
    (AState (fun _ => VUndef) (fun r => match r with X0 => bytes32 [111; 1234; 789123; 1073741824] | _ => bytes32 [0; 255; 256; 4294967295] end) None) = Ret s' /\
  xm s' X4 = bytes16 [0x7F01; 0x7FFF; 0x8001; 0xFFFF; 0x7F00; 0x7F01; 0x7FFF; 0xFFFF].
Proof. eexists. split; [reflexivity|]. vm_compute. reflexivity. Qed.
