(** * The vector operations of the assembly routines, on lanes *)
From stdpp Require Import prelude list.
From Coq Require Import ZArith Lia.
From Verif Require Import Spec SpecLemmas GoSem Tables Shared Asm AsmProgs Wp TableProof EncodeProof2.
Local Open Scope Z_scope.

(** ** Lanes *)
Lemma bytes32_length l : length (bytes32 l) = (4 * length l)%nat.
Proof. induction l as [|w l IH]; [done|]. cbn [bytes32 length]. rewrite app_length, IH, le_length. lia. Qed.
Lemma lanes32_bytes32 l : Forall is_u32 l -> lanes32 (bytes32 l) = l.
Proof.
  induction 1 as [|w l Hw _ IH]; [done|].
  transitivity (le_val (le 4 w) :: lanes32 (bytes32 l)); [done|].
  rewrite IH. f_equal. rewrite le_val_le. change (256 ^ Z.of_nat 4) with (2 ^ 32).
  unfold is_u32 in Hw. apply Z.mod_small. lia.
Qed.
Lemma mod_u32 x : is_u32 (x mod 2 ^ 32).
Proof. unfold is_u32. apply Z.mod_pos_bound. lia. Qed.
(** ** Control computation (encode_amd64.s:16-23) *)
Notation simd_ctrl v0 v1 :=
  (pmovmskb (paddusw (pminsw (packuswb (pminub v0 (bytes16 (replicate 8 mask0101)))
                                      (pminub v1 (bytes16 (replicate 8 mask0101))))
                            (bytes16 (replicate 8 mask0101)))
                    (bytes16 (replicate 8 mask7F00)))) (only parsing).

(** The two bytes VPADDUSW leaves for one number with bytes b0..b3. *)
Definition lane_of (b0 b1 b2 b3 : Z) : Z :=
  addusw (minsw (satu8 (Z.min b0 1 + 256 * Z.min b1 1) + 256 * satu8 (Z.min b2 1 + 256 * Z.min b3 1)) 257) 32512.

Lemma lane_ctrl x : is_u32 x ->
  let w := lane_of (x mod 256) (x / 256 mod 256) (x / 256 / 256 mod 256) (x / 256 / 256 / 256 mod 256) in
  w mod 256 / 128 + 2 * (w / 256 mod 256 / 128) = Z.of_nat (nbytes x) - 1.
Proof.
  intros Hx w. unfold is_u32 in Hx.
  set (b0 := x mod 256) in *. set (b1 := x / 256 mod 256) in *.
  set (b2 := x / 256 / 256 mod 256) in *. set (b3 := x / 256 / 256 / 256 mod 256) in *.
  assert (E : x = b0 + 256 * (b1 + 256 * (b2 + 256 * b3))).
  { subst b0 b1 b2 b3. clear w. change (2 ^ 32) with 4294967296 in Hx. Z.to_euclidean_division_equations; lia. }
  assert (R : 0 <= b0 < 256 /\ 0 <= b1 < 256 /\ 0 <= b2 < 256 /\ 0 <= b3 < 256)
    by (subst b0 b1 b2 b3; repeat split; try (apply Z.mod_pos_bound; lia)).
  clearbody b0 b1 b2 b3. destruct R as (R0 & R1 & R2 & R3).
  assert (M : forall b, 0 <= b -> (b = 0 /\ Z.min b 1 = 0) \/ (1 <= b /\ Z.min b 1 = 1)) by lia.
  unfold nbytes. change (2 ^ 8) with 256. change (2 ^ 16) with 65536. change (2 ^ 24) with 16777216.
  subst w. unfold lane_of.
  destruct (M b0 ltac:(lia)) as [[Z0 ->]|[Z0 ->]], (M b1 ltac:(lia)) as [[Z1 ->]|[Z1 ->]],
           (M b2 ltac:(lia)) as [[Z2 ->]|[Z2 ->]], (M b3 ltac:(lia)) as [[Z3 ->]|[Z3 ->]];
  match goal with |- ?l = _ => let v := eval vm_compute in l in change l with v end;
  destruct (Z.ltb_spec x 256), (Z.ltb_spec x 65536), (Z.ltb_spec x 16777216); lia.
Qed.

Lemma pair_step w r : w mod 256 / 128 + 2 * (w / 256 mod 256 / 128 + 2 * r) =
  (w mod 256 / 128 + 2 * (w / 256 mod 256 / 128)) + 4 * r.
Proof. lia. Qed.

Lemma lanes16_bytes16 l : Forall is_u16 l -> lanes16 (bytes16 l) = l.
Proof.
  induction 1 as [|w l Hw _ IH]; [done|]. cbn [bytes16 lanes16]. rewrite IH. f_equal.
  unfold is_u16 in Hw. Z.to_euclidean_division_equations; lia.
Qed.
Lemma satu8_range w : 0 <= satu8 w < 256.
Proof.
  unfold satu8. destruct (Z.ltb_spec (signed16 w) 0); [lia|]. destruct (Z.ltb_spec 255 (signed16 w)); lia.
Qed.
Lemma minsw_u16 v w : is_u16 (minsw (satu8 v + 256 * satu8 w) 257).
Proof.
  unfold minsw, is_u16. pose proof (satu8_range v). pose proof (satu8_range w).
  destruct (_ <? _); lia.
Qed.

Lemma simd_ctrl_eq a b c d e f g h : Forall is_u32 [a; b; c; d; e; f; g; h] ->
  simd_ctrl (bytes32 [a; b; c; d]) (bytes32 [e; f; g; h]) = ctrl16_of [a; b; c; d; e; f; g; h].
Proof.
  intros H. repeat (apply Forall_cons_1 in H as [? H]).
  transitivity (pmovmskb (bytes16 (map (fun x =>
     lane_of (x mod 256) (x / 256 mod 256) (x / 256 / 256 mod 256) (x / 256 / 256 / 256 mod 256))
     [a; b; c; d; e; f; g; h]))).
  { unfold paddusw, pminsw. rewrite lanes16_bytes16.
    - reflexivity.
    - cbn -[minsw satu8 Z.mul Z.add Z.min Z.div Z.modulo mask0101 le].
      repeat (apply List.Forall_cons); try apply List.Forall_nil; apply minsw_u16. }
  cbn [map bytes16 pmovmskb]. rewrite !pair_step, !lane_ctrl by done.
  unfold ctrl16_of. cbn [take drop ctrl_of]. lia.
Qed.

(** ** Shuffles *)

(** The masks, from the format. *)
Definition range (o : Z) (n : nat) : list Z := map (fun k => o + Z.of_nat k) (seq 0 n).
Definition enc_mask (c : Z) : list Z :=
  let ls := ctrl_lens c in
  range 0 (nth 0 ls 0%nat) ++ range 4 (nth 1 ls 0%nat) ++ range 8 (nth 2 ls 0%nat) ++ range 12 (nth 3 ls 0%nat)
  ++ replicate (16 - sum_nat ls) 255.
Definition dec_part (o : Z) (n : nat) : list Z := range o n ++ replicate (4 - n) 255.
Definition dec_mask (c : Z) : list Z :=
  let l0 := nth 0 (ctrl_lens c) 0%nat in let l1 := nth 1 (ctrl_lens c) 0%nat in
  let l2 := nth 2 (ctrl_lens c) 0%nat in let l3 := nth 3 (ctrl_lens c) 0%nat in
  dec_part 0 l0 ++ dec_part (Z.of_nat l0) l1 ++ dec_part (Z.of_nat (l0 + l1)) l2 ++ dec_part (Z.of_nat (l0 + l1 + l2)) l3.

Fixpoint zlist_eqb (a b : list Z) : bool :=
  match a, b with
  | [], [] => true
  | x :: a', y :: b' => (x =? y) && zlist_eqb a' b'
  | _, _ => false
  end.
Lemma zlist_eqb_eq a b : zlist_eqb a b = true -> a = b.
Proof.
  revert b. induction a as [|x a IH]; intros [|y b]; cbn; try done.
  rewrite andb_true_iff. intros [->%Z.eqb_eq E]. by rewrite (IH b).
Qed.

Lemma EncodeShuffleTable_mask c : is_byte c ->
  take 16 (drop (Z.to_nat (16 * c)) (concat EncodeShuffleTable)) = enc_mask c.
Proof. intros Hc. apply zlist_eqb_eq. revert c Hc. apply byte_sweep. vm_compute. reflexivity. Qed.
Lemma DecodeShuffleTable_mask c : is_byte c ->
  take 16 (drop (Z.to_nat (16 * c)) (concat DecodeShuffleTable)) = dec_mask c.
Proof. intros Hc. apply zlist_eqb_eq. revert c Hc. apply byte_sweep. vm_compute. reflexivity. Qed.
Lemma EncodeShuffleTable_rows c : is_byte c -> nth (Z.to_nat c) EncodeShuffleTable [] = enc_mask c.
Proof. intros Hc. apply zlist_eqb_eq. revert c Hc. apply byte_sweep. vm_compute. reflexivity. Qed.
Lemma DecodeShuffleTable_rows c : is_byte c -> nth (Z.to_nat c) DecodeShuffleTable [] = dec_mask c.
Proof. intros Hc. apply zlist_eqb_eq. revert c Hc. apply byte_sweep. vm_compute. reflexivity. Qed.
Lemma EncodeShuffleTable_size : length (concat EncodeShuffleTable) = 4096%nat.
Proof. apply Nat.eqb_eq. vm_compute. reflexivity. Qed.
Lemma DecodeShuffleTable_size : length (concat DecodeShuffleTable) = 4096%nat.
Proof. apply Nat.eqb_eq. vm_compute. reflexivity. Qed.
Lemma PerControlLenTable_size : length PerControlLenTable = 256%nat.
Proof. apply Nat.eqb_eq. vm_compute. reflexivity. Qed.

Lemma pshufb_app v a b : pshufb v (a ++ b) = pshufb v a ++ pshufb v b.
Proof. unfold pshufb. apply map_app. Qed.
Lemma pshufb_pad v n : pshufb v (replicate n 255) = replicate n 0.
Proof. induction n as [|n IH]; [done|]. cbn [replicate pshufb map] in *. by rewrite <- IH. Qed.
Lemma pshufb_range v o n : 0 <= o -> o + Z.of_nat n <= 16 -> length v = 16%nat ->
  pshufb v (range o n) = take n (drop (Z.to_nat o) v).
Proof.
  intros Ho Hn Hv. apply list_eq. intros i. unfold pshufb, range.
  rewrite !list_lookup_fmap.
  destruct (decide (i < n)%nat).
  - rewrite lookup_seq_lt by done. cbn [fmap option_fmap option_map].
    rewrite lookup_take, lookup_drop by done. cbn [Nat.add].
    destruct (Z.leb_spec 128 (o + Z.of_nat i)); [lia|].
    rewrite Z.mod_small by lia. rewrite nth_lookup.
    replace (Z.to_nat (o + Z.of_nat i)) with (Z.to_nat o + i)%nat by lia.
    destruct (lookup_lt_is_Some_2 v (Z.to_nat o + i)) as [x ->]; [lia|done].
  - rewrite lookup_seq_ge by lia. cbn. rewrite lookup_ge_None_2; [done|]. rewrite take_length. lia.
Qed.

Lemma le_take n x : (n <= 4)%nat -> take n (le 4 x) = le n x.
Proof. intros. destruct n as [|[|[|[|[|n]]]]]; try lia; reflexivity. Qed.

(** Compaction of four numbers (C23, encoding half). *)
Lemma compact4 a b c d :
  pshufb (bytes32 [a; b; c; d]) (enc_mask (ctrl_of [a; b; c; d])) =
  enc_data [a; b; c; d] ++ replicate (16 - length (enc_data [a; b; c; d])) 0.
Proof.
  unfold enc_mask. rewrite ctrl_lens_short by (cbn; lia). cbn [map app length Nat.sub replicate nth].
  pose proof (nbytes_range a). pose proof (nbytes_range b). pose proof (nbytes_range c). pose proof (nbytes_range d).
  rewrite !pshufb_app, pshufb_pad, !pshufb_range by (rewrite ?bytes32_length; cbn [length]; lia).
  cbn [bytes32]. rewrite app_nil_r.
  assert (L : forall x, length (le 4 x) = 4%nat) by (intros; apply le_length).
  change (Z.to_nat 0) with 0%nat. change (Z.to_nat 4) with 4%nat. change (Z.to_nat 8) with 8%nat. change (Z.to_nat 12) with 12%nat.
  assert (D : forall x k r, drop (4 + k) (le 4 x ++ r) = drop k r) by (intros; reflexivity).
  assert (T : forall x n r, (n <= 4)%nat -> take n (le 4 x ++ r) = le n x).
  { intros x n r Hn. rewrite take_app_le by (rewrite L; lia). by apply le_take. }
  assert (T' : forall x n, (n <= 4)%nat -> take n (le 4 x) = le n x) by (intros; by apply le_take).
  change 12%nat with (4 + (4 + (4 + 0)))%nat. change 8%nat with (4 + (4 + 0))%nat. change 4%nat with (4 + 0)%nat at 12.
  rewrite !D, !drop_0.
  replace (drop 4 (le 4 a ++ le 4 b ++ le 4 c ++ le 4 d)) with (le 4 b ++ le 4 c ++ le 4 d) by reflexivity.
  rewrite !T, !T' by lia.
  cbn [enc_data]. unfold enc1. rewrite !app_nil_r, <- !app_assoc. do 4 f_equal.
  rewrite !app_length, !le_length. cbn [sum_nat fold_right]. f_equal. lia.
Qed.

(** Expansion to four lanes (C23, decoding half). *)
Lemma le_val_lanes p : (length p <= 4)%nat -> Forall is_byte p -> le 4 (le_val p) = p ++ replicate (4 - length p) 0.
Proof.
  intros Hl Hp. rewrite <- (le_le_val (p ++ replicate (4 - length p) 0)).
  - f_equal; [rewrite app_length, replicate_length; lia|]. rewrite le_val_app, le_val_zeros. lia.
  - apply Forall_app. split; [done|]. apply Forall_replicate. unfold is_byte. lia.
Qed.
Lemma expand_part v o n : 0 <= o -> o + Z.of_nat n <= 16 -> (n <= 4)%nat -> length v = 16%nat -> Forall is_byte v ->
  pshufb v (dec_part o n) = le 4 (le_val (take n (drop (Z.to_nat o) v))).
Proof.
  intros. unfold dec_part. rewrite pshufb_app, pshufb_pad, pshufb_range by done.
  assert (E : length (take n (drop (Z.to_nat o) v)) = n) by (rewrite take_length, drop_length; lia).
  rewrite le_val_lanes; rewrite ?E; [done|lia|]. apply Forall_take. by apply Forall_drop.
Qed.
Lemma expand4 v c : is_byte c -> length v = 16%nat -> Forall is_byte v ->
  pshufb v (dec_mask c) = bytes32 (map le_val (cut (ctrl_lens c) v)).
Proof.
  intros Hc Hl Hv. unfold dec_mask.
  pose proof (ctrl_lens_range c) as Hr. pose proof (sum_ctrl_lens_range c) as Hs.
  pose proof (ctrl_lens_length c) as Hn.
  destruct (ctrl_lens c) as [|l0 [|l1 [|l2 [|l3 [|]]]]]; try done.
  repeat (apply Forall_cons_1 in Hr as [? Hr]). cbn [nth sum_nat fold_right] in *.
  rewrite !pshufb_app, !expand_part by (try lia; done).
  rewrite !Nat2Z.id. change (Z.to_nat 0) with 0%nat. cbn [map cut bytes32 drop].
  rewrite !app_nil_r, !drop_drop. repeat f_equal; lia.
Qed.

(** ** Differences (encode_amd64.s:52-57) *)
Definition simd_delta (v0 v1 : list Z) (prev : Z) : list Z * list Z :=
  let x1 := psubd v1 (palignr 12 v0 v1) in
  let x0 := psubd v0 (palignr 12 (bytes32 (replicate 4 prev)) v0) in (x0, x1).
Lemma psubd_lanes a b c d e f g h : Forall is_u32 [a; b; c; d] -> Forall is_u32 [e; f; g; h] ->
  psubd (bytes32 [a; b; c; d]) (bytes32 [e; f; g; h]) =
  bytes32 [(a - e) mod 2 ^ 32; (b - f) mod 2 ^ 32; (c - g) mod 2 ^ 32; (d - h) mod 2 ^ 32].
Proof. intros. unfold psubd. rewrite !lanes32_bytes32 by done. reflexivity. Qed.
Lemma paddd_lanes a b c d e f g h : Forall is_u32 [a; b; c; d] -> Forall is_u32 [e; f; g; h] ->
  paddd (bytes32 [a; b; c; d]) (bytes32 [e; f; g; h]) =
  bytes32 [(a + e) mod 2 ^ 32; (b + f) mod 2 ^ 32; (c + g) mod 2 ^ 32; (d + h) mod 2 ^ 32].
Proof. intros. unfold paddd. rewrite !lanes32_bytes32 by done. reflexivity. Qed.
Lemma palignr_lanes a b c d e f g h :
  palignr 12 (bytes32 [a; b; c; d]) (bytes32 [e; f; g; h]) = bytes32 [d; e; f; g].
Proof. reflexivity. Qed.
Lemma pslldq4_lanes a b c d : pslldq 4 (bytes32 [a; b; c; d]) = bytes32 [0; a; b; c].
Proof. reflexivity. Qed.
Lemma pslldq8_lanes a b c d : pslldq 8 (bytes32 [a; b; c; d]) = bytes32 [0; 0; a; b].
Proof. reflexivity. Qed.
Lemma pshufd255_lanes a b c d : Forall is_u32 [a; b; c; d] ->
  pshufd 255 (bytes32 [a; b; c; d]) = bytes32 [d; d; d; d].
Proof. intros. unfold pshufd. rewrite lanes32_bytes32 by done. reflexivity. Qed.

Ltac split_forall :=
  repeat match goal with
  | H : Forall _ (_ :: _) |- _ => apply Forall_cons_1 in H as [? H]
  end; repeat (apply List.Forall_cons); try apply List.Forall_nil; try done; try apply mod_u32.

Lemma simd_delta_eq a b c d e f g h prev :
  Forall is_u32 [a; b; c; d; e; f; g; h] -> is_u32 prev ->
  simd_delta (bytes32 [a; b; c; d]) (bytes32 [e; f; g; h]) prev =
  (bytes32 (take 4 (deltas prev [a; b; c; d; e; f; g; h])), bytes32 (drop 4 (deltas prev [a; b; c; d; e; f; g; h]))).
Proof.
  intros H Hp. unfold simd_delta. cbn [replicate]. rewrite !palignr_lanes.
  rewrite !psubd_lanes by split_forall. reflexivity.
Qed.

(** ** Prefix sums (decode_amd64.s:56-67) *)
Lemma u32_0 : is_u32 0. Proof. unfold is_u32. lia. Qed.
Lemma sum4_eq a b c d p : Forall is_u32 [a; b; c; d] -> is_u32 p ->
  paddd (pslldq 8 (paddd (pslldq 4 (bytes32 [a; b; c; d])) (bytes32 [a; b; c; d])))
    (paddd (bytes32 [p; p; p; p]) (paddd (pslldq 4 (bytes32 [a; b; c; d])) (bytes32 [a; b; c; d]))) =
  bytes32 (running_sums p [a; b; c; d]).
Proof.
  intros H Hp. pose proof u32_0.
  rewrite pslldq4_lanes, paddd_lanes by split_forall. rewrite pslldq8_lanes.
  rewrite (paddd_lanes p p p p) by split_forall. rewrite paddd_lanes by split_forall.
  cbn [running_sums]. set (M := 2 ^ 32).
  f_equal. repeat (match goal with |- (_ :: _) = (_ :: _) => f_equal end); try done;
    repeat (rewrite ?Z.add_0_l, ?Zplus_mod_idemp_l, ?Zplus_mod_idemp_r, ?Zmod_mod). all: try (f_equal; lia).
  - rewrite (Z.add_assoc a p), Zplus_mod_idemp_r.
    rewrite <- (Z.add_assoc (_ mod M)), Zplus_mod_idemp_l. f_equal. lia.
  - rewrite (Z.add_assoc (a + b) p), Zplus_mod_idemp_r.
    rewrite <- (Z.add_assoc (_ mod M)), Zplus_mod_idemp_l. f_equal. lia.
Qed.
