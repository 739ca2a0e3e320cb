(** * Facts about the tables, lifted from finite sweeps *)
From stdpp Require Import prelude list.
From Coq Require Import ZArith Lia.
From Verif Require Import Spec SpecLemmas GoSem Tables GenTables Shared Wp.
Local Open Scope Z_scope.

Definition all_bytes : list Z := map Z.of_nat (seq 0 256).
Lemma byte_sweep (P : Z -> bool) : forallb P all_bytes = true -> forall c, is_byte c -> P c = true.
Proof.
  intros H c Hc. rewrite forallb_forall in H. apply H. unfold all_bytes.
  apply in_map_iff. exists (Z.to_nat c). unfold is_byte in Hc. split; [lia|]. apply in_seq. lia.
Qed.

Lemma ControlByteToSize_lens c : is_byte c -> ControlByteToSize c = Z.of_nat (sum_nat (ctrl_lens c)).
Proof.
  intros Hc. apply Z.eqb_eq. revert c Hc. apply byte_sweep. vm_compute. reflexivity.
Qed.
Lemma sum_ctrl_lens_range c : (4 <= sum_nat (ctrl_lens c) <= 16)%nat.
Proof.
  pose proof (ctrl_lens_range c) as H. unfold ctrl_lens in *.
  repeat (apply Forall_cons_1 in H as [? H]). cbn [sum_nat fold_right]. lia.
Qed.
Lemma ControlByteToSize_ctrl_of xs : length xs = 4%nat ->
  ControlByteToSize (ctrl_of xs) = zlen (enc_data xs).
Proof.
  intros H. rewrite ControlByteToSize_lens by (apply ctrl_of_byte; lia).
  unfold zlen. rewrite enc_data_length. do 2 f_equal.
  rewrite <- (ctrl_lens_of xs) by lia. by rewrite H.
Qed.

(** Lengths missing slots of a short group: control bits 0 count one byte each. *)
Lemma ctrl_lens_short xs : (length xs <= 4)%nat ->
  ctrl_lens (ctrl_of xs) = map nbytes xs ++ replicate (4 - length xs) 1%nat.
Proof.
  intros H. rewrite <- ctrl_lens_of by done.
  destruct xs as [|a [|b [|c [|d [|e r]]]]]; cbn [length] in *; try lia; try done.
  - pose proof (nbytes_range a) as Ha.
    assert (nbytes a = 1 \/ nbytes a = 2 \/ nbytes a = 3 \/ nbytes a = 4)%nat as [E|[E|[E|E]]] by lia;
      unfold ctrl_of; rewrite E; vm_compute; reflexivity.
  - pose proof (nbytes_range a). pose proof (nbytes_range b).
    assert (nbytes a = 1 \/ nbytes a = 2 \/ nbytes a = 3 \/ nbytes a = 4)%nat as [E|[E|[E|E]]] by lia;
    assert (nbytes b = 1 \/ nbytes b = 2 \/ nbytes b = 3 \/ nbytes b = 4)%nat as [E'|[E'|[E'|E']]] by lia;
      unfold ctrl_of; rewrite E, E'; vm_compute; reflexivity.
  - pose proof (nbytes_range a). pose proof (nbytes_range b). pose proof (nbytes_range c).
    assert (nbytes a = 1 \/ nbytes a = 2 \/ nbytes a = 3 \/ nbytes a = 4)%nat as [E|[E|[E|E]]] by lia;
    assert (nbytes b = 1 \/ nbytes b = 2 \/ nbytes b = 3 \/ nbytes b = 4)%nat as [E'|[E'|[E'|E']]] by lia;
    assert (nbytes c = 1 \/ nbytes c = 2 \/ nbytes c = 3 \/ nbytes c = 4)%nat as [E''|[E''|[E''|E'']]] by lia;
      unfold ctrl_of; rewrite E, E', E''; vm_compute; reflexivity.
Qed.
Lemma sum_nat_replicate n k : sum_nat (replicate n k) = (n * k)%nat.
Proof. induction n; [done|]. cbn [replicate]. change (sum_nat (?a :: ?l)) with (a + sum_nat l)%nat. lia. Qed.
(** The writers' tail correction: size -= 4 - nums. *)
Lemma ControlByteToSize_short xs : (length xs <= 4)%nat ->
  ControlByteToSize (ctrl_of xs) = zlen (enc_data xs) + (4 - zlen xs).
Proof.
  intros H. rewrite ControlByteToSize_lens by (apply ctrl_of_byte; lia).
  rewrite ctrl_lens_short by done. rewrite sum_nat_app, sum_nat_replicate.
  unfold zlen. rewrite enc_data_length. lia.
Qed.

Lemma byte_of_u16_lo c : is_u16 c -> is_byte (Z.land c 255).
Proof. intros. change 255 with (Z.ones 8). rewrite Z.land_ones by lia. unfold is_byte. apply Z.mod_pos_bound. lia. Qed.
Lemma byte_of_u16_hi c : is_u16 c -> is_byte (Z.shiftr c 8).
Proof.
  unfold is_u16, is_byte. intros. rewrite Z.shiftr_div_pow2 by lia. change (2 ^ 8) with 256. Z.to_euclidean_division_equations; lia.
Qed.
Lemma ControlByteToSizeTwo_lens c : is_u16 c ->
  ControlByteToSizeTwo c = Z.of_nat (sum_nat (ctrl_lens (c mod 256)) + sum_nat (ctrl_lens (c / 256))).
Proof.
  intros Hc. pose proof (byte_of_u16_lo c Hc) as H1. pose proof (byte_of_u16_hi c Hc) as H2.
  unfold ControlByteToSizeTwo.
  change (nth (Z.to_nat (Z.land c 255)) PerControlLenTable 0) with (ControlByteToSize (Z.land c 255)).
  change (nth (Z.to_nat (Z.shiftr c 8)) PerControlLenTable 0) with (ControlByteToSize (Z.shiftr c 8)).
  rewrite !ControlByteToSize_lens by done.
  change 255 with (Z.ones 8). rewrite Z.land_ones, Z.shiftr_div_pow2 by lia. change (2 ^ 8) with 256.
  pose proof (sum_ctrl_lens_range (c mod 256)). pose proof (sum_ctrl_lens_range (c / 256)).
  rewrite u8_small by lia. lia.
Qed.

(** Low bits and high bits. *)
Lemma lor_shift a b n : 0 <= n -> 0 <= a < 2 ^ n -> Z.lor a (Z.shiftl b n) = a + b * 2 ^ n.
Proof.
  intros Hn Ha. rewrite <- Z.shiftl_mul_pow2 by done. symmetry. apply Z.add_nocarry_lor.
  apply Z.bits_inj'. intros k Hk. rewrite Z.land_spec, Z.bits_0.
  destruct (decide (k < n)).
  - rewrite Z.shiftl_spec_low by lia. apply andb_false_r.
  - destruct (decide (a = 0)) as [->|].
    + by rewrite Z.bits_0.
    + rewrite (Z.bits_above_log2 a k); [done|lia|].
      assert (Z.log2 a < n) by (apply Z.log2_lt_pow2; lia). lia.
Qed.
(** uint16(lo) | uint16(hi)<<8 *)
Lemma ctrl16_val lo hi : is_byte lo -> is_byte hi ->
  Z.lor lo (u16 (Z.shiftl hi 8)) = lo + 256 * hi.
Proof.
  unfold is_byte. intros. rewrite u16_small by (rewrite Z.shiftl_mul_pow2 by lia; lia).
  rewrite lor_shift by lia. lia.
Qed.
