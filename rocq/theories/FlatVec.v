(** * The two descriptions of the vector instructions agree *)
From stdpp Require Import prelude list.
From Coq Require Import ZArith Lia.
From Verif Require Import Spec SpecLemmas GoSem Shared Asm Flat.
Local Open Scope Z_scope.

Notation nthz l i := (nth i l 0) (only parsing).
Lemma pow256 n : 256 ^ Z.of_nat n = 2 ^ (8 * Z.of_nat n).
Proof. change 256 with (2 ^ 8). rewrite <- Z.pow_mul_r by lia. done. Qed.
Lemma bits_range x hi lo : lo <= hi -> 0 <= bits x hi lo < 2 ^ (hi - lo + 1).
Proof. intros. unfold bits. apply Z.mod_pos_bound. apply Z.pow_pos_nonneg; lia. Qed.

(** ** Fields of a number given by its bytes *)
Lemma field_shift w x y i : 0 < w -> 0 <= x < 2 ^ w -> 0 <= i -> (x + 2 ^ w * y) / 2 ^ (w * (i + 1)) = y / 2 ^ (w * i).
Proof.
  intros W X I. replace (w * (i + 1)) with (w + w * i) by lia. rewrite Z.pow_add_r by lia. rewrite <- Z.div_div by (try apply Z.pow_pos_nonneg; lia || apply Z.pow_nonzero; lia).
  f_equal. rewrite Z.mul_comm, Z.div_add by (apply Z.pow_nonzero; lia). rewrite Z.div_small by done. lia.
Qed.
Lemma field_first w x y : 0 < w -> 0 <= x < 2 ^ w -> (x + 2 ^ w * y) / 2 ^ (w * 0) mod 2 ^ w = x.
Proof. intros W X. rewrite Z.mul_0_r, Z.div_1_r, Z.mul_comm, Z.mod_add by (apply Z.pow_nonzero; lia). by apply Z.mod_small. Qed.
Lemma field8_nth l i : Forall is_byte l -> field8 (le_val l) (Z.of_nat i) = nthz l i.
Proof.
  unfold field8, bits. intros H. revert i. replace (8 * Z.of_nat 0) with 0 by lia. induction H as [|b l Hb H IH]; intros i.
  - cbn [le_val]. rewrite Z.div_0_l by (apply Z.pow_nonzero; lia). rewrite Z.mod_0_l by (apply Z.pow_nonzero; lia). by destruct i.
  - replace (8 * Z.of_nat i + 7 - 8 * Z.of_nat i + 1) with 8 by lia. change (le_val (b :: l)) with (b + 2 ^ 8 * le_val l). unfold is_byte in Hb. destruct i as [|i].
    + apply (field_first 8 b (le_val l)); [lia|change (2 ^ 8) with 256; lia].
    + rewrite Nat2Z.inj_succ. unfold Z.succ. rewrite (field_shift 8) by (lia || (change (2 ^ 8) with 256; lia)). cbn [nth]. specialize (IH i). replace (8 * Z.of_nat i + 7 - 8 * Z.of_nat i + 1) with 8 in IH by lia. done.
Qed.
Lemma lanes16_ind (P : list Z -> Prop) : P [] -> (forall a, P [a]) -> (forall a b l, P l -> P (a :: b :: l)) -> forall l, P l.
Proof. intros A B C. fix F 1. intros [|a [|b l]]; [exact A|apply B|apply C, F]. Qed.
Lemma field16_nth l i : Nat.Even (length l) -> Forall is_byte l -> field16 (le_val l) (Z.of_nat i) = nthz (lanes16 l) i.
Proof.
  unfold field16, bits. revert i. induction l as [|a|a b l IH] using lanes16_ind; intros i E H.
  - cbn [le_val]. rewrite Z.div_0_l by (apply Z.pow_nonzero; lia). rewrite Z.mod_0_l by (apply Z.pow_nonzero; lia). by destruct i.
  - destruct E as [k E]. cbn in E. lia.
  - apply Forall_cons_1 in H as [Ha H]. apply Forall_cons_1 in H as [Hb H]. unfold is_byte in *.
    replace (16 * Z.of_nat i + 15 - 16 * Z.of_nat i + 1) with 16 by lia. cbn [le_val lanes16]. replace (a + 256 * (b + 256 * le_val l)) with ((a + 256 * b) + 2 ^ 16 * le_val l) by lia. destruct i as [|i].
    + apply (field_first 16 (a + 256 * b) (le_val l)); [lia|change (2 ^ 16) with 65536; lia].
    + rewrite Nat2Z.inj_succ. unfold Z.succ. rewrite (field_shift 16) by (lia || (change (2 ^ 16) with 65536; lia)). cbn [nth]. specialize (IH i). replace (16 * Z.of_nat i + 15 - 16 * Z.of_nat i + 1) with 16 in IH by lia. apply IH; [|done].
      destruct E as [k E]. exists (k - 1)%nat. cbn in E. lia.
Qed.
Lemma lanes32_ind (P : list Z -> Prop) : P [] -> (forall a, P [a]) -> (forall a b, P [a; b]) -> (forall a b c, P [a; b; c]) -> (forall a b c d l, P l -> P (a :: b :: c :: d :: l)) -> forall l, P l.
Proof. intros A B C D E. fix F 1. intros [|a [|b [|c [|d l]]]]; [exact A|apply B|apply C|apply D|apply E, F]. Qed.
Lemma field32_nth l i : (exists k, length l = 4 * k)%nat -> Forall is_byte l -> field32 (le_val l) (Z.of_nat i) = nthz (lanes32 l) i.
Proof.
  unfold field32, bits. revert i. induction l as [|a|a b|a b c|a b c d l IH] using lanes32_ind; intros i E H; try (destruct E as [k E]; cbn in E; lia).
  - cbn [le_val]. rewrite Z.div_0_l by (apply Z.pow_nonzero; lia). rewrite Z.mod_0_l by (apply Z.pow_nonzero; lia). by destruct i.
  - do 4 (apply Forall_cons_1 in H as [? H]). unfold is_byte in *.
    replace (32 * Z.of_nat i + 31 - 32 * Z.of_nat i + 1) with 32 by lia. cbn [lanes32]. change (le_val (a :: b :: c :: d :: l)) with (a + 256 * (b + 256 * (c + 256 * (d + 256 * le_val l)))).
    replace (a + 256 * (b + 256 * (c + 256 * (d + 256 * le_val l)))) with (le_val [a; b; c; d] + 2 ^ 32 * le_val l) by (cbn [le_val]; lia).
    assert (0 <= le_val [a; b; c; d] < 2 ^ 32) by (cbn [le_val]; lia). destruct i as [|i].
    + apply (field_first 32 (le_val [a; b; c; d]) (le_val l)); lia.
    + rewrite Nat2Z.inj_succ. unfold Z.succ. rewrite (field_shift 32) by lia. cbn [nth]. specialize (IH i). replace (32 * Z.of_nat i + 31 - 32 * Z.of_nat i + 1) with 32 in IH by lia. apply IH; [|done].
      destruct E as [k E]. exists (k - 1)%nat. cbn in E. lia.
Qed.

(** ** A number given by its fields *)
Lemma fields_map w n f i : fields w n f (Z.of_nat i) = foldr (fun x r => x + 2 ^ w * r) 0 (map (fun j => f (Z.of_nat j)) (seq i n)).
Proof. revert i. induction n as [|n IH]; intros i; [done|]. cbn [fields seq map foldr]. rewrite <- IH. do 3 f_equal. lia. Qed.
Lemma fields_map0 w n f : fields w n f 0 = foldr (fun x r => x + 2 ^ w * r) 0 (map (fun j => f (Z.of_nat j)) (seq 0 n)).
Proof. apply (fields_map w n f 0). Qed.
Lemma fields_ext w n f h i : (forall j, i <= j < i + Z.of_nat n -> f j = h j) -> fields w n f i = fields w n h i.
Proof. revert i. induction n as [|n IH]; intros i H; [done|]. cbn [fields]. rewrite H by lia. f_equal. f_equal. apply IH. intros. apply H. lia. Qed.
Lemma foldr8 l : foldr (fun x r => x + 2 ^ 8 * r) 0 l = le_val l.
Proof. induction l as [|x l IH]; [done|]. cbn [foldr]. by rewrite IH. Qed.
Lemma foldr16 l : Forall is_u16 l -> foldr (fun x r => x + 2 ^ 16 * r) 0 l = le_val (bytes16 l).
Proof.
  induction 1 as [|x l Hx H IH]; [done|]. cbn [foldr bytes16 le_val]. rewrite IH. unfold is_u16 in Hx.
  rewrite (Z.mod_small (x / 256)) by (Z.to_euclidean_division_equations; lia). pose proof (Z.div_mod x 256). lia.
Qed.
Lemma foldr32 l : Forall is_u32 l -> foldr (fun x r => x + 2 ^ 32 * r) 0 l = le_val (bytes32 l).
Proof.
  induction 1 as [|x l Hx H IH]; [done|]. cbn [foldr bytes32]. rewrite IH, le_val_app, le_val_le. unfold is_u32 in Hx. rewrite Z.mod_small by (change (256 ^ Z.of_nat 4) with (2 ^ 32); lia).
  rewrite le_length. done.
Qed.
Lemma map2_nth (f : Z -> Z -> Z) l k n : length l = n -> length k = n -> map2 f l k = map (fun j => f (nthz l j) (nthz k j)) (seq 0 n).
Proof.
  revert k n. induction l as [|x l IH]; intros [|y k] [|n] A B; try done. cbn [map2 seq map nth]. f_equal. rewrite <- seq_shift, map_map. apply IH; cbn in *; lia.
Qed.
Lemma map_nth_seq (f : Z -> Z) l n : length l = n -> map f l = map (fun j => f (nthz l j)) (seq 0 n).
Proof. revert n. induction l as [|x l IH]; intros [|n] A; try done. cbn [seq map nth]. f_equal. rewrite <- seq_shift, map_map. apply IH. cbn in *; lia. Qed.
Lemma lanes16_length l k : length l = (2 * k)%nat -> length (lanes16 l) = k.
Proof. revert k. induction l as [|a|a b l IH] using lanes16_ind; intros k E; cbn in E |- *; [lia|lia|]. rewrite (IH (k - 1)%nat) by lia. lia. Qed.
Lemma lanes32_length l k : length l = (4 * k)%nat -> length (lanes32 l) = k.
Proof. revert k. induction l as [|a|a b|a b c|a b c d l IH] using lanes32_ind; intros k E; cbn in E |- *; try lia. rewrite (IH (k - 1)%nat) by lia. lia. Qed.
Lemma lanes16_range l : Forall is_byte l -> Forall is_u16 (lanes16 l).
Proof.
  induction l as [|a|a b l IH] using lanes16_ind; intros H; [constructor|constructor|]. cbn [lanes16]. apply Forall_cons_1 in H as [? H]. apply Forall_cons_1 in H as [? H].
  constructor; [|auto]. unfold is_byte, is_u16 in *. lia.
Qed.
Lemma lanes32_range l : Forall is_byte l -> Forall is_u32 (lanes32 l).
Proof.
  induction l as [|a|a b|a b c|a b c d l IH] using lanes32_ind; intros H; try (constructor; fail). cbn [lanes32]. do 4 (apply Forall_cons_1 in H as [? H]).
  constructor; [|auto]. unfold is_byte, is_u32 in *. cbn [le_val]. lia.
Qed.

(** ** The instructions *)
Definition reg128 (l : list Z) : Prop := length l = 16%nat /\ Forall is_byte l.
Lemma nth_all (P : Z -> Prop) l i : P 0 -> Forall P l -> P (nthz l i).
Proof. intros P0 H. revert i. induction H as [|x l Hx H IH]; intros [|i]; cbn; auto. Qed.
Lemma map_seq_all (P : Z -> Prop) (f : nat -> Z) i n : (forall j, P (f j)) -> Forall P (map f (seq i n)).
Proof. intros H. apply List.Forall_forall. intros x I. apply in_map_iff in I as (j & <- & _). auto. Qed.
Lemma bytes16_good l : length l = 8%nat -> reg128 (bytes16 l).
Proof.
  intros E. split.
  - do 9 (destruct l as [|? l]; try discriminate E). done.
  - clear E. induction l as [|x l IH]; [constructor|]. cbn [bytes16]. repeat constructor; try (apply Z.mod_pos_bound; lia). exact IH.
Qed.
Lemma bytes32_good l : length l = 4%nat -> reg128 (bytes32 l).
Proof.
  intros E. split.
  - do 5 (destruct l as [|? l]; try discriminate E). done.
  - clear E. induction l as [|x l IH]; [constructor|]. cbn [bytes32]. apply Forall_app. split; [apply le_bytes|exact IH].
Qed.
Lemma even16 : Nat.Even 16. Proof. by exists 8%nat. Qed.
Lemma four16 : exists k, (16 = 4 * k)%nat. Proof. by exists 4%nat. Qed.
Lemma seq_nat n f : map f (seq 0 n) = map (fun j => f (Z.to_nat (Z.of_nat j))) (seq 0 n) :> list Z.
Proof. apply map_ext. intros. by rewrite Nat2Z.id. Qed.

Lemma pminub_flat a b : reg128 a -> reg128 b -> reg128 (pminub a b) /\ PMINUB (le_val a) (le_val b) = le_val (pminub a b).
Proof.
  intros [La Ha] [Lb Hb]. unfold pminub, PMINUB. rewrite (map2_nth _ a b 16) by done.
  assert (M : forall x y, (if x <? y then x else y) = Z.min x y) by (intros x y; destruct (Z.ltb_spec x y); lia).
  split; [split; [by rewrite map_length, seq_length|]|].
  - apply map_seq_all. intros j. assert (is_byte 0) by (unfold is_byte; lia). pose proof (nth_all is_byte a j ltac:(done) Ha). pose proof (nth_all is_byte b j ltac:(done) Hb). unfold is_byte in *. lia.
  - rewrite <- foldr8. rewrite fields_map0. f_equal. apply map_ext. intros j. rewrite !field8_nth by done. apply M.
Qed.
Lemma word_signed_eq w : is_u16 w -> word_signed w = signed16 w.
Proof.
  unfold is_u16, word_signed, signed16, bits. intros H. change (2 ^ 15) with 32768. change (2 ^ (15 - 15 + 1)) with 2. change (2 ^ 16) with 65536.
  destruct (Z.ltb_spec w 32768); destruct (Z.eqb_spec (w / 32768 mod 2) 1); try lia; exfalso; Z.to_euclidean_division_equations; lia.
Qed.
Lemma sat_eq w : is_u16 w -> SaturateSignedWordToUnsignedByte w = satu8 w.
Proof. intros H. unfold SaturateSignedWordToUnsignedByte, satu8. rewrite word_signed_eq by done. cbv zeta. destruct (Z.ltb_spec (signed16 w) 0); [lia|]. destruct (Z.ltb_spec 255 (signed16 w)); lia. Qed.
Lemma satu8_byte w : is_byte (satu8 w).
Proof. unfold satu8, is_byte. cbv zeta. destruct (Z.ltb_spec (signed16 w) 0); [lia|]. destruct (Z.ltb_spec 255 (signed16 w)); lia. Qed.
Lemma u16_0 : is_u16 0. Proof. unfold is_u16. lia. Qed.
Lemma u32_0 : is_u32 0. Proof. unfold is_u32. lia. Qed.
Lemma byte_0 : is_byte 0. Proof. unfold is_byte. lia. Qed.
Lemma packuswb_flat a b : reg128 a -> reg128 b -> reg128 (packuswb a b) /\ PACKUSWB (le_val a) (le_val b) = le_val (packuswb a b).
Proof.
  intros [La Ha] [Lb Hb]. unfold packuswb, PACKUSWB.
  pose proof (lanes16_length a 8 La) as Wa. pose proof (lanes16_length b 8 Lb) as Wb. pose proof (lanes16_range a Ha) as Ra. pose proof (lanes16_range b Hb) as Rb.
  split; [split; [rewrite app_length, !map_length; lia|]|].
  - apply Forall_app. split; apply List.Forall_forall; intros x I; apply in_map_iff in I as (w & <- & _); apply satu8_byte.
  - rewrite (map_nth_seq _ (lanes16 a) 8), (map_nth_seq _ (lanes16 b) 8) by done. rewrite <- foldr8. rewrite fields_map0. f_equal.
    change (seq 0 16) with (seq 0 8 ++ seq 8 8). rewrite map_app. f_equal.
    + apply map_ext_in. intros j I. apply in_seq in I. rewrite (proj2 (Z.ltb_lt _ _)) by lia. rewrite field16_nth; [|rewrite La; apply even16|done]. apply sat_eq. by apply nth_all; [apply u16_0|].
    + change (seq 8 8) with (map (fun j => 8 + j)%nat (seq 0 8)). rewrite map_map. apply map_ext_in. intros j I. apply in_seq in I. rewrite (proj2 (Z.ltb_ge _ _)) by lia.
      replace (Z.of_nat (8 + j) - 8) with (Z.of_nat j) by lia. rewrite field16_nth; [|rewrite Lb; apply even16|done]. apply sat_eq. by apply nth_all; [apply u16_0|].
Qed.
Lemma words_flat (f : Z -> Z -> Z) (F : Z -> Z -> Z) a b : reg128 a -> reg128 b -> (forall x y, is_u16 x -> is_u16 y -> F x y = f x y /\ is_u16 (f x y)) ->
  reg128 (bytes16 (map2 f (lanes16 a) (lanes16 b))) /\ fields 16 8 (fun i => F (field16 (le_val a) i) (field16 (le_val b) i)) 0 = le_val (bytes16 (map2 f (lanes16 a) (lanes16 b))).
Proof.
  intros [La Ha] [Lb Hb] E.
  pose proof (lanes16_length a 8 La) as Wa. pose proof (lanes16_length b 8 Lb) as Wb. pose proof (lanes16_range a Ha) as Ra. pose proof (lanes16_range b Hb) as Rb.
  rewrite (map2_nth _ _ _ 8) by done. split; [apply bytes16_good; by rewrite map_length, seq_length|].
  assert (N : forall j, F (nthz (lanes16 a) j) (nthz (lanes16 b) j) = f (nthz (lanes16 a) j) (nthz (lanes16 b) j) /\ is_u16 (f (nthz (lanes16 a) j) (nthz (lanes16 b) j))) by (intros j; apply E; apply nth_all; done || apply u16_0).
  rewrite <- foldr16 by (apply map_seq_all; intros j; apply N). rewrite fields_map0. f_equal. apply map_ext. intros j.
  rewrite !field16_nth by (done || (rewrite ?La, ?Lb; apply even16)). apply N.
Qed.
Lemma pminsw_flat a b : reg128 a -> reg128 b -> reg128 (pminsw a b) /\ PMINSW (le_val a) (le_val b) = le_val (pminsw a b).
Proof.
  intros A B. apply (words_flat minsw (fun x y => if word_signed x <? word_signed y then x else y) a b A B). intros x y X Y. rewrite !word_signed_eq by done.
  split; [done|]. unfold minsw. by destruct (_ <? _).
Qed.
Lemma paddusw_flat a b : reg128 a -> reg128 b -> reg128 (paddusw a b) /\ PADDUSW (le_val a) (le_val b) = le_val (paddusw a b).
Proof.
  intros A B. apply (words_flat addusw (fun x y => SaturateToUnsignedWord (x + y)) a b A B). unfold is_u16, addusw, SaturateToUnsignedWord. intros x y X Y.
  split; [|lia]. rewrite Z.gtb_ltb. destruct (Z.ltb_spec 65535 (x + y)); lia.
Qed.
Lemma dwords_flat (f : Z -> Z -> Z) a b : reg128 a -> reg128 b -> (forall x y, is_u32 (f x y)) ->
  reg128 (bytes32 (map2 f (lanes32 a) (lanes32 b))) /\ fields 32 4 (fun i => f (field32 (le_val a) i) (field32 (le_val b) i)) 0 = le_val (bytes32 (map2 f (lanes32 a) (lanes32 b))).
Proof.
  intros [La Ha] [Lb Hb] E.
  pose proof (lanes32_length a 4 La) as Wa. pose proof (lanes32_length b 4 Lb) as Wb.
  rewrite (map2_nth _ _ _ 4) by done. split; [apply bytes32_good; by rewrite map_length, seq_length|].
  rewrite <- foldr32 by (apply map_seq_all; intros j; apply E). rewrite fields_map0. f_equal. apply map_ext. intros j.
  by rewrite !field32_nth by (done || (rewrite ?La, ?Lb; apply four16)).
Qed.
Lemma mod32 x : is_u32 (x mod 2 ^ 32).
Proof. unfold is_u32. apply Z.mod_pos_bound. lia. Qed.
Lemma paddd_flat a b : reg128 a -> reg128 b -> reg128 (paddd a b) /\ PADDD (le_val a) (le_val b) = le_val (paddd a b).
Proof. intros A B. apply (dwords_flat (fun x y => (x + y) mod 2 ^ 32) a b A B). intros. apply mod32. Qed.
Lemma psubd_flat a b : reg128 a -> reg128 b -> reg128 (psubd a b) /\ PSUBD (le_val a) (le_val b) = le_val (psubd a b).
Proof. intros A B. apply (dwords_flat (fun x y => (x - y) mod 2 ^ 32) a b A B). intros. apply mod32. Qed.
(** Single bits, the low four bits. *)
Lemma bit7 l i : Forall is_byte l -> bits (le_val l) (8 * Z.of_nat i + 7) (8 * Z.of_nat i + 7) = nthz l i / 128.
Proof.
  intros H. rewrite <- (field8_nth l i H). unfold field8, bits. replace (8 * Z.of_nat i + 7 - 8 * Z.of_nat i + 1) with 8 by lia. replace (8 * Z.of_nat i + 7 - (8 * Z.of_nat i + 7) + 1) with 1 by lia.
  rewrite Z.pow_add_r by lia. rewrite <- Z.div_div by (try apply Z.pow_pos_nonneg; lia || apply Z.pow_nonzero; lia). set (y := le_val l / 2 ^ (8 * Z.of_nat i)). clearbody y.
  change (2 ^ 8) with 256. change (2 ^ 7) with 128. change (2 ^ 1) with 2. Z.to_euclidean_division_equations; lia.
Qed.
Lemma low4 l i : Forall is_byte l -> bits (le_val l) (8 * Z.of_nat i + 3) (8 * Z.of_nat i) = nthz l i mod 16.
Proof.
  intros H. rewrite <- (field8_nth l i H). unfold field8, bits. replace (8 * Z.of_nat i + 7 - 8 * Z.of_nat i + 1) with 8 by lia. replace (8 * Z.of_nat i + 3 - 8 * Z.of_nat i + 1) with 4 by lia.
  set (y := le_val l / 2 ^ (8 * Z.of_nat i)). clearbody y. change (2 ^ 8) with 256. change (2 ^ 4) with 16. Z.to_euclidean_division_equations; lia.
Qed.
Lemma pmovmskb_flat a : reg128 a -> 0 <= pmovmskb a < 2 ^ 16 /\ PMOVMSKB (le_val a) = pmovmskb a.
Proof.
  intros [La Ha]. assert (E : forall l, pmovmskb l = foldr (fun x r => x + 2 ^ 1 * r) 0 (map (fun b => b / 128) l)) by (induction l as [|x l IH]; [done|]; cbn [pmovmskb map foldr]; rewrite IH; done).
  split.
  - do 17 (destruct a as [|? a]; try discriminate La). clear E La. repeat (apply Forall_cons_1 in Ha as [? Ha]). cbn [pmovmskb]. unfold is_byte in *.
    assert (D : forall x, 0 <= x < 256 -> 0 <= x / 128 <= 1) by (intros; Z.to_euclidean_division_equations; lia).
    repeat match goal with H : 0 <= ?x < 256 |- _ => apply D in H end. change (2 ^ 16) with 65536. lia.
  - rewrite E, (map_nth_seq _ a 16) by done. unfold PMOVMSKB. rewrite fields_map0. f_equal. apply map_ext. intros j. by apply bit7.
Qed.
Lemma pshufb_flat v m : reg128 v -> reg128 m -> reg128 (pshufb v m) /\ PSHUFB (le_val v) (le_val m) = le_val (pshufb v m).
Proof.
  intros [Lv Hv] [Lm Hm]. unfold pshufb, PSHUFB. split; [split; [by rewrite map_length|]|].
  - apply List.Forall_forall. intros x I. apply in_map_iff in I as (k & <- & _). destruct (_ <=? _); [apply byte_0|]. by apply nth_all; [apply byte_0|].
  - rewrite (map_nth_seq _ m 16) by done. rewrite <- foldr8. rewrite fields_map0. f_equal. apply map_ext. intros j.
    rewrite bit7, low4 by done. pose proof (nth_all is_byte m j byte_0 Hm) as B. unfold is_byte in B.
    destruct (Z.leb_spec 128 (nthz m j)); destruct (Z.eqb_spec (nthz m j / 128) 1); try done; try (exfalso; Z.to_euclidean_division_equations; lia).
    assert (0 <= nthz m j mod 16) by (apply Z.mod_pos_bound; lia). rewrite <- (field8_nth v _ Hv). by rewrite Z2Nat.id.
Qed.
Lemma le_val_drop n l : Forall is_byte l -> le_val (drop n l) = le_val l / 256 ^ Z.of_nat n.
Proof.
  intros H. revert n. induction H as [|b l Hb H IH]; intros [|n]; cbn [drop].
  - done.
  - cbn [le_val]. by rewrite Z.div_0_l by (apply Z.pow_nonzero; lia).
  - by rewrite Z.div_1_r.
  - change (drop (S n) (b :: l)) with (drop n l). rewrite IH. cbn [le_val]. rewrite Nat2Z.inj_succ, Z.pow_succ_r by lia. rewrite <- Z.div_div by (try apply Z.pow_pos_nonneg; lia).
    f_equal. unfold is_byte in Hb. Z.to_euclidean_division_equations; lia.
Qed.
Lemma le_val_take n l : Forall is_byte l -> le_val (take n l) = le_val l mod 256 ^ Z.of_nat n.
Proof.
  intros H. destruct (Nat.le_gt_cases n (length l)) as [L|L].
  - rewrite <- (take_drop n l) at 2. rewrite le_val_app, take_length, Nat.min_l by done. rewrite Z.mul_comm, Z.mod_add by (apply Z.pow_nonzero; lia).
    pose proof (le_val_range (take n l) (Forall_take _ _ _ H)) as R. rewrite take_length, Nat.min_l in R by done. by rewrite Z.mod_small.
  - rewrite take_ge by lia. pose proof (le_val_range l H) as R. rewrite Z.mod_small; [done|]. split; [lia|]. eapply Z.lt_le_trans; [apply R|]. apply Z.pow_le_mono_r; lia.
Qed.
Lemma bits127 x : bits x 127 0 = x mod 256 ^ Z.of_nat 16.
Proof. unfold bits. change (2 ^ 0) with 1. rewrite Z.div_1_r. done. Qed.
Lemma palignr_flat n lo hi : 0 <= n <= 16 -> reg128 lo -> reg128 hi -> reg128 (palignr n lo hi) /\ PALIGNR (le_val hi) (le_val lo) n = le_val (palignr n lo hi).
Proof.
  intros N [Ll Hl] [Lh Hh]. unfold palignr, PALIGNR.
  assert (H : Forall is_byte (lo ++ hi ++ replicate 16 0)) by (repeat apply Forall_app_2; try done; apply Forall_replicate, byte_0).
  split; [split; [rewrite take_length, drop_length, !app_length, replicate_length; lia|by apply Forall_take, Forall_drop]|].
  rewrite le_val_take by by apply Forall_drop. rewrite le_val_drop by done. rewrite bits127, !le_val_app, le_val_zeros, Ll, Lh. f_equal.
  replace (256 ^ Z.of_nat (Z.to_nat n)) with (2 ^ (n * 8)) by (rewrite pow256, Z2Nat.id by lia; f_equal; lia). f_equal. change (256 ^ Z.of_nat 16) with (2 ^ 128). lia.
Qed.
Lemma pslldq_flat n v : 0 <= n -> reg128 v -> reg128 (pslldq n v) /\ PSLLDQ (le_val v) n = le_val (pslldq n v).
Proof.
  intros N [Lv Hv]. unfold pslldq, PSLLDQ.
  assert (H : Forall is_byte (replicate (Z.to_nat n) 0 ++ v)) by (apply Forall_app_2; [apply Forall_replicate, byte_0|done]).
  split; [split; [rewrite take_length, app_length, replicate_length; lia|by apply Forall_take]|].
  rewrite le_val_take by done. rewrite le_val_app, le_val_zeros, replicate_length, bits127. rewrite Z.add_0_l. replace (256 ^ Z.of_nat (Z.to_nat n)) with (2 ^ (8 * n)) by (rewrite pow256, Z2Nat.id by lia; done). rewrite Z.gtb_ltb. destruct (Z.ltb_spec 15 n).
  - rewrite Z.mul_comm. change (256 ^ Z.of_nat 16) with (2 ^ (16 * 8)). rewrite Z.mul_comm, Z.mod_mul by done. replace (8 * n) with (16 * 8 + (8 * n - 16 * 8)) by lia. rewrite Z.pow_add_r by lia.
    replace (2 ^ (16 * 8) * 2 ^ (8 * n - 16 * 8) * le_val v) with (2 ^ (8 * n - 16 * 8) * le_val v * 2 ^ (16 * 8)) by lia. by rewrite Z.mod_mul by done.
  - f_equal. rewrite Z.mul_comm. do 2 f_equal. lia.
Qed.
Lemma pshufd_flat n v : 0 <= n -> reg128 v -> reg128 (pshufd n v) /\ PSHUFD (le_val v) n = le_val (pshufd n v).
Proof.
  intros N [Lv Hv]. unfold pshufd, PSHUFD. pose proof (lanes32_length v 4 Lv) as W. split; [by apply bytes32_good|].
  rewrite <- foldr32 by (apply List.Forall_forall; intros x I; apply in_map_iff in I as (k & <- & _); by apply nth_all; [apply u32_0|apply lanes32_range]).
  rewrite fields_map0. f_equal. change [0; 1; 2; 3] with (map Z.of_nat (seq 0 4)). rewrite map_map. apply map_ext. intros j.
  rewrite <- (field32_nth v) by (done || (rewrite Lv; apply four16)). assert (0 <= n / 4 ^ Z.of_nat j mod 4) by (apply Z.mod_pos_bound; lia). rewrite Z2Nat.id by done.
  assert (E : bits n (2 * Z.of_nat j + 1) (2 * Z.of_nat j) = n / 4 ^ Z.of_nat j mod 4).
  { unfold bits. replace (2 * Z.of_nat j + 1 - 2 * Z.of_nat j + 1) with 2 by lia. rewrite Z.pow_mul_r by lia. done. }
  rewrite E. set (q := n / 4 ^ Z.of_nat j mod 4) in *. unfold field32, bits. change (2 ^ 0) with 1. rewrite Z.div_1_r. replace (32 * q + 31 - 32 * q + 1) with 32 by lia. do 3 f_equal. lia.
Qed.
Lemma broadcastw_flat w : is_u16 w -> reg128 (bytes16 (replicate 8 w)) /\ BROADCASTW w = le_val (bytes16 (replicate 8 w)).
Proof. intros H. split; [by apply bytes16_good|]. rewrite <- foldr16 by by apply Forall_replicate. done. Qed.
Lemma broadcastss_flat w : is_u32 w -> reg128 (bytes32 (replicate 4 w)) /\ BROADCASTSS w = le_val (bytes32 (replicate 4 w)).
Proof. intros H. split; [by apply bytes32_good|]. rewrite <- foldr32 by by apply Forall_replicate. done. Qed.
