(** * Go int operators on a platform whose int has [w] bits (GoSem.v: 64) *)
From Coq Require Import ZArith Lia.
From Verif Require Import GoSem.
Local Open Scope Z_scope.

Definition iN (w x : Z) : Z := (x + 2 ^ (w - 1)) mod 2 ^ w - 2 ^ (w - 1).
Definition iaddN (w a b : Z) : Z := iN w (a + b).
Definition isubN (w a b : Z) : Z := iN w (a - b).
Definition imulN (w a b : Z) : Z := iN w (a * b).
Definition idivN (w a b : Z) : Z := iN w (Z.quot a b).
Lemma iN_64 x : iN 64 x = i64 x.
Proof. reflexivity. Qed.
Lemma iN_64' : iN 64 = i64.
Proof. reflexivity. Qed.
Lemma iaddN_64 : iaddN 64 = iadd.
Proof. reflexivity. Qed.
Lemma isubN_64 : isubN 64 = isub.
Proof. reflexivity. Qed.
Lemma imulN_64 : imulN 64 = imul.
Proof. reflexivity. Qed.
Lemma idivN_64 : idivN 64 = idiv.
Proof. reflexivity. Qed.
(** Numbers which fit 32 bits are not changed. *)
Lemma iN_small w z : 32 <= w -> - 2 ^ 31 <= z < 2 ^ 31 -> iN w z = z.
Proof.
  intros Hw H. unfold iN. assert (2 ^ 31 <= 2 ^ (w - 1)) by (apply Z.pow_le_mono_r; lia).
  assert (2 ^ w = 2 * 2 ^ (w - 1)) by (rewrite <- Z.pow_succ_r by lia; f_equal; lia). rewrite Z.mod_small; lia.
Qed.
