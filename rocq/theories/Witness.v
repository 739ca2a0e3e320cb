(** * A concrete memory on which the theorems are exercised

    One uint32 allocation holds 37 numbers of all four byte lengths between guard
    values, a second one is used for output; two byte allocations are used as
    output buffer and as a hand-made stream. *)
From stdpp Require Import prelude gmap list.
From Coq Require Import ZArith Lia.
From Verif Require Import Spec GoSem Api.
Local Open Scope Z_scope.

Definition ex_nums : list Z :=
  [5; 300; 70000; 4294967295; 0; 255; 256; 65535;
   65536; 16777215; 16777216; 1; 2; 3; 4; 4000000000;
   128; 1000; 100000; 10000000; 7; 8; 9; 1000000000;
   255; 256; 257; 65537; 11; 12; 13; 14;
   3000000; 3000; 30; 3; 2147483648].
Definition ex_mem : mem :=
  Mem (<[ 5%nat := replicate 60 170 ]> {[ 6%nat := [228; 27; 1; 2; 0; 3; 0; 0; 4; 0; 0; 0; 9; 8; 7; 6; 5; 4; 3; 2; 1; 0; 255; 255; 255; 255] ]})
      (<[ 0%nat := [99; 98] ++ ex_nums ++ [97; 96] ]> {[ 1%nat := replicate 60 7 ]}).
Definition ex_in : slice := Slice 0 2 37 38.
Definition ex_out : slice := Slice 1 3 40 50.
Definition ex_buf : slice := Slice 5 4 50 56.
(** two full groups, 4 and 8 .. bytes; not minimal *)
Definition ex_st : slice := Slice 6 0 23 26.

Lemma ex_typed : typed ex_mem.
Proof.
  split; cbn; intros b l; rewrite lookup_insert_Some, lookup_singleton_Some.
  - intros [[<- <-]|[? [<- <-]]]; repeat constructor; lia.
  - intros [[<- <-]|[? [<- <-]]]; repeat constructor; lia.
Qed.
Ltac fits := split; [unfold fits; vm_compute; intuition discriminate|vm_compute; discriminate].
Lemma ex_in_valid : validW ex_mem ex_in.
Proof. fits. Qed.
Lemma ex_out_valid : validW ex_mem ex_out.
Proof. fits. Qed.
Lemma ex_buf_valid : validB ex_mem ex_buf.
Proof. fits. Qed.
Lemma ex_st_valid : validB ex_mem ex_st.
Proof. fits. Qed.
Lemma ex_words : words ex_mem ex_in = ex_nums.
Proof. done. Qed.
Lemma ex_fresh : mb ex_mem !! 9%nat = None.
Proof. done. Qed.
