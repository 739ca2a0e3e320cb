(** * The fast readers: missing control bytes and extreme counts *)
From stdpp Require Import prelude gmap list.
From Coq Require Import ZArith Lia.
From Verif Require Import Spec SpecLemmas GoSem Tables Shared Asm Wp Decode TableProof SimdProof AsmProof DecodeProof DecodeProof2 WriterProof WriterProof2 Reader ReaderProof ReaderProof2 ReaderProof3.
Local Open Scope Z_scope.
Implicit Types (F : event -> Prop) (pn : Prop).

(** The first slice expression fails: [ctrlLen] is past the end of the stream, or
    [n + 3] or [(ctrlLen - 3) * 4] wrapped. *)
Definition fast_short (n L : Z) : Prop := exists cl lo,
  idiv (iadd n 3) 4 = cl /\ iandnot (imul (isub cl 3) 4) 31 = lo /\ ~ (0 <= cl <= L) /\ (0 < lo \/ 0 < cl <= 2 ^ 62).
Lemma wp_ReadAllFast_short F pn avx2 n st out m (Q : unit -> mem -> Prop) :
  fast_short n (s_len st) -> pn -> inb (mb m) st -> 0 <= s_cap out ->
  (forall j, s_off st <= j < s_off st + s_len st -> F (ERdB (s_blk st) j)) ->
  wp F pn (ReadAllFast (AMD64 true avx2) n st out) m Q.
Proof.
  intros (cl & lo & Ecl & Elo & H1 & H2) Hp Hin Ho HF. assert (Hin' := Hin). destruct Hin' as (I1 & I2 & I3).
  unfold ReadAllFast. cbv zeta.
  rewrite !Ecl, !Elo.
  apply wp_bind, (wp_while _ _ (fun '(dp, cp, k) m' => dp = cl /\ cp = 0 /\ k = 0 /\ m' = m) (fun _ => 0)); [done|lia|unfold rfuel; lia| |].
  { intros [[dp cp] k] m' (-> & -> & -> & ->) Hcond _. apply Z.ltb_lt in Hcond. rsl; [lia|done]. }
  intros [[dp cp] k] m' (-> & -> & -> & ->) Hcond. apply Z.ltb_ge in Hcond. assert (0 < cl <= 2 ^ 62) by lia. clear Hcond. rewrite (isub_small cl 4) by lia.
  apply wp_bind, (wp_while _ _ (fun '(dp, cp, k) m' => dp = cl /\ cp = 0 /\ k = 0 /\ m' = m) (fun _ => 0)); [done|lia|unfold rfuel; lia| |].
  { intros [[dp cp] k] m' (-> & -> & -> & ->) Hcond _. apply Z.ltb_lt in Hcond. rewrite (iadd_small 0 1) by lia. apply wp_bind, wp_getB; [done| |done]. intros. split; [apply HF; lia|].
    apply wp_bind, wp_getB; [done| |done]. intros. split; [apply HF; lia|]. rsl; [lia|done]. }
  intros [[dp cp] k] m' (-> & -> & -> & ->) Hcond. clear Hcond.
  apply wp_bind, (wp_while _ _ (fun '(dp, cp, k) m' => dp = cl /\ cp = 0 /\ k = 0 /\ m' = m) (fun _ => 0)); [done|lia|unfold rfuel; lia| |].
  { intros [[dp cp] k] m' (-> & -> & -> & ->) Hcond _. apply Z.ltb_lt in Hcond. rsl; [lia|done]. }
  intros [[dp cp] k] m' (-> & -> & -> & ->) Hcond. apply Z.ltb_ge in Hcond. lia.
Qed.
Lemma wp_ReadAllDeltaFast_short F pn avx2 n st out prev m (Q : unit -> mem -> Prop) :
  fast_short n (s_len st) -> pn -> inb (mb m) st -> 0 <= s_cap out ->
  (forall j, s_off st <= j < s_off st + s_len st -> F (ERdB (s_blk st) j)) ->
  wp F pn (ReadAllDeltaFast (AMD64 true avx2) n st out prev) m Q.
Proof.
  intros (cl & lo & Ecl & Elo & H1 & H2) Hp Hin Ho HF. assert (Hin' := Hin). destruct Hin' as (I1 & I2 & I3).
  unfold ReadAllDeltaFast. cbv zeta.
  rewrite !Ecl, !Elo.
  apply wp_bind, (wp_while _ _ (fun '(dp, cp, k, p) m' => dp = cl /\ cp = 0 /\ k = 0 /\ m' = m /\ p = prev) (fun _ => 0)); [done|lia|unfold rfuel; lia| |].
  { intros [[[dp cp] k] p] m' (-> & -> & -> & -> & ->) Hcond _. apply Z.ltb_lt in Hcond. rsl; [lia|done]. }
  intros [[[dp cp] k] p] m' (-> & -> & -> & -> & ->) Hcond. apply Z.ltb_ge in Hcond. assert (0 < cl <= 2 ^ 62) by lia. clear Hcond. rewrite (isub_small cl 4) by lia.
  apply wp_bind, (wp_while _ _ (fun '(dp, cp, k, p) m' => dp = cl /\ cp = 0 /\ k = 0 /\ m' = m /\ p = prev) (fun _ => 0)); [done|lia|unfold rfuel; lia| |].
  { intros [[[dp cp] k] p] m' (-> & -> & -> & -> & ->) Hcond _. apply Z.ltb_lt in Hcond. rewrite (iadd_small 0 1) by lia. apply wp_bind, wp_getB; [done| |done]. intros. split; [apply HF; lia|].
    apply wp_bind, wp_getB; [done| |done]. intros. split; [apply HF; lia|]. rsl; [lia|done]. }
  intros [[[dp cp] k] p] m' (-> & -> & -> & -> & ->) Hcond. clear Hcond.
  apply wp_bind, (wp_while _ _ (fun '(dp, cp, k, p) m' => dp = cl /\ cp = 0 /\ k = 0 /\ m' = m /\ p = prev) (fun _ => 0)); [done|lia|unfold rfuel; lia| |].
  { intros [[[dp cp] k] p] m' (-> & -> & -> & -> & ->) Hcond _. apply Z.ltb_lt in Hcond. rsl; [lia|done]. }
  intros [[[dp cp] k] p] m' (-> & -> & -> & -> & ->) Hcond. apply Z.ltb_ge in Hcond. lia.
Qed.

(** Too few control bytes, including counts so large that [n + 3] wraps. *)
Lemma fast_short_pos n L : 0 < n < 2 ^ 63 -> 0 <= L <= 2 ^ 60 -> L < rcl n -> fast_short n L.
Proof.
  intros Hn HL Hc. rewrite rcl_eq in Hc by lia. unfold fast_short. destruct (Z.lt_ge_cases (n + 3) (2 ^ 63)) as [H|H].
  - rewrite iadd_small, idiv_pos by lia. do 2 eexists. split; [done|]. split; [done|]. split; [lia|]. right. Z.to_euclidean_division_equations; lia.
  - assert (n = 2 ^ 63 - 3 \/ n = 2 ^ 63 - 2 \/ n = 2 ^ 63 - 1) as Hx by lia.
    destruct Hx as [->|[->| ->]]; do 2 eexists; (split; [vm_compute; reflexivity|]); (split; [vm_compute; reflexivity|]); (split; [|by left]); lia.
Qed.
(** The six smallest integers. *)
Lemma fast_short_neg n L : - 2 ^ 63 <= n < - 2 ^ 63 + 6 -> fast_short n L.
Proof.
  intros Hn. assert (n = - 2 ^ 63 \/ n = - 2 ^ 63 + 1 \/ n = - 2 ^ 63 + 2 \/ n = - 2 ^ 63 + 3 \/ n = - 2 ^ 63 + 4 \/ n = - 2 ^ 63 + 5) as Hx by lia.
  unfold fast_short. destruct Hx as [->|[->|[->|[->|[->| ->]]]]]; do 2 eexists; (split; [vm_compute; reflexivity|]); (split; [vm_compute; reflexivity|]); (split; [|by left]); lia.
Qed.
