(** * Exactly how far the SIMD readers read: C43

    C12 bounds the bytes behind the stream that the SIMD readers load by 3.  Here the
    bound is made exact: for every complete stream and sufficient output, the reader
    returns normally if and only if the allocation holds the first [simd_reach] bytes from the
    start of the stream, and otherwise it faults. *)
From stdpp Require Import prelude gmap list.
From Coq Require Import ZArith Lia.
From Verif Require Import Spec SpecLemmas GoSem Shared Tables Asm Decode DecodeProof2 Wp Reader ReaderProof ReaderProof2 ReaderProof3 ReaderProof4 ReaderProof5 ReaderProof6 ReaderProof7 WriterProof2 Api ApiLemmas Witness C_Reader C_ReaderFast.
Local Open Scope Z_scope.

(** Eight numbers are decoded at a time while more than four control bytes are left.  The
    last eight decoded in this way start with this number (counted from 0). *)
Definition last8 (n : nat) : nat := (8 * ((nctrl n - 5) / 2))%nat.
(** The second half of the eight is loaded as 16 bytes, starting at the data of its first number. *)
Definition simd_reach (n : nat) (S : list Z) : nat :=
  if (n <=? 16)%nat then stream_size n S
  else Nat.max (stream_size n S) (nctrl n + sum_nat (firstn (last8 n + 4) (stream_lens n S)) + 16).
(** The number of bytes from the start of the slice to the end of its allocation. *)
Definition behind (m : mem) (st : slice) : Z := Z.of_nat (length (default [] (mb m !! s_blk st))) - s_off st.

Lemma rlast8_eq n : 16 < n -> rlast8 n = Z.of_nat (last8 (Z.to_nat n)).
Proof.
  intros Hn. unfold rlast8, last8. pose proof (rcl_bounds n ltac:(lia)) as Hb. unfold rcl in *.
  rewrite Nat2Z.inj_mul, Nat2Z.inj_div, Nat2Z.inj_sub by lia. set (c := Z.of_nat (nctrl (Z.to_nat n))) in *. clearbody c. Z.to_euclidean_division_equations; lia.
Qed.
Lemma simd_reach_eq n S : 0 <= n -> rover S n = Z.of_nat (simd_reach (Z.to_nat n) S).
Proof.
  intros Hn. unfold rover, simd_reach. destruct (Nat.leb_spec (Z.to_nat n) 16), (Z.leb_spec n 16); try lia; [by apply rdp_end|].
  rewrite rlast8_eq, rdp_end by lia. unfold rdp, rcl. rewrite Nat2Z.inj_max, !Nat2Z.inj_add.
  replace (Z.to_nat (Z.of_nat (last8 (Z.to_nat n)) + 4)) with (last8 (Z.to_nat n) + 4)%nat by lia. lia.
Qed.

(** A program that on a larger memory succeeds after reading a byte missing in the smaller one faults there. *)
Lemma hput_none h h' b' i' v' b i : hput h b' i' v' = Some h' -> hget h b i = None -> hget h' b i = None.
Proof.
  unfold hput, hget. destruct (0 <=? i'); [|done]. destruct (h !! b') as [l|] eqn:E; [|done]. destruct (Nat.ltb_spec (Z.to_nat i') (length l)); [|done].
  intros [= <-]. destruct (0 <=? i); [|done]. destruct (decide (b = b')) as [->|].
  - rewrite lookup_insert, E. rewrite !lookup_ge_None. by rewrite insert_length.
  - by rewrite lookup_insert_ne.
Qed.
Lemma hits_faults {A} F (p : prog A) m m' Q b i : extm m m' -> (forall b, ~ F (EAlB b)) -> wp F False p m' Q ->
  hits (ERdB b i) p m' -> hget (mb m) b i = None -> result (run p m) = Faulted.
Proof.
  intros He HF. revert m m' He. unfold hits. induction p as [a| | | | |b' i' k IH|b' i' v k IH|b' i' k IH|b' i' v k IH|b' n k IH]; intros m m' He Hw Hh Hn; cbn in Hw, Hh |- *; try done.
  - destruct Hw as (Hf & v & Hv & Hw). rewrite Hv in Hh. destruct (hget (mb m) b' i') as [v'|] eqn:E; [|done].
    assert (v' = v) as -> by (apply (ext_hget _ _ _ _ _ (proj1 He)) in E; congruence).
    specialize (IH v m m' He Hw). destruct (run (k v) m) as [[r mf] t], (run (k v) m') as [[r' mf'] t']. cbn in *.
    destruct Hh as [[= -> ->]|Hh]; [congruence|by apply IH].
  - destruct Hw as (Hf & h' & Hh' & Hw). rewrite Hh' in Hh. destruct (hput (mb m) b' i' v) as [h|] eqn:E; [|done].
    assert (He' : extm (Mem h (mw m)) (Mem h' (mw m'))) by (split; [exact (ext_hput _ _ _ _ _ _ _ (proj1 He) E Hh')|apply He]).
    specialize (IH _ _ He' Hw). cbn [mb] in IH. pose proof (hput_none _ _ _ _ _ _ _ E Hn) as Hn'.
    destruct (run k (Mem h (mw m))) as [[r mf] t], (run k (Mem h' (mw m'))) as [[r' mf'] t']. cbn in *. destruct Hh as [|Hh]; [done|by apply IH].
  - destruct Hw as (Hf & v & Hv & Hw). rewrite Hv in Hh. destruct (hget (mw m) b' i') as [v'|] eqn:E; [|done].
    assert (v' = v) as -> by (apply (ext_hget _ _ _ _ _ (proj2 He)) in E; congruence).
    specialize (IH v m m' He Hw). destruct (run (k v) m) as [[r mf] t], (run (k v) m') as [[r' mf'] t']. cbn in *.
    destruct Hh as [|Hh]; [done|by apply IH].
  - destruct Hw as (Hf & h' & Hh' & Hw). rewrite Hh' in Hh. destruct (hput (mw m) b' i' v) as [h|] eqn:E; [|done].
    assert (He' : extm (Mem (mb m) h) (Mem (mb m') h')) by (split; [apply He|exact (ext_hput _ _ _ _ _ _ _ (proj2 He) E Hh')]).
    specialize (IH _ _ He' Hw). cbn [mb] in IH.
    destruct (run k (Mem (mb m) h)) as [[r mf] t], (run k (Mem (mb m') h')) as [[r' mf'] t']. cbn in *. destruct Hh as [|Hh]; [done|by apply IH].
  - destruct Hw as [Hf _]. by apply HF in Hf.
Qed.

Section exact.
Context (m : mem) (st out : slice) (n : Z).
Context (Ht : typed m) (Hs : validB m st) (Ho : validW m out) (Hn : 0 <= n <= s_len out).
Context (Hwf : well_formed (Z.to_nat n) (bytes m st)).
Let S := bytes m st.
Let may := reader_may st (rover S n) out n.
(** The facts the proofs about the fast readers need, in every memory with room. *)
Lemma exact_rfast m' : typed m' -> validB m' st -> validW m' out -> bytes m' st = S -> s_off st + rover S n <= zlen (blk (mb m') (s_blk st)) ->
  rfast may m' st out n S.
Proof.
  intros Ht' Hs' Ho' E Hroom. rewrite <- E. apply reader_rfast; try done; rewrite ?E; try done; cbn; unfold within; intros; split; try done; lia.
Qed.
Lemma exact_true m' : rfast may m' st out n S -> rfast (fun _ => True) m' st out n S.
Proof. intros [[] ? ? ? ?]. constructor; [constructor|..]; done. Qed.
Lemma rover_ge : Z.of_nat (stream_size (Z.to_nat n) S) <= rover S n <= Z.of_nat (stream_size (Z.to_nat n) S) + 3 /\ Z.of_nat (stream_size (Z.to_nat n) S) <= s_len st.
Proof.
  assert (HSl : zlen S = s_len st) by (apply contents_zlen, Hs). destruct Hwf as (_ & Hc & Hsz). fold S in Hc, Hsz. unfold zlen in HSl.
  pose proof (rover_slack S n ltac:(lia) ltac:(unfold rcl, zlen; lia)) as Hr. rewrite overread_slack in Hr by lia. pose proof (overread_range n).
  rewrite rdp_end in Hr by lia. lia.
Qed.
Lemma slack_room : s_off st + rover S n <= zlen (blk (mb (roomy m st out)) (s_blk st)).
Proof. destruct (roomy_ok m st out Ht Hs Ho) as (_ & _ & _ & _ & _ & [R _]). pose proof rover_ge. unfold zlen, blk. lia. Qed.
Lemma roomy_valid : validB (roomy m st out) st /\ validW (roomy m st out) out.
Proof. destruct (roomy_ok m st out Ht Hs Ho) as (_ & _ & R1 & R2 & _). destruct Hs, Ho. split; by split. Qed.
Lemma rover_case : Z.of_nat (stream_size (Z.to_nat n) S) < rover S n -> 16 < n /\ rover S n = rdp S n (rlast8 n + 4) + 16.
Proof. unfold rover. rewrite <- rdp_end by lia. destruct (Z.leb_spec n 16); lia. Qed.

Lemma exact_faults {A} (p : prog A) Q : wp may False p (roomy m st out) Q -> 
  (16 < n -> hits (ERdB (s_blk st) (s_off st + rdp S n (rlast8 n + 4) + 15)) p (roomy m st out)) ->
  behind m st < rover S n -> result (run p m) = Faulted.
Proof.
  intros Hw Hh Hb. pose proof rover_ge. destruct Hs as [(? & ? & ?) ?]. unfold behind in Hb. destruct rover_case as [Hn16 E]; [lia|].
  destruct (roomy_ok m st out Ht Hs Ho) as (R1 & _). eapply hits_faults; [exact R1| |exact Hw|by apply Hh|]; [intros b Hx; exact Hx|].
  unfold hget. destruct (Z.leb_spec 0 (s_off st + rdp S n (rlast8 n + 4) + 15)) as [H'|]; [|done].
  destruct (mb m !! s_blk st) as [l|] eqn:El; [|done]. cbn in *. apply lookup_ge_None. lia.
Qed.
End exact.

(** ** C43 *)
Theorem C43_reach : forall r n st out m, is_simd r = true -> typed m -> validB m st -> validW m out -> 0 <= n <= s_len out ->
  well_formed (Z.to_nat n) (bytes m st) ->
  if decide (Z.of_nat (simd_reach (Z.to_nat n) (bytes m st)) <= behind m st)
  then (exists m', returns (read r n st out) m tt m') /\
       accesses (read r n st out) m (reader_may st (Z.of_nat (simd_reach (Z.to_nat n) (bytes m st))) out n) /\
       ((stream_size (Z.to_nat n) (bytes m st) < simd_reach (Z.to_nat n) (bytes m st))%nat ->
        In (ERdB (s_blk st) (s_off st + Z.of_nat (simd_reach (Z.to_nat n) (bytes m st)) - 1)) (trace (run (read r n st out) m)))
  else result (run (read r n st out) m) = Faulted.
Proof.
  intros r n st out m Hr Ht Hs Ho Hn Hwf. destruct (simd_fast r n st out Hr) as [avx2 ->]. rewrite <- simd_reach_eq by lia.
  assert (s_len st <= 2 ^ 62) by (destruct Hs as [(? & ? & ?) ?]; lia).
  case_decide as Hd.
  - assert (Hroom : s_off st + rover (bytes m st) n <= zlen (blk (mb m) (s_blk st))) by (unfold behind in Hd; unfold zlen, blk; lia).
    destruct (ReadAllFast_run m st out n Ht Hs Ho avx2 Hn Hwf Hroom) as [G1 G2]. split; [by eexists|]. split; [done|].
    intros Hlt. destruct (rover_case m st out n Hn) as [H16 E]; [rewrite simd_reach_eq by lia; lia|].
    pose proof (exact_rfast m st out n Hn Hwf m Ht Hs Ho eq_refl Hroom) as Hf. apply exact_true in Hf.
    pose proof (hits_ReadAllFast avx2 n st out m _ Hf ltac:(done) H16) as Hh. unfold hits in Hh. rewrite E.
    replace (s_off st + (rdp (bytes m st) n (rlast8 n + 4) + 16) - 1) with (s_off st + rdp (bytes m st) n (rlast8 n + 4) + 15) by lia. done.
  - destruct (roomy_valid m st out Ht Hs Ho) as [V1 V2]. destruct (roomy_ok m st out Ht Hs Ho) as (_ & R2 & _ & _ & R5 & _).
    pose proof (exact_rfast m st out n Hn Hwf (roomy m st out) R2 V1 V2 R5 (slack_room m st out n Ht Hs Ho Hn Hwf)) as Hf.
    apply (exact_faults m st out n Ht Hs Ho Hn Hwf _ (fun _ _ => True)); [| |lia].
    + apply wp_ReadAllFast with (S := bytes m st); try done.
    + intros H16. apply hits_ReadAllFast; [by eapply exact_true|done|done].
Qed.
Theorem C43_reach_delta : forall r n st out prev m, is_simd r = true -> typed m -> validB m st -> validW m out -> 0 <= n <= s_len out ->
  is_u32 prev -> well_formed (Z.to_nat n) (bytes m st) ->
  if decide (Z.of_nat (simd_reach (Z.to_nat n) (bytes m st)) <= behind m st)
  then (exists m', returns (read_delta r n st out prev) m tt m') /\
       accesses (read_delta r n st out prev) m (reader_may st (Z.of_nat (simd_reach (Z.to_nat n) (bytes m st))) out n) /\
       ((stream_size (Z.to_nat n) (bytes m st) < simd_reach (Z.to_nat n) (bytes m st))%nat ->
        In (ERdB (s_blk st) (s_off st + Z.of_nat (simd_reach (Z.to_nat n) (bytes m st)) - 1)) (trace (run (read_delta r n st out prev) m)))
  else result (run (read_delta r n st out prev) m) = Faulted.
Proof.
  intros r n st out prev m Hr Ht Hs Ho Hn Hp Hwf. destruct (simd_fast_delta r n st out prev Hr) as [avx2 ->]. rewrite <- simd_reach_eq by lia.
  assert (s_len st <= 2 ^ 62) by (destruct Hs as [(? & ? & ?) ?]; lia).
  case_decide as Hd.
  - assert (Hroom : s_off st + rover (bytes m st) n <= zlen (blk (mb m) (s_blk st))) by (unfold behind in Hd; unfold zlen, blk; lia).
    destruct (ReadAllDeltaFast_run m st out n Ht Hs Ho avx2 prev Hp Hn Hwf Hroom) as [G1 G2]. split; [by eexists|]. split; [done|].
    intros Hlt. destruct (rover_case m st out n Hn) as [H16 E]; [rewrite simd_reach_eq by lia; lia|].
    pose proof (exact_rfast m st out n Hn Hwf m Ht Hs Ho eq_refl Hroom) as Hf. apply exact_true in Hf.
    pose proof (hits_ReadAllDeltaFast avx2 n st out prev m _ Hf Hp ltac:(done) H16) as Hh. unfold hits in Hh. rewrite E.
    replace (s_off st + (rdp (bytes m st) n (rlast8 n + 4) + 16) - 1) with (s_off st + rdp (bytes m st) n (rlast8 n + 4) + 15) by lia. done.
  - destruct (roomy_valid m st out Ht Hs Ho) as [V1 V2]. destruct (roomy_ok m st out Ht Hs Ho) as (_ & R2 & _ & _ & R5 & _).
    pose proof (exact_rfast m st out n Hn Hwf (roomy m st out) R2 V1 V2 R5 (slack_room m st out n Ht Hs Ho Hn Hwf)) as Hf.
    apply (exact_faults m st out n Ht Hs Ho Hn Hwf _ (fun _ _ => True)); [| |lia].
    + apply wp_ReadAllDeltaFast with (S := bytes m st); done.
    + intros H16. apply hits_ReadAllDeltaFast; [by eapply exact_true|done|done|done].
Qed.
(** Normal return exactly with that much memory. *)
Theorem C43_returns_iff : forall r n st out m, is_simd r = true -> typed m -> validB m st -> validW m out -> 0 <= n <= s_len out ->
  well_formed (Z.to_nat n) (bytes m st) ->
  (exists m', returns (read r n st out) m tt m') <-> Z.of_nat (simd_reach (Z.to_nat n) (bytes m st)) <= behind m st.
Proof.
  intros r n st out m Hr Ht Hs Ho Hn Hwf. pose proof (C43_reach r n st out m Hr Ht Hs Ho Hn Hwf) as H. case_decide as Hd; [split; intros _; [done|apply H]|].
  split; [|done]. intros [m' [E _]]. congruence.
Qed.
Theorem C43_returns_iff_delta : forall r n st out prev m, is_simd r = true -> typed m -> validB m st -> validW m out -> 0 <= n <= s_len out ->
  is_u32 prev -> well_formed (Z.to_nat n) (bytes m st) ->
  (exists m', returns (read_delta r n st out prev) m tt m') <-> Z.of_nat (simd_reach (Z.to_nat n) (bytes m st)) <= behind m st.
Proof.
  intros r n st out prev m Hr Ht Hs Ho Hn Hp Hwf. pose proof (C43_reach_delta r n st out prev m Hr Ht Hs Ho Hn Hp Hwf) as H. case_decide as Hd; [split; intros _; [done|apply H]|].
  split; [|done]. intros [m' [E _]]. congruence.
Qed.
Lemma reach_inside n S : n <= 16 \/ (16 <= sum_nat (skipn (last8 (Z.to_nat n) + 4) (stream_lens (Z.to_nat n) S)))%nat <->
  (simd_reach (Z.to_nat n) S = stream_size (Z.to_nat n) S).
Proof.
  unfold simd_reach. destruct (Nat.leb_spec (Z.to_nat n) 16); [split; [done|left; lia]|]. unfold stream_size.
  set (l := stream_lens (Z.to_nat n) S). set (k := (last8 (Z.to_nat n) + 4)%nat).
  assert (sum_nat l = sum_nat (firstn k l) + sum_nat (skipn k l))%nat by (rewrite <- sum_nat_app; by rewrite firstn_skipn). lia.
Qed.
(** The reader stays inside the stream exactly if there are at most 16 numbers or the
    numbers from the second half of the last eight on take 16 bytes or more. *)
Theorem C43_inside_iff : forall r n st out m, is_simd r = true -> typed m -> validB m st -> validW m out -> 0 <= n <= s_len out ->
  well_formed (Z.to_nat n) (bytes m st) -> Z.of_nat (simd_reach (Z.to_nat n) (bytes m st)) <= behind m st ->
  accesses (read r n st out) m (reader_may st (Z.of_nat (stream_size (Z.to_nat n) (bytes m st))) out n) <->
  n <= 16 \/ (16 <= sum_nat (skipn (last8 (Z.to_nat n) + 4) (stream_lens (Z.to_nat n) (bytes m st))))%nat.
Proof.
  intros r n st out m Hr Ht Hs Ho Hn Hwf Hb. pose proof (C43_reach r n st out m Hr Ht Hs Ho Hn Hwf) as H. rewrite decide_True in H by done.
  destruct H as (_ & G1 & G2).
  rewrite reach_inside. split.
  - intros Ha. destruct (decide (simd_reach (Z.to_nat n) (bytes m st) = stream_size (Z.to_nat n) (bytes m st))) as [|Hne]; [done|exfalso].
    pose proof (rover_ge m st out n Hs Hn Hwf) as Hg. rewrite simd_reach_eq in Hg by lia.
    specialize (G2 ltac:(lia)). eapply List.Forall_forall in Ha; [|exact G2]. destruct Ha as [_ Ha]. unfold within in Ha. lia.
  - intros <-. done.
Qed.

Theorem C43_inside_iff_delta : forall r n st out prev m, is_simd r = true -> typed m -> validB m st -> validW m out -> 0 <= n <= s_len out ->
  is_u32 prev -> well_formed (Z.to_nat n) (bytes m st) -> Z.of_nat (simd_reach (Z.to_nat n) (bytes m st)) <= behind m st ->
  accesses (read_delta r n st out prev) m (reader_may st (Z.of_nat (stream_size (Z.to_nat n) (bytes m st))) out n) <->
  n <= 16 \/ (16 <= sum_nat (skipn (last8 (Z.to_nat n) + 4) (stream_lens (Z.to_nat n) (bytes m st))))%nat.
Proof.
  intros r n st out prev m Hr Ht Hs Ho Hn Hp Hwf Hb. pose proof (C43_reach_delta r n st out prev m Hr Ht Hs Ho Hn Hp Hwf) as H. rewrite decide_True in H by done.
  destruct H as (_ & G1 & G2). rewrite reach_inside. split.
  - intros Ha. destruct (decide (simd_reach (Z.to_nat n) (bytes m st) = stream_size (Z.to_nat n) (bytes m st))) as [|Hne]; [done|exfalso].
    pose proof (rover_ge m st out n Hs Hn Hwf) as Hg. rewrite simd_reach_eq in Hg by lia.
    specialize (G2 ltac:(lia)). eapply List.Forall_forall in Ha; [|exact G2]. destruct Ha as [_ Ha]. unfold within in Ha. lia.
  - intros <-. done.
Qed.

(** 17 one-byte numbers (22 bytes): 25 bytes are needed.  With numbers 13 to 17 taking
    16 bytes, none but those of the stream are. *)
Definition c43_mem (k : nat) : mem := Mem {[ 3%nat := [0; 0; 0; 255; 3] ++ replicate 32 1 ++ replicate k 9 ]} (mw ex_mem).
Example C43_example :
  simd_reach 17 (bytes (c12_mem 3) c12_st) = 25%nat /\ stream_size 17 (bytes (c12_mem 3) c12_st) = 22%nat /\
  map (fun k => result (run (ReadAllFast (AMD64 true true) 17 c12_st ex_out) (c12_mem k))) [0; 1; 2; 3]%nat = [Faulted; Faulted; Faulted; Ok tt] /\
  map (fun k => result (run (ReadAllDeltaFast (AMD64 true false) 17 c12_st ex_out 5) (c12_mem k))) [0; 1; 2; 3]%nat = [Faulted; Faulted; Faulted; Ok tt] /\
  well_formed 17 (bytes (c43_mem 0) (Slice 3 0 37 37)) /\ simd_reach 17 (bytes (c43_mem 0) (Slice 3 0 37 37)) = 37%nat /\
  result (run (ReadAllFast (AMD64 true true) 17 (Slice 3 0 37 37) ex_out) (c43_mem 0)) = Ok tt.
Proof.
  repeat split; try (vm_compute; reflexivity).
  - vm_compute. repeat constructor; discriminate.
  - vm_compute. lia.
Qed.
