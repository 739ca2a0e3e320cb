(** * The SIMD readers on arbitrary arguments: C14, C36, C37

    Whatever the stream, the output and the count: the SIMD readers return normally only
    if the stream is complete and the output long enough (or the count negative);
    otherwise they panic or, at worst, fault, and until then they touch nothing more
    than 32 bytes behind the stream or 8 elements behind the output. *)
From stdpp Require Import prelude gmap list.
From Coq Require Import ZArith Lia.
From Verif Require Import Spec SpecLemmas GoSem Shared Tables Asm Decode DecodeProof2 Wp Reader ReaderProof ReaderProof2 ReaderProof3 ReaderProof4 ReaderProof5 ReaderProof6 WriterProof2 Api ApiLemmas Witness C_Reader.
Local Open Scope Z_scope.

(** The stream does not hold [n] numbers, or [out] has no room for them. *)
Definition incomplete (n : Z) (st out : slice) (m : mem) : Prop :=
  ~ well_formed (Z.to_nat n) (bytes m st) \/ s_len out < n.
(** What may be touched in that case. *)
Definition fast_may (st out : slice) : event -> Prop :=
  reader_may st (s_len st + 32) out (Z.max (s_cap out) (s_len out + 8)).
(** The allocations extend that far. *)
Definition slack (st out : slice) (m : mem) : Prop :=
  s_off st + s_len st + 32 <= Z.of_nat (length (default [] (mb m !! s_blk st))) /\
  s_off out + Z.max (s_cap out) (s_len out + 8) <= Z.of_nat (length (default [] (mw m !! s_blk out))).

Lemma simd_fast r n st out : is_simd r = true -> exists avx2, read r n st out = ReadAllFast (AMD64 true avx2) n st out.
Proof. destruct r as [|b|[[] b|]]; intros E0; [discriminate|exists b; reflexivity|exists b; reflexivity|discriminate|discriminate]. Qed.
Lemma simd_fast_delta r n st out prev : is_simd r = true -> exists avx2, read_delta r n st out prev = ReadAllDeltaFast (AMD64 true avx2) n st out prev.
Proof. destruct r as [|b|[[] b|]]; intros E0; [discriminate|exists b; reflexivity|exists b; reflexivity|discriminate|discriminate]. Qed.

Section bad.
Context (m : mem) (st out : slice) (n : Z).
Context (Ht : typed m) (Hs : validB m st) (Ho : validW m out) (Hn : 0 <= n < 2 ^ 63) (Hbad : incomplete n st out m).

(** Enough control bytes or not. *)
Lemma bad_cases : (0 < n /\ s_len st < rcl n) \/ (rcl n <= s_len st /\ (s_len st < rdp (bytes m st) n n \/ s_len out < n)).
Proof.
  assert (HSl : zlen (bytes m st) = s_len st) by (apply contents_zlen, Hs).
  destruct (Z.lt_ge_cases (s_len st) (rcl n)) as [H|H].
  - left. split; [|done]. destruct (decide (n = 0)) as [->|]; [|lia]. change (rcl 0) with 0 in H. destruct Hs as [(? & ? & ?) ?]; lia.
  - right. split; [done|]. destruct Hbad as [Hw|]; [|by right]. left. pose proof (wf_rdp m st n Ht Hs ltac:(lia)) as Hx.
    destruct (Z.lt_ge_cases (s_len st) (rdp (bytes m st) n n)) as [|Hy]; [done|]. exfalso. apply Hw. by apply Hx.
Qed.
Lemma bad_rany m' : typed m' -> fits (mb m') st -> fits (mw m') out -> bytes m' st = bytes m st -> slack st out m' -> rcl n <= s_len st ->
  rany (fast_may st out) m' st out n (bytes m st).
Proof.
  intros Ht' Hs' Ho' E [R1 R2] Hc. destruct Hs as [(? & ? & ?) ?]. split.
  - done.
  - done.
  - by apply typed_blk_b.
  - by apply typed_blk_w.
  - by rewrite <- E.
  - lia.
  - lia.
  - unfold zlen, blk. lia.
  - unfold zlen, blk, wroom. lia.
  - intros. cbn. unfold within. lia.
  - intros. cbn. unfold within, wroom in *. lia.
Qed.

(** With slack: a panic. *)
Lemma bad_slack m' : typed m' -> fits (mb m') st -> fits (mw m') out -> bytes m' st = bytes m st -> slack st out m' ->
  forall avx2, wp (fast_may st out) True (ReadAllFast (AMD64 true avx2) n st out) m' (fun _ _ => False).
Proof.
  intros Ht' Hs' Ho' E R avx2. destruct bad_cases as [[Hp Hc]|[Hc Hb]].
  - destruct Hs as [(? & ? & ?) ?], Ho as [(? & ? & ?) ?]. apply wp_ReadAllFast_short; [apply fast_short_pos; lia|exact I|exact Hs'|lia|].
    intros. cbn. unfold within. lia.
  - apply wp_ReadAllFast_bad with (S := bytes m st); [|done]. by apply bad_rany.
Qed.
Lemma bad_slack_delta m' prev : is_u32 prev -> typed m' -> fits (mb m') st -> fits (mw m') out -> bytes m' st = bytes m st -> slack st out m' ->
  forall avx2, wp (fast_may st out) True (ReadAllDeltaFast (AMD64 true avx2) n st out prev) m' (fun _ _ => False).
Proof.
  intros Hp' Ht' Hs' Ho' E R avx2. destruct bad_cases as [[Hp Hc]|[Hc Hb]].
  - destruct Hs as [(? & ? & ?) ?], Ho as [(? & ? & ?) ?]. apply wp_ReadAllDeltaFast_short; [apply fast_short_pos; lia|exact I|exact Hs'|lia|].
    intros. cbn. unfold within. lia.
  - apply wp_ReadAllDeltaFast_bad with (S := bytes m st); [|intros; cbn; unfold within, wroom in *; lia|done|done]. by apply bad_rany.
Qed.

(** Without: embed the memory in one that has it. *)
Definition roomy : mem := Mem (grow 32 (s_blk st) (mb m)) (grow 8 (s_blk out) (mw m)).
Lemma grow_typed (P : Z -> Prop) k b h : P 0 -> (forall b l, h !! b = Some l -> Forall P l) -> forall b' l', grow k b h !! b' = Some l' -> Forall P l'.
Proof.
  intros H0 H b' l'. unfold grow. destruct (decide (b' = b)) as [->|].
  - rewrite lookup_insert. intros [= <-]. apply Forall_app. split; [|by apply Forall_replicate].
    unfold blk. destruct (h !! b) eqn:E; [by eapply H|constructor].
  - rewrite lookup_insert_ne by done. apply H.
Qed.
Lemma grow_len k b h : length (default [] (grow k b h !! b)) = (length (default [] (h !! b)) + k)%nat.
Proof. change (length (blk (grow k b h) b) = (length (blk h b) + k)%nat). by rewrite grow_blk, app_length, replicate_length. Qed.
Lemma grow_fits k b h s : s_blk s = b -> fits h s -> fits (grow k b h) s.
Proof. intros <- (? & ? & ?). unfold fits. rewrite grow_len. lia. Qed.
Lemma roomy_ok : extm m roomy /\ typed roomy /\ fits (mb roomy) st /\ fits (mw roomy) out /\ bytes roomy st = bytes m st /\ slack st out roomy.
Proof.
  destruct Hs as [Hs1 Hs2], Ho as [Ho1 Ho2]. split; [split; apply grow_ext|]. split; [|split; [by apply grow_fits|split; [by apply grow_fits|split]]].
  - split; cbn; apply grow_typed; try apply Ht; [unfold is_byte|unfold is_u32]; lia.
  - unfold bytes, contents. cbn. fold (blk (grow 32 (s_blk st) (mb m)) (s_blk st)). rewrite grow_blk.
    destruct Hs1 as (? & ? & ?). unfold blk. rewrite drop_app_le by lia. rewrite take_app_le; [done|]. rewrite drop_length. lia.
  - destruct Hs1 as (? & ? & ?), Ho1 as (? & ? & ?). split; cbn; rewrite grow_len; lia.
Qed.
End bad.

(** ** C14 and C36: incomplete arguments *)
Theorem C14_fast_partial : forall r n st out m, is_simd r = true -> typed m -> validB m st -> validW m out -> 0 <= n < 2 ^ 63 ->
  incomplete n st out m ->
  (result (run (read r n st out) m) = Panicked \/ result (run (read r n st out) m) = Faulted) /\
  accesses (read r n st out) m (fast_may st out).
Proof.
  intros r n st out m Hr Ht Hs Ho Hn Hbad. destruct (simd_fast r n st out Hr) as [avx2 ->].
  destruct (roomy_ok m st out Ht Hs Ho) as (R1 & R2 & R3 & R4 & R5 & R6).
  pose proof (bad_slack m st out n Ht Hs Ho Hn Hbad (roomy m st out) R2 R3 R4 R5 R6 avx2) as Hw.
  assert (HF : forall b, ~ fast_may st out (EAlB b)) by (intros b Hb; exact Hb).
  destruct (wp_ext _ _ _ m _ _ R1 HF Hw) as [G1 G2]. split; [|done].
  destruct (result _); [by destruct G2 as (? & ? & ?)|by left|by right|done|done].
Qed.
Theorem C14_fast_delta_partial : forall r n st out prev m, is_simd r = true -> typed m -> validB m st -> validW m out -> 0 <= n < 2 ^ 63 ->
  is_u32 prev -> incomplete n st out m ->
  (result (run (read_delta r n st out prev) m) = Panicked \/ result (run (read_delta r n st out prev) m) = Faulted) /\
  accesses (read_delta r n st out prev) m (fast_may st out).
Proof.
  intros r n st out prev m Hr Ht Hs Ho Hn Hp Hbad. destruct (simd_fast_delta r n st out prev Hr) as [avx2 ->].
  destruct (roomy_ok m st out Ht Hs Ho) as (R1 & R2 & R3 & R4 & R5 & R6).
  pose proof (bad_slack_delta m st out n Ht Hs Ho Hn Hbad (roomy m st out) prev Hp R2 R3 R4 R5 R6 avx2) as Hw.
  assert (HF : forall b, ~ fast_may st out (EAlB b)) by (intros b Hb; exact Hb).
  destruct (wp_ext _ _ _ m _ _ R1 HF Hw) as [G1 G2]. split; [|done].
  destruct (result _); [by destruct G2 as (? & ? & ?)|by left|by right|done|done].
Qed.
(** If the allocations extend far enough, it is a panic. *)
Theorem C14_fast_slack_partial : forall r n st out m, is_simd r = true -> typed m -> validB m st -> validW m out -> 0 <= n < 2 ^ 63 ->
  incomplete n st out m -> slack st out m -> panics (read r n st out) m.
Proof.
  intros r n st out m Hr Ht Hs Ho Hn Hbad Hsl. destruct (simd_fast r n st out Hr) as [avx2 ->].
  pose proof (bad_slack m st out n Ht Hs Ho Hn Hbad m Ht (proj1 Hs) (proj1 Ho) eq_refl Hsl avx2) as Hw.
  apply wp_run in Hw as [_ Hw]. unfold panics. by destruct (result _).
Qed.
Theorem C14_fast_slack_delta_partial : forall r n st out prev m, is_simd r = true -> typed m -> validB m st -> validW m out -> 0 <= n < 2 ^ 63 ->
  is_u32 prev -> incomplete n st out m -> slack st out m -> panics (read_delta r n st out prev) m.
Proof.
  intros r n st out prev m Hr Ht Hs Ho Hn Hp Hbad Hsl. destruct (simd_fast_delta r n st out prev Hr) as [avx2 ->].
  pose proof (bad_slack_delta m st out n Ht Hs Ho Hn Hbad m prev Hp Ht (proj1 Hs) (proj1 Ho) eq_refl Hsl avx2) as Hw.
  apply wp_run in Hw as [_ Hw]. unfold panics. by destruct (result _).
Qed.

Theorem C36_fast_partial : forall r n st out m, is_simd r = true -> typed m -> validB m st -> validW m out -> 0 <= n < 2 ^ 63 ->
  s_len out < n ->
  (result (run (read r n st out) m) = Panicked \/ result (run (read r n st out) m) = Faulted) /\
  accesses (read r n st out) m (fast_may st out).
Proof. intros. apply C14_fast_partial; try done. by right. Qed.
Theorem C36_fast_delta_partial : forall r n st out prev m, is_simd r = true -> typed m -> validB m st -> validW m out -> 0 <= n < 2 ^ 63 ->
  is_u32 prev -> s_len out < n ->
  (result (run (read_delta r n st out prev) m) = Panicked \/ result (run (read_delta r n st out prev) m) = Faulted) /\
  accesses (read_delta r n st out prev) m (fast_may st out).
Proof. intros. apply C14_fast_delta_partial; try done. by right. Qed.
(** A reader that returns normally has been given enough of both: true of every
    implementation if the capacity of [out] counts. *)
Theorem C36_normal_return : forall r n st out m, typed m -> validB m st -> validW m out -> 0 <= n < 2 ^ 63 ->
  result (run (read r n st out) m) = Ok tt -> well_formed (Z.to_nat n) (bytes m st) /\ n <= s_cap out.
Proof.
  intros r n st out m Ht Hs Ho Hn HR. destruct (is_simd r) eqn:Er.
  - assert (Hc : ~ incomplete n st out m).
    { intros Hb. destruct (C14_fast_partial r n st out m Er Ht Hs Ho Hn Hb) as [[E|E] _]; congruence. }
    pose proof (wf_rdp m st n Ht Hs ltac:(lia)) as Hx. destruct (Z.lt_ge_cases (s_len st) (rdp (bytes m st) n n)) as [Hy|Hy].
    + exfalso. apply Hc. left. rewrite Hx. lia.
    + apply Hx in Hy. split; [done|]. destruct Ho as [(? & ? & ?) ?]. destruct (Z.lt_ge_cases (s_len out) n) as [Hz|]; [|lia].
      exfalso. apply Hc. by right.
  - assert (E : read r n st out = ReadAllScalar n st out) by (destruct r as [|b|[[] b|]]; done). rewrite E in HR.
    destruct (ReadAllScalar_run m st out n Ht Hs Ho Hn) as (_ & G & _). unfold panics in G.
    assert (Hd : scalar_ok m st out n \/ ~ scalar_ok m st out n).
    { unfold scalar_ok. rewrite (wf_rdp m st n Ht Hs) by lia. unfold okout. lia. }
    destruct Hd as [[H1 H2]|Hd]; [|rewrite G in HR by done; discriminate]. split; [done|]. unfold okout in H2. destruct Ho as [(? & ? & ?) ?]. lia.
Qed.
Example C14_fast_example :
  incomplete 17 (Slice 3 0 20 20) ex_out (c12_mem 0) /\ ~ slack (Slice 3 0 20 20) ex_out (c12_mem 0) /\
  incomplete 36 (Slice 3 0 20 20) ex_out (c12_mem 40) /\ slack (Slice 3 0 20 20) ex_out (c12_mem 40) /\
  result (run (ReadAllFast (AMD64 true true) 36 (Slice 3 0 20 20) ex_out) (c12_mem 40)) = Panicked.
Proof.
  split; [left; intros (_ & _ & H); vm_compute in H; lia|].
  split; [intros [H _]; vm_compute in H; by apply H|].
  split; [left; intros (_ & H & H'); vm_compute in H, H'; lia|].
  split; [split; vm_compute; discriminate|]. vm_compute. done.
Qed.

(** ** C37: the SIMD readers on every count *)
(** An execution that only reads leaves the memory as it was. *)
Lemma reads_only {A} (p : prog A) m : accesses p m (fun e => match e with ERdB _ _ | ERdW _ _ => True | _ => False end) -> final (run p m) = m.
Proof.
  unfold accesses. revert m. induction p as [a| | | | |b i k IH|b i v k IH|b i k IH|b i v k IH|b n k IH]; intros m H; try done.
  - cbn in *. destruct (hget (mb m) b i) as [v|]; [|done]. specialize (IH v m). destruct (run (k v) m) as [[r mf] t]. cbn in *. inversion_clear H. auto.
  - exfalso. cbn in H. destruct (hput (mb m) b i v) as [h|]; [destruct (run k _) as [[r mf] t]|]; cbn in H; by inversion H.
  - cbn in *. destruct (hget (mw m) b i) as [v|]; [|done]. specialize (IH v m). destruct (run (k v) m) as [[r mf] t]. cbn in *. inversion_clear H. auto.
  - exfalso. cbn in H. destruct (hput (mw m) b i v) as [h|]; [destruct (run k _) as [[r mf] t]|]; cbn in H; by inversion H.
  - exfalso. cbn in H. destruct (mb m !! b); [|destruct (run k _) as [[r mf] t]]; cbn in H; by inversion H.
Qed.
Lemma panics_untouched {A} (p : prog A) m Q : wp (fun e => match e with ERdB _ _ | ERdW _ _ => True | _ => False end) True p m Q ->
  (forall a m', ~ Q a m') -> panics p m /\ final (run p m) = m.
Proof. intros H HQ. apply wp_run in H as [H1 H2]. split; [|by apply reads_only]. unfold panics. destruct (result _); [by apply HQ in H2|done..]. Qed.

(** The six smallest integers: [(ctrlLen - 3) * 4] wraps to a positive number. *)
Theorem C37_smallest_fast : forall r n st out prev m, is_simd r = true -> validB m st -> validW m out -> - 2 ^ 63 <= n < - 2 ^ 63 + 6 ->
  (panics (read r n st out) m /\ final (run (read r n st out) m) = m) /\
  (panics (read_delta r n st out prev) m /\ final (run (read_delta r n st out prev) m) = m).
Proof.
  intros r n st out prev m Hr [Hs _] [(? & ? & ?) _] Hn. split.
  - destruct (simd_fast r n st out Hr) as [avx2 ->]. apply (panics_untouched _ _ (fun _ _ => False)); [|tauto].
    apply wp_ReadAllFast_short; [by apply fast_short_neg|exact I|exact Hs|lia|done].
  - destruct (simd_fast_delta r n st out prev Hr) as [avx2 ->]. apply (panics_untouched _ _ (fun _ _ => False)); [|tauto].
    apply wp_ReadAllDeltaFast_short; [by apply fast_short_neg|exact I|exact Hs|lia|done].
Qed.
(** Counts of numbers whose control bytes are not there, up to the largest integer:
    a panic before anything is written. *)
Theorem C37_largest_fast : forall r n st out prev m, is_simd r = true -> validB m st -> validW m out -> 0 <= n < 2 ^ 63 ->
  4 * s_len st < n ->
  (panics (read r n st out) m /\ final (run (read r n st out) m) = m) /\
  (panics (read_delta r n st out prev) m /\ final (run (read_delta r n st out prev) m) = m).
Proof.
  intros r n st out prev m Hr [Hs Hc] [(? & ? & ?) _] Hn Hl. assert (Hsl : 0 <= s_len st <= 2 ^ 60) by (destruct Hs as (? & ? & ?); lia).
  pose proof (rcl_bounds n ltac:(lia)).
  assert (Hshort : fast_short n (s_len st)) by (apply fast_short_pos; lia). split.
  - destruct (simd_fast r n st out Hr) as [avx2 ->]. apply (panics_untouched _ _ (fun _ _ => False)); [|tauto].
    apply wp_ReadAllFast_short; [exact Hshort|exact I|exact Hs|lia|done].
  - destruct (simd_fast_delta r n st out prev Hr) as [avx2 ->]. apply (panics_untouched _ _ (fun _ _ => False)); [|tauto].
    apply wp_ReadAllDeltaFast_short; [exact Hshort|exact I|exact Hs|lia|done].
Qed.
Example C37_extreme_example :
  panics (ReadAllFast (AMD64 true true) (- 2 ^ 63 + 5) ex_st ex_out) ex_mem /\
  returns (ReadAllFast (AMD64 true true) (- 2 ^ 63 + 6) ex_st ex_out) ex_mem tt ex_mem /\
  panics (ReadAllFast (AMD64 true true) (2 ^ 63 - 1) ex_st ex_out) ex_mem.
Proof. vm_compute. done. Qed.

(** Scalar and SIMD code agree on every count the scalar code can be called with, up
    to: a count that is negative and no multiple of 4, an [out] of which only the
    capacity suffices, and how an incomplete argument is rejected. *)
Theorem C37_all_counts_partial : forall r r' n st out m, is_simd r = true -> is_simd r' = false ->
  typed m -> validB m st -> validW m out -> - 2 ^ 63 + 6 <= n < 2 ^ 63 -> (n < 0 -> n mod 4 = 0) -> (s_len out < n -> s_cap out < n) ->
  room r n st m -> slack st out m ->
  result (run (read r n st out) m) = result (run (read r' n st out) m) /\
  (result (run (read r n st out) m) = Ok tt -> final (run (read r n st out) m) = final (run (read r' n st out) m)).
Proof.
  intros r r' n st out m Er Er' Ht Hs Ho Hn Hneg Hcap Hroom Hsl.
  assert (E : read r' n st out = ReadAllScalar n st out) by (destruct r' as [|b|[[] b|]]; done).
  destruct (Z.lt_ge_cases n 0) as [H0|H0].
  - destruct (simd_fast r n st out Er) as [avx2 ->]. rewrite E.
    destruct (C37_negative_fast avx2 n st out 0 m Hs Ho ltac:(lia)) as [[E1 E2] _].
    assert (G : returns (ReadAllScalar n st out) m tt m).
    { specialize (Hneg H0). eapply (wp_returns (fun _ => True)). apply wp_ReadAllScalar_neg; try done.
      - lia.
      - apply Hs.
      - apply Ho.
      - by apply typed_blk_b. }
    destruct G as [-> ->]. by rewrite E1, E2.
  - assert (Hd : well_formed (Z.to_nat n) (bytes m st) /\ n <= s_len out \/ incomplete n st out m).
    { unfold incomplete. rewrite (wf_rdp m st n Ht Hs) by lia. lia. }
    destruct Hd as [[Hwf Hl]|Hbad].
    + assert (Hroom' : room r' n st m).
      { unfold room, reach in *. rewrite Er in Hroom. rewrite Er'. pose proof (overread_range n). lia. }
      destruct (C37_same_partial r r' n st out m Ht Hs Ho ltac:(lia) Hwf Hroom Hroom') as [-> ->]. done.
    + rewrite (C14_fast_slack_partial r n st out m Er Ht Hs Ho ltac:(lia) Hbad Hsl). rewrite E.
      destruct (ReadAllScalar_run m st out n Ht Hs Ho ltac:(lia)) as (_ & G & _). unfold panics in G. rewrite G; [done|].
      intros [H1 H2]. destruct Hbad as [Hb|Hb]; [done|]. unfold okout in H2. specialize (Hcap Hb). lia.
Qed.
Theorem C37_all_counts_delta_partial : forall r r' n st out prev m, is_simd r = true -> is_simd r' = false ->
  typed m -> validB m st -> validW m out -> is_u32 prev -> - 2 ^ 63 + 6 <= n < 2 ^ 63 -> (n < 0 -> n mod 4 = 0) -> (s_len out < n -> s_cap out < n) ->
  room r n st m -> slack st out m ->
  result (run (read_delta r n st out prev) m) = result (run (read_delta r' n st out prev) m) /\
  (result (run (read_delta r n st out prev) m) = Ok tt -> final (run (read_delta r n st out prev) m) = final (run (read_delta r' n st out prev) m)).
Proof.
  intros r r' n st out prev m Er Er' Ht Hs Ho Hp Hn Hneg Hcap Hroom Hsl.
  assert (E : read_delta r' n st out prev = ReadAllDeltaScalar n st out prev) by (destruct r' as [|b|[[] b|]]; done).
  destruct (Z.lt_ge_cases n 0) as [H0|H0].
  - destruct (simd_fast_delta r n st out prev Er) as [avx2 ->]. rewrite E.
    destruct (C37_negative_fast avx2 n st out prev m Hs Ho ltac:(lia)) as [_ [E1 E2]].
    assert (G : returns (ReadAllDeltaScalar n st out prev) m tt m).
    { specialize (Hneg H0). eapply (wp_returns (fun _ => True)). apply wp_ReadAllDeltaScalar_neg; try done.
      - lia.
      - apply Hs.
      - apply Ho.
      - by apply typed_blk_b. }
    destruct G as [-> ->]. by rewrite E1, E2.
  - assert (Hd : well_formed (Z.to_nat n) (bytes m st) /\ n <= s_len out \/ incomplete n st out m).
    { unfold incomplete. rewrite (wf_rdp m st n Ht Hs) by lia. lia. }
    destruct Hd as [[Hwf Hl]|Hbad].
    + assert (Hroom' : room r' n st m).
      { unfold room, reach in *. rewrite Er in Hroom. rewrite Er'. pose proof (overread_range n). lia. }
      destruct (C37_same_delta_partial r r' n st out prev m Ht Hs Ho ltac:(lia) Hp Hwf Hroom Hroom') as [-> ->]. done.
    + rewrite (C14_fast_slack_delta_partial r n st out prev m Er Ht Hs Ho ltac:(lia) Hp Hbad Hsl). rewrite E.
      destruct (ReadAllDeltaScalar_run m st out n Ht Hs Ho prev ltac:(lia)) as (_ & G & _). unfold panics in G. rewrite G; [done|].
      intros [H1 H2]. destruct Hbad as [Hb|Hb]; [done|]. unfold okout in H2. specialize (Hcap Hb). lia.
Qed.
Example C37_all_counts_example : let m := c12_mem 40 in let st := Slice 3 0 20 20 in
  room (RFast true) 36 st m /\ slack st ex_out m /\ 36 <= s_len ex_out /\ validB m st /\ validW m ex_out /\
  result (run (read_delta (RFast true) 36 st ex_out 7) m) = Panicked /\ result (run (read_delta RScalar 36 st ex_out 7) m) = Panicked.
Proof.
  split; [vm_compute; discriminate|]. split; [split; vm_compute; discriminate|]. split; [vm_compute; discriminate|].
  split; [split; [unfold fits; vm_compute; intuition discriminate|vm_compute; discriminate]|].
  split; [split; [unfold fits; vm_compute; intuition discriminate|vm_compute; discriminate]|]. split; by vm_compute.
Qed.
