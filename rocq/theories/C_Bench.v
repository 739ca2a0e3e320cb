(** * The tool that writes benchmark results into the README: C47 *)
From stdpp Require Import prelude list strings.
From Coq Require Import ZArith Lia.
From Verif Require Import BenchTool.
Local Open Scope Z_scope.

(** ** Vocabulary, independent of the model's functions *)
(** [p] occurs in [s] at position [i]; at [i] for the first time. *)
Definition occurs (p s : text) (i : nat) : Prop := exists t, drop i s = p ++ t.
Definition first_at (p s : text) (i : nat) : Prop := occurs p s i /\ forall j, (j < i)%nat -> ~ occurs p s j.
Definition starts (l p : text) : Prop := exists t, l = p ++ t.
Definition wanted (l : text) : Prop := starts l goos \/ starts l goarch \/ starts l pkg \/ starts l cpu \/ starts l benchmark.
(** A text of lines, each ended by a newline. *)
Definition as_text (ls : list text) : text := concat (map (fun l => l ++ [nl]) ls).
(** A line as benchmarks print them: no line break inside, no carriage return at the
    end, below 64 KiB. *)
Definition plain_line (l : text) : Prop := nl ∉ l /\ (forall t, l <> t ++ [cr]) /\ Z.of_nat (length l) < 65536.

(** What becomes of the line [l] when [b] tells whether a benchmark has been seen. *)
Inductive line_report (b : Prop) (l : text) : list text -> Prop :=
| lr_skip : ~ wanted l -> line_report b l []
| lr_goos : wanted l -> starts l goos -> b -> line_report b l [[]; l]
| lr_bench t : wanted l -> l = benchmark ++ t -> b -> line_report b l [t]
| lr_cpu : starts l cpu -> line_report b l [l; dashes]
| lr_other : wanted l -> ~ starts l cpu -> ~ starts l benchmark -> ~ (starts l goos /\ b) -> line_report b l [l].
Definition bench_by (ls : list text) (i : nat) : Prop := exists j l, (j <= i)%nat /\ ls !! j = Some l /\ starts l benchmark.
Definition report_of (ls out : list text) : Prop := exists parts, out = concat parts /\ length parts = length ls /\
  forall i l r, ls !! i = Some l -> parts !! i = Some r -> line_report (bench_by ls i) l r.

(** ** Searching *)
Lemma HasPrefix_spec s p : HasPrefix s p = true <-> exists t, s = p ++ t.
Proof.
  revert s. induction p as [|a p IH]; intros s; cbn [HasPrefix].
  - split; [by exists s|done].
  - destruct s as [|b s]; [split; [done|intros [t H]; done]|].
    rewrite andb_true_iff, Z.eqb_eq, IH. split.
    + intros [-> [t ->]]. by exists t.
    + intros [t H]. cbn in H. injection H as -> ->. split; [done|by exists t].
Qed.
Lemma HasPrefix_occurs s p i : occurs p s i <-> HasPrefix (drop i s) p = true.
Proof. by rewrite HasPrefix_spec. Qed.
Lemma Index_Some s p i : p <> [] -> Index s p = Some i <-> first_at p s i.
Proof.
  intros Hp. revert i. induction s as [|c s IH]; intros i; cbn [Index].
  - destruct (HasPrefix [] p) eqn:E; [apply HasPrefix_spec in E as [t E]; by destruct p|].
    split; [done|]. intros [[t H] _]. rewrite drop_nil in H. by destruct p.
  - destruct (HasPrefix (c :: s) p) eqn:E.
    + split.
      * injection 1 as <-. split; [by apply HasPrefix_occurs|lia].
      * intros [H1 H2]. f_equal. destruct i; [done|]. exfalso. apply (H2 0%nat); [lia|by apply HasPrefix_occurs].
    + assert (E0 : ~ occurs p (c :: s) 0) by (rewrite HasPrefix_occurs; cbn [drop]; congruence).
      split.
      * intros H. destruct (Index s p) as [k|] eqn:Ek; [|done]. injection H as <-.
        destruct (proj1 (IH k) eq_refl) as [H1 H2]. split; [done|]. intros [|j] Hj; [done|]. apply (H2 j); lia.
      * intros [H1 H2]. destruct i as [|i]; [done|].
        assert (Ek : Index s p = Some i) by (apply IH; split; [done|]; intros j Hj; apply (H2 (S j)); lia).
        by rewrite Ek.
Qed.
Lemma Index_None s p : p <> [] -> Index s p = None <-> forall i, ~ occurs p s i.
Proof.
  intros Hp. induction s as [|c s IH]; cbn [Index].
  - destruct (HasPrefix [] p) eqn:E; [apply HasPrefix_spec in E as [t E]; by destruct p|].
    split; [|done]. intros _ i [t H]. rewrite drop_nil in H. by destruct p.
  - destruct (HasPrefix (c :: s) p) eqn:E.
    + split; [done|]. intros H. exfalso. apply (H 0%nat). by apply HasPrefix_occurs.
    + split.
      * intros H [|i]; [rewrite HasPrefix_occurs; cbn [drop]; congruence|].
        destruct (Index s p); [done|]. apply IH; done.
      * intros H. enough (Index s p = None) as -> by done. apply IH. intros i. apply (H (S i)).
Qed.

(** ** Lines *)
Lemma raw_lines_app cur l s : nl ∉ l -> raw_lines cur (l ++ nl :: s) = (rev cur ++ l) :: raw_lines [] s.
Proof.
  revert cur. induction l as [|c l IH]; intros cur H; cbn [app raw_lines].
  - by rewrite app_nil_r.
  - apply not_elem_of_cons in H as [H1 H2]. destruct (Z.eqb_spec c nl); [congruence|]. rewrite IH by done.
    cbn [rev]. by rewrite <- app_assoc.
Qed.
Lemma raw_lines_text ls : Forall (fun l => nl ∉ l) ls -> raw_lines [] (as_text ls) = ls.
Proof.
  induction 1 as [|l ls H _ IH]; [done|]. cbn [as_text map concat]. rewrite <- app_assoc. cbn [app].
  rewrite raw_lines_app by done. cbn. f_equal. apply IH.
Qed.
Lemma dropCR_plain l : (forall t, l <> t ++ [cr]) -> dropCR l = l.
Proof.
  intros H. unfold dropCR. destruct (rev l) as [|c r] eqn:E; [done|]. destruct (Z.eqb_spec c cr) as [->|]; [|done].
  exfalso. apply (H (rev r)). rewrite <- (rev_involutive l), E. done.
Qed.
Lemma Scan_text ls : Forall plain_line ls -> Scan (as_text ls) = Some ls.
Proof.
  intros H. unfold Scan. rewrite raw_lines_text by (eapply Forall_impl; [exact H|intros l Hl; apply Hl]).
  assert (E : existsb (fun l : text => 65536 <=? Z.of_nat (length l)) ls = false).
  { apply not_true_is_false. rewrite existsb_exists. intros (l & Hl & Hlen). apply Z.leb_le in Hlen.
    rewrite Forall_forall in H. apply elem_of_list_In in Hl. destruct (H l Hl) as (_ & _ & ?). lia. }
  rewrite E. f_equal. clear E. induction H as [|l ls H _ IH]; [done|]. cbn [map]. rewrite IH. f_equal. apply dropCR_plain, H.
Qed.

(** ** The report *)
Definition chunk (b : bool) (l : text) : list text :=
  if anyPrefix l then (if b && HasPrefix l goos then [[]] else []) ++ [if b then TrimPrefix l benchmark else l] ++ (if HasPrefix l cpu then [dashes] else [])
  else [].
Fixpoint chunks (b : bool) (ls : list text) : list (list text) :=
  match ls with [] => [] | l :: r => let b := b || HasPrefix l benchmark in chunk b l :: chunks b r end.
Lemma anyPrefix_bench l : HasPrefix l benchmark = true -> anyPrefix l = true.
Proof. intros H. unfold anyPrefix, validPrefixes. cbn [existsb]. rewrite H. by rewrite !orb_true_r. Qed.
Lemma foldl_process ls out b : foldl process_line (out, b) ls = (out ++ concat (chunks b ls), b || existsb (fun l => HasPrefix l benchmark) ls).
Proof.
  revert out b. induction ls as [|l ls IH]; intros out b; cbn [foldl chunks concat existsb].
  - by rewrite app_nil_r, orb_false_r.
  - unfold process_line at 2. unfold chunk. destruct (anyPrefix l) eqn:E.
    + cbv zeta. rewrite IH, orb_assoc. f_equal. rewrite app_assoc. f_equal.
      destruct ((b || HasPrefix l benchmark) && HasPrefix l goos), (HasPrefix l cpu); cbn [app]; rewrite <- ?app_assoc; done.
    + assert (HasPrefix l benchmark = false) as -> by (apply not_true_is_false; intros H; apply anyPrefix_bench in H; congruence).
      rewrite !orb_false_r, IH. done.
Qed.
Lemma process_chunks ls : process ls = concat (chunks false ls).
Proof. unfold process. by rewrite foldl_process. Qed.

Lemma starts_spec l p : starts l p <-> HasPrefix l p = true.
Proof. by rewrite HasPrefix_spec. Qed.
Lemma starts_not l p : ~ starts l p <-> HasPrefix l p = false.
Proof. rewrite starts_spec. by rewrite not_true_iff_false. Qed.
Lemma wanted_spec l : wanted l <-> anyPrefix l = true.
Proof. unfold wanted, anyPrefix, validPrefixes. cbn [existsb]. rewrite !starts_spec, !orb_true_iff. intuition congruence. Qed.
Lemma prefix_clash l p q : HasPrefix l p = true -> HasPrefix l q = true -> hd_error p <> hd_error q -> p <> [] -> q <> [] -> False.
Proof.
  intros Hp Hq Hne Hp0 Hq0. apply HasPrefix_spec in Hp as [t ->]. apply HasPrefix_spec in Hq as [t' H].
  destruct p as [|a p], q as [|b q]; try done. cbn in *. congruence.
Qed.
Lemma chunk_report (B : Prop) b l : (b = true <-> B) -> (HasPrefix l benchmark = true -> B) -> line_report B l (chunk b l).
Proof.
  intros HB Hb. unfold chunk. destruct (anyPrefix l) eqn:W; [|by apply lr_skip; rewrite wanted_spec, W].
  assert (Hw : wanted l) by by apply wanted_spec.
  assert (CG : HasPrefix l cpu = true -> HasPrefix l goos = true -> False) by (intros H1 H2; eapply prefix_clash; [exact H1|exact H2|..]; by vm_compute).
  assert (CB : HasPrefix l cpu = true -> HasPrefix l benchmark = true -> False) by (intros H1 H2; eapply prefix_clash; [exact H1|exact H2|..]; by vm_compute).
  assert (GB : HasPrefix l goos = true -> HasPrefix l benchmark = true -> False) by (intros H1 H2; eapply prefix_clash; [exact H1|exact H2|..]; by vm_compute).
  unfold TrimPrefix.
  destruct (HasPrefix l cpu) eqn:C.
  { assert (HasPrefix l goos = false) as -> by (apply not_true_is_false; intros ?; by apply CG).
    assert (HasPrefix l benchmark = false) as -> by (apply not_true_is_false; intros ?; by apply CB).
    rewrite andb_false_r. assert (line_report B l [l; dashes]) by (apply lr_cpu; by apply starts_spec). by destruct b. }
  destruct (HasPrefix l benchmark) eqn:E.
  { assert (HasPrefix l goos = false) as -> by (apply not_true_is_false; intros ?; by apply GB).
    assert (b = true) as -> by (apply HB; by apply Hb). cbn [andb app].
    pose proof E as [t Ht]%HasPrefix_spec. apply (lr_bench _ _ _ Hw); [|by apply Hb]. rewrite Ht at 1. f_equal.
    rewrite Ht. by rewrite drop_app. }
  destruct (HasPrefix l goos) eqn:G.
  - destruct b; cbn [andb app].
    + apply lr_goos; [done|by apply starts_spec|by apply HB].
    + apply lr_other; [done|by apply starts_not|by apply starts_not|]. intros [_ H]. apply HB in H. done.
  - rewrite andb_false_r. cbn [app]. assert (line_report B l [l]); [|by destruct b].
    apply lr_other; [done|by apply starts_not|by apply starts_not|]. intros [H _]. apply starts_spec in H. congruence.
Qed.
Lemma chunks_spec b ls i l r : ls !! i = Some l -> chunks b ls !! i = Some r ->
  r = chunk (b || existsb (fun l => HasPrefix l benchmark) (take (S i) ls)) l.
Proof.
  revert b i. induction ls as [|x ls IH]; intros b i Hl Hr; [done|]. destruct i as [|i]; cbn in Hl, Hr.
  - injection Hl as <-. injection Hr as <-. cbn [take existsb]. by rewrite orb_false_r.
  - rewrite (IH _ _ Hl Hr). cbn [take existsb]. by rewrite <- orb_assoc.
Qed.
Lemma bench_by_spec ls i : existsb (fun l => HasPrefix l benchmark) (take (S i) ls) = true <-> bench_by ls i.
Proof.
  rewrite existsb_exists. split.
  - intros (l & Hl & H). apply elem_of_list_In, elem_of_list_lookup in Hl as [j Hj]. apply lookup_take_Some in Hj as [Hj Hji].
    exists j, l. split; [lia|]. split; [done|]. by apply starts_spec.
  - intros (j & l & Hj & Hl & H). exists l. split; [|by apply starts_spec]. apply elem_of_list_In, elem_of_list_lookup.
    exists j. apply lookup_take_Some. split; [done|lia].
Qed.
Lemma chunks_length b ls : length (chunks b ls) = length ls.
Proof. revert b. induction ls as [|l ls IH]; intros b; [done|]. cbn [chunks length]. by rewrite IH. Qed.
Lemma process_report ls : report_of ls (process ls).
Proof.
  exists (chunks false ls). split; [apply process_chunks|]. split; [apply chunks_length|].
  intros i l r Hl Hr. rewrite (chunks_spec _ _ _ _ _ Hl Hr). cbn [orb]. apply chunk_report; [apply bench_by_spec|].
  intros H. exists i, l. split; [lia|]. split; [done|]. by apply starts_spec.
Qed.
(** The report is determined by [report_of]. *)
Lemma line_report_unique b l r r' : line_report b l r -> line_report b l r' -> r = r'.
Proof.
  assert (Hc : starts l cpu -> wanted l) by (unfold wanted; tauto).
  assert (CG : starts l cpu -> starts l goos -> False) by (rewrite !starts_spec; intros H1 H2; eapply prefix_clash; [exact H1|exact H2|..]; by vm_compute).
  assert (CB : starts l cpu -> starts l benchmark -> False) by (rewrite !starts_spec; intros H1 H2; eapply prefix_clash; [exact H1|exact H2|..]; by vm_compute).
  assert (GB : starts l goos -> starts l benchmark -> False) by (rewrite !starts_spec; intros H1 H2; eapply prefix_clash; [exact H1|exact H2|..]; by vm_compute).
  assert (SB : forall t, l = benchmark ++ t -> starts l benchmark) by (intros t ->; by exists t).
  intros H H'. destruct H, H'; try done; try tauto; try (exfalso; eauto; fail).
  subst l. match goal with H : _ ++ _ = _ ++ _ |- _ => apply app_inv_head in H end. by subst.
Qed.
Lemma report_unique ls o o' : report_of ls o -> report_of ls o' -> o = o'.
Proof.
  intros (p & -> & Hl & Hp) (p' & -> & Hl' & Hp'). f_equal. apply list_eq. intros i.
  destruct (p !! i) as [r|] eqn:E; destruct (p' !! i) as [r'|] eqn:E'; [| | |done].
  - f_equal. destruct (ls !! i) as [l|] eqn:El; [|apply lookup_ge_None in El; apply lookup_lt_Some in E; lia].
    eapply line_report_unique; eauto.
  - apply lookup_lt_Some in E. apply lookup_ge_None in E'. lia.
  - apply lookup_lt_Some in E'. apply lookup_ge_None in E. lia.
Qed.

(** ** Where things occur *)
Lemma occurs_lookup p s j k : occurs p s j -> (k < length p)%nat -> s !! (j + k)%nat = p !! k.
Proof. intros [t H] Hk. rewrite <- lookup_drop, H. by apply lookup_app_l. Qed.
Lemma occurs_len p s j : p <> [] -> occurs p s j -> (j + length p <= length s)%nat.
Proof.
  intros Hp [t H]. apply (f_equal length) in H. rewrite drop_length, app_length in H. destruct p; [done|]. cbn [length] in *. lia.
Qed.
Lemma occurs_l p a b j : (j + length p <= length a)%nat -> occurs p (a ++ b) j <-> occurs p a j.
Proof.
  intros Hl. unfold occurs. rewrite drop_app_le by lia. split.
  - intros [t H]. exists (drop (length p) (drop j a)).
    assert (E : take (length p) (drop j a ++ b) = take (length p) (p ++ t)) by by rewrite H.
    rewrite take_app_le, take_app in E by (rewrite drop_length; lia). rewrite <- E at 1. by rewrite take_drop.
  - intros [t H]. exists (t ++ b). rewrite H. by rewrite app_assoc.
Qed.
Lemma drop_app_add (a b : text) j : drop (length a + j) (a ++ b) = drop j b.
Proof. by apply drop_add_app. Qed.
Lemma occurs_r p a b j : occurs p (a ++ b) (length a + j) <-> occurs p b j.
Proof. unfold occurs. by rewrite drop_app_add. Qed.
(** The end sentinel does not reach across a newline. *)
Lemma end_straddle a c j : occurs endSentinel (a ++ nl :: c) j -> (j + 4 <= length a + 1)%nat \/ (length a + 1 <= j)%nat.
Proof.
  intros H. destruct (Nat.le_gt_cases (j + 4) (length a + 1)) as [|H1]; [by left|].
  destruct (Nat.le_gt_cases (length a + 1) j) as [|H2]; [by right|]. exfalso.
  pose proof (occurs_lookup _ _ _ (length a - j) H) as E. rewrite Nat.add_comm, Nat.sub_add in E by lia.
  rewrite list_lookup_middle in E by done. specialize (E ltac:(change (length endSentinel) with 4%nat; lia)).
  destruct (length a - j)%nat as [|[|[|k]]] eqn:Ek; [by vm_compute in E..|lia].
Qed.

(** ** The block of the README *)
Definition doc (pre block post : text) : text := pre ++ startSentinel ++ block ++ endSentinel ++ post.
Definition placed (pre block post : text) : Prop :=
  first_at startSentinel (doc pre block post) (length pre) /\
  first_at endSentinel (doc pre block post) (length pre + length startSentinel + length block).

Lemma placed_again pre old new post : placed pre old post -> (forall i, ~ occurs endSentinel (new ++ [nl]) i) -> placed pre (new ++ [nl]) post.
Proof.
  intros [[_ S2] [_ E2]] Hnew. unfold placed, doc in *. split; split.
  - exists ((new ++ [nl]) ++ endSentinel ++ post). by rewrite drop_app.
  - intros j Hj H. apply (S2 j Hj). rewrite app_assoc in H |- *.
    rewrite occurs_l in H |- * by (rewrite app_length; lia). done.
  - exists post. rewrite <- Nat.add_assoc, drop_app_add, drop_app_add, drop_app. done.
  - intros j Hj H. destruct (Nat.le_gt_cases (j + 4) (length pre + length startSentinel)) as [Hc|Hc].
    + apply (E2 j); [lia|]. rewrite app_assoc in H |- *.
      rewrite occurs_l in H |- * by (rewrite app_length; change (length endSentinel) with 4%nat; lia). done.
    + assert (HS : pre ++ startSentinel = (pre ++ codes "## Benchmarks" ++ [nl; nl] ++ codes "```text") ++ [nl]) by (unfold startSentinel; by rewrite <- !app_assoc).
      assert (HSl : (length (pre ++ codes "## Benchmarks" ++ [nl; nl] ++ codes "```text") + 1 = length pre + length startSentinel)%nat).
      { apply (f_equal length) in HS. rewrite !app_length in HS. rewrite !app_length. cbn [length] in *. lia. }
      rewrite app_assoc in H. rewrite HS in H. pose proof H as H'. rewrite <- app_assoc in H'. apply end_straddle in H'. rewrite HSl in H'.
      destruct H' as [H'|H']; [lia|]. rewrite <- HS in H.
      replace j with (length (pre ++ startSentinel) + (j - (length pre + length startSentinel)))%nat in H by (rewrite app_length; lia).
      rewrite occurs_r in H. set (i := (j - (length pre + length startSentinel))%nat) in *.
      rewrite app_length in Hj. cbn [length] in Hj.
      pose proof H as H2. rewrite <- app_assoc in H2. apply end_straddle in H2.
      destruct H2 as [H2|H2]; [|lia]. apply (Hnew i). rewrite occurs_l in H; [done|].
      rewrite app_length. change (length endSentinel) with 4%nat. cbn [length]. lia.
Qed.

(** A text of lines none of which ends in three back quotes does not contain the end sentinel. *)
Definition fence : text := codes "```".
Lemma end_in_text ls i : Forall (fun l => nl ∉ l /\ forall t, l <> t ++ fence) ls -> ~ occurs endSentinel (as_text ls) i.
Proof.
  intros H. revert i. induction H as [|l ls [Hn Hf] _ IH]; intros i Hi.
  - apply occurs_len in Hi; [|done]. cbn in Hi. lia.
  - cbn [as_text map concat] in Hi. fold (as_text ls) in Hi. pose proof Hi as Hs. rewrite <- app_assoc in Hs. apply end_straddle in Hs.
    destruct Hs as [Hs|Hs].
    + destruct (decide (i + 4 = length l + 1)%nat) as [He|He].
      * rewrite occurs_l in Hi by (rewrite app_length; change (length endSentinel) with 4%nat; cbn [length]; lia).
        destruct Hi as [t Ht]. apply (Hf (take i l)). rewrite drop_app_le in Ht by lia.
        assert (Hd : length (drop i l) = 3%nat) by (rewrite drop_length; lia).
        rewrite <- (take_drop i l) at 1. f_equal.
        assert (E : take 3 (drop i l ++ [nl]) = take 3 (endSentinel ++ t)) by by rewrite Ht. rewrite take_app_alt in E by done. exact E.
      * pose proof (occurs_lookup _ _ _ 3 Hi ltac:(change (length endSentinel) with 4%nat; lia)) as E.
        rewrite <- app_assoc, lookup_app_l in E by lia. apply Hn. apply elem_of_list_lookup. by exists (i + 3)%nat.
    + replace i with (length (l ++ [nl]) + (i - length (l ++ [nl])))%nat in Hi by (rewrite app_length; cbn [length]; lia).
      rewrite occurs_r in Hi. by apply IH in Hi.
Qed.
Lemma Join_text out : out <> [] -> Join out [nl] ++ [nl] = as_text out.
Proof.
  induction out as [|l out IH]; [done|]. intros _. destruct out as [|l' out].
  - cbn. by rewrite app_nil_r.
  - change (Join (l :: l' :: out) [nl]) with (l ++ [nl] ++ Join (l' :: out) [nl]).
    change (as_text (l :: l' :: out)) with ((l ++ [nl]) ++ as_text (l' :: out)). rewrite <- !app_assoc, IH by done. done.
Qed.
Lemma report_lines ls out : report_of ls out -> Forall (fun l => nl ∉ l /\ forall t, l <> t ++ fence) ls ->
  Forall (fun l => nl ∉ l /\ forall t, l <> t ++ fence) out.
Proof.
  intros (parts & -> & Hl & Hp) H. apply Forall_concat. apply Forall_lookup. intros i r Hr.
  destruct (ls !! i) as [l|] eqn:El; [|apply lookup_ge_None in El; apply lookup_lt_Some in Hr; lia].
  rewrite Forall_lookup in H. destruct (H i l El) as [H1 H2]. specialize (Hp i l r El Hr).
  assert (Hl0 : nl ∉ l /\ (forall t, l <> t ++ fence)) by done.
  assert (He : nl ∉ ([] : text) /\ (forall t : text, [] <> t ++ fence)) by (split; [apply not_elem_of_nil|]; intros t Ht; apply (f_equal length) in Ht; rewrite app_length in Ht; cbn in Ht; lia).
  assert (Hd : nl ∉ dashes /\ (forall t : text, dashes <> t ++ fence)).
  { split; [by vm_compute; intros ?%elem_of_list_In; cbn in *; intuition lia|]. intros t Ht; apply (f_equal length) in Ht; rewrite app_length in Ht; cbn in Ht; lia. }
  destruct Hp as [|? ? ?|t ? Ht ?| |]; repeat (apply Forall_cons; split; [done|]); try apply Forall_nil; try done.
  apply Forall_cons. split; [|by apply Forall_nil]. subst l. split.
  - intros Hin. apply H1. apply elem_of_app. by right.
  - intros t' ->. apply (H2 (benchmark ++ t')). by rewrite app_assoc.
Qed.

(** ** C47 *)
(** What the run prints or writes: the README with the block replaced by the report;
    everything before and behind the block stays. *)
Theorem C47_update : forall write ls out pre old post, Forall plain_line ls -> report_of ls out -> placed pre old post ->
  let readme := doc pre old post in
  let updated := doc pre (Join out [nl] ++ [nl]) post in
  main write (as_text ls) readme = if write then Done [] updated else Done updated readme.
Proof.
  intros write ls out pre old post Hls Hout [Hs He] readme updated. unfold main. rewrite Scan_text by done.
  apply Index_Some in Hs; [|done]. apply Index_Some in He; [|done]. fold readme in Hs, He. rewrite Hs, He.
  rewrite (report_unique ls _ _ (process_report ls) Hout). cbv zeta.
  assert (E1 : take (length pre) readme = pre) by (unfold readme, doc; by rewrite take_app).
  assert (E2 : drop (length pre + length startSentinel + length old) readme = endSentinel ++ post) by (unfold readme, doc; by rewrite <- Nat.add_assoc, drop_app_add, drop_app_add, drop_app).
  rewrite E1, E2. unfold updated, doc. rewrite <- !app_assoc. done.
Qed.
(** Every input has exactly one report. *)
Theorem C47_report : forall ls, exists out, report_of ls out /\ forall out', report_of ls out' -> out' = out.
Proof. intros ls. exists (process ls). split; [apply process_report|]. intros out' H. eapply report_unique; [exact H|apply process_report]. Qed.

(** Updates can be repeated: only the last one counts. *)
Theorem C47_again : forall ls1 ls2 pre old post, Forall plain_line ls1 -> Forall plain_line ls2 -> placed pre old post ->
  (forall l t, l ∈ ls1 -> l <> t ++ codes "```") ->
  let run ls readme := readme_after readme (main true (as_text ls) readme) in
  run ls2 (run ls1 (doc pre old post)) = run ls2 (doc pre old post).
Proof.
  intros ls1 ls2 pre old post H1 H2 Hp Hf run. unfold run.
  rewrite (C47_update true ls1 _ pre old post H1 (process_report ls1) Hp). cbn [readme_after].
  rewrite (C47_update true ls2 _ pre old post H2 (process_report ls2) Hp). cbn [readme_after].
  assert (Hp' : placed pre (Join (process ls1) [nl] ++ [nl]) post).
  { eapply placed_again; [exact Hp|]. intros i. destruct (decide (process ls1 = [])) as [->|Hne].
    - intros Hi. apply occurs_len in Hi; [|done]. cbn in Hi. lia.
    - rewrite Join_text by done. apply end_in_text. eapply report_lines; [apply process_report|].
      apply Forall_forall. intros l Hl. split; [|intros t; by apply Hf]. rewrite Forall_forall in H1. apply (H1 l Hl). }
  rewrite (C47_update true ls2 _ pre _ post H2 (process_report ls2) Hp'). done.
Qed.

(** How runs end, and that a run that fails leaves the README alone. *)
Theorem C47_ends : forall write ls readme, Forall plain_line ls ->
  let e := main write (as_text ls) readme in
  (e = Fatal <-> forall i, ~ occurs startSentinel readme i) /\
  (e = Crash <-> (exists i, occurs startSentinel readme i) /\ (forall i, ~ occurs endSentinel readme i)) /\
  (write = false \/ e = Fatal \/ e = Crash -> readme_after readme e = readme).
Proof.
  intros write ls readme H e. unfold e, main. rewrite Scan_text by done. cbv zeta.
  destruct (Index readme startSentinel) as [i|] eqn:Es.
  - apply Index_Some in Es as [Es _]; [|done]. destruct (Index readme endSentinel) as [j|] eqn:Ee.
    + apply Index_Some in Ee as [Ee _]; [|done]. split; [|split].
      * split; [by destruct write|]. intros Hn. by destruct (Hn i).
      * split; [by destruct write|]. intros [_ Hn]. by destruct (Hn j).
      * intros [->|[Hx|Hx]]; [done|by destruct write..].
    + pose proof (proj1 (Index_None readme endSentinel ltac:(done)) Ee) as Hn. split; [|split].
      * split; [done|]. intros Hx. by destruct (Hx i).
      * split; [|done]. intros _. split; [by exists i|done].
      * done.
  - pose proof (proj1 (Index_None readme startSentinel ltac:(done)) Es) as Hn. split; [|split].
    + done.
    + split; [done|]. intros [[i Hi] _]. by destruct (Hn i).
    + done.
Qed.
(** Any input: 65536 bytes without a newline end the run. *)
Lemma raw_lines_long cur l b : nl ∉ l -> l <> [] -> exists x, x ∈ raw_lines cur (l ++ b) /\ (length l <= length x)%nat.
Proof.
  assert (H1 : forall b cur, cur <> [] -> exists x, x ∈ raw_lines cur b /\ (length cur <= length x)%nat).
  { intros b0. induction b0 as [|c b0 IH]; intros cur0 Hc; cbn [raw_lines].
    - destruct cur0; [done|]. eexists. split; [by apply elem_of_list_singleton|]. by rewrite rev_length.
    - destruct (c =? nl); [eexists; split; [by left|by rewrite rev_length]|].
      destruct (IH (c :: cur0) ltac:(done)) as (x & Hx & Hl). exists x. split; [done|]. cbn [length] in Hl. lia. }
  intros Hn Hl. assert (E : raw_lines cur (l ++ b) = raw_lines (rev l ++ cur) b).
  { clear Hl. revert cur. induction l as [|c l IH]; intros cur; [done|]. apply not_elem_of_cons in Hn as [Hc Hn]. cbn [app raw_lines].
    destruct (Z.eqb_spec c nl); [congruence|]. rewrite IH by done. cbn [rev]. by rewrite <- app_assoc. }
  rewrite E. destruct (H1 b (rev l ++ cur)) as (x & Hx & Hlen).
  { intros [H _]%app_eq_nil. apply Hl. rewrite <- (rev_involutive l), H. done. }
  exists x. split; [done|]. rewrite app_length, rev_length in Hlen. lia.
Qed.
Theorem C47_long_line : forall write a l b readme, nl ∉ l -> Z.of_nat (length l) = 65536 -> main write (a ++ l ++ b) readme = Fatal.
Proof.
  intros write a l b readme Hn Hlen. unfold main, Scan.
  assert (E : existsb (fun l : text => 65536 <=? Z.of_nat (length l)) (raw_lines [] (a ++ l ++ b)) = true); [|by rewrite E].
  apply existsb_exists. enough (exists x, x ∈ raw_lines [] (a ++ l ++ b) /\ (length l <= length x)%nat) as (x & Hx & Hl).
  { exists x. split; [by apply elem_of_list_In|]. apply Z.leb_le. lia. }
  generalize ([] : text). induction a as [|c a IH]; intros cur; cbn [app].
  - apply raw_lines_long; [done|]. by intros ->.
  - cbn [raw_lines]. destruct (c =? nl); [|apply IH]. destruct (IH []) as (x & Hx & Hl). exists x. split; [by right|done].
Qed.

(** With a code block before the benchmarks the old block stays and the text from the
    first end sentinel on is doubled: every update makes the README longer. *)
Theorem C47_earlier_block : forall ls out readme i e, Forall plain_line ls -> report_of ls out ->
  first_at startSentinel readme i -> first_at endSentinel readme e -> (e < i)%nat ->
  let r := readme_after readme (main true (as_text ls) readme) in
  r = take i readme ++ startSentinel ++ Join out [nl] ++ [nl] ++ drop e readme /\ (length readme < length r)%nat.
Proof.
  intros ls out readme i e Hls Hout Hs He Hei r. pose proof (occurs_len startSentinel readme i ltac:(done) (proj1 Hs)).
  assert (E : r = take i readme ++ startSentinel ++ Join out [nl] ++ [nl] ++ drop e readme).
  { unfold r, main. rewrite Scan_text by done. apply Index_Some in Hs; [|done]. apply Index_Some in He; [|done].
    rewrite Hs, He. by rewrite (report_unique ls _ _ (process_report ls) Hout). }
  split; [done|]. rewrite E, !app_length, take_length, drop_length. cbn [length]. lia.
Qed.
(** The claim that every update replaces the block, whatever precedes it, is false. *)
Theorem C47_any_readme_refuted : ~ forall ls out pre old post, Forall plain_line ls -> report_of ls out ->
  first_at startSentinel (doc pre old post) (length pre) -> (forall i, ~ occurs endSentinel old i) ->
  readme_after (doc pre old post) (main true (as_text ls) (doc pre old post)) = doc pre (Join out [nl] ++ [nl]) post.
Proof.
  intros H. specialize (H [] [] (codes "```" ++ [nl] ++ codes "go" ++ [nl] ++ codes "```" ++ [nl]) [] []).
  assert (E : length (readme_after (doc (codes "```" ++ [nl] ++ codes "go" ++ [nl] ++ codes "```" ++ [nl]) [] []) (main true (as_text []) (doc (codes "```" ++ [nl] ++ codes "go" ++ [nl] ++ codes "```" ++ [nl]) [] []))) = 73%nat) by by vm_compute.
  rewrite H in E.
  - by vm_compute in E.
  - by apply Forall_nil.
  - exists []. split; [done|]. split; [done|]. by intros i l r Hi.
  - apply Index_Some; [done|]. by vm_compute.
  - intros i Hi. apply occurs_len in Hi; [|done]. cbn in Hi. lia.
Qed.

(** ** A concrete case *)
Definition ex_pre : text := codes "# Title" ++ [nl].
Definition ex_old : text := codes "old" ++ [nl].
Definition ex_post : text := codes "more" ++ [nl] ++ codes "```" ++ [nl].
Definition ex_lines : list text :=
  [codes "goos: linux"; codes "cpu: x"; codes "BenchmarkA 1 ns"; codes "PASS"; codes "goos: linux"; codes "BenchmarkB 2 ns"].
Definition ex_report : list text :=
  [codes "goos: linux"; codes "cpu: x"; codes "--"; codes "A 1 ns"; []; codes "goos: linux"; codes "B 2 ns"].
Lemma codes_no_nl s : forallb (fun c => negb (c =? nl)) (codes s) = true -> nl ∉ codes s.
Proof. intros H Hin. rewrite forallb_forall in H. apply elem_of_list_In in Hin. specialize (H _ Hin). by rewrite Z.eqb_refl in H. Qed.
Lemma codes_no_cr s t : forallb (fun c => negb (c =? cr)) (codes s) = true -> codes s <> t ++ [cr].
Proof. intros H E. rewrite forallb_forall, E in H. specialize (H cr). rewrite Z.eqb_refl in H. cbn [negb] in H. discriminate H. apply in_or_app. right. by left. Qed.
Example C47_case : Forall plain_line ex_lines /\ report_of ex_lines ex_report /\ placed ex_pre ex_old ex_post /\
  main true (as_text ex_lines) (doc ex_pre ex_old ex_post) =
    Done [] (codes "# Title" ++ [nl] ++ startSentinel ++ codes "goos: linux" ++ [nl] ++ codes "cpu: x" ++ [nl] ++ codes "--" ++ [nl] ++
      codes "A 1 ns" ++ [nl] ++ [nl] ++ codes "goos: linux" ++ [nl] ++ codes "B 2 ns" ++ [nl] ++ codes "```" ++ [nl] ++
      codes "more" ++ [nl] ++ codes "```" ++ [nl]).
Proof.
  split; [|split; [|split]].
  - unfold ex_lines. repeat (apply Forall_cons; split; [split; [by apply codes_no_nl|split; [intros t; by apply codes_no_cr|by vm_compute]]|]). by apply Forall_nil.
  - assert (process ex_lines = ex_report) as <- by by vm_compute. apply process_report.
  - split; (apply Index_Some; [done|by vm_compute]).
  - by vm_compute.
Qed.
Example C47_again_case : forall l t, l ∈ ex_lines -> l <> t ++ codes "```".
Proof.
  intros l t Hl E. apply elem_of_list_In in Hl. assert (F : Forall (fun l => last l <> Some 96) ex_lines) by (repeat (apply Forall_cons; split; [by vm_compute|]); by apply Forall_nil).
  rewrite Forall_forall in F. apply elem_of_list_In in Hl. apply (F l Hl). rewrite E. change (codes "```") with ([96; 96] ++ [96]). by rewrite app_assoc, last_snoc.
Qed.
(** No end sentinel: the tool crashes; no heading: it gives up. *)
Example C47_ends_case : main true [] startSentinel = Crash /\ main true [] endSentinel = Fatal.
Proof. by vm_compute. Qed.
Example C47_earlier_block_case : let readme := codes "```" ++ [nl] ++ doc [] ex_old ex_post in
  readme_after readme (main true (as_text ex_lines) readme) = codes "```" ++ [nl] ++ startSentinel ++ as_text ex_report ++ readme.
Proof. by vm_compute. Qed.
