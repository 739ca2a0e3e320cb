(** * C55: the benchmark tool, executed as text, with failures of the operating system *)
From Coq Require Import ZArith String Lia.
From stdpp Require Import prelude list.
From Verif Require Import GoSyntax BenchText BenchTool BenchInterp C_Bench.
Local Open Scope string_scope.
Local Open Scope list_scope.
Local Open Scope Z_scope.

(** The program, parsed. *)
Definition bench_decls : list decl := Eval vm_compute in match parse bench_go with Some f => decls f | None => [] end.
Lemma parse_bench : exists f, parse bench_go = Some f /\ decls f = bench_decls.
Proof. destruct (parse bench_go) as [f|] eqn:E; [|vm_compute in E; discriminate]. exists f. split; [done|].
  assert (H : match parse bench_go with Some f => decls f | None => [] end = bench_decls) by (vm_compute; reflexivity).
  by rewrite E in H. Qed.

(** ** What the program does, step by step *)
(** How the program ends, with the standard output and the README then. *)
Definition outcome (s : system) : how * text * text :=
  if stdin_fails s || open_fails s || read_fails s then (LogFatal, [], readme s)
  else match main true (stdin s) (readme s) with
       | Fatal => (LogFatal, [], readme s)
       | Crash => (Panicked, [], readme s)
       | Done _ final =>
           if flag_w s then
             if create_fails s then (LogFatal, [], readme s)
             else match write_fails s with None => (Returned, [], final) | Some k => (LogFatal, [], take k final) end
           else match stdout_fails s with None => (Returned, final, readme s) | Some k => (LogFatal, take k final, readme s) end
       end.

Lemma tokens_Scan t : tokens (raw_lines [] t) = match Scan t with Some l => (l, false) | None => (fst (tokens (raw_lines [] t)), true) end.
Proof.
  unfold Scan. generalize (raw_lines [] t) as ls. induction ls as [|l ls IH]; [done|]. cbn [tokens existsb].
  destruct (65536 <=? Z.of_nat (length l)) eqn:E; cbn [orb]; [done|].
  rewrite IH. destruct (existsb _ ls) eqn:E2; cbn [map]; [|done]. destruct (tokens ls) as [a b]. cbn in IH |- *. done.
Qed.
Lemma tokens_len ls : (length (fst (tokens ls)) <= length ls)%nat.
Proof. induction ls as [|l ls IH]; [cbn; lia|]. cbn [tokens]. destruct (_ <=? _); [cbn; lia|]. destruct (tokens ls). cbn in *. lia. Qed.
Lemma raw_lines_len cur t : (length (raw_lines cur t) <= S (length t))%nat.
Proof. revert cur. induction t as [|c t IH]; intros cur; cbn [raw_lines]; [destruct cur; cbn; lia|].
  destruct (c =? nl); cbn [length]; specialize (IH []) as I1; specialize (IH (c :: cur)) as I2; lia. Qed.

Definition E (p : list text * bool) : env := [("scanner", VScanner); ("hasBench", VBool (snd p)); ("lines", VStrs (fst p))].
Lemma loop_lines C B K :
  (forall p par cur so rd ls k, C (E p) (World par ls cur so rd) k =
     match ls with [] => k false (World par [] cur so rd) | l :: r => k true (World par r l so rd) end) ->
  (forall p par ls l so rd k, B (E p) (World par ls l so rd) k = k (E (process_line p l)) (World par ls l so rd)) ->
  forall n ls p par cur so rd r, (length ls < n)%nat ->
  (forall cur', K (E (foldl process_line p ls)) (World par [] cur' so rd) = r) ->
  loop n C B (E p) (World par ls cur so rd) K = r.
Proof.
  intros HC HB n. induction n as [|n IH]; intros ls p par cur so rd r L HK; [lia|]. cbn [loop]. rewrite HC.
  destruct ls as [|l ls]; [apply HK|]. rewrite HB. apply IH; [cbn [length] in L; lia|exact HK].
Qed.
Ltac bev := cbv [ev st sts seqs one boolean name lookup update leave call method append operands evs zero declare assign each
  runMain user glob start declared declares stop map fst snd allSome option_map f_name List.find bench_decls
  String.eqb Ascii.eqb Bool.eqb andb negb default from_option id
  w_parsed w_lines w_line w_stdout w_readme List.length skipn Nat.sub].
Lemma slice_to t i w k : (i <= length t)%nat -> slicing (VBytes t) None (Some (Z.of_nat i)) w k = k [VBytes (take i t)] w.
Proof. intros H. unfold slicing. cbn [default from_option id]. rewrite (proj2 (Z.leb_le 0 (Z.of_nat i))), (proj2 (Z.leb_le (Z.of_nat i) _)) by lia.
  cbn [andb Z.leb Z.compare]. by rewrite Z.sub_0_r, Nat2Z.id. Qed.
Lemma slice_from t i w k : (i <= length t)%nat -> slicing (VBytes t) (Some (Z.of_nat i)) None w k = k [VBytes (drop i t)] w.
Proof. intros H. unfold slicing. cbn [default from_option id].
  rewrite (proj2 (Z.leb_le 0 (Z.of_nat i))), (proj2 (Z.leb_le (Z.of_nat i) _)), (proj2 (Z.leb_le (Z.of_nat (length t)) _)) by lia.
  cbn [andb]. rewrite Nat2Z.id, take_ge; [done|]. rewrite drop_length. lia. Qed.
Lemma slice_before t w k : slicing (VBytes t) (Some (-1)) None w k = stop Panicked w.
Proof. reflexivity. Qed.
Lemma Index_len s p i : Index s p = Some i -> (i <= length s)%nat.
Proof. revert i. induction s as [|c s IH]; intros i; cbn [Index]; destruct (HasPrefix _ p); try (intros [= <-]; lia).
  destruct (Index s p); [|done]. intros [= <-]. specialize (IH _ eq_refl). cbn [length]. lia. Qed.
Lemma written_eq f old t : written f old t = match f with None => (old ++ t, false) | Some k => (old ++ take k t, true) end.
Proof. done. Qed.
Lemma run_eq s path n : (length (stdin s) + 1 < n)%nat -> runMain s path bench_decls n = Some (outcome s).
Proof.
  intros L. bev.
  refine (loop_lines _ _ _ _ _ n (fst (tokens (raw_lines [] (stdin s)))) ([], false) _ _ _ _ _ _ _).
  - intros p par cur so rd ls k. destruct ls; reflexivity.
  - intros p par ls l so rd k. destruct p as [lines hb]. unfold E, process_line, anyPrefix, validPrefixes.
    change (codes "goos") with goos; change (codes "goarch") with goarch; change (codes "pkg") with pkg; change (codes "cpu") with cpu; change (codes "Benchmark") with benchmark.
    cbn [existsb fst snd].
    destruct (HasPrefix l goos), (HasPrefix l goarch), (HasPrefix l pkg), (HasPrefix l cpu), (HasPrefix l benchmark), hb; reflexivity.
  - pose proof (tokens_len (raw_lines [] (stdin s))). pose proof (raw_lines_len [] (stdin s)). lia.
  - intros cur'. unfold E. cbn beta iota zeta. bev.
    match goal with |- context [Index (readme s) ?p] => change p with startSentinel end.
    unfold outcome, main. pose proof (tokens_Scan (stdin s)) as T. destruct (Scan (stdin s)) as [ls|] eqn:SC.
    2: { rewrite T. cbn [orb]. destruct (stdin_fails s || open_fails s || read_fails s); reflexivity. }
    rewrite T. cbn [orb].
    destruct (stdin_fails s); [reflexivity|]. destruct (open_fails s); [reflexivity|]. destruct (read_fails s); [reflexivity|]. cbn [orb].
    destruct (Index (readme s) startSentinel) as [i|] eqn:I1; [|reflexivity].
    rewrite (proj2 (Z.ltb_ge (Z.of_nat i) 0)) by lia. rewrite slice_to by exact (Index_len _ _ _ I1).
    bev. change (if if 0 <=? 10 then 10 <? 256 else false then ?x else ?y) with x. cbn beta iota zeta.
    match goal with |- context [Index (readme s) ?p] => change p with endSentinel end.
    destruct (Index (readme s) endSentinel) as [j|] eqn:I2; [|rewrite slice_before; reflexivity].
    rewrite slice_from by exact (Index_len _ _ _ I2). bev.
    change (codes "
") with [nl]. change 10 with nl.
    assert (F : forall a b c d : text, ((((([] ++ a) ++ b) ++ c) ++ [nl]) ++ d) = a ++ b ++ c ++ [nl] ++ d) by (intros; rewrite <- !app_assoc; reflexivity).
    rewrite !F. unfold process, written.
    destruct (flag_w s), (create_fails s), (write_fails s), (stdout_fails s); reflexivity.
Qed.

(** ** C55 *)
(** Run with enough rounds for its loops, the program ends with [h], the standard output
    [so] and the README [rd]. *)
Definition ends (s : system) (h : how) (so rd : text) : Prop :=
  forall path, exists n0, forall n, (n0 <= n)%nat -> execute bench_go path n s = Some (h, so, rd).
Lemma ends_outcome s : ends s (outcome s).1.1 (outcome s).1.2 (outcome s).2.
Proof.
  intros path. exists (length (stdin s) + 2)%nat. intros n L. unfold execute. destruct parse_bench as (f & -> & ->).
  rewrite run_eq by lia. by destruct (outcome s) as [[h so] rd].
Qed.
Lemma ends_det s h so rd h' so' rd' : ends s h so rd -> ends s h' so' rd' -> h = h' /\ so = so' /\ rd = rd'.
Proof. intros A B. destruct (A []) as [n An], (B []) as [m Bm]. specialize (An (n + m)%nat ltac:(lia)). specialize (Bm (n + m)%nat ltac:(lia)). rewrite An in Bm. injection Bm as -> -> ->. split; [reflexivity|split; reflexivity]. Qed.
Lemma ends_iff s h so rd : ends s h so rd <-> outcome s = (h, so, rd).
Proof.
  pose proof (ends_outcome s) as O. split.
  - intros A. destruct (ends_det _ _ _ _ _ _ _ A O) as (-> & -> & ->). by destruct (outcome s) as [[a b] c].
  - intros A. rewrite A in O. exact O.
Qed.
Definition no_failure (s : system) : Prop :=
  stdin_fails s = false /\ open_fails s = false /\ read_fails s = false /\ create_fails s = false /\ write_fails s = None /\ stdout_fails s = None.

(** Executing the text gives what the model of C47 says. *)
Theorem C55_text_is_model : forall s, no_failure s ->
  match main (flag_w s) (stdin s) (readme s) with
  | Fatal => ends s LogFatal [] (readme s)
  | Crash => ends s Panicked [] (readme s)
  | Done so rd => ends s Returned so rd
  end.
Proof.
  intros s (H1 & H2 & H3 & H4 & H5 & H6). pose proof (ends_outcome s) as O. unfold outcome in O. rewrite H1, H2, H3, H4, H5, H6 in O. cbn [orb] in O.
  unfold main in *. destruct (Scan _); [|exact O]. destruct (Index _ startSentinel); [|exact O]. destruct (Index _ endSentinel); [|exact O].
  destruct (flag_w s); exact O.
Qed.
(** Whatever fails, the program comes to an end, in one way. *)
Theorem C55_one_ending : forall s, exists h so rd, ends s h so rd /\ forall h' so' rd', ends s h' so' rd' -> h' = h /\ so' = so /\ rd' = rd.
Proof. intros s. eexists _, _, _. split; [apply ends_outcome|]. intros h' so' rd' A. exact (ends_det _ _ _ _ _ _ _ A (ends_outcome s)). Qed.
(** Without -w the README stays as it is, whatever fails. *)
Theorem C55_dry_run : forall s h so rd, flag_w s = false -> ends s h so rd -> rd = readme s.
Proof.
  intros s h so rd W A. apply ends_iff in A. unfold outcome in A. rewrite W in A.
  destruct (_ || _); [by simplify_eq|]. destruct (main _ _ _); [by simplify_eq..|]. destruct (stdout_fails s); by simplify_eq.
Qed.
(** If input, opening, reading or creating the file fails, the run ends with log.Fatalf or
    a panic and changes nothing. *)
Theorem C55_early_failure : forall s h so rd, ends s h so rd ->
  stdin_fails s = true \/ open_fails s = true \/ read_fails s = true \/ (flag_w s = true /\ create_fails s = true) ->
  h <> Returned /\ so = [] /\ rd = readme s.
Proof.
  intros s h so rd A F. apply ends_iff in A. unfold outcome in A.
  destruct (stdin_fails s || open_fails s || read_fails s) eqn:O; [by simplify_eq|].
  apply orb_false_iff in O as [O O3]. apply orb_false_iff in O as [O1 O2]. destruct F as [F|[F|[F|[F1 F2]]]]; [congruence..|]. rewrite F1, F2 in A.
  destruct (main _ _ _); by simplify_eq.
Qed.
(** A run that returns has written everything: the README with the block replaced. *)
Theorem C55_success : forall s h so rd ls out pre old post, ends s h so rd -> Forall plain_line ls -> report_of ls out -> placed pre old post ->
  stdin s = as_text ls -> readme s = doc pre old post ->
  let updated := doc pre (Join out [nl] ++ [nl]) post in
  (h = Returned -> (so, rd) = if flag_w s then ([], updated) else (updated, readme s)) /\
  (no_failure s -> h = Returned).
Proof.
  intros s h so rd ls out pre old post A Hl Ho Hp E1 E2 updated. apply ends_iff in A. unfold outcome in A. rewrite E1 in A.
  pose proof (C47_update true ls out pre old post Hl Ho Hp) as U. cbv zeta in U. rewrite E2 in A |- *. rewrite U in A. fold updated in A. split.
  - intros ->. destruct (_ || _); [done|]. destruct (flag_w s).
    + destruct (create_fails s); [done|]. destruct (write_fails s); by simplify_eq.
    + destruct (stdout_fails s); by simplify_eq.
  - intros (H1 & H2 & H3 & H4 & H5 & H6). rewrite H1, H2, H3, H4, H5, H6 in A. cbn [orb] in A. destruct (flag_w s); by simplify_eq.
Qed.
(** With -w the README is the old one or a beginning of the new one. *)
Theorem C55_old_or_cut : forall s h so rd ls out pre old post, ends s h so rd -> Forall plain_line ls -> report_of ls out -> placed pre old post ->
  stdin s = as_text ls -> readme s = doc pre old post -> flag_w s = true ->
  rd = readme s \/ exists k, write_fails s = k /\ rd = match k with None => doc pre (Join out [nl] ++ [nl]) post | Some k => take k (doc pre (Join out [nl] ++ [nl]) post) end.
Proof.
  intros s h so rd ls out pre old post A Hl Ho Hp E1 E2 W. apply ends_iff in A. unfold outcome in A. rewrite E1, W in A.
  pose proof (C47_update true ls out pre old post Hl Ho Hp) as U. cbv zeta in U. rewrite E2 in A |- *. rewrite U in A.
  destruct (_ || _); [left; by simplify_eq|]. destruct (create_fails s); [left; by simplify_eq|]. right. exists (write_fails s). split; [done|].
  destruct (write_fails s); by simplify_eq.
Qed.
(** A failed run does not always leave the README as it was: os.Create empties it before
    the new text is written. *)
Definition ex_full_disk : system := System (as_text ex_lines) false (doc ex_pre ex_old ex_post) false false false (Some 0%nat) None true.
Theorem C55_failure_keeps_readme_refuted : ~ forall s h so rd, ends s h so rd -> h <> Returned -> rd = readme s.
Proof.
  intros H. specialize (H ex_full_disk LogFatal [] []). assert (X : [] = readme ex_full_disk); [|by vm_compute in X].
  apply H; [|done]. apply ends_iff. by vm_compute.
Qed.

(** ** Concrete cases *)
Definition ex_system (w : bool) : system := System (as_text ex_lines) false (doc ex_pre ex_old ex_post) false false false None None w.
Definition ex_new : text := doc ex_pre (as_text ex_report) ex_post.
Example C55_case : no_failure (ex_system true) /\ execute bench_go [] 100 (ex_system true) = Some (Returned, [], ex_new) /\
  execute bench_go [] 100 (ex_system false) = Some (Returned, ex_new, readme (ex_system false)).
Proof. split; [done|]. by vm_compute. Qed.
Example C55_success_case : Forall plain_line ex_lines /\ report_of ex_lines ex_report /\ placed ex_pre ex_old ex_post /\
  stdin (ex_system true) = as_text ex_lines /\ readme (ex_system true) = doc ex_pre ex_old ex_post.
Proof. destruct C47_case as (A & B & C & _). done. Qed.
Example C55_full_disk_case : execute bench_go [] 100 ex_full_disk = Some (LogFatal, [], []).
Proof. by vm_compute. Qed.
Example C55_early_failure_case : execute bench_go [] 100 (System [] false startSentinel false false true None None true) = Some (Panicked, [], startSentinel).
Proof. by vm_compute. Qed.
