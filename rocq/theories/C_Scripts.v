(** * Theorems: the shell scripts and the Makefile of the repository (C60)

    tools/generate_and_check.sh (run by .github/workflows on every push) and
    tools/update_bench.sh are executed as text by ShellInterp.v. *)
From Coq Require Import ZArith String Ascii.
From stdpp Require Import prelude list strings gmap fin_maps countable.
From Verif Require Import ShellText ShellInterp SourceText BenchTool BenchInterp C_Bench C_BenchText C_Gen.
Local Open Scope string_scope.
Local Open Scope list_scope.
Local Open Scope Z_scope.

(** ** What the scripts are *)
Definition w (s : string) : word := [Lit s].
Lemma parse_check : parse_sh check_sh = Some [
  Pipe [[w "set"; w "-e"]];
  Assign "BEFORE_DIFF" [[w "git"; w "diff"]; [w "sha1sum"]];
  Assign "BEFORE_STATUS" [[w "git"; w "status"; w "--porcelain"]; [w "sha1sum"]];
  Pipe [[w "make"; w "generate"]];
  Assign "AFTER_DIFF" [[w "git"; w "diff"]; [w "sha1sum"]];
  Assign "AFTER_STATUS" [[w "git"; w "status"; w "--porcelain"]; [w "sha1sum"]];
  If [([Var "BEFORE_DIFF"], [Var "AFTER_DIFF"]); ([Var "BEFORE_STATUS"], [Var "AFTER_STATUS"])]
     [Pipe [[w "echo"; [Quo "Unstable generate. Make sure to generate and check in changed files."]]]; Pipe [[w "exit"; w "1"]]]].
Proof. vm_compute. reflexivity. Qed.
Lemma parse_bench_sh : parse_sh bench_sh = Some [
  Pipe [[w "set"; w "-e"]];
  Assign "TMP_FILE" [[w "mktemp"]];
  Pipe [[w "go"; w "test"; w "-bench"; w "."; w "./pkg/..."]; [w "tee"; [Var "TMP_FILE"]]];
  Pipe [[w "cat"; [Var "TMP_FILE"]]; [w "go"; w "run"; [Var "SBYTE_HOME"; Lit "/tools/parse_and_write_bench.go"]; w "-w"]];
  Pipe [[w "rm"; [Var "TMP_FILE"]]]].
Proof. vm_compute. reflexivity. Qed.

(** ** tools/generate_and_check.sh, for all commands *)
Section Check.
Context {W : Type} (exe : list string -> string -> W -> string * Z * W).
(** What "x | sha1sum" prints, its status and the world then *)
Definition hashed (x : list string) (s : W) : string * Z * W :=
  let '(o, _, s) := exe x "" s in exe ["sha1sum"] o s.
(** The five pipelines in a row: the worlds between them *)
Definition gitDiff := ["git"; "diff"].
Definition gitStatus := ["git"; "status"; "--porcelain"].
Definition at1 (s : W) : W := (hashed gitDiff s).2.
Definition at2 (s : W) : W := (hashed gitStatus (at1 s)).2.
Definition at3 (s : W) : W := (exe ["make"; "generate"] "" (at2 s)).2.
Definition at4 (s : W) : W := (hashed gitDiff (at3 s)).2.
Definition at5 (s : W) : W := (hashed gitStatus (at4 s)).2.
(** Texts that are the same word after $( ): no NUL, no pattern, equal but for newlines *)
Definition readable (h : string) : Prop := hasNul h = false /\ patternFree (stripped h) = true.
Definition hash0 (s : W) := (hashed gitDiff s).1.1.
Definition hash1 (s : W) := (hashed gitStatus (at1 s)).1.1.
Definition hash3 (s : W) := (hashed gitDiff (at3 s)).1.1.
Definition hash4 (s : W) := (hashed gitStatus (at4 s)).1.1.
Definition statuses (s : W) : list Z :=
  [(hashed gitDiff s).1.2; (hashed gitStatus (at1 s)).1.2; (exe ["make"; "generate"] "" (at2 s)).1.2; (hashed gitDiff (at3 s)).1.2; (hashed gitStatus (at4 s)).1.2].

Lemma hashed_eq x s : hashed x s = exe ["sha1sum"] (exe x "" s).1.1 (exe x "" s).2.
Proof. unfold hashed. by destruct (exe x "" s) as [[a b] c]. Qed.

(** sha1sum prints readable texts. *)
Definition sums_readable : Prop := forall o s, readable (exe ["sha1sum"] o s).1.1.
Definition stable (s : W) : Prop := stripped (hash0 s) = stripped (hash3 s) /\ stripped (hash1 s) = stripped (hash4 s).
Lemma pipe_hash v a l o0 s : existsb (String.eqb a) builtins = false -> expands v (map w (a :: l)) = Some (a :: l) ->
  o0 = "" -> pipeline exe v [map w (a :: l); [w "sha1sum"]] o0 s = Some (hashed (a :: l) s).
Proof.
  intros B E ->. cbn [pipeline]. unfold external at 1. rewrite E, B. unfold hashed.
  destruct (exe (a :: l) "" s) as [[o n] s']. reflexivity.
Qed.
Lemma run_hash x (v : vars) out a l s : sums_readable -> existsb (String.eqb a) builtins = false -> expands v (map w (a :: l)) = Some (a :: l) ->
  exec exe (Assign x [map w (a :: l); [w "sha1sum"]]) (State v true out s) =
  Some (checked (hashed (a :: l) s).1.2 (State ((x, stripped (hashed (a :: l) s).1.1) :: v) true out (hashed (a :: l) s).2)).
Proof.
  intros R B E. cbn [exec s_vars s_world s_e s_out]. rewrite pipe_hash by done.
  assert (N : hasNul (hashed (a :: l) s).1.1 = false) by (rewrite hashed_eq; apply R).
  destruct (hashed (a :: l) s) as [[o n] s']. cbn [fst snd] in N |- *. by rewrite N.
Qed.
Lemma checked_eq n (s : state (W:=W)) : s_e s = true -> checked n s = if n =? 0 then Next n s else Exits n s.
Proof. intros E. unfold checked. rewrite E. by destruct (n =? 0). Qed.
End Check.

Lemma app_empty (a : string) : (a ++ "")%string = a.
Proof. induction a as [|c a IH]; [done|]. exact (f_equal (String c) IH). Qed.
Lemma nonzero (n : Z) (l : list Z) : n <> 0 -> n ∈ l -> ~ Forall (eq 0) l.
Proof. intros N I F. apply N. symmetry. apply (proj1 (List.Forall_forall _ _) F), elem_of_list_In, I. Qed.

(** Executed as text, the script ends; it ends with status 0 exactly when the four sums and
    "make generate" succeed and the sums after it are those before.  Whether git itself
    succeeds does not matter. *)
Theorem C60_check : forall W exe env (s : W), sums_readable exe ->
  exists out r s', interpret exe check_sh env s = Some (out, r, s') /\
    (r = 0 <-> Forall (eq 0) (statuses exe s) /\ stable exe s) /\
    (Forall (eq 0) (statuses exe s) -> s' = at5 exe s /\ (r = 0 \/ r = 1)) /\
    (forall n, take 3 (statuses exe s) = [0; 0; n] -> n <> 0 -> s' = at3 exe s /\ r = n).
Proof.
  intros W exe env s R. unfold interpret. rewrite parse_check.
  assert (C : forall c cs n (s : state), execs exe (c :: cs) n s = match exec exe c s with Some (Next n s') => execs exe cs n s' | r => r end) by done.
  rewrite C. change (exec exe (Pipe [[w "set"; w "-e"]]) (State env false "" s)) with (Some (Next 0 (State env true "" s))). cbn match.
  assert (H : forall g, g = gitDiff \/ g = gitStatus -> forall x v out s, exec exe (Assign x [map w g; [w "sha1sum"]]) (State v true out s) =
    Some (checked (hashed exe g s).1.2 (State ((x, stripped (hashed exe g s).1.1) :: v) true out (hashed exe g s).2))).
  { intros g [-> | ->] x v out s0; by apply run_hash. }
  assert (H1 := H gitDiff (or_introl eq_refl)). assert (H2 := H gitStatus (or_intror eq_refl)). clear H.
  rewrite C. change [w "git"; w "diff"] with (map w gitDiff). change [w "git"; w "status"; w "--porcelain"] with (map w gitStatus).
  rewrite H1, checked_eq by done. fold (hash0 exe s). fold (at1 exe s). cbn [Z.eqb].
  destruct (Z.eqb_spec (hashed exe gitDiff s).1.2 0) as [E1|E1]; cycle 1.
  { assert (NF : ~ Forall (eq 0) (statuses exe s)) by (apply (nonzero _ _ E1); unfold statuses; rewrite !elem_of_cons; tauto).
    cbn match. eexists _, _, _. split; [reflexivity|]. split; [split; [done|intros [F _]; done] |]. split; [done|]. unfold statuses. cbn [take]. intros n [=]; subst; split; first [reflexivity | congruence]. }
  rewrite C, H2, checked_eq by done. fold (hash1 exe s). fold (at2 exe s).
  destruct (Z.eqb_spec (hashed exe gitStatus (at1 exe s)).1.2 0) as [E2|E2]; cycle 1.
  { assert (NF : ~ Forall (eq 0) (statuses exe s)) by (apply (nonzero _ _ E2); unfold statuses; rewrite !elem_of_cons; tauto).
    cbn match. eexists _, _, _. split; [reflexivity|]. split; [split; [done|intros [F _]; done] |]. split; [done|]. unfold statuses. cbn [take]. intros n [=]; subst; split; first [reflexivity | congruence]. }
  rewrite C.
  assert (M : forall v out s, exec exe (Pipe [[w "make"; w "generate"]]) (State v true out s) =
    Some (checked (exe ["make"; "generate"] "" s).1.2 (State v true (out ++ (exe ["make"; "generate"] "" s).1.1)%string (exe ["make"; "generate"] "" s).2))).
  { intros v out s0. cbn [exec w]. change (existsb (String.eqb "make") builtins) with false. cbn match. cbn [pipeline s_vars s_world s_e s_out].
    change (external exe v [w "make"; w "generate"] "" s0) with (Some (exe ["make"; "generate"] "" s0)). destruct (exe ["make"; "generate"] "" s0) as [[o n] s1]. cbn [fst snd]. reflexivity. }
  rewrite M, checked_eq by done. fold (at3 exe s). set (o := (exe ["make"; "generate"] "" (at2 exe s)).1.1).
  destruct (Z.eqb_spec (exe ["make"; "generate"] "" (at2 exe s)).1.2 0) as [E3|E3]; cycle 1.
  { assert (NF : ~ Forall (eq 0) (statuses exe s)) by (apply (nonzero _ _ E3); unfold statuses; rewrite !elem_of_cons; tauto).
    cbn match. eexists _, _, _. split; [reflexivity|]. split; [split; [done|intros [F _]; done] |]. split; [done|]. unfold statuses. cbn [take]. intros n [=]; subst; split; first [reflexivity | congruence]. }
  rewrite C, H1, checked_eq by done. fold (hash3 exe s). fold (at4 exe s).
  destruct (Z.eqb_spec (hashed exe gitDiff (at3 exe s)).1.2 0) as [E4|E4]; cycle 1.
  { assert (NF : ~ Forall (eq 0) (statuses exe s)) by (apply (nonzero _ _ E4); unfold statuses; rewrite !elem_of_cons; tauto).
    cbn match. eexists _, _, _. split; [reflexivity|]. split; [split; [done|intros [F _]; done] |]. split; [done|]. unfold statuses. cbn [take]. intros n [=]; subst; split; first [reflexivity | congruence]. }
  rewrite C, H2, checked_eq by done. fold (hash4 exe s). fold (at5 exe s).
  destruct (Z.eqb_spec (hashed exe gitStatus (at4 exe s)).1.2 0) as [E5|E5]; cycle 1.
  { assert (NF : ~ Forall (eq 0) (statuses exe s)) by (apply (nonzero _ _ E5); unfold statuses; rewrite !elem_of_cons; tauto).
    cbn match. eexists _, _, _. split; [reflexivity|]. split; [split; [done|intros [F _]; done] |]. split; [done|]. unfold statuses. cbn [take]. intros n [=]; subst; split; first [reflexivity | congruence]. }
  clear H1 H2 M. rewrite C.
  assert (F : Forall (eq 0) (statuses exe s)) by (unfold statuses; rewrite E1, E2, E3, E4, E5; repeat (apply List.Forall_cons; [done|]); by apply List.Forall_nil).
  set (st := State _ true _ (at5 exe s)).
  assert (X : exec exe (If [([Var "BEFORE_DIFF"], [Var "AFTER_DIFF"]); ([Var "BEFORE_STATUS"], [Var "AFTER_STATUS"])]
     [Pipe [[w "echo"; [Quo "Unstable generate. Make sure to generate and check in changed files."]]]; Pipe [[w "exit"; w "1"]]]) st =
     match compare (s_vars st) [([Var "BEFORE_DIFF"], [Var "AFTER_DIFF"]); ([Var "BEFORE_STATUS"], [Var "AFTER_STATUS"])] with
     | Some true => Some (Exits 1 (State (s_vars st) true (s_out st ++ "Unstable generate. Make sure to generate and check in changed files." ++ String newline "")%string (at5 exe s)))
     | Some false => Some (Next 0 st)
     | None => None
     end).
  { cbn [exec]. destruct (compare _ _) as [[|]|]; reflexivity. }
  rewrite X. clear X.
  assert (V : forall x, whole (s_vars st) [Var x] = valueOf (s_vars st) x).
  { intros x. unfold whole. cbn [fold_right partText]. apply app_empty. }
  cbn [compare]. rewrite !V.
  change (valueOf (s_vars st) "BEFORE_DIFF") with (stripped (hash0 exe s)). change (valueOf (s_vars st) "AFTER_DIFF") with (stripped (hash3 exe s)).
  change (valueOf (s_vars st) "BEFORE_STATUS") with (stripped (hash1 exe s)). change (valueOf (s_vars st) "AFTER_STATUS") with (stripped (hash4 exe s)).
  assert (P3 : patternFree (stripped (hash3 exe s)) = true) by (unfold hash3; rewrite hashed_eq; apply R).
  assert (P4 : patternFree (stripped (hash4 exe s)) = true) by (unfold hash4; rewrite hashed_eq; apply R).
  rewrite P3, P4. unfold stable.
  destruct (String.eqb_spec (stripped (hash0 exe s)) (stripped (hash3 exe s))) as [Q1|Q1]; cbn [negb].
  - destruct (String.eqb_spec (stripped (hash1 exe s)) (stripped (hash4 exe s))) as [Q2|Q2]; cbn [negb].
    + cbn [execs]. eexists _, _, _. split; [reflexivity|]. split; [done|]. split; [intros _; split; [reflexivity|by left]|]. unfold statuses. cbn [take]. intros n [=]. congruence.
    + eexists _, _, _. split; [reflexivity|]. split; [split; [done|intros (_ & _ & ?); done]|]. split; [intros _; split; [reflexivity|by right]|]. unfold statuses. cbn [take]. intros n [=]. congruence.
  - eexists _, _, _. split; [reflexivity|]. split; [split; [done|intros (_ & ? & _); done]|]. split; [intros _; split; [reflexivity|by right]|]. unfold statuses. cbn [take]. intros n [=]. congruence.
Qed.

(** ** tools/generate_and_check.sh in a git repository *)
Record repo := Repo {
  index : gmap string string;          (* the tracked files, as staged *)
  files : gmap string string;          (* the files of the working tree *)
  ignored : string -> bool;            (* .gitignore *)
  inside : bool                        (* the directory belongs to a git repository *)
}.
Definition tracked (r : repo) (p : string) : Prop := is_Some (index r !! p).
(** A tracked file is as staged, changed, or deleted. *)
Inductive letter := AsStaged | Modified | Deleted.
Definition letterOf (r : repo) (p : string) : letter :=
  match files r !! p with
  | None => Deleted
  | Some c => if decide (index r !! p = Some c) then AsStaged else Modified
  end.
(** How an untracked file is listed: by the shortest directory without tracked files that
    it is in, if there is one, and by its path otherwise *)
Fixpoint listing (tr : list string) (before rest : string) : string :=
  match rest with
  | EmptyString => before
  | String c rest' =>
      let here := (before ++ String c "")%string in
      if Ascii.eqb c "/" && negb (existsb (String.prefix here) tr) then here else listing tr here rest'
  end.
Definition listed (r : repo) (e : string) : Prop :=
  exists p, is_Some (files r !! p) /\ index r !! p = None /\ ignored r p = false /\ listing (map fst (map_to_list (index r))) "" p = e.
(** What the commands print.  git diff prints what is needed to get the tracked files from
    the staged ones; git status --porcelain prints the letters of the tracked files and the
    list of the untracked ones; sha1sum prints a number in hexadecimal, "  -" and a newline. *)
Record commands := Commands { diff : repo -> string; porcelain : repo -> string; hex : string -> string }.
Definition hexdigit (c : ascii) : bool := within 48 57 c || within 97 102 c.
Definition sound (g : commands) : Prop :=
  (forall r r', index r = index r' -> (diff g r = diff g r' <-> forall p, tracked r p -> files r !! p = files r' !! p)) /\
  (forall r r', index r = index r' -> ignored r = ignored r' ->
     (porcelain g r = porcelain g r' <-> (forall p, tracked r p -> letterOf r p = letterOf r' p) /\ forall e, listed r e <-> listed r' e)) /\
  (forall x, forallb hexdigit (list_ascii_of_string (hex g x)) = true).
Definition sha1sum (g : commands) (x : string) : string := (hex g x ++ "  -" ++ String newline "")%string.
(** [mk] is "make generate". *)
Definition inRepo (g : commands) (mk : repo -> string * Z * repo) (args : list string) (stdin : string) (r : repo) : string * Z * repo :=
  if decide (args = gitDiff) then if inside r then (diff g r, 0, r) else ("", 129, r)
  else if decide (args = gitStatus) then if inside r then (porcelain g r, 0, r) else ("", 128, r)
  else if decide (args = ["sha1sum"]) then (sha1sum g stdin, 0, r)
  else if decide (args = ["make"; "generate"]) then mk r
  else ("", 127, r).
(** make does not touch what git keeps, nor the rules of what is ignored. *)
Definition keeps (mk : repo -> string * Z * repo) (r : repo) : Prop :=
  index (mk r).2 = index r /\ ignored (mk r).2 = ignored r /\ inside (mk r).2 = inside r.
(** The sums of the texts at hand do not collide. *)
Definition apart (g : commands) (r r' : repo) : Prop :=
  (hex g (diff g r) = hex g (diff g r') -> diff g r = diff g r') /\
  (hex g (porcelain g r) = hex g (porcelain g r') -> porcelain g r = porcelain g r').

Lemma las_app a b : list_ascii_of_string (a ++ b)%string = list_ascii_of_string a ++ list_ascii_of_string b.
Proof. induction a as [|c a IH]; [done|]. exact (f_equal (cons c) IH). Qed.
Lemma str_las s : str (list_ascii_of_string s) = s.
Proof. apply string_of_list_ascii_of_string. Qed.
Lemma stripped_sum g x : stripped (sha1sum g x) = (hex g x ++ "  -")%string.
Proof.
  unfold stripped, sha1sum. rewrite !las_app, !rev_app_distr.
  change (dropNl _) with (rev (list_ascii_of_string "  -") ++ rev (list_ascii_of_string (hex g x))).
  rewrite <- rev_app_distr, rev_involutive, <- las_app. apply str_las.
Qed.
Lemma app_inj (a b c : string) : (a ++ c = b ++ c)%string -> a = b.
Proof.
  intros E. apply (f_equal list_ascii_of_string) in E. rewrite !las_app in E. apply app_inj_2 in E as [E _]; [|done].
  rewrite <- (string_of_list_ascii_of_string a), <- (string_of_list_ascii_of_string b). by rewrite E.
Qed.
Lemma hex_not p l : forallb hexdigit l = true -> (forall c, p c = true -> hexdigit c = false) -> existsb p l = false.
Proof.
  intros F N. induction l as [|c l IH]; [done|]. cbn in *. apply andb_true_iff in F as [F1 F2]. rewrite IH by done.
  destruct (p c) eqn:E; [|done]. apply N in E. congruence.
Qed.
Lemma inRepo_readable g mk : sound g -> sums_readable (inRepo g mk).
Proof.
  intros (_ & _ & H) o s. change ((inRepo g mk ["sha1sum"] o s).1.1) with (sha1sum g o). unfold readable. rewrite stripped_sum.
  unfold sha1sum, hasNul, patternFree. rewrite !las_app, !existsb_app. split.
  - rewrite (hex_not _ _ (H o)); [done|]. intros c E. apply Ascii.eqb_eq in E. by subst.
  - rewrite (hex_not _ _ (H o)); [done|]. intros c E. unfold special, oneof in E. cbn in E.
    repeat (apply orb_true_iff in E as [E|E]; [apply Ascii.eqb_eq in E; by subst|]). done.
Qed.

(** In a repository the check passes exactly when "make generate" succeeds, leaves every
    tracked file as it was, and neither adds nor removes an untracked file that git lists. *)
Theorem C60_detects : forall g mk r env, sound g -> inside r = true -> keeps mk r -> apart g r (mk r).2 ->
  exists out code, interpret (inRepo g mk) check_sh env r = Some (out, code, (mk r).2) /\
    (code = 0 <-> (mk r).1.2 = 0 /\ (forall p, tracked r p -> files (mk r).2 !! p = files r !! p) /\ forall e, listed (mk r).2 e <-> listed r e).
Proof.
  intros g mk r env Sg I (K1 & K2 & K3) (A1 & A2).
  destruct (C60_check _ (inRepo g mk) env r (inRepo_readable g mk Sg)) as (out & code & s' & E & C1 & C2 & C3).
  pose proof (Sg) as (D & P & _).
  assert (X1 : forall r, inside r = true -> hashed (inRepo g mk) gitDiff r = (sha1sum g (diff g r), 0, r)).
  { intros r0 I0. rewrite hashed_eq. unfold inRepo at 2 3. cbn [decide]. rewrite decide_True by done. by rewrite I0. }
  assert (X2 : forall r, inside r = true -> hashed (inRepo g mk) gitStatus r = (sha1sum g (porcelain g r), 0, r)).
  { intros r0 I0. rewrite hashed_eq. unfold inRepo at 2 3. rewrite decide_False by done. rewrite decide_True by done. by rewrite I0. }
  assert (X3 : inRepo g mk ["make"; "generate"] "" r = mk r).
  { unfold inRepo. do 3 rewrite decide_False by done. by rewrite decide_True by done. }
  assert (S1 : at1 (inRepo g mk) r = r) by (unfold at1; by rewrite X1).
  assert (S2 : at2 (inRepo g mk) r = r) by (unfold at2; by rewrite S1, X2).
  assert (S3 : at3 (inRepo g mk) r = (mk r).2) by (unfold at3; by rewrite S2, X3).
  assert (I' : inside (mk r).2 = true) by congruence.
  assert (S4 : at4 (inRepo g mk) r = (mk r).2) by (unfold at4; by rewrite S3, X1).
  assert (S5 : at5 (inRepo g mk) r = (mk r).2) by (unfold at5; by rewrite S4, X2).
  assert (T : statuses (inRepo g mk) r = [0; 0; (mk r).1.2; 0; 0]).
  { unfold statuses. by rewrite S1, S2, S3, S4, X3, !X1, !X2 by done. }
  assert (Q : stable (inRepo g mk) r <-> diff g r = diff g (mk r).2 /\ porcelain g r = porcelain g (mk r).2).
  { unfold stable, hash0, hash1, hash3, hash4. rewrite S1, S3, S4, !X1, !X2 by done. cbn [fst snd]. rewrite !stripped_sum. split.
    - intros [B1 B2]. apply app_inj in B1, B2. auto.
    - intros [-> ->]. split; reflexivity. }
  assert (E' : s' = (mk r).2).
  { destruct (Z.eq_dec (mk r).1.2 0) as [Z|Z].
    - destruct C2 as [-> _]; [|done]. rewrite T, Z. repeat (apply List.Forall_cons; [done|]). by apply List.Forall_nil.
    - destruct (C3 (mk r).1.2) as [-> _]; [by rewrite T|done|done]. }
  subst s'. exists out, code. split; [exact E|]. rewrite C1, Q, T. split.
  - intros (F & B1 & B2). pose proof (proj1 (D _ _ (eq_sym K1)) B1) as B1'. destruct (proj1 (P _ _ (eq_sym K1) (eq_sym K2)) B2) as [_ B2']. split; [|split].
    + symmetry. apply (proj1 (List.Forall_forall _ _) F). cbn. tauto.
    + intros p Hp. symmetry. by apply B1'.
    + intros e. symmetry. apply B2'.
  - intros (Z & B1 & B2). split; [|split].
    + rewrite Z. repeat (apply List.Forall_cons; [done|]). by apply List.Forall_nil.
    + apply (proj2 (D _ _ (eq_sym K1))). intros p Hp. symmetry. by apply B1.
    + apply (proj2 (P _ _ (eq_sym K1) (eq_sym K2))). split.
      * intros p Hp. unfold letterOf. by rewrite K1, (B1 p Hp).
      * intros e. symmetry. apply B2.
Qed.
(** Where there is no repository, git fails, and the check passes whatever
    "make generate" changes. *)
Theorem C60_outside : forall g mk r env, sound g -> inside r = false -> keeps mk r ->
  exists out code, interpret (inRepo g mk) check_sh env r = Some (out, code, (mk r).2) /\ (code = 0 <-> (mk r).1.2 = 0).
Proof.
  intros g mk r env Sg I (K1 & K2 & K3).
  destruct (C60_check _ (inRepo g mk) env r (inRepo_readable g mk Sg)) as (out & code & s' & E & C1 & C2 & C3).
  assert (X1 : forall r, inside r = false -> hashed (inRepo g mk) gitDiff r = (sha1sum g "", 0, r)).
  { intros r0 I0. rewrite hashed_eq. unfold inRepo at 2 3. cbn [decide]. rewrite decide_True by done. by rewrite I0. }
  assert (X2 : forall r, inside r = false -> hashed (inRepo g mk) gitStatus r = (sha1sum g "", 0, r)).
  { intros r0 I0. rewrite hashed_eq. unfold inRepo at 2 3. rewrite decide_False by done. rewrite decide_True by done. by rewrite I0. }
  assert (X3 : inRepo g mk ["make"; "generate"] "" r = mk r).
  { unfold inRepo. do 3 rewrite decide_False by done. by rewrite decide_True by done. }
  assert (S1 : at1 (inRepo g mk) r = r) by (unfold at1; by rewrite X1).
  assert (S2 : at2 (inRepo g mk) r = r) by (unfold at2; by rewrite S1, X2).
  assert (S3 : at3 (inRepo g mk) r = (mk r).2) by (unfold at3; by rewrite S2, X3).
  assert (I' : inside (mk r).2 = false) by congruence.
  assert (S4 : at4 (inRepo g mk) r = (mk r).2) by (unfold at4; by rewrite S3, X1).
  assert (S5 : at5 (inRepo g mk) r = (mk r).2) by (unfold at5; by rewrite S4, X2).
  assert (T : statuses (inRepo g mk) r = [0; 0; (mk r).1.2; 0; 0]).
  { unfold statuses. by rewrite S1, S2, S3, S4, X3, !X1, !X2 by done. }
  assert (Q : stable (inRepo g mk) r).
  { unfold stable, hash0, hash1, hash3, hash4. rewrite S1, S3, S4, !X1, !X2 by done. split; reflexivity. }
  destruct (Z.eq_dec (mk r).1.2 0) as [Z|Z].
  - assert (F : Forall (eq 0) (statuses (inRepo g mk) r)). { rewrite T, Z. repeat (apply List.Forall_cons; [done|]). by apply List.Forall_nil. }
    destruct (C2 F) as [-> _]. rewrite S5 in E. exists out, code. split; [exact E|]. split; [done|]. intros _. exact (proj2 C1 (conj F Q)).
  - destruct (C3 (mk r).1.2) as [-> ->]; [by rewrite T|done|]. rewrite S3 in E. exists out, (mk r).1.2. split; [exact E|]. done.
Qed.

(** *** Commands that print such texts *)
Fixpoint bits (p : positive) : string :=
  match p with xH => "" | xO p => String "0" (bits p) | xI p => String "1" (bits p) end.
Lemma bits_inj p q : bits p = bits q -> p = q.
Proof. revert q. induction p; intros [q|q|] E; try discriminate E; [..|done]; injection E as E; f_equal; auto. Qed.
Lemma bits_hex p : forallb hexdigit (list_ascii_of_string (bits p)) = true.
Proof. induction p as [p IH|p IH|]; cbn; [exact IH..|done]. Qed.
Definition changes (r : repo) : gmap string (option string) :=
  map_imap (fun p c => if decide (files r !! p = Some c) then None else Some (files r !! p)) (index r).
Definition letters (r : repo) : gmap string bool :=
  map_imap (fun p c => if decide (files r !! p = Some c) then None else Some (bool_decide (files r !! p = None))) (index r).
Definition untracked (r : repo) : gset string :=
  list_to_set (map (listing (map fst (map_to_list (index r))) "")
    (filter (fun p => index r !! p = None /\ ignored r p = false) (map fst (map_to_list (files r))))).
Definition ex_git : commands := Commands (fun r => bits (encode (changes r))) (fun r => bits (encode (letters r, untracked r))) (fun x => bits (encode x)).
Lemma untracked_listed r e : e ∈ untracked r <-> listed r e.
Proof.
  unfold untracked, listed. rewrite elem_of_list_to_set, elem_of_list_fmap. split.
  - intros (p & -> & H). apply elem_of_list_filter in H as [[H1 H2] H]. apply elem_of_list_fmap in H as ([p' c] & -> & H).
    apply elem_of_map_to_list in H. exists p'. cbn in *. eauto.
  - intros (p & [c H] & H1 & H2 & H3). exists p. split; [done|]. apply elem_of_list_filter. split; [done|].
    apply elem_of_list_fmap. exists (p, c). split; [done|]. by apply elem_of_map_to_list.
Qed.
Lemma ex_git_sound : sound ex_git.
Proof.
  split; [|split].
  - intros r r' I. cbn. split.
    + intros E p [c T]. apply bits_inj in E. apply (inj encode) in E. apply (f_equal (.!! p)) in E. unfold changes in E.
      rewrite !map_lookup_imap, <- I, T in E. cbn in E. repeat case_decide; congruence.
    + intros H. f_equal. f_equal. apply map_eq. intros p. unfold changes. rewrite !map_lookup_imap, <- I.
      destruct (index r !! p) as [c|] eqn:T; [|done]. cbn. rewrite (H p); [done|]. by exists c.
  - intros r r' I G. cbn. split.
    + intros E. apply bits_inj in E. apply (inj encode) in E. injection E as E1 E2. split.
      * intros p [c T]. apply (f_equal (.!! p)) in E1. unfold letters in E1. rewrite !map_lookup_imap, <- I, T in E1. cbn in E1. unfold letterOf. rewrite <- I, T.
        repeat case_decide; repeat case_bool_decide; destruct (files r !! p) as [d|], (files r' !! p) as [d'|]; repeat case_decide; congruence.
      * intros e. by rewrite <- !untracked_listed, E2.
    + intros [H1 H2]. f_equal. f_equal. f_equal.
      * apply map_eq. intros p. unfold letters. rewrite !map_lookup_imap, <- I. destruct (index r !! p) as [c|] eqn:T; [|done]. cbn.
        specialize (H1 p (mk_is_Some _ _ T)). unfold letterOf in H1. rewrite <- I, T in H1.
        repeat case_decide; repeat case_bool_decide; destruct (files r !! p) as [d|], (files r' !! p) as [d'|]; repeat case_decide; congruence.
      * apply set_eq. intros e. by rewrite !untracked_listed.
  - intros x. apply bits_hex.
Qed.
Lemma ex_git_apart r r' : apart ex_git r r'.
Proof. split; intros E; apply bits_inj in E; by apply (inj encode) in E. Qed.

(** A repository with a tracked, an ignored and an untracked file; the untracked one and the
    ignored one change: the check passes. *)
Definition ex_repo : repo := Repo {["pkg/a.go" := "a"]} {["pkg/a.go" := "a"; "out/x" := "1"; "bin" := "1"]} (String.eqb "bin") true.
Definition with_files (r : repo) (f : gmap string string) : repo := Repo (index r) f (ignored r) (inside r).
Definition ex_unseen (r : repo) : string * Z * repo := ("", 0, with_files r (<["out/x" := "2"]> (<["out/y" := "3"]> (<["bin" := "2"]> (files r))))).
Definition ex_stale (r : repo) : string * Z * repo := ("", 0, with_files r (<["pkg/a.go" := "b"]> (files r))).
Definition exit_code (x : option (string * Z * repo)) : option Z := match x with Some (_, n, _) => Some n | None => None end.
Example C60_cases :
  exit_code (interpret (inRepo ex_git (fun r => ("", 0, r))) check_sh [] ex_repo) = Some 0 /\
  exit_code (interpret (inRepo ex_git ex_stale) check_sh [] ex_repo) = Some 1 /\
  exit_code (interpret (inRepo ex_git (fun r => ("", 0, with_files r (<["pkg/b.go" := ""]> (files r))))) check_sh [] ex_repo) = Some 1 /\
  exit_code (interpret (inRepo ex_git ex_unseen) check_sh [] ex_repo) = Some 0 /\
  exit_code (interpret (inRepo ex_git (fun r => ("", 2, r))) check_sh [] ex_repo) = Some 2 /\
  exit_code (interpret (inRepo ex_git ex_stale) check_sh [] (Repo (index ex_repo) (files ex_repo) (ignored ex_repo) false)) = Some 0.
Proof. vm_compute. done. Qed.
(** False as one might state it: "if the check passes, no file that is not ignored was
    changed" *)
Theorem C60_sees_all_changes_refuted : ~ forall g mk r env out r', sound g -> inside r = true -> keeps mk r -> apart g r (mk r).2 ->
  interpret (inRepo g mk) check_sh env r = Some (out, 0, r') -> forall p, ignored r p = false -> files r' !! p = files r !! p.
Proof.
  intros H. assert (K : keeps ex_unseen ex_repo) by (split; [|split]; reflexivity).
  destruct (C60_detects ex_git ex_unseen ex_repo [] ex_git_sound eq_refl K (ex_git_apart _ _)) as (out & code & E & _).
  assert (C : code = 0).
  { destruct C60_cases as (_ & _ & _ & C & _). rewrite E in C. by injection C. }
  rewrite C in E. assert (G : ignored ex_repo "out/x" = false) by (vm_compute; reflexivity).
  pose proof (H ex_git ex_unseen ex_repo [] out (ex_unseen ex_repo).2 ex_git_sound eq_refl K (ex_git_apart _ _) E "out/x" G) as X.
  clear - X. vm_compute in X. discriminate X.
Qed.

(** ** make generate *)
(** Makefile: the command "go generate ./pkg/..." is run, unless there is a file of the name
    of the target. *)
Theorem C60_make : forall W exe ex (s : W), 
  make exe ex makefile "generate" s =
    if ex s "generate" then Some (("make: 'generate' is up to date." ++ String newline "")%string, 0, s)
    else let '(o, n, s') := exe ["go"; "generate"; "./pkg/..."] "" s in
         Some (("go generate ./pkg/..." ++ String newline (if (n =? 0)%Z then o ++ "" else o))%string, if n =? 0 then 0 else 2, s').
Proof.
  intros W exe ex s. unfold make.
  assert (R : exists rs, rules makefile = Some rs /\ recipe rs "generate" = Some ["go generate ./pkg/..."]) by (vm_compute; eauto).
  destruct R as (rs & -> & ->). destruct (ex s "generate"); [done|]. cbn [make_runs]. unfold interpret.
  assert (P : parse_sh ["go generate ./pkg/..."] = Some [Pipe [[w "go"; w "generate"; w "./pkg/..."]]]) by (vm_compute; reflexivity).
  rewrite P. cbn [execs exec w]. change (existsb (String.eqb "go") builtins) with false. cbn match. cbn [pipeline s_vars s_world s_e s_out].
  change (external exe [] [w "go"; w "generate"; w "./pkg/..."] "" s) with (Some (exe ["go"; "generate"; "./pkg/..."] "" s)).
  destruct (exe _ "" s) as [[o n] s']. unfold checked. cbn. destruct (n =? 0); reflexivity.
Qed.

(** "go generate ./pkg/..." that succeeds and writes the files [l] *)
Definition goGenerate (l : gmap string string) (args : list string) (stdin : string) (r : repo) : string * Z * repo :=
  if decide (args = ["go"; "generate"; "./pkg/..."]) then ("", 0, with_files r (l ∪ files r)) else ("", 127, r).
Definition makeGenerate (l : gmap string string) (r : repo) : string * Z * repo :=
  default ("", 127, r) (make (goGenerate l) (fun r p => bool_decide (is_Some (files r !! p))) makefile "generate" r).
Lemma makeGenerate_eq l r : makeGenerate l r =
  if decide (is_Some (files r !! "generate")) then (("make: 'generate' is up to date." ++ String newline "")%string, 0, r)
  else (("go generate ./pkg/..." ++ String newline "")%string, 0, with_files r (l ∪ files r)).
Proof.
  unfold makeGenerate. rewrite C60_make. case_bool_decide as D; [by rewrite decide_True|]. rewrite decide_False by done. reflexivity.
Qed.
(** If the files that go generate writes are tracked, and no file is called "generate", then
    the check passes exactly when the files are there as go generate writes them. *)
Theorem C60_generated : forall g l r env, sound g -> inside r = true -> apart g r (with_files r (l ∪ files r)) ->
  (forall p, is_Some (l !! p) -> tracked r p) -> files r !! "generate" = None ->
  exists out code, interpret (inRepo g (makeGenerate l)) check_sh env r = Some (out, code, with_files r (l ∪ files r)) /\
    (code = 0 <-> forall p t, l !! p = Some t -> files r !! p = Some t).
Proof.
  intros g l r env Sg I A T N.
  assert (M : makeGenerate l r = (("go generate ./pkg/..." ++ String newline "")%string, 0, with_files r (l ∪ files r))).
  { rewrite makeGenerate_eq, decide_False; [done|]. rewrite N. intros [x X]. done. }
  assert (K : keeps (makeGenerate l) r) by (unfold keeps; rewrite M; split; [|split]; reflexivity).
  assert (A' : apart g r (makeGenerate l r).2) by (rewrite M; exact A).
  destruct (C60_detects g (makeGenerate l) r env Sg I K A') as (out & code & E & C). rewrite M in E, C. cbn [fst snd] in E, C.
  exists out, code. split; [exact E|]. rewrite C. unfold with_files at 1. cbn [files]. split.
  - intros (_ & H & _) p t Hp. specialize (H p (T p (mk_is_Some _ _ Hp))). rewrite <- H. by apply lookup_union_Some_l.
  - intros H. split; [reflexivity|].
    assert (U : l ∪ files r = files r).
    { apply map_eq. intros p. destruct (l !! p) as [t|] eqn:Lp.
      - rewrite (lookup_union_Some_l _ _ _ _ Lp). symmetry. by apply H.
      - by rewrite lookup_union_r. }
    rewrite U. split; [done|]. intros e. unfold listed, with_files. cbn. done.
Qed.
(** With a file called "generate" nothing is generated, and the check passes. *)
Theorem C60_target_exists : forall g l r env, sound g -> inside r = true -> is_Some (files r !! "generate") ->
  exists out, interpret (inRepo g (makeGenerate l)) check_sh env r = Some (out, 0, r).
Proof.
  intros g l r env Sg I G.
  assert (M : makeGenerate l r = (("make: 'generate' is up to date." ++ String newline "")%string, 0, r)) by (rewrite makeGenerate_eq; by rewrite decide_True).
  assert (K : keeps (makeGenerate l) r) by (unfold keeps; rewrite M; split; [|split]; reflexivity).
  assert (A : apart g r (makeGenerate l r).2) by (rewrite M; split; reflexivity).
  destruct (C60_detects g (makeGenerate l) r env Sg I K A) as (out & code & E & C). rewrite M in E, C. cbn [fst snd] in E, C.
  exists out. rewrite (proj2 C) in E; [exact E|]. split; [reflexivity|]. split; [reflexivity|]. done.
Qed.
(** The repository: go generate runs the generators of C52 and gofmt-ed tables [t]; the check
    passes exactly when the assembly files are those of the repository and tables.go is [t]. *)
Definition ended (ls : list string) : string := fold_right (fun l s => (l ++ String newline s)%string) "" ls.
Definition generatedFiles (enc dec : list string) (t : string) : gmap string string :=
  {["pkg/encode/encode_amd64.s" := ended enc; "pkg/decode/decode_amd64.s" := ended dec; "pkg/shared/tables.go" := t]}.
Theorem C60_repository : forall g W enc dec t r env,
  generates W [shared_asm_go; encode_asm_go] "-out ./encode_amd64.s" enc -> generates W [shared_asm_go; decode_asm_go] "-out ./decode_amd64.s" dec ->
  let l := generatedFiles enc dec t in
  sound g -> inside r = true -> apart g r (with_files r (l ∪ files r)) -> (forall p, is_Some (l !! p) -> tracked r p) -> files r !! "generate" = None ->
  exists out code r', interpret (inRepo g (makeGenerate l)) check_sh env r = Some (out, code, r') /\
    (code = 0 <-> files r !! "pkg/encode/encode_amd64.s" = Some (ended encode_amd64_s) /\
                  files r !! "pkg/decode/decode_amd64.s" = Some (ended decode_amd64_s) /\ files r !! "pkg/shared/tables.go" = Some t).
Proof.
  intros g W enc dec t r env G1 G2 l Sg I A T N.
  destruct (C52_assembly W) as [(c1 & E1 & H1) (c2 & E2 & H2)].
  assert (c1 = "-out ./encode_amd64.s") as -> by (vm_compute in E1; injection E1 as <-; reflexivity).
  assert (c2 = "-out ./decode_amd64.s") as -> by (vm_compute in E2; injection E2 as <-; reflexivity).
  assert (D : forall fs c a b, generates W fs c a -> generates W fs c b -> a = b).
  { intros fs c a b [n Ha] [m Hb]. specialize (Ha (n + m)%nat ltac:(lia)). specialize (Hb (n + m)%nat ltac:(lia)). rewrite Ha in Hb. by injection Hb. }
  pose proof (D _ _ _ _ G1 H1). pose proof (D _ _ _ _ G2 H2). subst enc dec. clear D G1 G2 H1 H2 E1 E2.
  destruct (C60_generated g l r env Sg I A T N) as (out & code & E & C). exists out, code, (with_files r (l ∪ files r)). split; [exact E|].
  rewrite C. clear. unfold l, generatedFiles. generalize (ended encode_amd64_s) as a, (ended decode_amd64_s) as b. intros a b. split.
  - intros H. split; [|split]; apply H; by simplify_map_eq.
  - intros (Ha & Hb & Ht) p x Hp. apply lookup_insert_Some in Hp as [[<- <-]|[_ Hp]]; [done|].
    apply lookup_insert_Some in Hp as [[<- <-]|[_ Hp]]; [done|]. apply lookup_singleton_Some in Hp as [<- <-]. done.
Qed.
(** A clone passes. *)
Definition ex_clone : repo :=
  let l := generatedFiles encode_amd64_s decode_amd64_s (ended shared_tables_go) in Repo l l (fun _ => false) true.
Example C60_clone : exists out r',
  interpret (inRepo ex_git (makeGenerate (files ex_clone))) check_sh [] ex_clone = Some (out, 0, r').
Proof.
  destruct (C52_assembly (GenInterp.World [] None true true)) as [(c1 & E1 & H1) (c2 & E2 & H2)].
  assert (c1 = "-out ./encode_amd64.s") as -> by (vm_compute in E1; injection E1 as <-; reflexivity).
  assert (c2 = "-out ./decode_amd64.s") as -> by (vm_compute in E2; injection E2 as <-; reflexivity).
  destruct (C60_repository ex_git _ _ _ (ended shared_tables_go) ex_clone [] H1 H2 ex_git_sound eq_refl (ex_git_apart _ _)) as (out & code & r' & E & C).
  - intros p Hp. exact Hp.
  - unfold ex_clone, generatedFiles. cbn [files]. generalize (ended encode_amd64_s) as a, (ended decode_amd64_s) as b, (ended shared_tables_go) as c. intros a b c. by simplify_map_eq.
  - exists out, r'. rewrite <- (proj2 C); [exact E|]. clear. unfold ex_clone, generatedFiles. cbn [files].
    generalize (ended encode_amd64_s) as a, (ended decode_amd64_s) as b, (ended shared_tables_go) as c. intros a b c. split; [|split]; by simplify_map_eq.
Qed.

(** ** tools/update_bench.sh, for all commands *)
(** A text that is one word when it is expanded without quotes *)
Definition oneWord (s : string) : Prop := forallb (fun c => negb (splits c) && negb (oneof "*?[\" c)) (list_ascii_of_string s) = true.
Lemma oneWord_items s : oneWord s -> mapOption (fun c => if splits c then Some Sep else unquoted c) (list_ascii_of_string s) = Some (map Ch (list_ascii_of_string s)).
Proof.
  unfold oneWord. induction (list_ascii_of_string s) as [|c l IH]; [done|]. cbn [forallb mapOption map]. intros H.
  apply andb_true_iff in H as [H1 H2]. apply andb_true_iff in H1 as [H3 H4]. rewrite (IH H2).
  destruct (splits c); [done|]. unfold unquoted. by destruct (oneof _ c).
Qed.
Lemma fields_chars acc l : fields (Some acc) (map Ch l) = [str (rev acc ++ l)].
Proof. revert acc. induction l as [|c l IH]; intros acc; cbn [map fields]; [by rewrite app_nil_r|]. rewrite IH. cbn [rev]. by rewrite <- app_assoc. Qed.
Lemma expand_var v x t : valueOf v x = t -> oneWord t -> t <> "" -> expand v [Var x] = Some [t].
Proof.
  intros V O N. unfold expand. cbn [mapOption items]. rewrite V, (oneWord_items _ O). cbn [concat]. rewrite app_nil_r.
  destruct t as [|c t]; [done|]. cbn [list_ascii_of_string map fields]. rewrite fields_chars. cbn. unfold str.
  by rewrite string_of_list_ascii_of_string.
Qed.
Lemma expand_var_lit v x t c l : valueOf v x = t -> oneWord t -> oneWord (String c l) -> expand v [Var x; Lit (String c l)] = Some [(t ++ String c l)%string].
Proof.
  intros V O O2. unfold expand. cbn [mapOption items]. rewrite V, (oneWord_items _ O).
  assert (L : mapOption unquoted (list_ascii_of_string (String c l)) = Some (map Ch (list_ascii_of_string (String c l)))).
  { clear - O2. revert O2. unfold oneWord. induction (list_ascii_of_string (String c l)) as [|d m IH]; [done|]. cbn [forallb mapOption map]. intros H.
    apply andb_true_iff in H as [H1 H2]. apply andb_true_iff in H1 as [H3 H4]. rewrite (IH H2). unfold unquoted. by destruct (oneof _ d). }
  rewrite L. cbn [concat]. rewrite app_nil_r, <- map_app, <- las_app.
  destruct (t ++ String c l)%string as [|d m] eqn:E; [by destruct t|]. cbn [list_ascii_of_string map fields]. rewrite fields_chars. cbn. unfold str.
  by rewrite string_of_list_ascii_of_string.
Qed.

Section Update.
Context {W : Type} (exe : list string -> string -> W -> string * Z * W) (home : string) (s : W).
(** The commands of the script, one after the other.  The standard input of the tool is what
    cat prints. *)
Definition made := exe ["mktemp"] "" s.
Definition tmpFile : string := stripped made.1.1.
Definition tested := exe ["go"; "test"; "-bench"; "."; "./pkg/..."] "" made.2.
Definition teed := exe ["tee"; tmpFile] tested.1.1 tested.2.
Definition catted := exe ["cat"; tmpFile] "" teed.2.
Definition written := exe ["go"; "run"; (home ++ "/tools/parse_and_write_bench.go")%string; "-w"] catted.1.1 catted.2.
Definition removed := exe ["rm"; tmpFile] "" written.2.
End Update.
(** The script fails as soon as mktemp, tee, the tool or rm fails; the status of go test and
    of cat is not looked at. *)
Theorem C60_update : forall W exe env (s : W), let home := valueOf env "SBYTE_HOME" in
  hasNul (made exe s).1.1 = false -> tmpFile exe s <> "" -> oneWord (tmpFile exe s) -> oneWord home ->
  exists out code s', interpret exe bench_sh env s = Some (out, code, s') /\
    (code, s') =
      if (made exe s).1.2 =? 0 then
        if (teed exe s).1.2 =? 0 then
          if (written exe home s).1.2 =? 0 then ((removed exe home s).1.2, (removed exe home s).2)
          else ((written exe home s).1.2, (written exe home s).2)
        else ((teed exe s).1.2, (teed exe s).2)
      else ((made exe s).1.2, (made exe s).2).
Proof.
  intros W exe env s home Hn Ht Ot Oh. unfold interpret. rewrite parse_bench_sh.
  assert (C : forall c cs n (s : state), execs exe (c :: cs) n s = match exec exe c s with Some (Next n s') => execs exe cs n s' | r => r end) by done.
  rewrite C. change (exec exe (Pipe [[w "set"; w "-e"]]) (State env false "" s)) with (Some (Next 0 (State env true "" s))). cbn match.
  rewrite C.
  assert (M : exec exe (Assign "TMP_FILE" [[w "mktemp"]]) (State env true "" s) =
    Some (checked (made exe s).1.2 (State (("TMP_FILE", tmpFile exe s) :: env) true "" (made exe s).2))).
  { cbn [exec pipeline s_vars s_world s_e s_out]. change (external exe env [w "mktemp"] "" s) with (Some (made exe s)).
    unfold tmpFile. destruct (made exe s) as [[o n] s'] eqn:E. cbn [fst snd] in Hn |- *. by rewrite Hn. }
  rewrite M, checked_eq by done. clear M. destruct (Z.eqb_spec (made exe s).1.2 0) as [E1|E1]; [|by eexists _, _, _].
  set (v := ("TMP_FILE", tmpFile exe s) :: env).
  assert (T : expand v [Var "TMP_FILE"] = Some [tmpFile exe s]) by (by apply expand_var).
  assert (P : forall ws a l o s, expands v ws = Some (a :: l) -> existsb (String.eqb a) builtins = false -> external exe v ws o s = Some (exe (a :: l) o s)).
  { intros ws a l o s0 X B. unfold external. by rewrite X, B. }
  rewrite C. clear C.
  assert (T1 : expands v [w "tee"; [Var "TMP_FILE"]] = Some ["tee"; tmpFile exe s]) by (unfold expands; cbn [mapOption]; by rewrite T).
  assert (T2 : expands v [w "cat"; [Var "TMP_FILE"]] = Some ["cat"; tmpFile exe s]) by (unfold expands; cbn [mapOption]; by rewrite T).
  assert (T3 : expands v [w "rm"; [Var "TMP_FILE"]] = Some ["rm"; tmpFile exe s]) by (unfold expands; cbn [mapOption]; by rewrite T).
  assert (T4 : expands v [w "go"; w "run"; [Var "SBYTE_HOME"; Lit "/tools/parse_and_write_bench.go"]; w "-w"] = Some ["go"; "run"; (home ++ "/tools/parse_and_write_bench.go")%string; "-w"]).
  { unfold expands. cbn [mapOption]. rewrite (expand_var_lit v "SBYTE_HOME" home) by done. done. }
  assert (X1 : pipeline exe v [[w "go"; w "test"; w "-bench"; w "."; w "./pkg/..."]; [w "tee"; [Var "TMP_FILE"]]] "" (made exe s).2 = Some (teed exe s)).
  { cbn [pipeline]. rewrite (P _ "go" ["test"; "-bench"; "."; "./pkg/..."]) by done. fold (tested exe s). unfold teed.
    destruct (tested exe s) as [[o n] s']. cbn [fst snd]. by apply P. }
  assert (X2 : pipeline exe v [[w "cat"; [Var "TMP_FILE"]]; [w "go"; w "run"; [Var "SBYTE_HOME"; Lit "/tools/parse_and_write_bench.go"]; w "-w"]] "" (teed exe s).2 = Some (written exe home s)).
  { cbn [pipeline]. rewrite (P _ _ _ _ _ T2) by done. fold (catted exe s). unfold written.
    destruct (catted exe s) as [[o n] s']. cbn [fst snd]. by apply P. }
  assert (X3 : pipeline exe v [[w "rm"; [Var "TMP_FILE"]]] "" (written exe home s).2 = Some (removed exe home s)).
  { cbn [pipeline]. by apply P. }
  clear P T T1 T2 T3 T4. clearbody v. cbn [execs].
  assert (Y1 : forall out, exec exe (Pipe [[w "go"; w "test"; w "-bench"; w "."; w "./pkg/..."]; [w "tee"; [Var "TMP_FILE"]]]) (State v true out (made exe s).2) =
    Some (checked (teed exe s).1.2 (State v true (out ++ (teed exe s).1.1)%string (teed exe s).2))).
  { intros out. cbn [exec s_vars s_world s_e s_out]. change [Lit "go"] with (w "go"). rewrite X1. by destruct (teed exe s) as [[o n] s']. }
  rewrite Y1, checked_eq by done. destruct (Z.eqb_spec (teed exe s).1.2 0) as [E2|E2]; [|by eexists _, _, _].
  assert (Y2 : forall out, exec exe (Pipe [[w "cat"; [Var "TMP_FILE"]]; [w "go"; w "run"; [Var "SBYTE_HOME"; Lit "/tools/parse_and_write_bench.go"]; w "-w"]]) (State v true out (teed exe s).2) =
    Some (checked (written exe home s).1.2 (State v true (out ++ (written exe home s).1.1)%string (written exe home s).2))).
  { intros out. cbn [exec s_vars s_world s_e s_out]. rewrite X2. by destruct (written exe home s) as [[o n] s']. }
  rewrite Y2, checked_eq by done. destruct (Z.eqb_spec (written exe home s).1.2 0) as [E3|E3]; [|by eexists _, _, _].
  assert (Y3 : forall out, exec exe (Pipe [[w "rm"; [Var "TMP_FILE"]]]) (State v true out (written exe home s).2) =
    Some (checked (removed exe home s).1.2 (State v true (out ++ (removed exe home s).1.1)%string (removed exe home s).2))).
  { intros out. cbn [exec w]. change (existsb (String.eqb "rm") builtins) with false. cbn match. cbn [s_vars s_world s_e s_out].
    change [Lit "rm"] with (w "rm"). rewrite X3. by destruct (removed exe home s) as [[o n] s']. }
  rewrite Y3, checked_eq by done. destruct (Z.eqb_spec (removed exe home s).1.2 0) as [E4|E4]; by eexists _, _, _.
Qed.

(** *** With the tool of C55 *)
Record desk := Desk { d_files : gmap string string; d_readme : text }.
(** The tool reads [input]; [f] says which operations of the operating system fail. *)
Definition systemOf (f : system) (input : string) (d : desk) : system :=
  System (codes input) (stdin_fails f) (d_readme d) (open_fails f) (read_fails f) (create_fails f) (write_fails f) (stdout_fails f) true.
(** go run gives status 0 if the program returns and 1 otherwise. *)
Definition onDesk (f : system) (home tmp output : string) (n : Z) (args : list string) (stdin : string) (d : desk) : string * Z * desk :=
  match args with
  | ["mktemp"] => ((tmp ++ String newline "")%string, 0, Desk (<[tmp := ""]> (d_files d)) (d_readme d))
  | ["tee"; p] => (stdin, 0, Desk (<[p := stdin]> (d_files d)) (d_readme d))
  | ["cat"; p] => match d_files d !! p with Some c => (c, 0, d) | None => ("", 1, d) end
  | ["rm"; p] => match d_files d !! p with Some _ => ("", 0, Desk (delete p (d_files d)) (d_readme d)) | None => ("", 1, d) end
  | "go" :: "test" :: _ => (output, n, d)
  | ["go"; "run"; p; "-w"] =>
      if String.eqb p (home ++ "/tools/parse_and_write_bench.go") then
        let '(h, _, rd) := outcome (systemOf f stdin d) in ("", match h with Returned => 0 | _ => 1 end, Desk (d_files d) rd)
      else ("", 1, d)
  | _ => ("", 127, d)
  end.
Lemma strip_newline t : oneWord t -> stripped (t ++ String newline "")%string = t.
Proof.
  intros O. unfold stripped. rewrite las_app, rev_app_distr. cbn [list_ascii_of_string rev app dropNl]. change (Ascii.eqb newline newline) with true. cbn match.
  assert (X : dropNl (rev (list_ascii_of_string t)) = rev (list_ascii_of_string t)).
  { unfold oneWord in O. rewrite <- (rev_involutive (list_ascii_of_string t)) in O. destruct (rev (list_ascii_of_string t)) as [|c l]; [done|].
    cbn [rev] in O. rewrite forallb_app in O. apply andb_true_iff in O as [_ O]. cbn [forallb] in O. cbn [dropNl].
    destruct (Ascii.eqb_spec c newline) as [->|]; [done|done]. }
  rewrite X, rev_involutive. apply str_las.
Qed.
(** Whatever the status [n] of go test: the README is what the tool makes of the output of
    go test; the script succeeds exactly when the tool returns; the temporary file is
    removed then, and remains otherwise. *)
Theorem C60_benchmarks : forall f env tmp output n d h so rd, let home := valueOf env "SBYTE_HOME" in
  oneWord tmp -> tmp <> "" -> hasNul tmp = false -> oneWord home -> ends (systemOf f output d) h so rd ->
  exists out code d', interpret (onDesk f home tmp output n) bench_sh env d = Some (out, code, d') /\
    d_readme d' = rd /\ (code = 0 <-> h = Returned) /\
    d_files d' = match h with Returned => delete tmp (d_files d) | _ => <[tmp := output]> (d_files d) end.
Proof.
  intros f env tmp output n d h so rd home O1 N1 Z1 O2 E. apply ends_iff in E. set (exe := onDesk f home tmp output n).
  assert (T : tmpFile exe d = tmp) by (apply strip_newline, O1).
  assert (HN : hasNul (made exe d).1.1 = false).
  { change ((made exe d).1.1) with (tmp ++ String newline "")%string. unfold hasNul in *. rewrite las_app, existsb_app, Z1. done. }
  destruct (C60_update _ exe env d HN) as (out & code & d' & X & Y); [by rewrite T..|exact O2|].
  exists out, code, d'. split; [exact X|]. clear X. fold home in Y.
  change (made exe d).1.2 with 0 in Y. change (0 =? 0) with true in Y. cbn match in Y.
  set (d1 := Desk (<[tmp := output]> (<[tmp := ""]> (d_files d))) (d_readme d)).
  assert (T1 : teed exe d = (output, 0, d1)) by (unfold teed; rewrite T; reflexivity).
  assert (T2 : catted exe d = (output, 0, d1)).
  { unfold catted. rewrite T, T1. cbn [fst snd]. unfold exe, onDesk. unfold d1 at 1. cbn [d_files]. by rewrite lookup_insert. }
  assert (S : systemOf f output d1 = systemOf f output d) by done.
  assert (T3 : written exe home d = ("", match h with Returned => 0 | _ => 1 end, Desk (d_files d1) rd)).
  { unfold written. rewrite T2. cbn [fst snd]. unfold exe, onDesk. rewrite String.eqb_refl, S, E. reflexivity. }
  assert (F1 : d_files d1 = <[tmp := output]> (d_files d)) by (apply insert_insert).
  rewrite T1, T3 in Y. cbn [fst snd] in Y. change (0 =? 0) with true in Y. cbn match in Y. rewrite <- F1.
  destruct h; [|change (1 =? 0) with false in Y; cbn match in Y; injection Y as -> ->; split; [reflexivity|]; split; [split; discriminate|reflexivity]..].
  change (0 =? 0) with true in Y. cbn match in Y.
  assert (T4 : removed exe home d = ("", 0, Desk (delete tmp (d_files d)) rd)).
  { unfold removed. rewrite T, T3. cbn [fst snd]. unfold exe, onDesk. cbn [d_files d_readme]. rewrite F1, lookup_insert, delete_insert_delete. reflexivity. }
  rewrite T4 in Y. injection Y as -> ->. split; [reflexivity|]. split; [done|reflexivity].
Qed.
(** A run of go test that fails after some lines: the README is updated with these lines and
    the script succeeds.  A README without the heading: the temporary file remains. *)
Definition ex_output : string := ("goos: linux" ++ String newline ("BenchmarkGet8uint32-8 9 2 ns/op" ++ String newline ("FAIL" ++ String newline "")))%string.
Definition ex_fine : system := System [] false [] false false false None None true.
Definition ex_desk (r : text) : desk := Desk ∅ r.
Definition ends_with (x : option (string * Z * desk)) : option (Z * option string * text) :=
  match x with Some (_, n, d) => Some (n, d_files d !! "/tmp/tmp.1", d_readme d) | None => None end.
Example C60_bench_cases : let run n d := ends_with (interpret (onDesk ex_fine "/src" "/tmp/tmp.1" ex_output n) bench_sh [("SBYTE_HOME", "/src")] d) in
  run 0 (ex_desk (doc ex_pre ex_old ex_post)) = run 1 (ex_desk (doc ex_pre ex_old ex_post)) /\
  run 1 (ex_desk (doc ex_pre ex_old ex_post)) = Some (0, None, doc ex_pre (as_text [codes "goos: linux"; codes "Get8uint32-8 9 2 ns/op"]) ex_post) /\
  run 0 (ex_desk (codes "no heading")) = Some (1, Some ex_output, codes "no heading").
Proof. cbv zeta. split; [vm_compute; reflexivity|]. split; vm_compute; reflexivity. Qed.
Theorem C60_test_failure_stops_refuted : ~ forall f env tmp output n d out code d', let home := valueOf env "SBYTE_HOME" in
  oneWord tmp -> tmp <> "" -> hasNul tmp = false -> oneWord home -> n <> 0 ->
  interpret (onDesk f home tmp output n) bench_sh env d = Some (out, code, d') -> code <> 0 \/ d_readme d' = d_readme d.
Proof.
  intros H. destruct C60_bench_cases as (_ & C & _). cbv zeta in C.
  destruct (interpret (onDesk ex_fine "/src" "/tmp/tmp.1" ex_output 1) bench_sh [("SBYTE_HOME", "/src")] (ex_desk (doc ex_pre ex_old ex_post))) as [[[out code] d']|] eqn:E; [|discriminate C].
  injection C as C1 _ C2.
  specialize (H ex_fine [("SBYTE_HOME", "/src")] "/tmp/tmp.1" ex_output 1 (ex_desk (doc ex_pre ex_old ex_post)) out code d' eq_refl ltac:(discriminate) eq_refl eq_refl ltac:(discriminate) E).
  destruct H as [H|H]; [exact (H C1)|]. rewrite C2 in H. vm_compute in H. discriminate H.
Qed.
(** The directory may not have a blank in its name: then go gets two words. *)
Definition logging (args : list string) (stdin : string) (l : list (list string)) : string * Z * list (list string) :=
  ("/tmp/t", 0, l ++ [args]).
Theorem C60_blank_refuted : ~ forall home l out code l', interpret logging bench_sh [("SBYTE_HOME", home)] l = Some (out, code, l') ->
  ["go"; "run"; (home ++ "/tools/parse_and_write_bench.go")%string; "-w"] ∈ l'.
Proof.
  intros H. eassert (E : interpret logging bench_sh [("SBYTE_HOME", "/my files")] [] = Some (_, _, _)) by (vm_compute; reflexivity).
  apply H in E. apply (bool_decide_pack _) in E. vm_compute in E. exact E.
Qed.
