(** * The Go files of the repository are texts of the Go grammar

    Grouping of binary operators, concrete readings, texts that are refused. *)
From Coq Require Import ZArith List String Ascii Bool Lia.
From Verif Require Import GoSyntax GoGrammar GoLexical C_Grammar C_Lexical SourceText TestText BenchText.
Import ListNotations.
Local Open Scope string_scope.
Local Open Scope list_scope.
Local Open Scope Z_scope.

(** ** Every Go file of the repository has a reading *)
Definition suffix (x s : string) : bool := String.eqb (String.substring (String.length s - String.length x) (String.length x) s) x.
Definition go_files : list (string * list string) :=
  filter (fun f => suffix ".go" (fst f)) sources ++
  [("pkg/shared/asm.go", shared_asm_go); ("pkg/shared/main/gentables.go", gentables_go); ("pkg/encode/main/asm.go", encode_asm_go); ("pkg/decode/main/asm.go", decode_asm_go);
   ("pkg/pkg_test.go", pkg_test_go); ("pkg/encode/encode_test.go", encode_test_go); ("pkg/decode/decode_test.go", decode_test_go);
   ("pkg/stream/writer/writer_test.go", writer_test_go); ("pkg/stream/reader/reader_test.go", reader_test_go); ("pkg/util/varint_test.go", varint_test_go);
   ("tools/parse_and_write_bench.go", bench_go)].
Lemma all_parse : forallb (fun f => match parse (snd f) with Some _ => true | None => false end) go_files = true.
Proof. vm_cast_no_check (@eq_refl bool true). Qed.
Theorem C62_repository : forall name ls, In (name, ls) go_files -> exists ts f, tokens ls ts /\ (forall ts', tokens ls ts' -> ts' = ts) /\ derives SourceFile ts f /\ parse ls = Some f.
Proof.
  intros x ls I. pose proof (proj1 (forallb_forall _ _) all_parse _ I) as P. cbn [snd] in P.
  destruct (parse ls) as [f|] eqn:E; [|discriminate P]. destruct (C62_grammar ls f E) as (ts & T & D). exists ts, f.
  split; [exact T|]. split; [|auto]. intros ts' T'. exact (C62_tokens ls ts' ts T' T).
Qed.
Example C62_repository_case : List.length go_files = 31%nat /\ existsb (fun f => String.eqb (fst f) "pkg/encode/encode.go") go_files = true.
Proof. vm_compute. auto. Qed.

(** ** Grouping
    The text of a binary operation is in parentheses, or it is cut at an operator: what is on the
    left binds at least as strongly, what is on the right binds more strongly. *)
Theorem C62_grouping : forall k u o a b, derives (Expr k) u (EBin o a b) ->
  (exists v, u = TOp "(" :: v ++ [TOp ")"] /\ derives Expression v (EBin o a b)) \/
  exists j v w, (k <= j)%nat /\ binary_op j o /\ u = v ++ TOp o :: w /\ derives (Expr j) v a /\ derives (Expr (S j)) w b.
Proof.
  assert (G : forall A (c : nt A) u x, derives c u x ->
    match c in nt A return A -> Prop with
    | Expr k => fun x => forall o a b, x = EBin o a b -> (exists v, u = TOp "(" :: v ++ [TOp ")"] /\ derives Expression v (EBin o a b)) \/
        exists j v w, (k <= j)%nat /\ binary_op j o /\ u = v ++ TOp o :: w /\ derives (Expr j) v a /\ derives (Expr (S j)) w b
    | _ => fun _ => True
    end x).
  { induction 1; try exact I; intros o' a' b' E; try discriminate E.
    - destruct (IHderives _ _ _ E) as [P|(j & v & w & L & P)]; [left; exact P|right]. exists j, v, w. split; [lia|exact P].
    - injection E as <- <- <-. right. exists k, u, v. auto.
    - left. exists u. subst. auto. }
  intros k u o a b D. exact (G _ _ _ _ D o a b eq_refl).
Qed.

(** ** Readings *)
Ltac reads := lazymatch goal with |- lexes ?s ?ts => apply (lexLine_sound (S (String.length s))); vm_compute; reflexivity end.
(** Longest match: x<-1 is a receive, not a comparison; a-- -b; hexadecimal numbers have no exponent; shifts and the and-not operator. *)
Example C62_lines :
  lexes "x<-1" [TId "x"; TOp "<-"; TInt 1] /\ lexes "x < -1 // no" [TId "x"; TOp "<"; TOp "-"; TInt 1] /\ lexes "a---b" [TId "a"; TOp "--"; TOp "-"; TId "b"] /\
  lexes "0x1e + 1_0e2" [TInt 30; TOp "+"; TInt 1000] /\ lexes "m&^=0xF<<8" [TId "m"; TOp "&^="; TInt 15; TOp "<<"; TInt 8] /\ lexes "s[lo:hi]..." [TId "s"; TOp "["; TId "lo"; TOp ":"; TId "hi"; TOp "]"; TOp "..."].
Proof. repeat split; reads. Qed.
(** The same line has no other tokens. *)
Example C62_lines_only : ~ lexes "x<-1" [TId "x"; TOp "<"; TOp "-"; TInt 1].
Proof. intros L. destruct C62_lines as (M & _). pose proof (C62_line _ _ _ L M) as E. discriminate E. Qed.
(** Semicolons: after return and an identifier, not after an operator or after func. *)
Example C62_semicolons : tokens ["return"; "x +"; "y"; "func"; "}"] [TId "return"; TOp ";"; TId "x"; TOp "+"; TId "y"; TOp ";"; TId "func"; TOp "}"; TOp ";"].
Proof. apply lex_sound. vm_compute. reflexivity. Qed.
(** a + b * c - d *)
Definition sum : list token := [TId "a"; TOp "+"; TId "b"; TOp "*"; TId "c"; TOp "-"; TId "d"].
Lemma one x k : (k <= 7)%nat -> ~ In x ("make" :: reserved) -> x <> "" -> derives (Expr k) [TId x] (EId x).
Proof.
  intros L N E. assert (G : forall n, (n <= 7)%nat -> derives (Expr (7 - n)) [TId x] (EId x)).
  { induction n as [|n IH]; intros M.
    - apply d_operand; [split; [exact E|intros I; apply N; right; exact I]|intros ->; apply N; left; reflexivity].
    - apply d_up; [lia|]. replace (S (7 - S n)) with (7 - n)%nat by lia. apply IH. lia. }
  specialize (G (7 - k)%nat). replace (7 - (7 - k))%nat with k in G by lia. apply G. lia.
Qed.
Example C62_sum : derives Expression sum (EBin "-" (EBin "+" (EId "a") (EBin "*" (EId "b") (EId "c"))) (EId "d")).
Proof.
  assert (N : forall x, In x ["a"; "b"; "c"; "d"] -> forall k, (k <= 7)%nat -> derives (Expr k) [TId x] (EId x)).
  { intros x I k L. cbn [In] in I. apply one; [exact L| |]; destruct I as [<-|[<-|[<-|[<-|[]]]]]; [intros D; cbn in D; intuition discriminate..|discriminate|discriminate|discriminate|discriminate]. }
  do 3 (apply d_up; [lia|]). apply (d_binary 4 "-" [TId "a"; TOp "+"; TId "b"; TOp "*"; TId "c"] [TId "d"]); [cbn; auto| |apply N; [cbn; auto|lia]].
  apply (d_binary 4 "+" [TId "a"] [TId "b"; TOp "*"; TId "c"]); [cbn; auto|apply N; [cbn; auto|lia]|].
  apply (d_binary 5 "*" [TId "b"] [TId "c"]); [cbn; auto|apply N; [cbn; auto|lia]|apply N; [cbn; auto|lia]].
Qed.
(** Not (a + b) * (c - d), not a + (b * c - d). *)
Lemma cut o u v w : u = v ++ TOp o :: w -> exists n, nth_error u n = Some (TOp o) /\ v = firstn n u /\ w = skipn (S n) u.
Proof.
  intros ->. exists (List.length v). split; [|split].
  - rewrite nth_error_app2 by lia. rewrite Nat.sub_diag. reflexivity.
  - rewrite firstn_app, Nat.sub_diag, firstn_all, firstn_O, app_nil_r. reflexivity.
  - rewrite skipn_app, skipn_all2 by lia. replace (S (List.length v) - List.length v)%nat with 1%nat by lia. reflexivity.
Qed.
Example C62_sum_only : ~ derives Expression sum (EBin "*" (EBin "+" (EId "a") (EId "b")) (EBin "-" (EId "c") (EId "d"))) /\
  ~ derives Expression sum (EBin "+" (EId "a") (EBin "-" (EBin "*" (EId "b") (EId "c")) (EId "d"))).
Proof.
  assert (K : forall j o, binary_op j o -> (o = "*" -> j = 5%nat) /\ (o = "+" -> j = 4%nat) /\ (o = "-" -> j = 4%nat)).
  { intros j o B. do 6 (destruct j as [|j]; [cbn in B; repeat split; intros ->; intuition (try discriminate)|]). destruct B. }
  split; intros D.
  - apply C62_grouping in D. destruct D as [(v & E & _)|(j & v & w & _ & B & E & D & _)]; [discriminate E|]. apply K in B. destruct B as (B & _). rewrite (B eq_refl) in D.
    apply cut in E. destruct E as (n & E & -> & ->). destruct n as [|[|[|[|[|[|[|n]]]]]]]; try discriminate E; [|destruct n; discriminate E].
    cbn in D. apply C62_grouping in D. destruct D as [(v & E' & _)|(j' & v & w & L & B' & _)]; [discriminate E'|]. apply K in B'. destruct B' as (_ & B' & _). specialize (B' eq_refl). lia.
  - apply C62_grouping in D. destruct D as [(v & E & _)|(j & v & w & _ & B & E & _ & D)]; [discriminate E|]. apply K in B. destruct B as (_ & B & _). rewrite (B eq_refl) in D.
    apply cut in E. destruct E as (n & E & -> & ->). destruct n as [|[|[|[|[|[|[|n]]]]]]]; try discriminate E; [|destruct n; discriminate E].
    cbn in D. apply C62_grouping in D. destruct D as [(v & E' & _)|(j' & v & w & L & B' & _)]; [discriminate E'|]. apply K in B'. destruct B' as (_ & _ & B'). specialize (B' eq_refl). lia.
Qed.
(** A whole file; texts that are refused: no semicolon after the package clause, a keyword as a name, a point number, an argument after a spread one. *)
Example C62_file : exists f, parse ["package p"; "func f(a, b int) (int, error) {"; "	return a<<2 + b, nil"; "}"] = Some f /\
  decls f = [DFunc (Func "f" [("a", TyName "int"); ("b", TyName "int")] [("", TyName "int"); ("", TyName "error")] (Some [SReturn [EBin "+" (EBin "<<" (EId "a") (EInt 2)) (EId "b"); EId "nil"]]))].
Proof. eexists. split; vm_compute; reflexivity. Qed.
Example C62_refused :
  parse ["package p var x = 1"] = None /\ parse ["package p"; "var if = 1"] = None /\ parse ["package p"; "var x = 1.5"] = None /\
  parse ["package p"; "var x = f(a..., b)"] = None /\ parse ["package p"; "func f() { (x) := 1 }"] = None.
Proof. vm_compute. auto. Qed.
