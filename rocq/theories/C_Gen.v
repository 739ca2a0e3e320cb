(** * Theorems: what "go generate" writes (C52)

    The generator programs of the repository, run as text, write the generated files of the
    repository.  gofmt, avo's register allocator and avo's printer are not part of the
    repository: the tables are compared up to blanks, avo is modelled in GenPrint.v. *)
From stdpp Require Import prelude list pmap strings.
From Coq Require Import ZArith Ascii.
From Verif Require Import Spec GoSem SourceText GoSyntax Asm AsmProgs AvoGen AvoSem AvoProof C_Avo GenInterp GenMono GenPrint GenRegs.
Local Open Scope string_scope.
Local Open Scope list_scope.
Local Open Scope Z_scope.

(** ** Texts *)
(** The lines of a text; what follows the last newline counts as a line *)
Fixpoint linesOf (s : string) : list string :=
  match s with
  | EmptyString => [""]
  | String c r => if code c =? 10 then "" :: linesOf r else match linesOf r with l :: k => String c l :: k | [] => [] end
  end.
Definition isBlank (c : ascii) : bool := (code c =? 32) || (code c =? 9).
(** A line with every run of spaces and tabs made one space, none at the ends *)
Fixpoint squeeze (first pending : bool) (s : string) : string :=
  match s with
  | EmptyString => ""
  | String c r =>
      if isBlank c then squeeze first true r
      else if pending && negb first then String " " (String c (squeeze false false r)) else String c (squeeze false false r)
  end.
(** The text is these lines, each ended by a newline, up to blanks. *)
Definition writes (text : string) (ls : list string) : Prop := map (squeeze true false) (linesOf text) = map (squeeze true false) ls ++ [""].
Definition together (l : list string) : string := fold_right String.append "" l.

(** The lines of a text in pieces, piece by piece *)
Definition glue (a b : list string) : list string :=
  match a, b with
  | [], _ => b
  | _, [] => a
  | _, y :: r => List.removelast a ++ (List.last a "" ++ y)%string :: r
  end.
Definition linesIn (l : list string) : list string := fold_right (fun p r => glue (linesOf p) r) [""] l.
Lemma linesOf_cons s : exists x r, linesOf s = x :: r.
Proof. induction s as [|c s (x & r & E)]; simpl; [eauto|]. destruct (code c =? 10); [eauto|]. rewrite E. eauto. Qed.
Lemma linesOf_app a b : linesOf (a ++ b)%string = glue (linesOf a) (linesOf b).
Proof.
  induction a as [|c a IH]; [change ("" ++ b)%string with b; destruct (linesOf_cons b) as (y & r & ->); reflexivity|].
  change (linesOf (String c a ++ b)) with (if code c =? 10 then "" :: linesOf (a ++ b)%string else match linesOf (a ++ b)%string with l :: k => String c l :: k | [] => [] end).
  rewrite IH. change (linesOf (String c a)) with (if code c =? 10 then "" :: linesOf a else match linesOf a with l :: k => String c l :: k | [] => [] end).
  destruct (linesOf_cons a) as (x & r & Ea), (linesOf_cons b) as (y & q & Eb). rewrite Ea, Eb.
  destruct (code c =? 10); destruct r; reflexivity.
Qed.
Lemma linesOf_together l : linesOf (together l) = linesIn l.
Proof. induction l as [|p l IH]; [reflexivity|]. simpl. by rewrite linesOf_app, IH. Qed.

(** ** What a program does *)
(** The events in order; true: the program ends normally, false: it exits with an error.
    By execute_more the result does not depend on the fuel. *)
Definition observed (r : gres (list gval)) : option (bool * list event) :=
  match r with Done _ s => Some (true, rev (g_events s)) | Exit s => Some (false, rev (g_events s)) | Stuck => None end.
Definition does (W : world) (fs : list (list string)) (b : bool * list event) : Prop :=
  exists N, forall n, (N <= n)%nat -> observed (execute W n fs) = Some b.
Lemma does_by W fs b N : observed (execute W N fs) = Some b -> does W fs b.
Proof.
  intros H. exists N. intros n L. rewrite (execute_more W N n fs L); [done|]. intros E. by rewrite E in H.
Qed.

(** *** pkg/shared/main/gentables.go *)
(** The steps once the text is there *)
Definition finishes (path : string) (text : list string) (W : world) : bool * list event :=
  match w_formatted W with
  | None => (false, [EvFormat text; EvFatal "failed to go fmt output"])
  | Some t =>
      if w_created W then
        if w_written W then (true, [EvFormat text; EvCreate path; EvWrite path t; EvClose path])
        else (false, [EvFormat text; EvCreate path; EvWrite path t; EvFatal "failed to write generated tables to file"])
      else (false, [EvFormat text; EvCreate path; EvFatal "failed to open: %s %s"])
  end.
Definition nl : string := String (ascii_of_nat 10) "".
Definition flag (n : string) (v : option string) : list (string * string) := match v with Some v => [(n, v)] | None => [] end.
(** The text is that of tables.go, but for the name of the package. *)
Definition formattedText (o : option (bool * list event)) : list string := match o with Some (_, EvFormat l :: _) => l | _ => [] end.
Definition theBody : list string := Eval vm_compute in
  drop 2 (formattedText (observed (execute (World [("out", "x")] None true true) 3000 [util_go; gentables_go]))).
Definition theText (pkg : string) : list string := ("// Code generated by gentables. DO NOT EDIT." ++ nl)%string :: (nl ++ "package " ++ pkg ++ nl)%string :: theBody.

Theorem C52_gentables : forall out pkg fmt created written,
  let W := World (flag "out" out ++ flag "package" pkg) fmt created written in
  does W [util_go; gentables_go]
    (if String.eqb (default "" out) "" then (false, [EvFatal "outfile cannot be empty"])
     else finishes (default "" out) (theText (default "shared" pkg)) W).
Proof.
  intros out pkg fmt created written W. apply (does_by _ _ _ 3000%nat).
  destruct out as [[|c path] |]; [destruct pkg; vm_compute; reflexivity | | destruct pkg; vm_compute; reflexivity].
  destruct pkg as [pkg|]; destruct fmt as [t|]; [destruct created; [destruct written|]| |destruct created; [destruct written|]|].
  all: (vm_compute; reflexivity).
Qed.

(** The command of "go generate" in pkg/shared, what it is given, and that the text is the
    checked-in file. *)
Theorem C52_tables :
  (exists c, generateLine shared_gen_go = Some c /\ take 3 (words c) = ["go"; "run"; "./main/gentables.go"] /\
     flagsOf (drop 3 (words c)) = Some (flag "out" (Some "./tables.go") ++ flag "package" (Some "shared"))) /\
  writes (together (theText "shared")) shared_tables_go /\
  parse (List.removelast (linesOf (together (theText "shared")))) = parse shared_tables_go.
Proof.
  split; [|split].
  - eexists. split; [vm_compute; reflexivity|]. split; vm_compute; reflexivity.
  - unfold writes. rewrite linesOf_together. vm_compute. reflexivity.
  - rewrite linesOf_together. vm_compute. reflexivity.
Qed.

(** *** The assembly generators *)
(** The lines written by avo after the program has run *)
Definition avoWrites (args : string) (r : gres (list gval)) : option (list event * list string) :=
  match r with Done _ s => match printFile args s with Some ls => Some (rev (g_events s), ls) | None => None end | _ => None end.
Definition generates (W : world) (fs : list (list string)) (args : string) (ls : list string) : Prop :=
  exists N, forall n, (N <= n)%nat -> avoWrites args (execute W n fs) = Some ([EvGenerate], ls).
Lemma generates_by W fs args ls N : avoWrites args (execute W N fs) = Some ([EvGenerate], ls) -> generates W fs args ls.
Proof.
  intros H. exists N. intros n L. rewrite (execute_more W N n fs L); [done|]. intros E. by rewrite E in H.
Qed.
(** encode_amd64.s and decode_amd64.s, byte for byte *)
Theorem C52_assembly : forall W,
  (exists c, generateLine encode_gen_go = Some ("go run ./main/asm.go " ++ c)%string /\ generates W [shared_asm_go; encode_asm_go] c encode_amd64_s) /\
  (exists c, generateLine decode_gen_go = Some ("go run ./main/asm.go " ++ c)%string /\ generates W [shared_asm_go; decode_asm_go] c decode_amd64_s).
Proof.
  intros W. split.
  - exists "-out ./encode_amd64.s". split; [vm_compute; reflexivity|]. apply (generates_by _ _ _ _ 300%nat). vm_compute. reflexivity.
  - exists "-out ./decode_amd64.s". split; [vm_compute; reflexivity|]. apply (generates_by _ _ _ _ 300%nat). vm_compute. reflexivity.
Qed.
(** The descriptions the programs build are those of AvoGen.v (used in C40). *)
Definition descriptions (r : gres (list gval)) : list (string * signature * option (list vinstr)) :=
  match r with Done _ s => map (fun d => (d_name d, d_sig d, Some (emitted (d_state d)))) (rev (g_descs s)) | _ => [] end.
Theorem C52_descriptions : forall W, exists N, forall n, (N <= n)%nat ->
  descriptions (execute W n [shared_asm_go; encode_asm_go]) =
    [("Put8uint32FastAsm", enc_signature, described enc_signature enc_regular);
     ("Put8uint32DeltaFastAsm", enc_signatureDelta, described enc_signatureDelta enc_differential)] /\
  descriptions (execute W n [shared_asm_go; decode_asm_go]) =
    [("Get8uint32FastAsm", dec_signature, described dec_signature dec_regular);
     ("Get8uint32DeltaFastAsm", dec_signatureDelta, described dec_signatureDelta dec_differential)].
Proof.
  intros W. exists 300%nat. intros n L.
  assert (D : forall fs l, descriptions (execute W 300 fs) = l -> l <> [] -> descriptions (execute W n fs) = l).
  { intros fs l H N. rewrite (execute_more W 300 n fs L); [done|]. intros E. rewrite E in H. by subst. }
  split; (apply D; [vm_compute; reflexivity | discriminate]).
Qed.

(** *** Registers *)
(** Whatever the description: if avo finds registers, the routine with these registers does
    what the description says. *)
Theorem C52_registers : forall s rg rx, registers s = Some (rg, rx) -> created s ->
  live defg useg (emitted s) = [] -> live defx usex (emitted s) = [] ->
  forall a ps m, run (call_described a (emitted s) ps) m = run (call_asm a (map (assign rg rx) (emitted s)) ps) m.
Proof. exact registers_sound. Qed.
(** The registers found for the descriptions of the repository are those of the routines of
    the model. *)
Definition routines (r : gres (list gval)) : list (string * option (list instr)) :=
  match r with
  | Done _ s => map (fun d => (d_name d, match registers (d_state d) with Some (rg, rx) => Some (map (assign rg rx) (emitted (d_state d))) | None => None end)) (rev (g_descs s))
  | _ => []
  end.
Theorem C52_routines : forall W, exists N, forall n, (N <= n)%nat ->
  routines (execute W n [shared_asm_go; encode_asm_go]) =
    [("Put8uint32FastAsm", Some Put8uint32FastAsm_code); ("Put8uint32DeltaFastAsm", Some Put8uint32DeltaFastAsm_code)] /\
  routines (execute W n [shared_asm_go; decode_asm_go]) =
    [("Get8uint32FastAsm", Some Get8uint32FastAsm_code); ("Get8uint32DeltaFastAsm", Some Get8uint32DeltaFastAsm_code)].
Proof.
  intros W. exists 300%nat. intros n L.
  assert (D : forall fs l, routines (execute W 300 fs) = l -> l <> [] -> routines (execute W n fs) = l).
  { intros fs l H N. rewrite (execute_more W 300 n fs L); [done|]. intros E. rewrite E in H. by subst. }
  split; (apply D; [vm_compute; reflexivity | discriminate]).
Qed.
(** The hypotheses of [C52_registers] hold of the four descriptions. *)
Definition fitting (s : bstate) : bool :=
  match registers s with Some _ => true | None => false end &&
  forallb (fun i =>
    match defg i with Some d => Nat.ltb d (nextG s) | None => true end && forallb (fun u => Nat.ltb u (nextG s)) (useg i) &&
    match defx i with Some d => Nat.ltb d (nextX s) | None => true end && forallb (fun u => Nat.ltb u (nextX s)) (usex i)) (emitted s) &&
  match live defg useg (emitted s), live defx usex (emitted s) with [], [] => true | _, _ => false end.
Example C52_registers_example : forall W,
  match execute W 300 [shared_asm_go; encode_asm_go], execute W 300 [shared_asm_go; decode_asm_go] with
  | Done _ s, Done _ t => map (fun d => fitting (d_state d)) (g_descs s ++ g_descs t) = [true; true; true; true]
  | _, _ => False
  end.
Proof. intros W. vm_compute. reflexivity. Qed.
(** Two values needed at the same time get different registers; with more than there are
    registers, none are found. *)
Example C52_registers_example2 :
  let s k := BState k 0 (map (fun n => vMOVQ_arg 0 n) (seq 0 k) ++ map (fun n => vMOVW_ret n 8) (seq 0 k)) in
  match registers (s 6%nat) with Some (rg, _) => map rg (seq 0 6) = gprs | None => False end /\ registers (s 7%nat) = None.
Proof. vm_compute. split; reflexivity. Qed.
