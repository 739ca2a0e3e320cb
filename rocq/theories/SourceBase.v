(** * Stepping through the source text: functions, globals, tactics *)
From Coq Require Import ZArith List String Ascii Bool Lia.
From Verif Require Import GoSem Tables Shared Asm AsmProgs Encode Decode Util IntOps SourceText GoSyntax GoInterp AsmText GoProgram GoSource GoRefine.
Import ListNotations.
Local Open Scope string_scope.
Local Open Scope list_scope.
Local Open Scope Z_scope.

(** ** Calls *)
Lemma call_body w a P g blk n p f args fn b :
  extern p f args = None -> declared (p_decls P) p f = Some (DFunc fn) -> f_body fn = Some b ->
  callWith w a P g blk (S n) p f args = apply w p (types P) g (callWith w a P g blk n) blk n fn b args.
Proof. intros E D B. cbn [callWith]. rewrite E, D, B. reflexivity. Qed.
Lemma call_assembly w a P g blk n p f args fn :
  extern p f args = None -> declared (p_decls P) p f = Some (DFunc fn) -> f_body fn = None ->
  callWith w a P g blk (S n) p f args = assembly a P fn args.
Proof. intros E D B. cbn [callWith]. rewrite E, D, B. reflexivity. Qed.
Lemma call_extern w a P g blk n p f args q :
  extern p f args = Some q -> callWith w a P g blk (S n) p f args = q.
Proof. intros E. cbn [callWith]. rewrite E. reflexivity. Qed.

(** ** Package constants, tables and variables *)
Section globals.
Variable w : Z.
Variable a : arch.
Notation G := (glob w a (source a)).
Lemma g_PerNumLenTable : G "shared" "PerNumLenTable" = Some (VArr2 256 4 PerNumLenTable).
Proof. destruct a as [[] []|]; vm_compute; reflexivity. Qed.
Lemma g_PerControlLenTable : G "shared" "PerControlLenTable" = Some (VArr 256 PerControlLenTable).
Proof. destruct a as [[] []|]; vm_compute; reflexivity. Qed.
Lemma g_EncodeShuffleTable : G "shared" "EncodeShuffleTable" = Some (VArr2 256 16 EncodeShuffleTable).
Proof. destruct a as [[] []|]; vm_compute; reflexivity. Qed.
Lemma g_DecodeShuffleTable : G "shared" "DecodeShuffleTable" = Some (VArr2 256 16 DecodeShuffleTable).
Proof. destruct a as [[] []|]; vm_compute; reflexivity. Qed.
Lemma g_Fast : G "shared" "Fast" = Some (VInt INT 1).
Proof. destruct a as [[] []|]; vm_compute; reflexivity. Qed.
Lemma g_Normal : G "shared" "Normal" = Some (VInt INT 0).
Proof. destruct a as [[] []|]; vm_compute; reflexivity. Qed.
Lemma g_MaxBytesPerNum : G "encode" "MaxBytesPerNum" = Some (VConst 4).
Proof. destruct a as [[] []|]; vm_compute; reflexivity. Qed.
Lemma g_wjump : G "writer" "jump" = Some (VConst 16).
Proof. destruct a as [[] []|]; vm_compute; reflexivity. Qed.
Lemma g_wjumpCtrl : G "writer" "jumpCtrl" = Some (VConst 4).
Proof. destruct a as [[] []|]; vm_compute; reflexivity. Qed.
Lemma g_rjump : G "reader" "jump" = Some (VConst 16).
Proof. destruct a as [[] []|]; vm_compute; reflexivity. Qed.
Lemma g_rjumpCtrl : G "reader" "jumpCtrl" = Some (VConst 4).
Proof. destruct a as [[] []|]; vm_compute; reflexivity. Qed.
Lemma g_HasAVX b c : glob w (AMD64 b c) (source (AMD64 b c)) "cpu.X86" "HasAVX" = Some (VBool b).
Proof. reflexivity. Qed.
Lemma g_HasAVX2 b c : glob w (AMD64 b c) (source (AMD64 b c)) "cpu.X86" "HasAVX2" = Some (VBool c).
Proof. reflexivity. Qed.
Lemma g_putImpl : G "encode" "putImpl" =
  Some (VFn "encode" match encGetMode a with Fast => "Put8uint32Fast" | Normal => "Put8uint32Scalar" end).
Proof. destruct a as [[] []|]; vm_compute; reflexivity. Qed.
Lemma g_putDeltaImpl : G "encode" "putDeltaImpl" =
  Some (VFn "encode" match encGetMode a with Fast => "Put8uint32DeltaFast" | Normal => "Put8uint32DeltaScalar" end).
Proof. destruct a as [[] []|]; vm_compute; reflexivity. Qed.
Lemma g_getImpl : G "decode" "getImpl" =
  Some (VFn "decode" match decGetMode a with Fast => "Get8uint32Fast" | Normal => "Get8uint32Scalar" end).
Proof. destruct a as [[] []|]; vm_compute; reflexivity. Qed.
Lemma g_getDeltaImpl : G "decode" "getDeltaImpl" =
  Some (VFn "decode" match decGetMode a with Fast => "Get8uint32DeltaFast" | Normal => "Get8uint32DeltaScalar" end).
Proof. destruct a as [[] []|]; vm_compute; reflexivity. Qed.

(** Functions called by their plain name are not shadowed by constants or variables. *)
Definition functions : list (string * string) :=
  map (pair "encode") ["GetMode"; "Put8uint32Fast"; "Put8uint32DeltaFast"; "Put8uint32Scalar"; "Put8uint32DeltaScalar"; "Put8uint32FastAsm";
    "Put8uint32DeltaFastAsm"; "Put4uint32Scalar"; "Put4uint32DeltaScalar"; "encodeOne"; "max"] ++
  map (pair "decode") ["GetMode"; "Get8uint32Fast"; "Get8uint32DeltaFast"; "Get8uint32Scalar"; "Get8uint32DeltaScalar"; "Get8uint32FastAsm";
    "Get8uint32DeltaFastAsm"; "Get4uint32Scalar"; "Get4uint32DeltaScalar"; "decodeOne"] ++
  map (pair "writer") ["WriteAllFast"; "WriteAllDeltaFast"; "WriteAllScalar"; "WriteAllDeltaScalar"] ++
  map (pair "reader") ["ReadAllFast"; "ReadAllDeltaFast"; "ReadAllScalar"; "ReadAllDeltaScalar"].
Lemma g_function p f : existsb (fun q => String.eqb p (fst q) && String.eqb f (snd q)) functions = true -> G p f = None.
Proof.
  intros H. apply existsb_exists in H as ([p' f'] & Hin & H). apply andb_true_iff in H as [Hp Hf].
  apply String.eqb_eq in Hp, Hf. cbn [fst snd] in Hp, Hf. subst p' f'. revert Hin.
  assert (K : forallb (fun q => match G (fst q) (snd q) with None => true | _ => false end) functions = true)
    by (destruct a as [[] []|]; vm_compute; reflexivity).
  rewrite forallb_forall in K. intros Hin. specialize (K _ Hin). cbn [fst snd] in K. destruct (G p f); [discriminate | reflexivity].
Qed.
End globals.

(** ** Tactics *)
Definition fnOf (P : program) (p f : string) : func :=
  match declared (p_decls P) p f with Some (DFunc x) => x | _ => Func "" [] [] None end.

Section steps.
Variables (w : Z) (pk : string) (types : string -> string -> option kind) (glob : string -> string -> option value)
  (call : string -> string -> list value -> prog R) (blk fuel : nat).
Notation sts := (sts w pk types glob call blk fuel).
Notation st := (st w pk types glob call blk fuel).
Notation ev := (ev w pk types glob call blk).
Lemma sts_nil s k kr kf : sts [] s k kr kf = k s.
Proof. reflexivity. Qed.
Lemma sts_cons x r s k kr kf : sts (x :: r) s k kr kf = st x s (fun s' => sts r s' k kr kf) kr kf.
Proof. reflexivity. Qed.
Lemma st_if c x y s k kr kf : st (SIf c x y) s k kr kf =
  ev c s (one (boolean (fun t => if t then sts x s (fun s' => k (leave s s')) kr kf else sts y s (fun s' => k (leave s s')) kr kf))).
Proof. reflexivity. Qed.
Lemma st_block b s k kr kf : st (SBlock b) s k kr kf = sts b s (fun s' => k (leave s s')) kr kf.
Proof. reflexivity. Qed.
Lemma st_for c post body s k kr kf : st (SFor c post body) s k kr kf =
  loop fuel (fun s k => match c with Some c => ev c s (one (boolean k)) | None => k true end)
    (fun s k => sts body s (fun s' => sts post (leave s s') k kr kf) kr kf) s k.
Proof. reflexivity. Qed.
Lemma st_range x e body s k kr kf : st (SRange x e body) s k kr kf =
  ev e s (one (fun v =>
    match v with
    | VBytes t | VWords t => rloop w fuel (s_len t) (fun i s k => sts body ((x, VInt INT i) :: s) (fun s' => k (leave s s')) kr kf) 0 s k
    | _ => Fault
    end)).
Proof. reflexivity. Qed.
End steps.

(** Evaluate the interpreter, keeping the primitives of GoSem, arithmetic and calls. *)
Ltac eval_source :=
  cbv [bindParams bindResults give typed_as kindOf basic f_name f_params f_results f_body
       sts seqs st rhs evs ev name assign store matches one boolean binary iop idivide cop isShift isDiv ishift convert num below arrayCheck
       index slicing lookup update like leave dflt declare wrap kind_eqb option_map
       String.eqb Ascii.eqb Bool.eqb String.append andb negb orb List.app List.length List.skipn Nat.sub fst snd
       Z.compare Pos.compare Pos.compare_cont CompOpp Z.opp] in |- *.
Ltac globals :=
  rewrite ?g_HasAVX, ?g_HasAVX2, ?g_PerNumLenTable, ?g_PerControlLenTable, ?g_EncodeShuffleTable, ?g_DecodeShuffleTable, ?g_Fast, ?g_Normal, ?g_MaxBytesPerNum,
    ?g_wjump, ?g_wjumpCtrl, ?g_rjump, ?g_rjumpCtrl, ?g_putImpl, ?g_putDeltaImpl, ?g_getImpl, ?g_getDeltaImpl;
  repeat match goal with |- context [glob ?w ?a (source ?a) ?p ?f] => rewrite (g_function w a p f eq_refl) end.
(** Enter a function. *)
Ltac source D F :=
  match goal with |- context [callWith ?w ?a ?P ?g ?b (S ?n) ?p ?f ?args] =>
    rewrite (call_body w a P g b n p f args _ _ eq_refl D eq_refl) end; unfold F;
  cbv [apply bindParams typed_as kindOf basic option_map String.eqb Ascii.eqb Bool.eqb f_name f_params f_results f_body].
(** The next statement. *)
Ltac step :=
  cbv beta; rewrite ?sts_nil; cbv beta;
  cbv [leave List.length List.skipn Nat.sub];
  lazymatch goal with
  | |- ref _ (sts _ _ _ _ _ _ _ (SFor _ _ _ :: _) _ _ _ _) => rewrite sts_cons, st_for
  | |- ref _ (sts _ _ _ _ _ _ _ (SBlock _ :: _) _ _ _ _) => rewrite sts_cons, st_block; step
  | |- ref _ (sts _ _ _ _ _ _ _ (SRange _ _ _ :: ?r) _ ?k ?kr ?kf) =>
      rewrite sts_cons, st_range; cbv [ev name one lookup String.eqb Ascii.eqb Bool.eqb]
  | |- ref _ (sts _ _ _ _ _ _ _ (SIf _ _ _ :: _) _ _ _ _) =>
      rewrite sts_cons, st_if;
      match goal with |- ref _ (ev _ _ _ _ _ _ _ _ (one (boolean ?F))) =>
        let K := fresh "K" in set (K := F); eval_source; globals; eval_source; subst K; cbv beta end
  | |- ref _ (sts ?w ?pk ?ty ?g ?c ?b ?n (_ :: ?r) _ ?k ?kr ?kf) =>
      rewrite sts_cons;
      let K := fresh "K" in set (K := fun s' => sts w pk ty g c b n r s' k kr kf); eval_source; globals; eval_source
  | |- ref _ (give _ _ _ _) => eval_source
  | |- ref _ (?K _) => subst K; step
  end.

(** Proves the goal left by a call; redefined when more functions are known. *)
Ltac callee := fail.
(** Proves a fact about the result of a call; redefined likewise. *)
Ltac ranged := fail.
(** One step on both sides: a primitive, a call, a test, or the next statement. *)
Ltac both :=
  lazymatch goal with
  | |- ref (bind (bind _ _) _) _ => apply ref_assoc
  | |- ref (bind (Ret ?x) ?f) ?q => change (ref (f x) q); cbv beta
  | |- ref ?p (bind (Ret ?x) ?f) => change (ref p (f x)); eval_source
  | |- ref (Ret _) (Ret _) => apply ref_refl
  | |- ref GoPanic GoPanic => apply ref_panic
  | |- ref (bind GoPanic _) GoPanic => apply ref_panic
  | |- ref (bind ?p _) (bind ?p _) => apply ref_same; intros ?; eval_source
  | |- ref (bind _ _) (bind (callWith _ _ _ _ _ _ _ _ _) _) =>
      first [eapply ref_call_post; [solve [ranged] | solve [callee] | let HR := fresh "HR" in intros ? HR; cbv beta in HR; eval_source] | eapply ref_call; [solve [callee] | intros ?; eval_source]]
  | |- ref (if ?c then _ else _) (if ?c then _ else _) => destruct c eqn:?
  | |- ref (bind (if ?c then _ else _) _) (if ?c then _ else _) => destruct c eqn:?
  | |- ref _ _ => step
  end.
(** Enough fuel for one more call. *)
Ltac more n := destruct n as [|n]; [lia |].
(** Enter an assembly routine. *)
Ltac assembler D L :=
  match goal with |- context [callWith ?w ?a ?P ?g ?b (S ?n) ?p ?f ?args] =>
    rewrite (call_assembly w a P g b n p f args _ eq_refl D eq_refl); unfold assembly;
    let E := fresh "E" in pose proof L as E;
    match goal with |- context [routineNamed (p_asm P) ?x] => change x with f end;
    destruct (routineNamed (p_asm P) f) as [?|]; cbn [option_map] in E; [injection E as E; rewrite E | discriminate E]
  end; cbv [map frameArg allSome f_results String.eqb Ascii.eqb Bool.eqb].

(** Loops: the variables which the model carries from one round to the next, in its order. *)
Fixpoint put (s : env) (x : string) (v : value) : env :=
  match s with
  | [] => []
  | (y, w) :: r => if String.eqb x y then (y, v) :: r else (y, w) :: put r x v
  end.
Ltac put_eval e := eval cbv [put String.eqb Ascii.eqb Bool.eqb] in e.
Ltac loop3 u v w :=
  match goal with |- ref _ (loop _ _ _ ?s _) =>
    let e := put_eval (fun '(x, y, z) => put (put (put s u (VInt INT x)) v (VInt INT y)) w (VInt INT z)) in
    apply (ref_loop _ _ e (fun _ => True)) end.
Ltac loop4 u v w p :=
  match goal with |- ref _ (loop _ _ _ ?s _) =>
    let e := put_eval (fun '(x, y, z, q) => put (put (put (put s u (VInt INT x)) v (VInt INT y)) w (VInt INT z)) p (VInt U32 q)) in
    apply (ref_loop _ _ e (fun _ => True)) end.
