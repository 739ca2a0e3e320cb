(** * The repository as a program

    The source files selected for an architecture, parsed and linked.  Functions of other
    modules (math/bits, encoding/binary, golang.org/x/sys/cpu) are given by the models
    used elsewhere. *)
From Coq Require Import ZArith List String Ascii Bool.
From Verif Require Import GoSem Shared Asm Encode Util SourceText GoSyntax GoInterp AsmText.
Import ListNotations.
Local Open Scope string_scope.
Local Open Scope list_scope.
Local Open Scope Z_scope.

(** ** Which files are built (go/build: file name suffix and "// +build" line) *)
Fixpoint endsIn (suf s : string) : bool :=
  String.eqb suf s || match s with String _ r => endsIn suf r | EmptyString => false end.
(** A "// +build" constraint applies if it stands before the package clause; the files of
    the repository have it on the first line, with one term. *)
Definition buildTag (amd64 : bool) (ls : list string) : option bool :=
  match ls with
  | l :: _ => match strip "// +build " l with
              | Some t => if String.eqb t "amd64" then Some amd64 else if String.eqb t "!amd64" then Some (negb amd64) else None
              | None => Some true
              end
  | [] => Some true
  end.
Definition selected (amd64 : bool) (path : string) (ls : list string) : option bool :=
  if endsIn "_amd64.go" path || endsIn "_amd64.s" path then option_map (andb amd64) (buildTag amd64 ls) else buildTag amd64 ls.

(** ** Linking *)
Record program := Program { p_decls : list (string * decl); p_asm : list routine }.
Fixpoint link (amd64 : bool) (fs : list (string * list string)) : option program :=
  match fs with
  | [] => Some (Program [] [])
  | (path, ls) :: r =>
    match selected amd64 path ls, link amd64 r with
    | Some false, Some p => Some p
    | Some true, Some p =>
        if endsIn ".s" path then
          match readAsm ls with Some a => Some (Program (p_decls p) (a_routines a ++ p_asm p)) | None => None end
        else match parse ls with
             | Some f => Some (Program (map (fun d => (package f, d)) (decls f) ++ p_decls p) (p_asm p))
             | None => None
             end
    | _, _ => None
    end
  end.
Definition declName (d : decl) : string :=
  match d with DFunc f => f_name f | DConst x _ _ _ => x | DVar x _ _ => x | DType x _ => x end.
Fixpoint declared (l : list (string * decl)) (p x : string) : option decl :=
  match l with
  | [] => None
  | (q, d) :: r => if String.eqb p q && String.eqb x (declName d) then Some d else declared r p x
  end.

Section linked.
(** The bits of int, the processor, the program. *)
Variable w : Z.
Variable a : arch.
Variable P : program.

Definition types (p x : string) : option kind :=
  match declared (p_decls P) p x with Some (DType _ (TyName t)) => basic t | _ => None end.

(** Constants. *)
Fixpoint constant (n : nat) (p : string) (iota : Z) (e : expr) : option Z :=
  match n with
  | O => None
  | S n' =>
    match e with
    | EInt z => Some z
    | EId x =>
        if String.eqb x "iota" then Some iota
        else match declared (p_decls P) p x with Some (DConst _ _ e i) => constant n' p i e | _ => None end
    | EBin o a b => match constant n' p iota a, constant n' p iota b with Some x, Some y => cop o x y | _, _ => None end
    | _ => None
    end
  end.
(** Tables: &[n]uint8{...}, &[n][m]uint8{...} *)
Definition byteLit (e : expr) : option Z := match e with EInt z => if (0 <=? z) && (z <=? 255) then Some z else None | _ => None end.
Definition row (m : Z) (e : expr) : option (list Z) :=
  match e with
  | ELit None es => if Z.of_nat (List.length es) =? m then allSome (map byteLit es) else None
  | _ => None
  end.
Definition isByte (t : ty) : bool := match t with TyName x => match basic x with Some U8 => true | _ => false end | _ => false end.
Definition table (e : expr) : option value :=
  match e with
  | EUn o (ELit (Some (TyArray n (TyArray m t))) es) =>
      if String.eqb o "&" && isByte t && (Z.of_nat (List.length es) =? n) then option_map (VArr2 n m) (allSome (map (row m) es)) else None
  | EUn o (ELit (Some (TyArray n t)) es) =>
      if String.eqb o "&" && isByte t && (Z.of_nat (List.length es) =? n) then option_map (VArr n) (allSome (map byteLit es)) else None
  | _ => None
  end.
(** Constants, tables, and the feature bits of golang.org/x/sys/cpu. *)
Definition glob0 (p x : string) : option value :=
  if String.eqb p "cpu.X86" then
    match a with
    | AMD64 avx avx2 => if String.eqb x "HasAVX" then Some (VBool avx) else if String.eqb x "HasAVX2" then Some (VBool avx2) else None
    | OtherArch => None
    end
  else match declared (p_decls P) p x with
  | Some (DConst _ t e i) =>
      match constant 9 p i e, t with
      | Some z, None => Some (VConst z)
      | Some z, Some t => option_map (fun k => VInt k z) (kindOf p types t)
      | None, _ => None
      end
  | Some (DVar _ _ (Some e)) => table e
  | _ => None
  end.

(** math/bits.LeadingZeros32, encoding/binary.PutUvarint and Uvarint *)
Definition extern (p f : string) (args : list value) : option (prog R) :=
  if String.eqb p "bits" then
    if String.eqb f "LeadingZeros32" then
      match args with [VInt U32 x] => Some (Ret [VInt INT (LeadingZeros32 x)]) | _ => None end
    else None
  else if String.eqb p "binary" then
    if String.eqb f "PutUvarint" then
      match args with [VBytes b; VInt U64 x] => Some (bind (PutUvarint b x) (fun n => Ret [VInt INT n])) | _ => None end
    else if String.eqb f "Uvarint" then
      match args with [VBytes b] => Some (bind (Uvarint true b) (fun r => Ret [VInt U64 (fst r); VInt INT (snd r)])) | _ => None end
    else None
  else None.

(** A function without a body is an assembly routine: the arguments are passed in the frame. *)
Definition frameArg (v : value) : option Asm.param :=
  match v with
  | VWords s => Some (argW s)
  | VBytes s => Some (argB s)
  | VInt U16 z => Some (PU16 z)
  | VInt U32 z => Some (PU32 z)
  | VArr _ l => Some (PPtr (PT l 0))
  | VArr2 _ _ l => Some (PPtr (PT (List.concat l) 0))
  | _ => None
  end.
Definition assembly (f : func) (args : list value) : prog R :=
  match routineNamed (p_asm P) (f_name f), allSome (map frameArg args) with
  | Some r, Some ps =>
      match f_results f with
      | [] => bind (call_asm a (r_code r) ps) (fun _ => Ret [])
      | [(_, TyName t)] =>
          if String.eqb t "uint16" then
            bind (call_asm a (r_code r) ps) (fun o => match o with Some z => Ret [VInt U16 z] | None => Fault end)
          else Fault
      | _ => Fault
      end
  | _, _ => Fault
  end.

(** Calling function [f] of package [p]; [n] bounds the depth of calls and the rounds of loops. *)
Fixpoint callWith (glob : string -> string -> option value) (blk : nat) (n : nat) (p f : string) (args : list value) : prog R :=
  match n with
  | O => Diverge
  | S n' =>
    match extern p f args with
    | Some q => q
    | None =>
      match declared (p_decls P) p f with
      | Some (DFunc fn) =>
          match f_body fn with
          | Some b => apply w p types glob (callWith glob blk n') blk n' fn b args
          | None => assembly fn args
          end
      | _ => Fault
      end
    end
  end.

(** Package variables without initial value are assigned by func init. *)
Definition unassigned (p : string) : env :=
  flat_map (fun qd => if String.eqb p (fst qd) then match snd qd with DVar x _ None => [(x, VNil)] | _ => [] end else []) (p_decls P).
Definition initialised (p : string) : option env :=
  match declared (p_decls P) p "init" with
  | Some (DFunc (Func _ [] [] (Some b))) =>
      match sts w p types glob0 (callWith glob0 0%nat 9) 0%nat 9 b (unassigned p) (fun s => Ret (map snd s)) (fun _ => Fault) (fun _ => Fault) with
      | Ret vs => Some (combine (map fst (unassigned p)) vs)
      | _ => None
      end
  | _ => Some []
  end.
Definition glob (p x : string) : option value :=
  match glob0 p x with
  | Some v => Some v
  | None => match initialised p with Some s => lookup s x | None => None end
  end.
Definition call (blk n : nat) (p f : string) (args : list value) : prog R := callWith glob blk n p f args.
End linked.
