(** * Executing the generator programs

    An interpreter for the programs behind "go generate": pkg/shared/main/gentables.go and,
    with avo as an external library, pkg/encode/main/asm.go, pkg/decode/main/asm.go and
    pkg/shared/asm.go.  Written from the Go language specification for what these programs
    use: package variables, closures over variables, several results, named results,
    defer, append, range over a literal, methods and fields of values of other modules.

    A run is deterministic; what the world answers (command line, go/format, the file
    system) is given in advance ([world]) and what the program does to it is recorded
    ([event]).  int has 64 bits.  A program the language rejects, and a call of another
    module that is not listed here, is [Stuck]. *)
From stdpp Require Import prelude list pmap strings.
From Coq Require Import ZArith Ascii.
From Verif Require Import SourceText GoInterp GoSyntax AvoGen.
Local Open Scope string_scope.
Local Open Scope list_scope.
Local Open Scope Z_scope.

(** ** Values *)
Definition scopes := list (list (string * positive)).  (* names to locations, innermost scope first *)
Inductive gval :=
| GConst (z : Z)                                 (* untyped integer constant *)
| GInt (k : kind) (z : Z)
| GBool (b : bool)
| GStr (s : string)
| GBytes (l : list string)                       (* a []byte, cut into pieces *)
| GNil
| GErr                                           (* an error *)
| GList (l : list gval)                          (* slices; the programs only append to them and read them *)
| GRef (l : positive)                            (* pointer to a variable *)
| GBuffer                                        (* *bytes.Buffer, also as io.Writer; there is one *)
| GFile (path : string)                          (* *os.File, also as io.Closer *)
| GFn (pkg f : string)                           (* declared function; pkg "" for names of avo/build *)
| GClosure (ps rs : list (string * ty)) (body : list stmt) (e : scopes)
(* avo *)
| GReg (gp : bool) (n : nat) (bits : Z)          (* virtual register, or a part of one *)
| GMem (base : nat) (disp : Z)                   (* operand.Mem *)
| GImm (z : Z)
| GU16 (z : Z)
| GData (z : Z)                                  (* reference to constant data *)
| GComp (o : Z) (t : ptype)                      (* gotypes.Component: offset and type *)
| GBasic (o : Z) (t : ptype)                     (* *gotypes.Basic *)
| GArg (o : Z) (t : ptype).                      (* the address of a parameter *)

(** ** The world *)
Record world := World {
  w_flags : list (string * string);              (* flags given on the command line *)
  w_formatted : option string;                   (* what format.Source answers; None: an error *)
  w_created : bool;                              (* does os.Create succeed *)
  w_written : bool }.                            (* does Write succeed *)
Inductive event :=
| EvFormat (l : list string)                     (* format.Source of the concatenation *)
| EvCreate (path : string)
| EvWrite (path s : string)
| EvClose (path : string)
| EvFatal (s : string)                           (* log.Fatalf with this format; the program exits *)
| EvGenerate.                                    (* avo writes its output *)

(** A routine described with avo: name, signature as text and as read, instructions; has
    RET been emitted? *)
Record desc := Desc { d_name : string; d_text : string; d_sig : signature; d_state : bstate; d_ret : bool }.
Record gst := St {
  g_store : Pmap gval;
  g_next : positive;
  g_out : list string;                           (* the buffer, last piece first *)
  g_events : list event;                         (* last one first *)
  g_data : list (string * Z);                    (* avo constant data, last one first *)
  g_descs : list desc;                           (* avo functions, the active one first *)
  g_defers : list (gval * list gval) }.          (* deferred calls of the running function, last one first *)
Inductive gres (A : Type) :=
| Done (a : A) (s : gst)
| Exit (s : gst)
| Stuck.
Arguments Done {A}. Arguments Exit {A}. Arguments Stuck {A}.
Definition G (A : Type) : Type := gst -> gres A.
Definition gret {A} (a : A) : G A := fun s => Done a s.
Definition gbind {A B} (x : G A) (f : A -> G B) : G B :=
  fun s => match x s with Done a s' => f a s' | Exit s' => Exit s' | Stuck => Stuck end.
Notation "'gdo' x <- e ; k" := (gbind e (fun x => k)) (at level 100, x pattern, e at level 99, k at level 200, right associativity).
Notation "'gdo_' e ; k" := (gbind e (fun _ => k)) (at level 100, e at level 99, k at level 200, right associativity).
Definition stuck {A} : G A := fun _ => Stuck.
Definition ofOption {A} (o : option A) : G A := match o with Some a => gret a | None => stuck end.
Definition alloc (v : gval) : G positive := fun s =>
  Done (g_next s) (St (<[g_next s := v]> (g_store s)) (Pos.succ (g_next s)) (g_out s) (g_events s) (g_data s) (g_descs s) (g_defers s)).
Definition load (l : positive) : G gval := fun s => match g_store s !! l with Some v => Done v s | None => Stuck end.
Definition store (l : positive) (v : gval) : G unit := fun s =>
  Done tt (St (<[l := v]> (g_store s)) (g_next s) (g_out s) (g_events s) (g_data s) (g_descs s) (g_defers s)).
Definition print (t : string) : G unit := fun s =>
  Done tt (St (g_store s) (g_next s) (t :: g_out s) (g_events s) (g_data s) (g_descs s) (g_defers s)).
Definition happen (e : event) : G unit := fun s =>
  Done tt (St (g_store s) (g_next s) (g_out s) (e :: g_events s) (g_data s) (g_descs s) (g_defers s)).
Definition exit {A} : G A := fun s => Exit s.
Definition newData (n : string) (z : Z) : G unit := fun s =>
  Done tt (St (g_store s) (g_next s) (g_out s) (g_events s) ((n, z) :: g_data s) (g_descs s) (g_defers s)).
Definition getDescs : G (list desc) := fun s => Done (g_descs s) s.
Definition setDescs (l : list desc) : G unit := fun s =>
  Done tt (St (g_store s) (g_next s) (g_out s) (g_events s) (g_data s) l (g_defers s)).
Definition getDefers : G (list (gval * list gval)) := fun s => Done (g_defers s) s.
Definition setDefers (l : list (gval * list gval)) : G unit := fun s =>
  Done tt (St (g_store s) (g_next s) (g_out s) (g_events s) (g_data s) (g_descs s) l).

(** ** Operators *)
(** A number as a [k], with int of 64 bits; a number below 256 fits every type. *)
Definition fit (k : kind) (z : Z) : Z := if (0 <=? z) && (z <? 256) then z else wrap 64 k z.
Definition arith (k : option kind) (o : string) (a b : Z) : option gval :=
  let r z := Some match k with Some k => GInt k (fit k z) | None => GConst z end in
  if String.eqb o "+" then r (a + b) else if String.eqb o "-" then r (a - b) else if String.eqb o "*" then r (a * b)
  else if String.eqb o "/" then if b =? 0 then None else r (Z.quot a b)
  else if String.eqb o "%" then if b =? 0 then None else r (Z.rem a b)
  else if String.eqb o "&" then r (Z.land a b) else if String.eqb o "|" then r (Z.lor a b)
  else if String.eqb o "==" then Some (GBool (a =? b)) else if String.eqb o "!=" then Some (GBool (negb (a =? b)))
  else if String.eqb o "<" then Some (GBool (a <? b)) else if String.eqb o "<=" then Some (GBool (a <=? b))
  else if String.eqb o ">" then Some (GBool (b <? a)) else if String.eqb o ">=" then Some (GBool (b <=? a))
  else None.
Definition isNil (v : gval) : option bool := match v with GNil => Some true | GErr => Some false | _ => None end.
Definition gbinary (o : string) (x y : gval) : option gval :=
  if isShift o then
    match x, y with
    | GConst a, GConst b => option_map GConst (cop o a b)
    | GInt k a, (GConst b | GInt _ b) =>
        if b <? 0 then None else Some (GInt k (if String.eqb o "<<" then fit k (Z.shiftl a b) else Z.shiftr a b))
    | _, _ => None
    end
  else match x, y with
  | GConst a, GConst b => arith None o a b
  | GInt k a, GConst b | GConst a, GInt k b => arith (Some k) o a b
  | GInt k a, GInt k' b => if kind_eqb k k' then arith (Some k) o a b else None
  | GStr a, GStr b => if String.eqb o "==" then Some (GBool (String.eqb a b)) else if String.eqb o "!=" then Some (GBool (negb (String.eqb a b))) else None
  | v, GNil => if String.eqb o "!=" then option_map (fun b => GBool (negb b)) (isNil v)
               else if String.eqb o "==" then option_map GBool (isNil v) else None
  | _, _ => None
  end.
(** A value assigned to a variable of type [t]; without a type, a constant becomes an int. *)
Definition typedTo (t : option ty) (v : gval) : option gval :=
  match t with
  | Some (TyName x) =>
      match basic x with
      | Some k => match v with GConst z => Some (GInt k (fit k z)) | GInt k' _ => if kind_eqb k k' then Some v else None | _ => None end
      | None => match v with GConst z => Some (GInt INT (fit INT z)) | _ => Some v end
      end
  | _ => match v with GConst z => Some (GInt INT (fit INT z)) | _ => Some v end
  end.
Definition zeroOf (t : ty) : option gval :=
  match t with
  | TyName x => option_map (fun k => GInt k 0) (basic x)
  | TySlice _ => Some (GList [])
  | _ => None
  end.

(** ** fmt: the verbs %s, %d, %x, %b with the flags # and 0 and a width *)
Definition digitChar (d : Z) : ascii := ascii_of_nat (Z.to_nat (if d <? 10 then 48 + d else 87 + d)).
Fixpoint digitsOf (n : nat) (base z : Z) (acc : string) : string :=
  match n with
  | O => acc
  | S n' => let acc := String (digitChar (z mod base)) acc in if z <? base then acc else digitsOf n' base (z / base) acc
  end.
Fixpoint zeros (n : nat) (s : string) : string := match n with O => s | S n' => String "0" (zeros n' s) end.
(** The digits of [z], with zeros in front up to [width] digits. *)
Definition numeral (base : Z) (width : nat) (z : Z) : string :=
  let d := digitsOf 70 base z "" in zeros (width - String.length d) d.
Definition verb (c : ascii) (sharp zero : bool) (width : nat) (v : gval) : option string :=
  let num f := match v with
               | GInt _ z | GConst z => if z <? 0 then None else if negb zero && Nat.ltb 0 width then None else Some (f z)
               | _ => None
               end in
  if code c =? 115 then match v with GStr s => if Nat.eqb width 0 then Some s else None | _ => None end
  else if code c =? 100 then num (numeral 10 width)
  else if code c =? 120 then num (fun z => (if sharp then "0x" else "") ++ numeral 16 width z)%string
  else if code c =? 98 then if sharp then None else num (numeral 2 width)
  else None.
Fixpoint fmtText (n : nat) (s : string) (vs : list gval) : option string :=
  match n with
  | O => None
  | S n' =>
    match s with
    | EmptyString => match vs with [] => Some "" | _ => None end
    | String c r =>
      if code c =? 37 then
        let '(fl, r1) := span (fun c => (code c =? 35) || (code c =? 48)) r in
        let '(wd, r2) := span isDigit r1 in
        let has x := existsb (fun c => code c =? x) (list_ascii_of_string fl) in
        match r2, vs, (match wd with EmptyString => Some 0 | _ => digits 10 0 wd end) with
        | String v r3, a :: vs', Some wd =>
            match verb v (has 35) (has 48) (Z.to_nat wd) a, fmtText n' r3 vs' with
            | Some x, Some y => Some (x ++ y)%string
            | _, _ => None
            end
        | _, _, _ => None
        end
      else option_map (String c) (fmtText n' r vs)
    end
  end.
Definition sprintf (s : string) (vs : list gval) : option string := fmtText (S (String.length s)) s vs.

(** ** avo *)
(** A signature as TEXT takes it. *)
Definition ptypeOf (t : ty) : option ptype :=
  match t with
  | TySlice (TyName "uint32") | TySlice (TyName "byte") => Some TSlice
  | TyPtr (TyArray _ _) => Some TPtr
  | TyName "uint16" => Some TU16
  | TyName "uint32" => Some TU32
  | _ => None
  end.
Definition components (l : list (string * ty)) : option (list (string * ptype)) :=
  allSome (map (fun p => option_map (pair (fst p)) (ptypeOf (snd p))) l).
Definition readSignature (s : string) : option signature :=
  match lexLine (S (String.length s)) s with
  | Some ts =>
      match (kw "func" >> op "(" >> get ps <- params (S (List.length ts)); get rs <- results (S (List.length ts)); ret (ps, rs)) ts with
      | Some ((ps, rs), []) => match components ps, components rs with Some p, Some r => Some (Sig p r) | _, _ => None end
      | _ => None
      end
  | None => None
  end.
(** A building step of AvoGen.v in the active routine *)
Definition inActive {A} (b : build A) : G A :=
  gdo l <- getDescs;
  match l with
  | Desc n t g s false :: r => match b g s with Some (a, s') => gdo_ setDescs (Desc n t g s' false :: r); gret a | None => stuck end
  | _ => stuck
  end.
(** The instruction of that name with these operands (sources first) *)
Definition avoInstr (f : string) (vs : list gval) : option vinstr :=
  match vs with
  | [GReg true s 64; GReg true d 64] => if String.eqb f "MOVQ" then Some (vMOVQ s d) else if String.eqb f "ADDQ" then Some (vADDQ s d) else None
  | [GReg true s 16; GReg true d 64] => if String.eqb f "MOVWQZX" then Some (vMOVWQZX s d) else None
  | [GReg true s 8; GReg true d 64] => if String.eqb f "MOVBQZX" then Some (vMOVBQZX s d) else None
  | [GMem a 0; GReg true d 64] => if String.eqb f "MOVBQZX" then Some (vMOVBQZX_ld a d) else None
  | [GImm n; GReg true d 64] => if String.eqb f "SHLQ" then Some (vSHLQ n d) else if String.eqb f "SHRQ" then Some (vSHRQ n d) else None
  | [GMem a n; GReg false d 128] => if String.eqb f "VLDDQU" then Some (vVLDDQU n a d) else None
  | [GReg false s 128; GMem a n] => if String.eqb f "VMOVDQU" then Some (vVMOVDQU s n a) else None
  | [GData c; GReg false d 128] => if String.eqb f "VPBROADCASTW" then Some (vVPBROADCASTW c d) else None
  | [GArg o TU32; GReg false d 128] => if String.eqb f "VBROADCASTSS" then Some (vVBROADCASTSS_arg o d) else None
  | [GReg false s 128; GReg true d 32] => if String.eqb f "VPMOVMSKB" then Some (vVPMOVMSKB s d) else None
  | [GMem a 0; GReg false s 128; GReg false d 128] => if String.eqb f "VPSHUFB" then Some (vVPSHUFB_ld a s d) else None
  | [GImm n; GReg false s 128; GReg false d 128] =>
      if String.eqb f "VPSLLDQ" then Some (vVPSLLDQ n s d) else if String.eqb f "VPSHUFD" then Some (vVPSHUFD n s d) else None
  | [GReg false a 128; GReg false b 128; GReg false d 128] =>
      if String.eqb f "VPMINUB" then Some (vVPMINUB a b d) else if String.eqb f "VPACKUSWB" then Some (vVPACKUSWB a b d)
      else if String.eqb f "VPMINSW" then Some (vVPMINSW a b d) else if String.eqb f "VPADDUSW" then Some (vVPADDUSW a b d)
      else if String.eqb f "VPSUBD" then Some (vVPSUBD a b d) else if String.eqb f "VPADDD" then Some (vVPADDD a b d) else None
  | [GImm n; GReg false a 128; GReg false b 128; GReg false d 128] => if String.eqb f "VPALIGNR" then Some (vVPALIGNR n a b d) else None
  | _ => None
  end.
(** avo's build.Load and build.Store: the instruction follows from type and size *)
Definition avoLoad (o : Z) (t : ptype) (r : nat) : option vinstr :=
  match t with TPtr => Some (vMOVQ_arg o r) | TU16 => Some (vMOVWQZX_arg o r) | _ => None end.
Definition avoBuild (f : string) (vs : list gval) : G (list gval) :=
  match vs with
  | [] =>
      if String.eqb f "GP64" then gdo n <- inActive GP; gret [GReg true n 64]
      else if String.eqb f "GP32" then gdo n <- inActive GP; gret [GReg true n 32]
      else if String.eqb f "XMM" then gdo n <- inActive XMM; gret [GReg false n 128]
      else if String.eqb f "RET" then
        gdo l <- getDescs; match l with Desc n t g s false :: r => gdo_ setDescs (Desc n t g s true :: r); gret [] | _ => stuck end
      else if String.eqb f "Generate" then gdo_ happen EvGenerate; gret []
      else stuck
  | [GStr n; GFn "" "NOSPLIT"; GStr t] =>
      if String.eqb f "TEXT" then
        gdo g <- ofOption (readSignature t); gdo l <- getDescs; gdo_ setDescs (Desc n t g (BState 0 0 []) false :: l); gret []
      else stuck
  | [GStr n] =>
      if String.eqb f "Param" then gdo (o, t) <- inActive (AvoGen.Param n); gret [GComp o t]
      else if String.eqb f "Return" then gdo (o, t) <- inActive (AvoGen.Return n); gret [GComp o t]
      else stuck
  | [GStr n; GU16 z] => if String.eqb f "ConstData" then gdo_ newData n z; gret [GData z] else stuck
  | [GComp o t; GReg true r 64] =>
      if String.eqb f "Load" then gdo i <- ofOption (avoLoad o t r); gdo_ inActive (emit i); gret [GReg true r 64] else stuck
  | [GReg true r 16; GComp o TU16] => if String.eqb f "Store" then gdo_ inActive (emit (vMOVW_ret r o)); gret [] else stuck
  | _ => gdo i <- ofOption (avoInstr f vs); gdo_ inActive (emit i); gret []
  end.

(** ** Functions of other modules *)
Definition withErr (ok : bool) (v : gval) : list gval := if ok then [v; GNil] else [GNil; GErr].
Definition extern (W : world) (p f : string) (vs : list gval) : G (list gval) :=
  if String.eqb p "" then
    (if String.eqb f "append" then
       match vs with [GList l; v] => gdo v <- ofOption (typedTo None v); gret [GList (l ++ [v])] | _ => stuck end
     else if String.eqb f "len" then match vs with [GList l] => gret [GInt INT (Z.of_nat (List.length l))] | _ => stuck end
     else avoBuild f vs)
  else if String.eqb p "fmt" then
    (match vs with
     | GBuffer :: GStr t :: r =>
         (* writing to a bytes.Buffer does not fail; the count written is not used *)
         if String.eqb f "Fprintf" then gdo x <- ofOption (sprintf t r); gdo_ print x; gret [GInt INT 0; GNil]
         else if String.eqb f "Fprintln" then match r with [] => gdo_ print (t ++ String (ascii_of_nat 10) "")%string; gret [GInt INT 0; GNil] | _ => stuck end
         else stuck
     | GStr t :: r => if String.eqb f "Sprintf" then gdo x <- ofOption (sprintf t r); gret [GStr x] else stuck
     | _ => stuck
     end)
  else if String.eqb p "log" then
    (match vs with GStr t :: _ => if String.eqb f "Fatalf" then gdo_ happen (EvFatal t); exit else stuck | _ => stuck end)
  else if String.eqb p "flag" then
    (if String.eqb f "Parse" then match vs with [] => gret [] | _ => stuck end
     else if String.eqb f "String" then
       match vs with
       | [GStr n; GStr d; GStr _] =>
           (* Parse runs before the value is used *)
           gdo l <- alloc (GStr match AvoGen.assoc (w_flags W) n with Some v => v | None => d end); gret [GRef l]
       | _ => stuck
       end
     else stuck)
  else if String.eqb p "format" then
    (match vs with
     | [GBytes s] => if String.eqb f "Source" then gdo_ happen (EvFormat s); gret match w_formatted W with Some t => [GStr t; GNil] | None => [GNil; GErr] end else stuck
     | _ => stuck
     end)
  else if String.eqb p "os" then
    (match vs with [GStr s] => if String.eqb f "Create" then gdo_ happen (EvCreate s); gret (withErr (w_created W) (GFile s)) else stuck | _ => stuck end)
  else if String.eqb p "errors" then (if String.eqb f "Wrapf" then gret [GErr] else stuck)
  else if String.eqb p "operand" then
    (match vs with
     | [GConst z] => if String.eqb f "Imm" then gret [GImm z] else if String.eqb f "U16" then gret [GU16 z] else stuck
     | _ => stuck
     end)
  else stuck.
(** Methods and fields of values of other modules *)
Definition method (W : world) (v : gval) (m : string) (vs : list gval) : G (list gval) :=
  match v, vs with
  | GBuffer, [] => if String.eqb m "Bytes" then fun s => Done [GBytes (rev' (g_out s))] s else stuck
  | GFile p, [GStr t] => if String.eqb m "Write" then gdo_ happen (EvWrite p t); gret [GInt INT 0; if w_written W then GNil else GErr] else stuck
  | GFile p, [] => if String.eqb m "Close" then gdo_ happen (EvClose p); gret [GNil] else stuck
  | GReg true n _, [] =>
      if String.eqb m "As16" then gret [GReg true n 16]
      else if String.eqb m "As8" || String.eqb m "As8L" then gret [GReg true n 8] else stuck
  | GComp o TSlice, [] => if String.eqb m "Base" then gret [GComp o TPtr] else stuck
  | GComp o t, [] => if String.eqb m "Resolve" then gret [GBasic o t; GNil] else stuck
  | GMem b d, [GConst z] => if String.eqb m "Offset" then gret [GMem b (d + z)] else stuck
  | _, _ => stuck
  end.
Definition field (v : gval) (x : string) : option gval :=
  match v with GBasic o t => if String.eqb x "Addr" then Some (GArg o t) else None | _ => None end.
Definition structOf (t : ty) (fs : list (string * gval)) : option gval :=
  match t, fs with
  | TyQual "operand" "Mem", [("Base", GReg true n 64)] => Some (GMem n 0)
  | TyQual "bytes" "Buffer", [] => Some GBuffer
  | _, _ => None
  end.

(** ** Expressions and statements *)
Section program.
Variable W : world.
(** The declarations with their packages, and the packages of the program. *)
Variable P : list (string * decl).
Definition name_of (d : decl) : string := match d with DFunc f => f_name f | DConst x _ _ _ => x | DVar x _ _ => x | DType x _ => x end.
Fixpoint find (l : list (string * decl)) (p x : string) : option decl :=
  match l with [] => None | (q, d) :: r => if String.eqb p q && String.eqb x (name_of d) then Some d else find r p x end.
Fixpoint local (e : scopes) (x : string) : option positive :=
  match e with [] => None | sc :: r => match AvoGen.assoc sc x with Some l => Some l | None => local r x end end.
Definition declare (e : scopes) (x : string) (l : positive) : scopes :=
  match e with sc :: r => ((x, l) :: sc) :: r | [] => [[(x, l)]] end.
Definition blank (x : string) : bool := String.eqb x "_".
(** Parameters and results: new variables *)
Fixpoint bindAll (e : scopes) (ps : list (string * ty)) (vs : list gval) : G scopes :=
  match ps, vs with
  | [], [] => gret e
  | (x, t) :: ps, v :: vs => gdo v <- ofOption (typedTo (Some t) v); gdo l <- alloc v; bindAll (declare e x l) ps vs
  | _, _ => stuck
  end.
Fixpoint bindZero (e : scopes) (rs : list (string * ty)) : G scopes :=
  match rs with
  | [] => gret e
  | (x, t) :: rs => if String.eqb x "" then bindZero e rs else gdo v <- ofOption (zeroOf t); gdo l <- alloc v; bindZero (declare e x l) rs
  end.
Fixpoint typedAll (rs : list (string * ty)) (vs : list gval) : option (list gval) :=
  match rs, vs with
  | [], [] => Some []
  | (_, t) :: rs, v :: vs => match typedTo (Some t) v, typedAll rs vs with Some v, Some l => Some (v :: l) | _, _ => None end
  | _, _ => None
  end.
Fixpoint loadAll (e : scopes) (xs : list string) : G (list gval) :=
  match xs with
  | [] => gret []
  | x :: r => match local e x with Some l => gdo v <- load l; gdo vs <- loadAll e r; gret (v :: vs) | None => stuck end
  end.
Definition one (vs : list gval) : G gval := match vs with [v] => gret v | _ => stuck end.

(** The globals: locations of the package variables. *)
Variable glob : list (string * string * positive).
Fixpoint globalVar (l : list (string * string * positive)) (p x : string) : option positive :=
  match l with [] => None | (q, y, a) :: r => if String.eqb p q && String.eqb x y then Some a else globalVar r p x end.

Inductive flow := Next (e : scopes) | Return (vs : option (list gval)).

(** [pk]: the package of the code; [n] bounds the depth of calls and the number of loop iterations *)
Fixpoint eval (n : nat) (pk : string) (e : scopes) (x : expr) {struct n} : G (list gval) :=
  match n with
  | O => stuck
  | S n' =>
    let ev := eval n' pk e in
    let ev1 a := gdo vs <- ev a; one vs in
    match x with
    | EInt z => gret [GConst z]
    | EStr s => gret [GStr s]
    | EId y =>
        match local e y with
        | Some l => gdo v <- load l; gret [v]
        | None =>
          match globalVar glob pk y, find P pk y with
          | Some l, _ => gdo v <- load l; gret [v]
          | None, Some (DConst _ _ c _) => eval n' pk [] c
          | None, Some (DFunc _) => gret [GFn pk y]
          | None, Some _ => stuck
          | None, None =>
              if String.eqb y "nil" then gret [GNil] else if String.eqb y "true" then gret [GBool true]
              else if String.eqb y "false" then gret [GBool false] else gret [GFn "" y]
          end
        end
    | ESel a f => gdo v <- ev1 a; gdo u <- ofOption (field v f); gret [u]
    | EUn o a =>
        if String.eqb o "*" then gdo v <- ev1 a; match v with GRef l => gdo u <- load l; gret [u] | _ => stuck end
        else if String.eqb o "&" then match a with EStruct _ _ => ev a | _ => stuck end
        else stuck
    | EBin o a b => gdo v <- ev1 a; gdo u <- ev1 b; gdo r <- ofOption (gbinary o v u); gret [r]
    | EStruct t fs =>
        gdo vs <- (fix go (l : list (string * expr)) : G (list (string * gval)) :=
                     match l with [] => gret [] | (f, a) :: r => gdo v <- ev1 a; gdo k <- go r; gret ((f, v) :: k) end) fs;
        gdo v <- ofOption (structOf t vs); gret [v]
    | ELit (Some (TySlice t)) es =>
        gdo vs <- (fix go (l : list expr) : G (list gval) :=
                     match l with [] => gret [] | a :: r => gdo v <- ev1 a; gdo v <- ofOption (typedTo (Some t) v); gdo k <- go r; gret (v :: k) end) es;
        gret [GList vs]
    | EFunc ps rs b => gret [GClosure ps (map (pair "") rs) b e]
    | ECall (EId y) args =>
        match basic y, local e y with
        | Some k, None => match args with
                          | [a] => gdo v <- ev1 a; match v with GConst z | GInt _ z => gret [GInt k (fit k z)] | _ => stuck end
                          | _ => stuck
                          end
        | _, _ => gdo f <- ev1 (EId y); gdo vs <- evalArgs n' pk e args; apply n' f vs
        end
    | ECall (ESel (EId p) f) args =>
        match local e p, globalVar glob pk p with
        | None, None => gdo vs <- evalArgs n' pk e args; apply n' (GFn p f) vs
        | _, _ => gdo v <- ev1 (EId p); gdo vs <- evalArgs n' pk e args; method W v f vs
        end
    | ECall (ESel a f) args => gdo v <- ev1 a; gdo vs <- evalArgs n' pk e args; method W v f vs
    | _ => stuck
    end
  end
(** Arguments: a single call with several results, or one value each; "x..." spreads the last one. *)
with evalArgs (n : nat) (pk : string) (e : scopes) (args : list expr) {struct n} : G (list gval) :=
  match n with
  | O => stuck
  | S n' =>
    match args with
    | [a] =>
        match a with
        | EUn o b => if String.eqb o "..." then gdo v <- eval n' pk e b; match v with [GList l] => gret l | _ => stuck end else eval n' pk e a
        | _ => eval n' pk e a
        end
    | [] => gret []
    | a :: r => gdo v <- eval n' pk e a; gdo v <- one v; gdo k <- evalArgs n' pk e r; gret (v :: k)
    end
  end
with apply (n : nat) (f : gval) (vs : list gval) {struct n} : G (list gval) :=
  match n with
  | O => stuck
  | S n' =>
    let body pk e ps rs b :=
      gdo e <- bindAll ([] :: e) ps vs;
      gdo e <- bindZero e rs;
      gdo d <- getDefers; gdo_ setDefers [];
      gdo r <- execs n' pk e b;
      gdo out <- (match r with
                  | Return (Some vs) => ofOption (typedAll rs vs)
                  | Return None => loadAll e (map fst rs)
                  | Next _ => match rs with [] => gret [] | _ => stuck end
                  end);
      gdo l <- getDefers;
      gdo_ (fix go (l : list (gval * list gval)) : G unit :=
              match l with [] => gret tt | (g, us) :: r => gdo_ apply n' g us; go r end) l;
      gdo_ setDefers d;
      gret out in
    match f with
    | GFn p g =>
        match find P p g with
        | Some (DFunc (Func _ ps rs (Some b))) => body p [] ps rs b
        | Some _ => stuck
        | None => extern W p g vs
        end
    | GClosure ps rs b e => body "main" e ps rs b
    | _ => stuck
    end
  end
with execs (n : nat) (pk : string) (e : scopes) (b : list stmt) {struct n} : G flow :=
  match n with
  | O => stuck
  | S n' =>
    match b with
    | [] => gret (Next e)
    | s :: r => gdo f <- exec n' pk e s; match f with Next e' => execs n' pk e' r | Return _ => gret f end
    end
  end
with exec (n : nat) (pk : string) (e : scopes) (s : stmt) {struct n} : G flow :=
  match n with
  | O => stuck
  | S n' =>
    let ev := eval n' pk e in
    let ev1 a := gdo vs <- ev a; one vs in
    (* the values of a list of expressions: one call, or one value each *)
    let values es := match es with
                     | [a] => ev a
                     | _ => (fix go (l : list expr) : G (list gval) := match l with [] => gret [] | a :: r => gdo v <- ev1 a; gdo k <- go r; gret (v :: k) end) es
                     end in
    let place (x : string) : option positive := match local e x with Some l => Some l | None => globalVar glob pk x end in
    (* a block of its own: its names end with it *)
    let inner e' b := gdo f <- execs n' pk e' b; match f with Next _ => gret (Next e) | Return _ => gret f end in
    match s with
    | SExpr a => gdo_ ev a; gret (Next e)
    | SVar x t o =>
        gdo v <- (match o, t with
                  | Some a, _ => gdo v <- ev1 a; ofOption (typedTo t v)
                  | None, Some t => ofOption (zeroOf t)
                  | None, None => stuck
                  end);
        gdo l <- alloc v; gret (Next (declare e x l))
    | SDef xs es =>
        gdo vs <- values es;
        (fix go (e' : scopes) (xs : list string) (vs : list gval) : G flow :=
           match xs, vs with
           | [], [] => gret (Next e')
           | x :: xs, v :: vs =>
               if blank x then go e' xs vs
               else match (match e with sc :: _ => AvoGen.assoc sc x | [] => None end) with
                    | Some l => gdo old <- load l; gdo_ store l v; go e' xs vs
                    | None => gdo v <- ofOption (typedTo None v); gdo l <- alloc v; go (declare e' x l) xs vs
                    end
           | _, _ => stuck
           end) e xs vs
    | SSet ls es =>
        gdo vs <- values es;
        (fix go (ls : list expr) (vs : list gval) : G flow :=
           match ls, vs with
           | [], [] => gret (Next e)
           | EId x :: ls, v :: vs =>
               if blank x then go ls vs
               else match place x with
                    | Some l => gdo old <- load l;
                                gdo_ store l (match old, v with GInt k _, GConst z => GInt k (fit k z) | _, _ => v end); go ls vs
                    | None => stuck
                    end
           | _, _ => stuck
           end) ls vs
    | SOp o (EId x) a =>
        match place x with
        | Some l => gdo v <- load l; gdo u <- ev1 a; gdo r <- ofOption (gbinary o v u); gdo_ store l r; gret (Next e)
        | None => stuck
        end
    | SIf c a b => gdo v <- ev1 c; match v with GBool true => inner ([] :: e) a | GBool false => inner ([] :: e) b | _ => stuck end
    | SFor (Some c) post body =>
        gdo v <- ev1 c;
        match v with
        | GBool false => gret (Next e)
        | GBool true =>
            gdo f <- execs n' pk ([] :: e) body;
            match f with Next _ => gdo_ execs n' pk e post; exec n' pk e s | Return _ => gret f end
        | _ => stuck
        end
    | SRange2 i x a body =>
        if blank i then
          gdo v <- ev1 a;
          match v with
          | GList l =>
              (fix go (l : list gval) : G flow :=
                 match l with
                 | [] => gret (Next e)
                 | v :: r => gdo p <- alloc v; gdo f <- execs n' pk ([(x, p)] :: e) body; match f with Next _ => go r | Return _ => gret f end
                 end) l
          | _ => stuck
          end
        else stuck
    | SReturn [] => gret (Return None)
    | SReturn es => gdo vs <- values es; gret (Return (Some vs))
    | SBlock b => inner ([] :: e) b
    | SDefer (ECall (ESel (EId p) f) args) =>
        gdo vs <- evalArgs n' pk e args; gdo d <- getDefers; gdo_ setDefers ((GFn p f, vs) :: d); gret (Next e)
    | _ => stuck
    end
  end.
End program.

(** ** Programs *)
(** Package variables are initialised in the order of their declarations; the programs
    have no dependency that asks for another order. *)
Fixpoint initVars (W : world) (P : list (string * decl)) (n : nat) (l : list (string * decl)) (glob : list (string * string * positive)) :
    G (list (string * string * positive)) :=
  match l with
  | [] => gret glob
  | (p, DVar x t (Some e)) :: r =>
      gdo vs <- eval W P glob n p [] e; gdo v <- one vs; gdo v <- ofOption (typedTo t v); gdo a <- alloc v; initVars W P n r ((p, x, a) :: glob)
  | (_, DVar _ _ None) :: _ => stuck
  | _ :: r => initVars W P n r glob
  end.
Definition start : gst := St ∅ 1 [] [] [] [] [].
(** Run a program made of these files; the last one is package main. *)
Definition linkAll (fs : list (list string)) : option (list (string * decl)) :=
  option_map (@concat _) (allSome (map (fun ls => option_map (fun f => map (pair (package f)) (decls f)) (parse ls)) fs)).
Definition vars (p : string) (P : list (string * decl)) : list (string * decl) := List.filter (fun d => String.eqb (fst d) p) P.
Definition execute (W : world) (n : nat) (fs : list (list string)) : gres (list gval) :=
  match linkAll fs with
  | Some P => (gdo glob <- initVars W P n (vars "main" P) []; apply W P glob n (GFn "main" "main") []) start
  | None => Stuck
  end.
