(** * A type checker for the Go of the repository

    Written from the Go language specification: what a compiler must accept or reject in
    the files selected for a target, bodies of functions included.  The parts of the
    standard library and of golang.org/x/sys used by the repository are given by their
    signatures. *)
From Coq Require Import ZArith List String Ascii Bool.
From Verif Require Import SourceText GoSyntax GoInterp AsmText GoProgram.
Import ListNotations.
Local Open Scope string_scope.
Local Open Scope list_scope.
Local Open Scope Z_scope.

(** ** Types and operands *)
Inductive gty :=
| TBasic (k : kind) | TBool | TString
| TSlice (t : gty) | TArr (n : Z) (t : gty) | TPtr (t : gty)
| TFn (ps rs : list gty)
| TDef (p x : string).                   (* defined type; interface{} is TDef "" "any" *)
Fixpoint gty_eqb (a b : gty) {struct a} : bool :=
  let fix all (x y : list gty) {struct x} : bool :=
    match x, y with [], [] => true | p :: x', q :: y' => gty_eqb p q && all x' y' | _, _ => false end in
  match a, b with
  | TBasic j, TBasic k => kind_eqb j k
  | TBool, TBool | TString, TString => true
  | TSlice x, TSlice y | TPtr x, TPtr y => gty_eqb x y
  | TArr n x, TArr m y => (n =? m) && gty_eqb x y
  | TFn x r, TFn y s => all x y && all r s
  | TDef p x, TDef q y => String.eqb p q && String.eqb x y
  | _, _ => false
  end.
Definition named (t : gty) : bool := match t with TBasic _ | TBool | TString | TDef _ _ => true | _ => false end.

Inductive operand :=
| Val (addr : bool) (t : gty)            (* addr: it can be assigned to *)
| Const (t : option gty) (z : Z)         (* integer constant; None: untyped *)
| UBool | UStr                           (* untyped boolean, string constant *)
| Tuple (ts : list gty)                  (* the results of a call, unless there is exactly one *)
| TypeName (t : gty).

(** Constants must have a value of the type.  int is taken to have 32 bits, so that what
    is accepted is accepted on every target. *)
Definition representable (k : kind) (z : Z) : bool :=
  match k with
  | INT => (- 2 ^ 31 <=? z) && (z <? 2 ^ 31)
  | U8 => (0 <=? z) && (z <? 2 ^ 8) | U16 => (0 <=? z) && (z <? 2 ^ 16)
  | U32 => (0 <=? z) && (z <? 2 ^ 32) | U64 => (0 <=? z) && (z <? 2 ^ 64)
  end.

(** ** Other modules *)
Definition closer : gty := TDef "io" "Closer".
Definition any : gty := TDef "" "any".
Definition externs (p x : string) : option operand :=
  let is q y := String.eqb p q && String.eqb x y in
  let fn ps rs := Some (Val false (TFn ps rs)) in
  if is "bits" "LeadingZeros32" then fn [TBasic U32] [TBasic INT]
  else if is "binary" "PutUvarint" then fn [TSlice (TBasic U8); TBasic U64] [TBasic INT]
  else if is "binary" "Uvarint" then fn [TSlice (TBasic U8)] [TBasic U64; TBasic INT]
  else if is "rand" "Uint32" then fn [] [TBasic U32]
  else if is "rand" "Int" then fn [] [TBasic INT]
  else if is "math" "MaxUint32" then Some (Const None (2 ^ 32 - 1))
  else if is "sort" "Slice" then fn [any; TFn [TBasic INT; TBasic INT] [TBool]] []
  else if is "io" "Closer" then Some (TypeName closer)
  else if is "cpu" "X86" then Some (Val true (TDef "cpu" "X86"))
  else None.
(** Fields and methods. *)
Definition member (t : gty) (x : string) : option operand :=
  if gty_eqb t (TDef "cpu" "X86") && (String.eqb x "HasAVX" || String.eqb x "HasAVX2") then Some (Val true TBool)
  else if gty_eqb t closer && String.eqb x "Close" then Some (Val false (TFn [] [TDef "" "error"]))
  else None.
(** Import paths and the package names they bring. *)
Definition importable : list (string * string) :=
  [("math/bits", "bits"); ("encoding/binary", "binary"); ("math/rand", "rand"); ("math", "math"); ("sort", "sort"); ("io", "io");
   ("golang.org/x/sys/cpu", "cpu");
   ("github.com/theMPatel/streamvbyte-simdgo/pkg/shared", "shared"); ("github.com/theMPatel/streamvbyte-simdgo/pkg/encode", "encode");
   ("github.com/theMPatel/streamvbyte-simdgo/pkg/decode", "decode"); ("github.com/theMPatel/streamvbyte-simdgo/pkg/util", "util");
   ("github.com/theMPatel/streamvbyte-simdgo/pkg/stream/writer", "writer"); ("github.com/theMPatel/streamvbyte-simdgo/pkg/stream/reader", "reader")].
Definition ofRepo (p : string) : bool := GoSyntax.mem p ["shared"; "encode"; "decode"; "util"; "writer"; "reader"].
Fixpoint assoc {A} (l : list (string * A)) (x : string) : option A :=
  match l with [] => None | (y, v) :: r => if String.eqb x y then Some v else assoc r x end.
Definition exported (s : string) : bool := match s with String c _ => (65 <=? code c) && (code c <=? 90) | EmptyString => false end.

(** ** Occurrences of names (scopes are not considered) *)
Fixpoint namesT (t : ty) : list string :=
  match t with
  | TyName x => [x] | TyQual p _ => [p]
  | TySlice t | TyArray _ t | TyPtr t => namesT t
  | TyFunc ps rs => flat_map namesT ps ++ flat_map namesT rs
  end.
Definition optL {A B} (f : A -> list B) (o : option A) : list B := match o with Some a => f a | None => [] end.
(** [n] bounds the depth *)
Fixpoint namesE (n : nat) (e : expr) : list string :=
  match n with
  | O => []
  | S n' =>
    match e with
    | EId x => [x]
    | EInt _ | EStr _ => []
    | ESel e _ | EUn _ e => namesE n' e
    | EBin _ a b | EIdx a b => namesE n' a ++ namesE n' b
    | ECall f es => namesE n' f ++ flat_map (namesE n') es
    | ESlice e lo hi => namesE n' e ++ optL (namesE n') lo ++ optL (namesE n') hi
    | EMake t e => namesT t ++ namesE n' e
    | ELit t es => optL namesT t ++ flat_map (namesE n') es
    | EStruct t fs => namesT t ++ flat_map (fun f => namesE n' (snd f)) fs
    | EFunc ps rs b => flat_map (fun p => namesT (snd p)) ps ++ flat_map namesT rs ++ flat_map (namesS n') b
    end
  end
(** The target of an assignment is not a use. *)
with namesS (n : nat) (s : stmt) : list string :=
  match n with
  | O => []
  | S n' =>
    match s with
    | SExpr e => namesE n' e
    | SVar _ t e => optL namesT t ++ optL (namesE n') e
    | SDef _ es => flat_map (namesE n') es
    | SSet ls es => flat_map (fun l => match l with EId _ => [] | _ => namesE n' l end) ls ++ flat_map (namesE n') es
    | SOp _ l e => match l with EId _ => [] | _ => namesE n' l end ++ namesE n' e
    | SIf c a b => namesE n' c ++ flat_map (namesS n') a ++ flat_map (namesS n') b
    | SFor c p b => optL (namesE n') c ++ flat_map (namesS n') p ++ flat_map (namesS n') b
    | SRange _ e b | SRange2 _ _ e b => namesE n' e ++ flat_map (namesS n') b
    | SDefer e => namesE n' e
    | SSwitch e cs => namesE n' e ++ flat_map (fun c => flat_map (namesE n') (fst c) ++ flat_map (namesS n') (snd c)) cs
    | SFall => []
    | SReturn es => flat_map (namesE n') es
    | SBlock b => flat_map (namesS n') b
    end
  end.

(** ** Terminating statements (of a function with results) *)
Fixpoint terminates (n : nat) (s : stmt) : bool :=
  match n with
  | O => false
  | S n' =>
    let fix lastOk (p : stmt -> bool) (l : list stmt) : bool := match l with [] => false | [s] => p s | _ :: r => lastOk p r end in
    match s with
    | SReturn _ => true
    | SExpr (ECall (EId x) _) => String.eqb x "panic"
    | SBlock b => lastOk (terminates n') b
    | SIf _ a b => lastOk (terminates n') a && lastOk (terminates n') b
    | SFor None _ _ => true                        (* there is no break in this syntax *)
    | SSwitch _ cs =>
        existsb (fun c => match fst c with [] => true | _ => false end) cs &&
        forallb (fun c => lastOk (fun s => match s with SFall => true | _ => terminates n' s end) (snd c)) cs
    | _ => false
    end
  end.
Definition ends (l : list stmt) : bool := match rev l with s :: _ => terminates 20 s | [] => false end.

(** ** Checking *)
Section package.
(** The declarations of all packages, each with the imports (package names) of its file. *)
Variable decls : list (string * (list string * decl)).
Fixpoint object (l : list (string * (list string * decl))) (p x : string) : option (list string * decl) :=
  match l with
  | [] => None
  | (q, (im, d)) :: r => if String.eqb p q && String.eqb x (declName d) then Some (im, d) else object r p x
  end.
Definition universe (x : string) : option gty :=
  match basic x with
  | Some k => Some (TBasic k)
  | None => if String.eqb x "bool" then Some TBool else if String.eqb x "string" then Some TString
            else if String.eqb x "error" then Some (TDef "" "error") else None
  end.
(** The type written [t] in a file of package [p] with imports [im]. *)
Fixpoint resolve (p : string) (im : list string) (t : ty) : option gty :=
  let fix many (l : list ty) : option (list gty) :=
    match l with
    | [] => Some []
    | t :: r => match resolve p im t, many r with Some t, Some r => Some (t :: r) | _, _ => None end
    end in
  match t with
  | TyName x => match object decls p x with Some (_, DType _ _) => Some (TDef p x) | Some _ => None | None => universe x end
  | TyQual q x =>
      if GoSyntax.mem q im && exported x then
        if ofRepo q then match object decls q x with Some (_, DType _ _) => Some (TDef q x) | _ => None end
        else match externs q x with Some (TypeName t) => Some t | _ => None end
      else None
  | TySlice t => option_map TSlice (resolve p im t)
  | TyArray n t => if 0 <=? n then option_map (TArr n) (resolve p im t) else None
  | TyPtr t => option_map TPtr (resolve p im t)
  | TyFunc ps rs => match many ps, many rs with Some ps, Some rs => Some (TFn ps rs) | _, _ => None end
  end.
Definition under (t : gty) : gty :=
  match t with
  | TDef p x => match object decls p x with Some (im, DType _ u) => match resolve p im u with Some u => u | None => t end | _ => t end
  | _ => t
  end.
Definition integer (t : gty) : option kind := match under t with TBasic k => Some k | _ => None end.
Definition assignable (o : operand) (t : gty) : bool :=
  let val v := gty_eqb v t || (gty_eqb (under v) (under t) && negb (named v && named t)) || gty_eqb t any in
  match o with
  | Val _ v => val v
  | Const (Some v) _ => val v
  | Const None z => match integer t with Some k => representable k z | None => gty_eqb t any && representable INT z end
  | UBool => gty_eqb (under t) TBool || gty_eqb t any
  | UStr => gty_eqb (under t) TString || gty_eqb t any
  | Tuple _ | TypeName _ => false
  end.
(** The type of a variable declared by := *)
Definition default (o : operand) : option gty :=
  match o with
  | Val _ t => Some t
  | Const (Some t) _ => Some t
  | Const None z => if representable INT z then Some (TBasic INT) else None
  | UBool => Some TBool
  | UStr => Some TString
  | Tuple _ | TypeName _ => None
  end.
Definition boolOperand (o : operand) : bool := match o with Val _ t => gty_eqb (under t) TBool | UBool => true | _ => false end.
Definition isCompare (o : string) : bool := GoSyntax.mem o ["=="; "!="; "<"; "<="; ">"; ">="].
Definition typedConst (t : option gty) (z : Z) : option operand :=
  match t with
  | None => Some (Const None z)
  | Some u => match integer u with Some k => if representable k z then Some (Const t z) else None | None => None end
  end.
Definition binaryT (o : string) (a b : operand) : option operand :=
  if String.eqb o "&&" || String.eqb o "||" then
    if boolOperand a && boolOperand b then Some (match a, b with UBool, UBool => UBool | _, _ => Val false TBool end) else None
  else if isShift o then
    let count := match b with
                 | Const _ z => 0 <=? z
                 | Val _ t => match integer t with Some _ => true | None => false end
                 | _ => false
                 end in
    if count then
      match a, b with
      | Val _ t, _ => match integer t with Some _ => Some (Val false t) | None => None end
      | Const t z, Const _ c => match cop o z c with Some z => typedConst t z | None => None end
      | _, _ => None
      end
    else None
  else
    let result t := if isCompare o then UBool else Val false t in
    let ints t := match integer t with
                  | Some _ => true
                  | None => gty_eqb (under t) TBool && (String.eqb o "==" || String.eqb o "!=")
                  end in
    let nonzero z := negb (isDiv o && (z =? 0)) in
    match a, b with
    | Val _ s, Val _ t => if gty_eqb s t && ints t then Some (result t) else None
    | Val _ t, Const _ z => if assignable b t && ints t && nonzero z then Some (result t) else None
    | Const _ _, Val _ t => if assignable a t && ints t then Some (result t) else None
    | Const s x, Const t y =>
        if negb (nonzero y) then None else
        match (match s, t with
               | Some s', Some t' => if gty_eqb s' t' then Some s else None
               | Some _, None => Some s
               | None, _ => Some t
               end) with
        | None => None
        | Some u => if isCompare o then Some UBool else match cop o x y with Some z => typedConst u z | None => None end
        end
    | _, _ => None
    end.

(** The package and imports of the file being checked. *)
Variable pk : string.
Variable im : list string.
Definition scope := list (string * gty).
Fixpoint local (e : list scope) (x : string) : option gty :=
  match e with [] => None | s :: r => match assoc s x with Some t => Some t | None => local r x end end.
Definition signature (f : func) (p : string) (im : list string) : option gty := resolve p im (TyFunc (map snd (f_params f)) (map snd (f_results f))).
(** A declaration as an operand; [n] bounds chains of constants. *)
Fixpoint constT (n : nat) (p : string) (im : list string) (iota : Z) (e : expr) : option operand :=
  match n with
  | O => None
  | S n' =>
    match e with
    | EInt z => Some (Const None z)
    | EId x =>
        if String.eqb x "iota" then Some (Const None iota)
        else match object decls p x with
             | Some (im', DConst _ t e i) =>
                 match t, constT n' p im' i e with
                 | None, c => c
                 | Some t, Some c =>
                     match resolve p im' t, c with
                     | Some t, Const _ z => if assignable c t then Some (Const (Some t) z) else None
                     | _, _ => None
                     end
                 | Some _, None => None
                 end
             | _ => None
             end
    | EBin o a b => match constT n' p im iota a, constT n' p im iota b with Some a, Some b => binaryT o a b | _, _ => None end
    | _ => None
    end
  end.
Definition global (p x : string) : option operand :=
  match object decls p x with
  | Some (im', DFunc f) => if String.eqb x "init" then None else option_map (Val false) (signature f p im')
  | Some (im', DConst _ _ _ _) => constT 9 p im' 0 (EId x)
  | Some (im', DVar _ (Some t) _) => option_map (Val true) (resolve p im' t)
  | Some (im', DVar _ None (Some (EUn o (ELit (Some t) _)))) =>
      if String.eqb o "&" then option_map (fun t => Val true (TPtr t)) (resolve p im' t) else None
  | Some (im', DVar _ None (Some (ELit (Some t) _))) => option_map (Val true) (resolve p im' t)
  | Some (_, DVar _ None _) => None
  | Some (_, DType _ _) => Some (TypeName (TDef p x))
  | None => None
  end.
Definition nameT (e : list scope) (x : string) : option operand :=
  match local e x with
  | Some t => Some (Val true t)
  | None => match object decls pk x with
            | Some _ => global pk x
            | None => if String.eqb x "true" || String.eqb x "false" then Some UBool else option_map TypeName (universe x)
            end
  end.
(** Is [x] the predeclared function? *)
Definition builtin (e : list scope) (f x : string) : bool :=
  String.eqb f x && match local e x, object decls pk x with None, None => true | _, _ => false end.
Fixpoint all2 {A B} (p : A -> B -> bool) (x : list A) (y : list B) : bool :=
  match x, y with [], [] => true | a :: x', b :: y' => p a b && all2 p x' y' | _, _ => false end.
Definition indexOk (bound : option Z) (o : operand) : bool :=
  match o with
  | Const t z => (0 <=? z) && assignable o (match t with Some t => t | None => TBasic INT end) &&
                 match bound with Some n => z <? n | None => true end
  | Val _ t => match integer t with Some _ => true | None => false end
  | _ => false
  end.
Definition convertT (t : gty) (o : operand) : option operand :=
  match integer t, o with
  | Some k, Const _ z => if representable k z then Some (Const (Some t) z) else None
  | Some _, Val _ v => match integer v with Some _ => Some (Val false t) | None => None end
  | None, Val _ v => if gty_eqb (under v) (under t) then Some (Val false t) else None
  | _, _ => None
  end.
Definition results (rs : list gty) : operand := match rs with [t] => Val false t | _ => Tuple rs end.
Definition distinct (l : list string) : bool :=
  (fix go (l : list string) : bool := match l with [] => true | x :: r => (String.eqb x "_" || String.eqb x "" || negb (GoSyntax.mem x r)) && go r end) l.
(** A variable of this block, used in the statements after its declaration. *)
Definition usedIn (r : list stmt) (x : string) : bool := String.eqb x "_" || GoSyntax.mem x (flat_map (namesS 40) r).

(** [n] bounds the depth of the syntax tree. *)
Fixpoint exprT (n : nat) (e : list scope) (x : expr) {struct n} : option operand :=
  match n with
  | O => None
  | S n' =>
    let single x := match exprT n' e x with Some (Tuple _) | Some (TypeName _) | None => None | o => o end in
    let args l := allSome (map single l) in
    match x with
    | EInt z => Some (Const None z)
    | EStr _ => Some UStr
    | EId x => nameT e x
    | ESel a x =>
        let field := match single a with Some (Val _ t) => member t x | _ => None end in
        match a with
        | EId q =>
            if match local e q, object decls pk q with None, None => GoSyntax.mem q im | _, _ => false end then
              if exported x then if ofRepo q then global q x else externs q x else None
            else field
        | _ => field
        end
    | EUn o a =>
        if String.eqb o "-" then match single a with Some (Const t z) => typedConst t (- z) | Some (Val _ t) => option_map (fun _ => Val false t) (integer t) | _ => None end
        else if String.eqb o "!" then match single a with Some b => if boolOperand b then Some b else None | None => None end
        else if String.eqb o "&" then match a with ELit (Some _) _ => match single a with Some (Val _ t) => Some (Val false (TPtr t)) | _ => None end | _ => None end
        else None
    | EBin o a b => match single a, single b with Some a, Some b => binaryT o a b | _, _ => None end
    | EIdx a i =>
        match single a, single i with
        | Some (Val ad t), Some i =>
            match under t with
            | TSlice u => if indexOk None i then Some (Val true u) else None
            | TArr k u => if indexOk (Some k) i then Some (Val ad u) else None
            | TPtr v => match under v with TArr k u => if indexOk (Some k) i then Some (Val true u) else None | _ => None end
            | _ => None
            end
        | _, _ => None
        end
    | ESlice a lo hi =>
        let bound o := match o with None => true | Some x => match single x with Some i => indexOk None i | None => false end end in
        let inOrder := match lo, hi with Some (EInt l), Some (EInt h) => l <=? h | _, _ => true end in
        match single a with
        | Some (Val _ t) => match under t with TSlice _ => if bound lo && bound hi && inOrder then Some (Val false t) else None | _ => None end
        | _ => None
        end
    | EMake (TySlice t) a =>
        match resolve pk im t, single a with Some t, Some i => if indexOk None i then Some (Val false (TSlice t)) else None | _, _ => None end
    | EMake _ _ => None
    | ECall f l =>
        let apply :=
          match exprT n' e f, args l with
          | Some (TypeName t), Some [o] => convertT t o
          | Some (Val _ t), Some os =>
              match under t with TFn ps rs => if all2 assignable os ps then Some (results rs) else None | _ => None end
          | _, _ => None
          end in
        match f with
        | EId g =>
            if builtin e g "len" then
              match args l with
              | Some [Val _ t] => match under t with TSlice _ | TString => Some (Val false (TBasic INT)) | _ => None end
              | _ => None
              end
            else if builtin e g "panic" then match args l with Some [o] => if assignable o any then Some (Tuple []) else None | _ => None end
            else apply
        | _ => apply
        end
    | ELit (Some t) es =>
        match resolve pk im t with Some t => if literalT n' e t es then Some (Val false t) else None | None => None end
    | ELit None _ => None
    | EStruct _ _ => None
    | EFunc ps rs b =>
        match allSome (map (fun p => option_map (pair (fst p)) (resolve pk im (snd p))) ps), allSome (map (resolve pk im) rs) with
        | Some vs, Some ts =>
            if distinct (map fst ps) && blockT n' ts (vs :: e) b && (match ts with [] => true | _ => ends b end)
            then Some (Val false (TFn (map snd vs) ts)) else None
        | _, _ => None
        end
    end
  end
(** The elements of a composite literal of type [t]. *)
with literalT (n : nat) (e : list scope) (t : gty) (es : list expr) {struct n} : bool :=
  match n with
  | O => false
  | S n' =>
    let elem u x := match x with
                    | ELit None fs => literalT n' e u fs
                    | _ => match exprT n' e x with Some o => assignable o u | None => false end
                    end in
    match under t with
    | TSlice u => forallb (elem u) es
    | TArr k u => (Z.of_nat (List.length es) <=? k) && forallb (elem u) es
    | _ => false
    end
  end
(** A block: [rs] are the types of the results of the function. *)
with blockT (n : nat) (rs : list gty) (e : list scope) (b : list stmt) {struct n} : bool :=
  match n with
  | O => false
  | S n' => stmtsT n' rs ([] :: e) false b
  end
(** [fall]: a fallthrough may end the list. *)
with stmtsT (n : nat) (rs : list gty) (e : list scope) (fall : bool) (b : list stmt) {struct n} : bool :=
  match n with
  | O => false
  | S n' =>
    let single x := match exprT n' e x with Some (Tuple _) | Some (TypeName _) | None => None | o => o end in
    (* operands for [k] variables: that many expressions, or one call with that many results *)
    let values (k : nat) (es : list expr) : option (list operand) :=
      match es with
      | [x] => match exprT n' e x with
               | Some (Tuple ts) => if Nat.eqb (List.length ts) k then Some (map (Val false) ts) else None
               | Some (TypeName _) | None => None
               | Some o => if Nat.eqb k 1 then Some [o] else None
               end
      | _ => if Nat.eqb (List.length es) k then allSome (map single es) else None
      end in
    let add (x : string) (t : gty) : list scope := match e with s :: r => ((x, t) :: s) :: r | [] => [[(x, t)]] end in
    let top := match e with s :: _ => s | [] => [] end in
    let condition c := match single c with Some o => boolOperand o | None => false end in
    match b with
    | [] => true
    | s :: r =>
      let next := stmtsT n' rs e fall r in
      match s with
      | SExpr (ECall f l) => match exprT n' e (ECall f l) with Some (TypeName _) | None => false
                             | Some _ => (* conversions and len are not statements *)
                               match f with
                               | EId g => negb (builtin e g "len") && match nameT e g with Some (TypeName _) => false | _ => true end
                               | _ => true
                               end
                             end && next
      | SExpr _ => false
      | SVar x t i =>
          let ok := match assoc top x with Some _ => String.eqb x "_" | None => true end && usedIn r x in
          match t, i with
          | Some t, None => match resolve pk im t with Some t => ok && stmtsT n' rs (add x t) fall r | None => false end
          | Some t, Some i =>
              match resolve pk im t, single i with
              | Some t, Some o => ok && assignable o t && stmtsT n' rs (add x t) fall r
              | _, _ => false
              end
          | None, Some i => match single i with Some o => match default o with Some t => ok && stmtsT n' rs (add x t) fall r | None => false end | None => false end
          | None, None => false
          end
      | SDef xs es =>
          match values (List.length xs) es with
          | None => false
          | Some os =>
              (* at least one new variable; old ones are assigned *)
              let isNew x := negb (String.eqb x "_") && match assoc top x with None => true | Some _ => false end in
              let one (x : string) (o : operand) : bool :=
                if String.eqb x "_" then match default o with Some _ => true | None => false end
                else match assoc top x with
                     | Some t => assignable o t
                     | None => usedIn r x && match default o with Some _ => true | None => false end
                     end in
              let top' := fold_left (fun s xo => match default (snd xo) with Some t => if isNew (fst xo) then (fst xo, t) :: s else s | None => s end)
                            (combine xs os) top in
              existsb isNew xs && distinct xs && all2 one xs os && stmtsT n' rs (top' :: tl e) fall r
          end
      | SSet ls es =>
          match values (List.length ls) es with
          | None => false
          | Some os =>
              all2 (fun l o =>
                match l with
                | EId "_" => match default o with Some _ => true | None => false end
                | _ => match exprT n' e l with Some (Val true t) => assignable o t | _ => false end
                end) ls os && next
          end
      | SOp o l x =>
          match exprT n' e l, single x with
          | Some (Val true t), Some y => match binaryT o (Val true t) y with Some z => assignable z t | None => false end && next
          | _, _ => false
          end
      | SIf c a b => condition c && blockT n' rs e a && blockT n' rs e b && next
      | SFor c p b =>
          match c with Some c => condition c | None => true end && stmtsT n' rs ([] :: e) false p && blockT n' rs e b && next
      | SRange x a b =>
          match single a with
          | Some (Val _ t) => match under t with
                              | TSlice _ => usedIn b x && blockT n' rs ([(x, TBasic INT)] :: e) b && next
                              | _ => false
                              end
          | _ => false
          end
      | SSwitch x cs =>
          match single x with
          | None => false
          | Some o =>
              match default o with
              | None => false
              | Some t =>
                  let case c := match single c with
                                | Some o => match binaryT "==" (Val false t) o with Some _ => true | None => false end
                                | None => false
                                end in
                  let consts := flat_map (fun c => flat_map (fun x => match exprT n' e x with Some (Const _ z) => [z] | _ => [] end) (fst c)) cs in
                  (fix go (cs : list (list expr * list stmt)) : bool :=
                     match cs with
                     | [] => true
                     | (es, b) :: q => forallb case es && stmtsT n' rs ([] :: e) (match q with [] => false | _ => true end) b && go q
                     end) cs &&
                  Nat.eqb (List.length (nodup Z.eq_dec consts)) (List.length consts) &&
                  Nat.leb (List.length (filter (fun c => match fst c with [] => true | _ => false end) cs)) 1 && next
              end
          end
      | SRange2 _ _ _ _ | SDefer _ => false
      | SFall => fall && match r with [] => true | _ => false end
      | SReturn es => match values (List.length rs) es with Some os => all2 assignable os rs | None => match es, rs with [], [] => true | _, _ => false end end && next
      | SBlock b => blockT n' rs e b && next
      end
    end
  end.

(** A declaration of the package. *)
Definition declT (asm : list string) (d : decl) : bool :=
  match d with
  | DFunc (Func x ps rs b) =>
      match allSome (map (fun p => option_map (pair (fst p)) (resolve pk im (snd p))) ps),
            allSome (map (fun p => option_map (pair (fst p)) (resolve pk im (snd p))) rs) with
      | Some vs, Some ts =>
          distinct (map fst ps ++ map fst rs) &&
          (if String.eqb x "init" then match ps, rs, b with [], [], Some _ => true | _, _, _ => false end else true) &&
          match b with
          | Some b => stmtsT 60 (map snd ts) [filter (fun v => negb (String.eqb (fst v) "")) (vs ++ ts)] false b && match ts with [] => true | _ => ends b end
          | None => GoSyntax.mem x asm                       (* its body is in an assembly file *)
          end
      | _, _ => false
      end
  | DConst x _ _ _ => match global pk x with Some (Const _ _) => true | _ => false end
  | DVar x (Some t) None => match resolve pk im t with Some _ => true | None => false end
  | DVar x (Some t) (Some e) => match resolve pk im t, exprT 60 [] e with Some t, Some o => assignable o t | _, _ => false end
  | DVar x None (Some e) => match global pk x, exprT 60 [] e with Some (Val _ t), Some o => assignable o t | _, _ => false end
  | DVar x None None => false
  | DType x t => match resolve pk im t with Some _ => true | None => false end
  end.
End package.

(** ** A target *)
Record unit_ := Unit { u_path : string; u_file : GoSyntax.file; u_imports : list string }.
(** The Go files selected for the target, and the names the assembly files define, with the
    directory they are in. *)
Fixpoint directory (s : string) : string :=
  match s with
  | EmptyString => ""
  | String c r => if GoSyntax.mem "/" (map (fun c => String c "") (list_ascii_of_string s)) then String c (directory r) else ""
  end.
Fixpoint units (amd64 : bool) (fs : list (string * list string)) : option (list unit_ * list (string * string)) :=
  match fs with
  | [] => Some ([], [])
  | (path, ls) :: r =>
    match selected amd64 path ls, units amd64 r with
    | Some false, Some p => Some p
    | Some true, Some (us, names) =>
        if endsIn ".s" path then match readAsm ls with Some a => Some (us, map (fun r => (directory path, r_name r)) (a_routines a) ++ names) | None => None end
        else match parse ls with
             | Some f => match allSome (map (assoc importable) (imports f)) with
                         | Some im => Some (Unit path f im :: us, names)
                         | None => None
                         end
             | None => None
             end
    | _, _ => None
    end
  end.
Definition declNames (d : decl) : list string :=
  match d with
  | DFunc (Func _ ps rs b) => flat_map (fun p => namesT (snd p)) (ps ++ rs) ++ optL (flat_map (namesS 40)) b
  | DConst _ t e _ => optL namesT t ++ namesE 40 e
  | DVar _ t e => optL namesT t ++ optL (namesE 40) e
  | DType _ t => namesT t
  end.
Definition allDecls (us : list unit_) : list (string * (list string * decl)) :=
  flat_map (fun u => map (fun d => (package (u_file u), (u_imports u, d))) (decls (u_file u))) us.
(** What a compiler rejects: (package, declaration); "import" stands for an import that is
    not used, repeated, or of the package itself; a name declared twice is listed too. *)
Definition errors (us : list unit_) (asm : list (string * string)) : list (string * string) :=
  let ds := allDecls us in
  let dup (p x : string) := negb (String.eqb x "init") &&
    Nat.ltb 1 (List.length (filter (fun q => String.eqb p (fst q) && String.eqb x (declName (snd (snd q)))) ds)) in
  flat_map (fun u =>
    let p := package (u_file u) in
    let used := flat_map declNames (decls (u_file u)) in
    flat_map (fun q => if GoSyntax.mem q used && negb (String.eqb p q) && match object ds p q with None => true | Some _ => false end then [] else [(p, "import")]) (u_imports u) ++
    (if distinct (u_imports u) then [] else [(p, "import")]) ++
    flat_map (fun d => if declT ds p (u_imports u) (map snd (filter (fun n => String.eqb (fst n) (directory (u_path u))) asm)) d && negb (dup p (declName d)) then [] else [(p, declName d)]) (decls (u_file u))) us.
Definition check (amd64 : bool) (fs : list (string * list string)) : option (list (string * string)) :=
  option_map (fun ua => errors (fst ua) (snd ua)) (units amd64 fs).
