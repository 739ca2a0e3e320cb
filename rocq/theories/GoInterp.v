(** * The meaning of Go syntax trees

    An interpreter for the statements and expressions the repository uses, written from
    the Go language specification.  It produces computations ([prog]) on the memory of
    GoSem.v; the number of bits of int is a parameter.

    - Operands, arguments and right-hand sides are evaluated from left to right.  (The
      specification fixes the order of calls only; gc follows this order as far as
      panics and effects can tell, see DESIGN.md.)
    - A program gc would reject (type mismatch, undefined name) has the outcome [Fault];
      constants are not checked for overflow.
    - [_ = s[i]] checks the index and does not load the element.
    - Continuations: [k] what comes next, [kr] return, [kf] fallthrough. *)
From Coq Require Import ZArith List String Ascii Bool.
From Verif Require Import GoSem Asm Encode Util IntOps GoSyntax.
Import ListNotations.
Local Open Scope string_scope.
Local Open Scope list_scope.
Local Open Scope Z_scope.

(** ** Values *)
Inductive kind := INT | U8 | U16 | U32 | U64.
Inductive value :=
| VConst (z : Z)                          (* untyped integer constant *)
| VInt (k : kind) (z : Z)
| VBool (b : bool)
| VStr (s : string)
| VBytes (s : slice)                      (* []byte *)
| VWords (s : slice)                      (* []uint32 *)
| VArr (n : Z) (l : list Z)               (* [n]uint8, or a pointer to one *)
| VArr2 (n m : Z) (l : list (list Z))     (* [n][m]uint8, or a pointer to one *)
| VFn (p f : string)                      (* function f of package p *)
| VNil.                                   (* function variable not yet assigned *)

Definition kind_eqb (a b : kind) : bool :=
  match a, b with INT, INT | U8, U8 | U16, U16 | U32, U32 | U64, U64 => true | _, _ => false end.
Section width.
(** The number of bits of int. *)
Variable w : Z.
Definition wrap (k : kind) (z : Z) : Z :=
  match k with INT => iN w z | U8 => u8 z | U16 => u16 z | U32 => u32 z | U64 => u64 z end.
(** Predeclared integer types *)
Definition basic (x : string) : option kind :=
  if String.eqb x "int" then Some INT else if String.eqb x "uint8" then Some U8 else if String.eqb x "byte" then Some U8
  else if String.eqb x "uint16" then Some U16 else if String.eqb x "uint32" then Some U32 else if String.eqb x "uint64" then Some U64
  else None.

(** ** Operators *)
Definition R := list value.
Definition iop (k : kind) (o : string) (a b : Z) (ret : value -> prog R) : prog R :=
  if String.eqb o "+" then ret (VInt k match k with INT => iaddN w a b | _ => wrap k (a + b) end)
  else if String.eqb o "-" then ret (VInt k match k with INT => isubN w a b | _ => wrap k (a - b) end)
  else if String.eqb o "*" then ret (VInt k match k with INT => imulN w a b | _ => wrap k (a * b) end)
  else if String.eqb o "|" then ret (VInt k (Z.lor a b))
  else if String.eqb o "&" then ret (VInt k (Z.land a b))
  else if String.eqb o "&^" then ret (VInt k match k with INT => iandnot a b | _ => Z.ldiff a b end)
  else if String.eqb o "==" then ret (VBool (a =? b))
  else if String.eqb o "!=" then ret (VBool (negb (a =? b)))
  else if String.eqb o "<" then ret (VBool (a <? b))
  else if String.eqb o ">" then ret (VBool (b <? a))
  else if String.eqb o "<=" then ret (VBool (a <=? b))
  else if String.eqb o ">=" then ret (VBool (b <=? a))
  else Fault.
(** a / b and a % b; [nz] if b is known not to be zero *)
Definition idivide (k : kind) (o : string) (nz : bool) (a b : Z) (ret : value -> prog R) : prog R :=
  let q := if String.eqb o "/" then ret (VInt k match k with INT => idivN w a b | _ => a / b end)
           else ret (VInt k match k with INT => iN w (Z.rem a b) | _ => a mod b end) in
  if nz then q else if b =? 0 then GoPanic else q.
(** constant expressions *)
Definition cop (o : string) (a b : Z) : option Z :=
  if String.eqb o "+" then Some (a + b) else if String.eqb o "-" then Some (a - b)
  else if String.eqb o "*" then Some (a * b)
  else if String.eqb o "/" then match b with Z0 => None | _ => Some (Z.quot a b) end
  else if String.eqb o "<<" then Some (Z.shiftl a b) else if String.eqb o ">>" then Some (Z.shiftr a b)
  else if String.eqb o "|" then Some (Z.lor a b) else if String.eqb o "&" then Some (Z.land a b)
  else None.
Definition isShift (o : string) : bool := String.eqb o "<<" || String.eqb o ">>".
Definition isDiv (o : string) : bool := String.eqb o "/" || String.eqb o "%".
(** x << n, x >> n: a negative count panics; [nn] if the count is known not to be negative *)
Definition ishift (k : kind) (o : string) (nn : bool) (a b : Z) (ret : value -> prog R) : prog R :=
  let q := if String.eqb o "<<" then ret (VInt k (wrap k (Z.shiftl a b))) else ret (VInt k (Z.shiftr a b)) in
  if nn then q else if b <? 0 then GoPanic else q.
Definition binary (o : string) (x y : value) (ret : value -> prog R) : prog R :=
  if isShift o then
    match x, y with
    | VInt k a, VConst b => ishift k o true a b ret
    | VInt k a, VInt INT b => ishift k o false a b ret
    | VInt k a, VInt _ b => ishift k o true a b ret
    | VConst a, VConst b => match cop o a b with Some z => ret (VConst z) | None => Fault end
    | _, _ => Fault
    end
  else if isDiv o then
    match x, y with
    | VInt k a, VConst b => match b with Z0 => Fault | _ => idivide k o true a b ret end
    | VInt k a, VInt k' b => if kind_eqb k k' then idivide k o false a b ret else Fault
    | VConst a, VConst b => match cop o a b with Some z => ret (VConst z) | None => Fault end
    | _, _ => Fault
    end
  else
    match x, y with
    | VInt k a, VInt k' b => if kind_eqb k k' then iop k o a b ret else Fault
    | VInt k a, VConst b => iop k o a b ret
    | VConst a, VInt k b => iop k o a b ret
    | VConst a, VConst b => match cop o a b with Some z => ret (VConst z) | None => Fault end
    | _, _ => Fault
    end.
Definition convert (k : kind) (v : value) (ret : value -> prog R) : prog R :=
  match v with VInt _ z => ret (VInt k (wrap k z)) | VConst z => ret (VInt k (wrap k z)) | _ => Fault end.
(** The number of an index or slice bound. *)
Definition num (v : value) : option Z := match v with VConst z => Some z | VInt _ z => Some z | _ => None end.
(** Comparison of compile-time constants. *)
Definition below (a b : Z) : bool := match Z.compare a b with Lt => true | _ => false end.
(** An array of length [n] indexed with [v]: is the index in range by its type or value
    (true) or must it be checked (false)?  A constant out of range is rejected. *)
Definition arrayCheck (n : Z) (v : value) : option bool :=
  match v with
  | VInt U8 _ => if below 255 n then Some true else Some false
  | VConst z => if below (-1) z && below z n then Some true else None
  | VInt _ _ => Some false
  | _ => None
  end.
Definition index (a i : value) (ret : value -> prog R) : prog R :=
  match num i with
  | None => Fault
  | Some z =>
    match a with
    | VBytes s => bind (getB s z) (fun v => ret (VInt U8 v))
    | VWords s => bind (getW s z) (fun v => ret (VInt U32 v))
    | VArr n l =>
        let v := ret (VInt U8 (nth (Z.to_nat z) l 0)) in
        match arrayCheck n i with
        | Some true => v
        | Some false => if (0 <=? z) && (z <? n) then v else GoPanic
        | None => Fault
        end
    | VArr2 n m l =>
        let v := ret (VArr m (nth (Z.to_nat z) l [])) in
        match arrayCheck n i with
        | Some true => v
        | Some false => if (0 <=? z) && (z <? n) then v else GoPanic
        | None => Fault
        end
    | _ => Fault
    end
  end.
Definition slicing (a : value) (lo hi : option value) (ret : value -> prog R) : prog R :=
  let go (s : slice) (c : slice -> value) :=
    match lo, hi with
    | Some l, None => match num l with Some l => bind (slice_from s l) (fun t => ret (c t)) | None => Fault end
    | Some l, Some h =>
        match num l, num h with Some l, Some h => bind (slice_range s l h) (fun t => ret (c t)) | _, _ => Fault end
    | None, Some h => match num h with Some h => bind (slice_to s h) (fun t => ret (c t)) | None => Fault end
    | None, None => ret (c s)
    end in
  match a with VBytes s => go s VBytes | VWords s => go s VWords | _ => Fault end.

(** ** Environments: innermost variable first *)
Definition env := list (string * value).
Fixpoint lookup (e : env) (x : string) : option value :=
  match e with [] => None | (y, v) :: r => if String.eqb x y then Some v else lookup r x end.
(** A constant assigned to a variable takes the type of the variable. *)
Definition like (old v : value) : value :=
  match v, old with VConst z, VInt k _ => VInt k z | _, _ => v end.
Fixpoint update (e : env) (x : string) (v : value) : option env :=
  match e with
  | [] => None
  | (y, u) :: r => if String.eqb x y then Some ((y, like u v) :: r) else option_map (cons (y, u)) (update r x v)
  end.
(** Leaving a block entered with environment [e]. *)
Definition leave (e e' : env) : env := skipn (List.length e' - List.length e) e'.
(** A constant with no other type is an int. *)
Definition dflt (v : value) : value := match v with VConst z => VInt INT z | _ => v end.
Fixpoint declare (xs : list string) (vs : list value) (e : env) : option env :=
  match xs, vs with
  | [], [] => Some e
  | x :: xs', v :: vs' => declare xs' vs' ((x, dflt v) :: e)
  | _, _ => None
  end.

Definition one (k : value -> prog R) (vs : list value) : prog R := match vs with [v] => k v | _ => Fault end.
Definition boolean (k : bool -> prog R) (v : value) : prog R := match v with VBool b => k b | _ => Fault end.

Section meaning.
(** The package, its named types, constants and package variables, the other functions,
    the id of the next allocation, and a bound on the rounds of every loop. *)
Variable pk : string.
Variable types : string -> string -> option kind.
Variable glob : string -> string -> option value.
Variable call : string -> string -> list value -> prog R.
Variable blk : nat.
Variable fuel : nat.

Definition kindOf (t : ty) : option kind :=
  match t with
  | TyName x => match basic x with Some k => Some k | None => types pk x end
  | TyQual p x => types p x
  | _ => None
  end.
(** A value for a variable, parameter or result of type [t]. *)
Definition typed_as (t : ty) (v : value) : option value :=
  match v with
  | VConst z => option_map (fun k => VInt k z) (kindOf t)
  | _ => Some v
  end.

(** What a name stands for: a variable, a constant or variable of the package, true or
    false, or else a function of the package. *)
Definition name (s : env) (x : string) : value :=
  match lookup s x with
  | Some v => v
  | None =>
    match glob pk x with
    | Some v => v
    | None => if String.eqb x "true" then VBool true else if String.eqb x "false" then VBool false else VFn pk x
    end
  end.

(** ** Expressions: a call may have any number of results *)
Fixpoint ev (e : expr) (s : env) (k : list value -> prog R) {struct e} : prog R :=
  let evs := fix evs (es : list expr) (k : list value -> prog R) : prog R :=
    match es with
    | [] => k []
    | e :: r => ev e s (one (fun v => evs r (fun vs => k (v :: vs))))
    end in
  match e with
  | EInt z => k [VConst z]
  | EStr x => k [VStr x]
  | EId x => k [name s x]
  | ESel (EId p) x => match glob p x with Some v => k [v] | None => Fault end
  | ESel (ESel (EId p) v) x => match glob (p ++ "." ++ v)%string x with Some u => k [u] | None => Fault end
  | ESel _ _ => Fault
  | EUn o a =>
      if String.eqb o "-" then ev a s (one (fun v => match v with VConst z => k [VConst (- z)] | _ => Fault end))
      else if String.eqb o "!" then ev a s (one (boolean (fun b => k [VBool (negb b)])))
      else Fault
  | EBin o a b =>
      if String.eqb o "&&" then ev a s (one (boolean (fun t => if t then ev b s k else k [VBool false])))
      else if String.eqb o "||" then ev a s (one (boolean (fun t => if t then k [VBool true] else ev b s k)))
      else ev a s (one (fun x => ev b s (one (fun y => binary o x y (fun v => k [v])))))
  | EIdx a i => ev a s (one (fun x => ev i s (one (fun y => index x y (fun v => k [v])))))
  | ESlice a lo hi =>
      ev a s (one (fun x =>
        match lo, hi with
        | None, None => slicing x None None (fun v => k [v])
        | Some l, None => ev l s (one (fun l => slicing x (Some l) None (fun v => k [v])))
        | None, Some h => ev h s (one (fun h => slicing x None (Some h) (fun v => k [v])))
        | Some l, Some h => ev l s (one (fun l => ev h s (one (fun h => slicing x (Some l) (Some h) (fun v => k [v])))))
        end))
  | EMake (TySlice t) n =>
      match kindOf t with
      | Some U8 => ev n s (one (fun v => match num v with Some z => bind (makeB blk z) (fun t => k [VBytes t]) | None => Fault end))
      | _ => Fault
      end
  | EMake _ _ => Fault
  | ECall (EId f) args =>
      if String.eqb f "len" then
        evs args (one (fun v => match v with VBytes t | VWords t => k [VInt INT (s_len t)] | _ => Fault end))
      else if String.eqb f "panic" then evs args (one (fun _ => GoPanic))
      else match basic f with
      | Some c => evs args (one (fun v => convert c v (fun u => k [u])))
      | None =>
        evs args (fun vs => match name s f with VFn p g => bind (call p g vs) k | _ => Fault end)
      end
  | ECall (ESel (EId p) f) args => evs args (fun vs => bind (call p f vs) k)
  | ECall _ _ => Fault
  | ELit _ _ | EStruct _ _ => Fault
  | EFunc _ _ _ => Fault
  end.
Fixpoint evs (es : list expr) (s : env) (k : list value -> prog R) : prog R :=
  match es with
  | [] => k []
  | e :: r => ev e s (one (fun v => evs r s (fun vs => k (v :: vs))))
  end.
(** Right-hand sides: one call with several results, or single values. *)
Definition rhs (es : list expr) (s : env) (k : list value -> prog R) : prog R :=
  match es with [e] => ev e s k | _ => evs es s k end.

(** ** Statements *)
(** for c { body }: [c] and [body] with their continuations *)
Fixpoint loop (n : nat) (c : env -> (bool -> prog R) -> prog R) (body : env -> (env -> prog R) -> prog R)
    (s : env) (k : env -> prog R) : prog R :=
  match n with
  | O => Diverge
  | S n' => c s (fun t => if t then body s (fun s' => loop n' c body s' k) else k s)
  end.
(** for i := range [0, len) *)
Fixpoint rloop (n : nat) (len : Z) (body : Z -> env -> (env -> prog R) -> prog R) (i : Z) (s : env) (k : env -> prog R) : prog R :=
  match n with
  | O => Diverge
  | S n' => if i <? len then body i s (fun s' => rloop n' len body (iaddN w i 1) s' k) else k s
  end.

Definition assign (l : expr) (s : env) (v : value) (k : env -> prog R) : prog R :=
  match l with
  | EId x => if String.eqb x "_" then k s else match update s x v with Some s' => k s' | None => Fault end
  | _ => Fault
  end.
Definition store (a i v : value) (k : prog R) : prog R :=
  match num i, num v with
  | Some i, Some z => match a with VBytes s => bind (setB s i z) (fun _ => k) | VWords s => bind (setW s i z) (fun _ => k) | _ => Fault end
  | _, _ => Fault
  end.
(** does [w] equal the switch value [v]? *)
Definition matches (v w : value) (k : bool -> prog R) : prog R :=
  match v, w with
  | VInt _ a, VConst b | VConst a, VInt _ b => k (a =? b)
  | VInt c a, VInt d b => if kind_eqb c d then k (a =? b) else Fault
  | _, _ => Fault
  end.

(** Statements one after the other. *)
Definition seqs (f : stmt -> env -> (env -> prog R) -> (env -> prog R) -> prog R) : list stmt -> env -> (env -> prog R) -> (env -> prog R) -> prog R :=
  fix go (l : list stmt) (s : env) (k kf : env -> prog R) : prog R :=
    match l with
    | [] => k s
    | x :: r => f x s (fun s' => go r s' k kf) kf
    end.
Fixpoint st (x : stmt) (s : env) (k : env -> prog R) (kr : list value -> prog R) (kf : env -> prog R) {struct x} : prog R :=
  let sts := seqs (fun x s k kf => st x s k kr kf) in
  match x with
  | SExpr e => ev e s (fun _ => k s)
  | SVar x (Some t) None => match kindOf t with Some c => k ((x, VInt c 0) :: s) | None => Fault end
  | SVar x (Some t) (Some e) =>
      ev e s (one (fun v => match typed_as t v with Some w => k ((x, w) :: s) | None => Fault end))
  | SVar x None (Some e) => ev e s (one (fun v => k ((x, dflt v) :: s)))
  | SVar _ None None => Fault
  | SDef xs es => rhs es s (fun vs => match declare xs vs s with Some s' => k s' | None => Fault end)
  | SSet [l] [e] =>
      match l with
      | EIdx a i => ev a s (one (fun a => ev i s (one (fun i => ev e s (one (fun v => store a i v (k s)))))))
      | EId x =>
          match String.eqb x "_", e with
          | true, EIdx a i =>
              ev a s (one (fun a => ev i s (one (fun i =>
                match a, num i with VBytes t, Some z | VWords t, Some z => bind (check_idx t z) (fun _ => k s) | _, _ => Fault end))))
          | _, _ => ev e s (one (fun v => assign l s v k))
          end
      | _ => Fault
      end
  | SSet _ _ => Fault
  | SOp o l e =>
      match l with
      | EId x => ev (EId x) s (one (fun a => ev e s (one (fun b => binary o a b (fun v => assign (EId x) s v k)))))
      | _ => Fault
      end
  | SIf c a b =>
      ev c s (one (boolean (fun t =>
        if t then sts a s (fun s' => k (leave s s')) kf else sts b s (fun s' => k (leave s s')) kf)))
  | SFor c post body =>
      loop fuel
        (fun s k => match c with Some c => ev c s (one (boolean k)) | None => k true end)
        (fun s k => sts body s (fun s' => sts post (leave s s') k kf) kf)
        s k
  | SRange x e body =>
      ev e s (one (fun v =>
        match v with
        | VBytes t | VWords t =>
            rloop fuel (s_len t) (fun i s k => sts body ((x, VInt INT i) :: s) (fun s' => k (leave s s')) kf) 0 s k
        | _ => Fault
        end))
  | SSwitch e cs =>
      (* the clauses from here on, the first one chosen *)
      let enter := fix enter (cs : list (list expr * list stmt)) (s0 : env) : prog R :=
        match cs with
        | [] => Fault
        | (_, b) :: r => sts b s0 (fun s' => k (leave s s')) (fun s' => enter r (leave s s'))
        end in
      (* the first clause one of whose expressions equals v *)
      let choose := fix choose (v : value) (cs : list (list expr * list stmt)) : prog R :=
        match cs with
        | [] => k s
        | (es, b) :: r =>
            (fix any (es : list expr) : prog R :=
               match es with
               | [] => choose v r
               | e :: q => ev e s (one (fun w => matches v w (fun t => if t then enter cs s else any q)))
               end) es
        end in
      ev e s (one (fun v => choose v cs))
  | SFall => kf s
  | SReturn es => rhs es s kr
  | SRange2 _ _ _ _ | SDefer _ => Fault
  | SBlock b => sts b s (fun s' => k (leave s s')) kf
  end.
Definition sts (l : list stmt) (s : env) (k : env -> prog R) (kr : list value -> prog R) (kf : env -> prog R) : prog R :=
  seqs (fun x s k kf => st x s k kr kf) l s k kf.

(** ** Functions *)
Fixpoint bindParams (ps : list (string * ty)) (vs : list value) : option env :=
  match ps, vs with
  | [], [] => Some []
  | (x, t) :: ps', v :: vs' =>
      match typed_as t v, bindParams ps' vs' with Some w, Some e => Some ((x, w) :: e) | _, _ => None end
  | _, _ => None
  end.
Fixpoint bindResults (rs : list (string * ty)) (vs : list value) : option (list value) :=
  match rs, vs with
  | [], [] => Some []
  | (_, t) :: rs', v :: vs' =>
      match typed_as t v, bindResults rs' vs' with Some w, Some e => Some (w :: e) | _, _ => None end
  | _, _ => None
  end.
Definition give (rs : list (string * ty)) (vs : list value) : prog R :=
  match bindResults rs vs with Some ws => Ret ws | None => Fault end.
Definition apply (f : func) (body : list stmt) (args : list value) : prog R :=
  match bindParams (f_params f) args with
  | Some s => sts body s (fun _ => give (f_results f) []) (give (f_results f)) (fun _ => Fault)
  | None => Fault
  end.
End meaning.
End width.
