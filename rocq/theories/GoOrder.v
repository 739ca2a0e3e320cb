(** * Other orders of evaluation

    The Go specification orders the calls of an expression and says of its other operands
    only that they are evaluated before they are used; GoInterp.v goes from left to right.
    Here the operands of an operator, an index or slice expression, a call or an assignment
    are evaluated in any order, and interleaved: at every moment an arbitrary function
    [pick], the choice of a compiler, says which operand makes the next memory access.
    Calls are not exempt, so that this allows more than the specification does. *)
From Coq Require Import ZArith List String Ascii Bool.
From Verif Require Import GoSem Shared Asm Encode Util IntOps SourceText GoSyntax GoInterp AsmText GoProgram.
Import ListNotations.
Local Open Scope string_scope.
Local Open Scope list_scope.
Local Open Scope Z_scope.

(** ** Interleaving two computations *)
Fixpoint mix2 (pick : prog R -> prog R -> bool) (p : prog R) : prog R -> prog R :=
  fix go (q : prog R) : prog R :=
    if pick p q then
      match p with
      | Ret a => bind q (fun b => Ret (a ++ b))
      | GoPanic => GoPanic
      | Fault => Fault
      | BadInstr => BadInstr
      | Diverge => Diverge
      | ReadB b i k => ReadB b i (fun v => mix2 pick (k v) q)
      | WriteB b i v k => WriteB b i v (mix2 pick k q)
      | ReadW b i k => ReadW b i (fun v => mix2 pick (k v) q)
      | WriteW b i v k => WriteW b i v (mix2 pick k q)
      | AllocB b n k => AllocB b n (mix2 pick k q)
      end
    else
      match q with
      | Ret b => bind p (fun a => Ret (a ++ b))
      | GoPanic => GoPanic
      | Fault => Fault
      | BadInstr => BadInstr
      | Diverge => Diverge
      | ReadB b i k => ReadB b i (fun v => go (k v))
      | WriteB b i v k => WriteB b i v (go k)
      | ReadW b i k => ReadW b i (fun v => go (k v))
      | WriteW b i v k => WriteW b i v (go k)
      | AllocB b n k => AllocB b n (go k)
      end.
(** An operand has one value. *)
Definition single (p : prog R) : prog R := bind p (one (fun v => Ret [v])).
Fixpoint mixs (pick : prog R -> prog R -> bool) (ps : list (prog R)) : prog R :=
  match ps with [] => Ret [] | p :: r => mix2 pick (single p) (mixs pick r) end.

(** ** The statements of GoInterp.v with the evaluation of expressions as a parameter:
    [EV] a single expression, [OPS] several operands *)
Section statements.
Variable w : Z.
Variable pk : string.
Variable types : string -> string -> option kind.
Variable fuel : nat.
Variable EV : expr -> env -> (list value -> prog R) -> prog R.
Variable OPS : list expr -> env -> (list value -> prog R) -> prog R.
Local Notation kindOf := (kindOf pk types).
Local Notation typed_as := (typed_as pk types).
Definition rhsG (es : list expr) (s : env) (k : list value -> prog R) : prog R :=
  match es with [e] => EV e s k | _ => OPS es s k end.
Fixpoint stG (x : stmt) (s : env) (k : env -> prog R) (kr : list value -> prog R) (kf : env -> prog R) {struct x} : prog R :=
  let sts := seqs (fun x s k kf => stG x s k kr kf) in
  match x with
  | SExpr e => EV e s (fun _ => k s)
  | SVar x (Some t) None => match kindOf t with Some c => k ((x, VInt c 0) :: s) | None => Fault end
  | SVar x (Some t) (Some e) =>
      EV e s (one (fun v => match typed_as t v with Some w => k ((x, w) :: s) | None => Fault end))
  | SVar x None (Some e) => EV e s (one (fun v => k ((x, dflt v) :: s)))
  | SVar _ None None => Fault
  | SDef xs es => rhsG es s (fun vs => match declare xs vs s with Some s' => k s' | None => Fault end)
  | SSet [l] [e] =>
      match l with
      | EIdx a i => OPS [a; i; e] s (fun vs => match vs with [a; i; v] => store a i v (k s) | _ => Fault end)
      | EId x =>
          match String.eqb x "_", e with
          | true, EIdx a i =>
              OPS [a; i] s (fun vs => match vs with [a; i] =>
                match a, num i with VBytes t, Some z | VWords t, Some z => bind (check_idx t z) (fun _ => k s) | _, _ => Fault end | _ => Fault end)
          | _, _ => EV e s (one (fun v => assign l s v k))
          end
      | _ => Fault
      end
  | SSet _ _ => Fault
  | SOp o l e =>
      match l with
      | EId x => OPS [EId x; e] s (fun vs => match vs with [a; b] => binary w o a b (fun v => assign (EId x) s v k) | _ => Fault end)
      | _ => Fault
      end
  | SIf c a b =>
      EV c s (one (boolean (fun t =>
        if t then sts a s (fun s' => k (leave s s')) kf else sts b s (fun s' => k (leave s s')) kf)))
  | SFor c post body =>
      loop fuel
        (fun s k => match c with Some c => EV c s (one (boolean k)) | None => k true end)
        (fun s k => sts body s (fun s' => sts post (leave s s') k kf) kf)
        s k
  | SRange x e body =>
      EV e s (one (fun v =>
        match v with
        | VBytes t | VWords t =>
            rloop w fuel (s_len t) (fun i s k => sts body ((x, VInt INT i) :: s) (fun s' => k (leave s s')) kf) 0 s k
        | _ => Fault
        end))
  | SSwitch e cs =>
      let enter := fix enter (cs : list (list expr * list stmt)) (s0 : env) : prog R :=
        match cs with
        | [] => Fault
        | (_, b) :: r => sts b s0 (fun s' => k (leave s s')) (fun s' => enter r (leave s s'))
        end in
      let choose := fix choose (v : value) (cs : list (list expr * list stmt)) : prog R :=
        match cs with
        | [] => k s
        | (es, b) :: r =>
            (fix any (es : list expr) : prog R :=
               match es with
               | [] => choose v r
               | e :: q => EV e s (one (fun w => matches v w (fun t => if t then enter cs s else any q)))
               end) es
        end in
      EV e s (one (fun v => choose v cs))
  | SFall => kf s
  | SReturn es => rhsG es s kr
  | SRange2 _ _ _ _ | SDefer _ => Fault
  | SBlock b => sts b s (fun s' => k (leave s s')) kf
  end.
Definition stsG (l : list stmt) (s : env) (k : env -> prog R) (kr : list value -> prog R) (kf : env -> prog R) : prog R :=
  seqs (fun x s k kf => stG x s k kr kf) l s k kf.
Definition applyG (f : func) (body : list stmt) (args : list value) : prog R :=
  match bindParams pk types (f_params f) args with
  | Some s => stsG body s (fun _ => give pk types (f_results f) []) (give pk types (f_results f)) (fun _ => Fault)
  | None => Fault
  end.
End statements.

(** ** Expressions in any order; [pick] may depend on the expression and the variables *)
Definition order := list expr -> env -> prog R -> prog R -> bool.
Section expressions.
Variable w : Z.
Variable pick : order.
Variable pk : string.
Variable types : string -> string -> option kind.
Variable glob : string -> string -> option value.
Variable call : string -> string -> list value -> prog R.
Variable blk : nat.
Local Notation kindOf := (kindOf pk types).
Local Notation name := (name pk glob).

Fixpoint ev2 (e : expr) (s : env) {struct e} : prog R :=
  let ops es f := bind (mixs (pick es s) (map (fun e => ev2 e s) es)) f in
  let ret v := Ret [v] in
  match e with
  | EInt z => Ret [VConst z]
  | EStr x => Ret [VStr x]
  | EId x => Ret [name s x]
  | ESel (EId p) x => match glob p x with Some v => Ret [v] | None => Fault end
  | ESel (ESel (EId p) v) x => match glob (p ++ "." ++ v)%string x with Some u => Ret [u] | None => Fault end
  | ESel _ _ => Fault
  | EUn o a =>
      if String.eqb o "-" then bind (ev2 a s) (one (fun v => match v with VConst z => Ret [VConst (- z)] | _ => Fault end))
      else if String.eqb o "!" then bind (ev2 a s) (one (boolean (fun b => Ret [VBool (negb b)])))
      else Fault
  | EBin o a b =>
      if String.eqb o "&&" then bind (ev2 a s) (one (boolean (fun t => if t then ev2 b s else Ret [VBool false])))
      else if String.eqb o "||" then bind (ev2 a s) (one (boolean (fun t => if t then Ret [VBool true] else ev2 b s)))
      else ops [a; b] (fun vs => match vs with [x; y] => binary w o x y ret | _ => Fault end)
  | EIdx a i => ops [a; i] (fun vs => match vs with [x; y] => index x y ret | _ => Fault end)
  | ESlice a None None => ops [a] (fun vs => match vs with [x] => slicing x None None ret | _ => Fault end)
  | ESlice a (Some l) None => ops [a; l] (fun vs => match vs with [x; l] => slicing x (Some l) None ret | _ => Fault end)
  | ESlice a None (Some h) => ops [a; h] (fun vs => match vs with [x; h] => slicing x None (Some h) ret | _ => Fault end)
  | ESlice a (Some l) (Some h) => ops [a; l; h] (fun vs => match vs with [x; l; h] => slicing x (Some l) (Some h) ret | _ => Fault end)
  | EMake (TySlice t) n =>
      match kindOf t with
      | Some U8 => bind (ev2 n s) (one (fun v => match num v with Some z => bind (makeB blk z) (fun t => Ret [VBytes t]) | None => Fault end))
      | _ => Fault
      end
  | EMake _ _ => Fault
  | ECall (EId f) args =>
      if String.eqb f "len" then
        ops args (one (fun v => match v with VBytes t | VWords t => Ret [VInt INT (s_len t)] | _ => Fault end))
      else if String.eqb f "panic" then ops args (one (fun _ => GoPanic))
      else match basic f with
      | Some c => ops args (one (fun v => convert w c v ret))
      | None => ops args (fun vs => match name s f with VFn p g => call p g vs | _ => Fault end)
      end
  | ECall (ESel (EId p) f) args => ops args (fun vs => call p f vs)
  | ECall _ _ => Fault
  | ELit _ _ | EStruct _ _ => Fault
  | EFunc _ _ _ => Fault
  end.
Definition evAny (e : expr) (s : env) (k : list value -> prog R) : prog R := bind (ev2 e s) k.
Definition opsAny (es : list expr) (s : env) (k : list value -> prog R) : prog R := bind (mixs (pick es s) (map (fun e => ev2 e s) es)) k.
End expressions.

(** ** Calls, as in GoProgram.v *)
Fixpoint callAny (pick : order) (w : Z) (a : arch) (P : program) (glob : string -> string -> option value) (blk : nat) (n : nat)
    (p f : string) (args : list value) : prog R :=
  match n with
  | O => Diverge
  | S n' =>
    match extern p f args with
    | Some q => q
    | None =>
      match declared (p_decls P) p f with
      | Some (DFunc fn) =>
          match f_body fn with
          | Some b =>
              let c := callAny pick w a P glob blk n' in
              applyG w p (types P) n' (evAny w pick p (types P) glob c blk) (opsAny w pick p (types P) glob c blk) fn b args
          | None => assembly a P fn args
          end
      | _ => Fault
      end
    end
  end.

(** ** What the order cannot change

    [silent]: functions that do not store or allocate, by package and name. *)
Section checks.
Variable silent : string -> string -> bool.
Variable pk : string.
(** Only names and constants: no access to memory, no panic, no call. *)
Fixpoint plain (e : expr) : bool :=
  match e with
  | EInt _ | EStr _ | EId _ => true
  | ESel (EId _) _ | ESel (ESel (EId _) _) _ => true
  | EBin o a b => mem o ["+"; "-"; "*"; "|"; "&"; "&^"; "=="; "!="; "<"; ">"; "<="; ">="] && plain a && plain b
  | ECall (EId f) [a] => (String.eqb f "len" || match basic f with Some _ => true | None => false end) && plain a
  | _ => false
  end.
(** Nothing that stores or allocates. *)
Fixpoint still (e : expr) : bool :=
  match e with
  | EInt _ | EStr _ | EId _ => true
  | ESel _ _ => true
  | EUn _ a => still a
  | EBin _ a b => still a && still b
  | EIdx a i => still a && still i
  | ESlice a lo hi => still a && match lo with Some l => still l | None => true end && match hi with Some h => still h | None => true end
  | ECall (EId f) args =>
      (mem f ["len"; "panic"] || match basic f with Some _ => true | None => silent pk f end) && forallb still args
  | ECall (ESel (EId p) f) args => silent p f && forallb still args
  | _ => false
  end.
(** Operands: nothing that stores or allocates, or all of them plain except one. *)
Fixpoint apart (es : list expr) : bool :=
  match es with
  | [] => true
  | e :: r => (still e && forallb still r) || (plain e && apart r) || forallb plain r
  end.
Fixpoint ordered (e : expr) : bool :=
  match e with
  | EUn _ a => ordered a
  | EBin o a b => ordered a && ordered b && (mem o ["&&"; "||"] || apart [a; b])
  | EIdx a i => ordered a && ordered i && apart [a; i]
  | ESlice a lo hi =>
      ordered a && match lo with Some l => ordered l | None => true end && match hi with Some h => ordered h | None => true end &&
      apart (a :: match lo with Some l => [l] | None => [] end ++ match hi with Some h => [h] | None => [] end)
  | EMake _ n => ordered n
  | ECall _ args => forallb ordered args && apart args
  | _ => true
  end.
(** A variable must not have the name of a function of the package that is relied on. *)
Definition fresh (x : string) : bool := negb (silent pk x).
Definition both (es : list expr) : bool := forallb ordered es && apart es.
(** Statements whose expressions satisfy [E], operands [Es]; with or without stores. *)
Fixpoint okS (E : expr -> bool) (Es : list expr -> bool) (stores : bool) (x : stmt) : bool :=
  match x with
  | SExpr e => E e
  | SVar x _ e => fresh x && match e with Some e => E e | None => true end
  | SDef xs es => forallb fresh xs && Es es
  | SSet [EIdx a i] [e] => stores && Es [a; i; e]
  | SSet [EId _] [e] => E e && match e with EIdx a i => Es [a; i] | _ => true end
  | SSet _ _ => true
  | SOp _ l e => Es [l; e]
  | SIf c a b => E c && forallb (okS E Es stores) a && forallb (okS E Es stores) b
  | SFor c p b => match c with Some c => E c | None => true end && forallb (okS E Es stores) p && forallb (okS E Es stores) b
  | SRange x e b => fresh x && E e && forallb (okS E Es stores) b
  | SSwitch e cs => E e && forallb (fun c => forallb E (fst c) && forallb (okS E Es stores) (snd c)) cs
  | SReturn es => Es es
  | SBlock b => forallb (okS E Es stores) b
  | SFall | SRange2 _ _ _ _ | SDefer _ => true
  end.
Definition orderedS : stmt -> bool := okS ordered both true.
Definition stillS : stmt -> bool := okS still (forallb still) false.
End checks.
(** Every function of the program; the functions relied on must deserve it. *)
Definition checkedFunction (silent : string -> string -> bool) (pd : string * decl) : bool :=
  match snd pd with
  | DFunc f =>
      match f_body f with
      | Some b => forallb (fun p => fresh silent (fst pd) (fst p)) (f_params f) && forallb (orderedS silent (fst pd)) b &&
                  (negb (silent (fst pd) (f_name f)) || forallb (stillS silent (fst pd)) b)
      | None => negb (silent (fst pd) (f_name f))
      end
  | _ => true
  end.
(** The functions of the repository that do not store or allocate. *)
Definition silentIn (p f : string) : bool :=
  if String.eqb p "decode" then mem f ["decodeOne"; "GetMode"]
  else if String.eqb p "encode" then mem f ["GetMode"; "max"]
  else if String.eqb p "shared" then mem f ["ControlByteToSize"; "ControlByteToSizeTwo"]
  else if String.eqb p "bits" then String.eqb f "LeadingZeros32"
  else false.
