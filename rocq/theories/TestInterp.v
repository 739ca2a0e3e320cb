(** * Executing the test functions of the repository

    An interpreter for the bodies of the functions Test* and Benchmark* of the files
    *_test.go and of those functions of pkg/util that draw random numbers or sort (util.go, rand.go).
    Written from the Go language specification for what these functions use.  Expressions
    and the functions under test are executed by GoInterp.v / GoProgram.v; here are
    random numbers, new slices of uint32, append, copy, sort.Slice, reflect.DeepEqual, the
    methods Run, Fatalf and Skipf of testing.T, and N, Run, Skipf, SetBytes and ResetTimer
    of testing.B.

    The random numbers are not modelled as a particular sequence: [passes] below asks
    that a test passes whatever is drawn, and wherever new slices are allocated. *)
From Coq Require Import ZArith String.
From stdpp Require Import prelude gmap list sorting.
From Verif Require Import Shared Asm IntOps GoSyntax GoInterp AsmText GoProgram GoSource GoSem Api.
Local Open Scope string_scope.
Local Open Scope list_scope.
Local Open Scope Z_scope.

(** ** What a test does *)
Inductive tst :=
| Pass                                             (* the test function returns *)
| Skip                                             (* t.Skipf *)
| Fail                                             (* t.Fatalf *)
| Wrong                                            (* a panic, or outside the language *)
| Draw (lo hi : Z) (k : Z -> tst)                  (* a random number, lo <= z < hi *)
| Invoke (p : nat -> nat -> prog R) (k : R -> tst) (* a call: [p b n] with memory allocated as [b] and fuel [n] *)
| NewW (l : list Z) (k : slice -> tst)             (* a new []uint32 *)
| NewB (l : list Z) (k : slice -> tst)             (* a new []byte *)
| AppendW (s : slice) (z : Z) (k : slice -> tst)   (* append(s, z) *)
| CopyW (d s : slice) (k : tst)                    (* copy(d, s) on []uint32 *)
| SortW (s : slice) (k : tst)                      (* sort.Slice with <, on a []uint32 *)
| EqualW (s t : slice) (k : bool -> tst)           (* reflect.DeepEqual; none of the slices is nil *)
| EqualB (s t : slice) (k : bool -> tst).

(** [h] with the elements of [s] replaced by [l]. *)
Definition overwrite (h : gmap nat (list Z)) (s : slice) (l : list Z) : gmap nat (list Z) :=
  match h !! s_blk s with
  | Some b => <[ s_blk s := (take (Z.to_nat (s_off s)) b ++ l ++ drop (Z.to_nat (s_off s) + length l) b)%list ]> h
  | None => h
  end.
(** Run on memory [m], the test passes, or is skipped if [may] is true: whatever is drawn,
    wherever memory is allocated.  Calls must return. *)
Fixpoint passes (may : bool) (t : tst) (m : mem) : Prop :=
  match t with
  | Pass => True
  | Skip => may = true
  | Fail | Wrong => False
  | Draw lo hi k => forall z, lo <= z < hi -> passes may (k z) m
  | Invoke p k =>
      forall b, mb m !! b = None ->
      exists vs m', (exists N, forall n, (N <= n)%nat -> returns (p b n) m vs m') /\ passes may (k vs) m'
  | NewW l k => forall b, mw m !! b = None -> passes may (k (Slice b 0 (Z.of_nat (length l)) (Z.of_nat (length l)))) (Mem (mb m) (<[ b := l ]> (mw m)))
  | NewB l k => forall b, mb m !! b = None -> passes may (k (Slice b 0 (Z.of_nat (length l)) (Z.of_nat (length l)))) (Mem (<[ b := l ]> (mb m)) (mw m))
  | AppendW s z k =>
      if s_len s <? s_cap s
      then passes may (k (Slice (s_blk s) (s_off s) (s_len s + 1) (s_cap s)))
             (Mem (mb m) (overwrite (mw m) (Slice (s_blk s) (s_off s + s_len s) 1 1) [z]))
      else forall b (spare : nat), mw m !! b = None -> Z.of_nat spare < 2 ^ 51 ->  (* the new capacity is up to the implementation *)
           passes may (k (Slice b 0 (s_len s + 1) (s_len s + 1 + Z.of_nat spare)))
             (Mem (mb m) (<[ b := (words m s ++ [z] ++ replicate spare 0)%list ]> (mw m)))
  | CopyW d s k => passes may k (Mem (mb m) (overwrite (mw m) d (take (Z.to_nat (s_len d)) (words m s))))
  | SortW s k => passes may k (Mem (mb m) (overwrite (mw m) s (merge_sort Z.le (words m s))))
  | EqualW s t k => passes may (k (bool_decide (words m s = words m t))) m
  | EqualB s t k => passes may (k (bool_decide (bytes m s = bytes m t))) m
  end.

(** ** Expressions *)
Definition one (k : value -> tst) (vs : list value) : tst := match vs with [v] => k v | _ => Wrong end.
Definition boolean (k : bool -> tst) (v : value) : tst := match v with VBool b => k b | _ => Wrong end.
(** a step of GoInterp.v with one result *)
Definition prim (p : prog R) (k : list value -> tst) : tst := Invoke (fun _ _ => p) k.
(** The functions of pkg/util executed here and not by GoInterp.v. *)
Definition here (p f : string) : bool :=
  String.eqb p "util" && (String.eqb f "RandUint32" || String.eqb f "randUint32Range" || String.eqb f "GenUint32" || String.eqb f "SortUint32").
(** Constants of the standard library. *)
Definition library (p x : string) : option value :=
  if String.eqb p "math" && String.eqb x "MaxUint32" then Some (VConst (2 ^ 32 - 1))
  else if String.eqb p "binary" && String.eqb x "MaxVarintLen32" then Some (VConst 5)
  else None.
(** The parameter t. *)
Definition handle : value := VStr "testing.T".
(** The parameter b of a benchmark [x]; its field N is the variable x.N, a name no Go variable has. *)
Definition timer : value := VStr "testing.B".
Definition field (p x : string) : string := String.append p (String.append "." x).
Definition enterB (x : string) (N : Z) (s : env) : env := (x, timer) :: (field x "N", VInt INT N) :: s.
(** the nil slice *)
Definition nilslice : slice := Slice 0 0 0 0.
Definition literal (e : expr) : option Z := match e with EInt z => Some z | _ => None end.
Definition isU32 (z : Z) : bool := (0 <=? z) && (z <? 2 ^ 32).
Definition isU8 (z : Z) : bool := (0 <=? z) && (z <? 2 ^ 8).

Section meaning.
Variable a : arch.
Variable pk : string.
Variable user : string -> string -> list value -> (list value -> tst) -> tst.
Variable fuel : nat.
Notation P := (source a).
Notation G := (glob 64 a P).

(** Arguments as parameters of [f]: constants take the parameter's type. *)
Fixpoint conform (p : string) (ps : list (string * ty)) (vs : list value) : option (list value) :=
  match ps, vs with
  | [], [] => Some []
  | (_, t) :: ps', v :: vs' =>
      match typed_as p (types P) t v, conform p ps' vs' with Some w, Some ws => Some (w :: ws) | _, _ => None end
  | _, _ => None
  end.
Definition invoke (p f : string) (vs : list value) (k : list value -> tst) : tst :=
  if here p f then user p f vs k
  else match declared (p_decls P) p f with
  | Some (DFunc fn) =>
      match conform p (f_params fn) vs with
      | Some ws => Invoke (fun b n => GoProgram.call 64 a P b n p f ws) k
      | None => Wrong
      end
  | _ => Wrong
  end.
Fixpoint ev (e : expr) (s : env) (k : list value -> tst) {struct e} : tst :=
  let evs := fix evs (es : list expr) (k : list value -> tst) : tst :=
    match es with
    | [] => k []
    | e :: r => ev e s (one (fun v => evs r (fun vs => k (v :: vs))))
    end in
  match e with
  | EInt z => k [VConst z]
  | EStr x => k [VStr x]
  | EId x => k [name pk G s x]
  | ESel (EId p) x =>
      match lookup s (field p x) with
      | Some v => k [v]
      | None => match library p x with Some v => k [v] | None => match G p x with Some v => k [v] | None => Wrong end end
      end
  | EUn o e => if String.eqb o "!" then ev e s (one (boolean (fun b => k [VBool (negb b)]))) else Wrong
  | EBin o x y => ev x s (one (fun x => ev y s (one (fun y => prim (binary 64 o x y (fun v => Ret [v])) k))))
  | EIdx x i => ev x s (one (fun x => ev i s (one (fun i => prim (index x i (fun v => Ret [v])) k))))
  | ESlice x None (Some h) => ev x s (one (fun x => ev h s (one (fun h => prim (slicing x None (Some h) (fun v => Ret [v])) k))))
  | EMake (TySlice t) n =>
      ev n s (one (fun v =>
        match num v, kindOf pk (types P) t with
        | Some z, Some U8 => if z <? 0 then Wrong else NewB (replicate (Z.to_nat z) 0) (fun t => k [VBytes t])
        | Some z, Some U32 => if z <? 0 then Wrong else NewW (replicate (Z.to_nat z) 0) (fun t => k [VWords t])
        | _, _ => Wrong
        end))
  | ELit (Some (TySlice t)) es =>
      match allSome (map literal es), kindOf pk (types P) t with
      | Some l, Some U8 => if forallb isU8 l then NewB l (fun t => k [VBytes t]) else Wrong
      | Some l, Some U32 => if forallb isU32 l then NewW l (fun t => k [VWords t]) else Wrong
      | _, _ => Wrong
      end
  | ECall (EId f) args =>
      if String.eqb f "append" then
        evs args (fun vs => match vs with
          | [VWords t; VConst z] => if isU32 z then AppendW t z (fun t => k [VWords t]) else Wrong
          | [VWords t; VInt U32 z] => AppendW t z (fun t => k [VWords t])
          | _ => Wrong
          end)
      else if String.eqb f "copy" then
        evs args (fun vs => match vs with
          | [VWords d; VWords t] => CopyW d t (k [VInt INT (Z.min (s_len d) (s_len t))])
          | _ => Wrong
          end)
      else match basic f with
      | Some c =>
          match args with
          | [ECall (ESel (EId p) g) [e]] =>
              if String.eqb p "math" then
                (* int(math.Pow10(i)): the float64 10^i is exact for these i *)
                if String.eqb f "int" && String.eqb g "Pow10" then
                  ev e s (one (fun v => match v with VInt INT i => if (0 <=? i) && (i <=? 18) then k [VInt INT (10 ^ i)] else Wrong | _ => Wrong end))
                else Wrong
              else evs args (one (fun v => prim (convert 64 c v (fun v => Ret [v])) k))
          | _ => evs args (one (fun v => prim (convert 64 c v (fun v => Ret [v])) k))
          end
      | None => evs args (fun vs => invoke pk f vs k)
      end
  | ECall (ESel (EId p) f) args =>
      if String.eqb p "rand" then
        evs args (fun vs => match vs with
          | [] => if String.eqb f "Int" then Draw 0 (2 ^ 63) (fun z => k [VInt INT z])
                  else if String.eqb f "Uint32" then Draw 0 (2 ^ 32) (fun z => k [VInt U32 z]) else Wrong
          | [v] => match num v with
                   | Some n => if String.eqb f "Intn" then if n <=? 0 then Wrong else Draw 0 n (fun z => k [VInt INT z]) else Wrong
                   | None => Wrong
                   end
          | _ => Wrong
          end)
      else if String.eqb p "reflect" then
        evs args (fun vs => match vs with
          | [VWords t; VWords u] => if String.eqb f "DeepEqual" then EqualW t u (fun b => k [VBool b]) else Wrong
          | [VBytes t; VBytes u] => if String.eqb f "DeepEqual" then EqualB t u (fun b => k [VBool b]) else Wrong
          | _ => Wrong
          end)
      else if String.eqb p "fmt" then evs args (fun _ => if String.eqb f "Sprintf" then k [VStr ""] else Wrong)
      else if String.eqb p "sort" then
        match args with
        | [EId x; EFunc [(i, TyName ti); (j, TyName tj)] [TyName tb] [SReturn [EBin o (EIdx (EId x1) (EId i1)) (EIdx (EId x2) (EId j1))]]] =>
            if String.eqb f "Slice" && String.eqb ti "int" && String.eqb tj "int" && String.eqb tb "bool" && String.eqb o "<"
               && String.eqb x1 x && String.eqb x2 x && String.eqb i1 i && String.eqb j1 j
               && negb (String.eqb i j) && negb (String.eqb i x) && negb (String.eqb j x)
            then match lookup s x with Some (VWords t) => SortW t (k []) | _ => Wrong end
            else Wrong
        | _ => Wrong
        end
      else evs args (fun vs => invoke p f vs k)
  | ECall (EIdx (EId x) i) [] => ev i s (one (fun v => user pk x [v] k))
  | _ => Wrong
  end.
Fixpoint evs (es : list expr) (s : env) (k : list value -> tst) : tst :=
  match es with
  | [] => k []
  | e :: r => ev e s (one (fun v => evs r s (fun vs => k (v :: vs))))
  end.

(** ** Statements *)
Fixpoint loop (n : nat) (c : env -> (bool -> tst) -> tst) (body : env -> (env -> tst) -> tst) (s : env) (k : env -> tst) : tst :=
  match n with
  | O => Wrong
  | S n' => c s (fun t => if t then body s (fun s' => loop n' c body s' k) else k s)
  end.
Definition assign (x : string) (s : env) (v : value) (k : env -> tst) : tst :=
  match update s x v with Some s' => k s' | None => Wrong end.
Definition seqs (f : stmt -> env -> (env -> tst) -> tst) : list stmt -> env -> (env -> tst) -> tst :=
  fix go (l : list stmt) (s : env) (k : env -> tst) : tst :=
    match l with
    | [] => k s
    | x :: r => f x s (fun s' => go r s' k)
    end.
(** b.Run calls the function literal [r] times, each time with some b.N. *)
Fixpoint runs (r : nat) (body : Z -> env -> (env -> tst) -> tst) (s : env) (k : env -> tst) : tst :=
  match r with
  | O => k s
  | S r' => Draw 1 (Z.min (Z.of_nat fuel) (2 ^ 63)) (fun N => body N s (fun s' => runs r' body s' k))
  end.
(** var x t *)
Definition zero (t : ty) : option value :=
  match t with
  | TySlice t => match kindOf pk (types P) t with Some U8 => Some (VBytes nilslice) | Some U32 => Some (VWords nilslice) | _ => None end
  | _ => option_map (fun c => VInt c 0) (kindOf pk (types P) t)
  end.
Definition isTimer (s : env) (t : string) : bool := match lookup s t with Some (VStr x) => String.eqb x "testing.B" | _ => false end.
Definition isHandle (s : env) (t : string) : bool := match lookup s t with Some (VStr x) => String.eqb x "testing.T" | _ => false end.
Fixpoint st (x : stmt) (s : env) (k : env -> tst) (kr : list value -> tst) {struct x} : tst :=
  let sts s kr := seqs (fun x s k => st x s k kr) in
  match x with
  | SExpr (ECall (ESel (EId t) f) args) =>
      if isHandle s t then
        if String.eqb f "Fatalf" then Fail
        else if String.eqb f "Skipf" then Skip
        else if String.eqb f "Run" then
          match args with
          | [e; EFunc [(t', _)] [] body] => ev e s (fun _ => sts s (fun _ => Wrong) body ((t', handle) :: s) (fun s' => k (leave s s')))
          | _ => Wrong
          end
        else Wrong
      else if isTimer s t then
        if String.eqb f "Skipf" then Skip
        else if String.eqb f "ResetTimer" then match args with [] => k s | _ => Wrong end
        else if String.eqb f "SetBytes" then
          match args with
          | [ECall (EId c) [e]] => if String.eqb c "int64" then ev e s (one (fun v => match v with VInt INT _ => k s | _ => Wrong end)) else Wrong
          | _ => Wrong
          end
        else if String.eqb f "Run" then
          match args with
          | [e; EFunc [(t', _)] [] body] =>
              ev e s (fun _ => Draw 0 (Z.of_nat fuel) (fun r =>
                runs (Z.to_nat r) (fun N s k => sts s (fun _ => Wrong) body (enterB t' N s) (fun s' => k (leave s s'))) s k))
          | _ => Wrong
          end
        else Wrong
      else ev (ECall (ESel (EId t) f) args) s (fun _ => k s)
  | SExpr e => ev e s (fun _ => k s)
  | SDef xs es => evs es s (fun vs => match declare xs vs s with Some s' => k s' | None => Wrong end)
  | SSet [EIdx x i] [e] =>
      ev x s (one (fun x => ev i s (one (fun i => ev e s (one (fun v => prim (store x i v (Ret [])) (fun _ => k s)))))))
  | SSet [EId x] [e] => ev e s (one (fun v => assign x s v k))
  | SOp o (EId x) e => ev (EId x) s (one (fun u => ev e s (one (fun v => prim (binary 64 o u v (fun v => Ret [v])) (one (fun v => assign x s v k))))))
  | SIf c x y =>
      ev c s (one (boolean (fun t =>
        if t then sts s kr x s (fun s' => k (leave s s')) else sts s kr y s (fun s' => k (leave s s')))))
  | SFor (Some c) post body =>
      loop fuel (fun s k => ev c s (one (boolean k)))
        (fun s k => sts s kr body s (fun s' => sts s kr post (leave s s') k)) s k
  | SVar x (Some t) None => match zero t with Some v => k ((x, v) :: s) | None => Wrong end
  | SReturn es => evs es s kr
  | SBlock b => sts s kr b s (fun s' => k (leave s s'))
  | _ => Wrong
  end.
Definition sts (l : list stmt) (s : env) (k : env -> tst) (kr : list value -> tst) : tst := seqs (fun x s k => st x s k kr) l s k.
End meaning.

(** ** Functions *)
Section linked.
Variable a : arch.
Variable fuel : nat.
Notation P := (source a).
(** The function literals of a package variable. *)
Fixpoint pick (z : Z) (es : list expr) (j : Z) (k : list stmt -> tst) : tst :=
  match es with
  | EFunc [] _ body :: r => if z =? j then k body else pick z r (j + 1) k
  | _ => Wrong  (* index out of range *)
  end.
(** The functions of pkg/util executed here; [n] bounds the depth of calls. *)
Fixpoint user (n : nat) (p f : string) (args : list value) (k : list value -> tst) : tst :=
  match n with
  | O => Wrong
  | S n' =>
    match declared (p_decls P) p f with
    | Some (DFunc fn) =>
        match f_body fn, bindParams p (types P) (f_params fn) args with
        | Some b, Some s =>
            let give vs := match bindResults p (types P) (f_results fn) vs with Some ws => k ws | None => Wrong end in
            sts a p (user n') fuel b s (fun _ => give []) give
        | _, _ => Wrong
        end
    | Some (DVar _ _ (Some (ELit _ es))) =>
        match args with
        | [v] => match num v with Some z => pick z es 0 (fun b => sts a p (user n') fuel b [] (fun _ => Wrong) k) | None => Wrong end
        | _ => Wrong
        end
    | _ => Wrong
    end
  end.
End linked.

(** Test function [x] of a test file: its parameter and body. *)
Definition findTest (x : string) (f : file) : option (string * list stmt) :=
  match List.find (fun d => match d with DFunc g => String.eqb x (f_name g) | _ => false end) (decls f) with
  | Some (DFunc (Func _ [(t, TyPtr (TyQual _ _))] [] (Some b))) => Some (t, b)
  | _ => None
  end.
Definition testBody (ls : list string) (x : string) : option (string * list stmt) :=
  match parse ls with Some f => findTest x f | None => None end.
(** Running test [x] of package [pk] on machine [a]; [n] bounds the rounds of the loops
    in the test and in GenUint32. *)
Definition runTest (a : arch) (n : nat) (pk : string) (ls : list string) (x : string) : tst :=
  match testBody ls x with
  | Some (t, b) => sts a pk (user a n 4) n b [(t, handle)] (fun _ => Pass) (fun _ => Pass)
  | None => Wrong
  end.
(** Benchmark [x], called with b.N = [N]: the package variables of the test file are the
    outermost variables. *)
Definition findBenchmark (x : string) (f : file) : option (string * list stmt) :=
  match List.find (fun d => match d with DFunc g => String.eqb x (f_name g) | _ => false end) (decls f) with
  | Some (DFunc (Func _ [(b, TyPtr (TyQual "testing" "B"))] [] (Some body))) => Some (b, body)
  | _ => None
  end.
Fixpoint sinks (a : arch) (pk : string) (ds : list decl) : env :=
  match ds with
  | DVar x (Some t) None :: r => match zero a pk t with Some v => (x, v) :: sinks a pk r | None => sinks a pk r end
  | _ :: r => sinks a pk r
  | [] => []
  end.
Definition runBenchmark (a : arch) (n : nat) (N : Z) (pk : string) (ls : list string) (x : string) : tst :=
  match parse ls with
  | Some f =>
      match findBenchmark x f with
      | Some (b, body) => sts a pk (user a n 4) n body (enterB b N (sinks a pk (decls f))) (fun _ => Pass) (fun _ => Pass)
      | None => Wrong
      end
  | None => Wrong
  end.
