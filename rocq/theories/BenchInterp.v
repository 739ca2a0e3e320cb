(** * Executing the benchmark tool

    An interpreter for tools/parse_and_write_bench.go, written from the Go language
    specification for what this program uses.  Slices are values: the program never
    assigns to an element.  Functions of the standard library are modelled by their
    documented meaning (those on texts in BenchTool.v), the operating system by [system]:
    every call that can fail, fails or not. *)
From Coq Require Import ZArith String.
From stdpp Require Import prelude list.
From Verif Require Import GoSyntax BenchTool.
Local Open Scope string_scope.
Local Open Scope list_scope.
Local Open Scope Z_scope.

(** What the program finds, and which calls of the operating system fail. *)
Record system := System {
  stdin : text; stdin_fails : bool;       (* the error comes after [stdin] *)
  readme : text; open_fails : bool; read_fails : bool; create_fails : bool;
  write_fails : option nat;               (* writing to the README fails after so many bytes *)
  stdout_fails : option nat;
  flag_w : bool                           (* -w is given *)
}.
(** The state of the program and its surroundings. *)
Record world := World {
  w_parsed : bool;                        (* flag.Parse was called *)
  w_lines : list text; w_line : text;     (* the scanner: lines to come, the current one *)
  w_stdout : text; w_readme : text
}.
Inductive how := Returned | LogFatal | Panicked.
(** How the program ends: standard output and README then.  None: outside the language. *)
Notation out := (option (how * text * text)).
Definition stop (h : how) (w : world) : out := Some (h, w_stdout w, w_readme w).

Inductive val :=
| VStr (t : text) | VBool (b : bool) | VInt (z : Z) | VStrs (l : list text) | VBytes (t : text)
| VNil | VErr (e : bool)                  (* an error: nil if false *)
| VStdin | VStdout | VScanner | VFlag
| VFile (w : bool).                       (* the README, opened (false) or created (true) *)
Definition env := list (string * val).
Fixpoint lookup (s : env) (x : string) : option val :=
  match s with [] => None | (y, v) :: r => if String.eqb x y then Some v else lookup r x end.
Fixpoint update (s : env) (x : string) (v : val) : option env :=
  match s with
  | [] => None
  | (y, u) :: r => if String.eqb x y then Some ((y, v) :: r) else option_map (cons (y, u)) (update r x v)
  end.
Definition leave (s s' : env) : env := skipn (List.length s' - List.length s) s'.

(** The scanner's lines, and whether it ends with an error (bufio.ErrTooLong). *)
Fixpoint tokens (ls : list text) : list text * bool :=
  match ls with
  | [] => ([], false)
  | l :: r => if 65536 <=? Z.of_nat (length l) then ([], true) else let '(ts, e) := tokens r in (dropCR l :: ts, e)
  end.
(** Writing [t] behind [old]: what is there then, and an error. *)
Definition written (fails : option nat) (old t : text) : text * bool :=
  match fails with None => (old ++ t, false) | Some k => (old ++ take k t, true) end.

Section meaning.
Variable S : system.
Variable G : string -> option val.        (* constants and variables of the package *)
Variable user : string -> list val -> world -> (list val -> world -> out) -> out.
Variable fuel : nat.

(** Functions of the standard library and of pkg/util. *)
Definition call (p f : string) (vs : list val) (w : world) (k : list val -> world -> out) : out :=
  let is a b := String.eqb p a && String.eqb f b in
  if is "flag" "Parse" then match vs with [] => k [] (World true (w_lines w) (w_line w) (w_stdout w) (w_readme w)) | _ => None end
  else if is "bufio" "NewScanner" then match vs with [VStdin] => k [VScanner] w | _ => None end
  else if is "strings" "HasPrefix" then match vs with [VStr s; VStr t] => k [VBool (HasPrefix s t)] w | _ => None end
  else if is "strings" "TrimPrefix" then match vs with [VStr s; VStr t] => k [VStr (TrimPrefix s t)] w | _ => None end
  else if is "strings" "Join" then match vs with [VStrs l; VStr t] => k [VStr (Join l t)] w | _ => None end
  else if is "bytes" "Index" then
    match vs with [VBytes s; VBytes t] => k [VInt (match Index s t with Some i => Z.of_nat i | None => -1 end)] w | _ => None end
  else if is "os" "Open" then match vs with [VStr _] => if open_fails S then k [VNil; VErr true] w else k [VFile false; VErr false] w | _ => None end
  else if is "io" "ReadAll" then match vs with [VFile false] => k [VBytes (w_readme w); VErr (read_fails S)] w | _ => None end
  else if is "os" "Create" then
    match vs with
    | [VStr _] => if create_fails S then k [VNil; VErr true] w
                  else k [VFile true; VErr false] (World (w_parsed w) (w_lines w) (w_line w) (w_stdout w) [])  (* the file is emptied *)
    | _ => None
    end
  else if is "util" "SilentClose" then match vs with [VFile _] => k [] w | _ => None end
  else if is "log" "Fatalf" then stop LogFatal w
  else None.
Definition method (v : val) (f : string) (vs : list val) (w : world) (k : list val -> world -> out) : out :=
  match v with
  | VScanner =>
      match vs with
      | [] =>
        if String.eqb f "Scan" then
          match w_lines w with
          | [] => k [VBool false] w
          | l :: r => k [VBool true] (World (w_parsed w) r l (w_stdout w) (w_readme w))
          end
        else if String.eqb f "Text" then k [VStr (w_line w)] w
        else if String.eqb f "Err" then k [VErr (snd (tokens (raw_lines [] (stdin S))) || stdin_fails S)] w
        else None
      | _ => None
      end
  | VFile true =>
      match vs with
      | [VBytes t] =>
        if String.eqb f "Write" then
          let '(u, e) := written (write_fails S) (w_readme w) t in
          k [VInt 0; VErr e] (World (w_parsed w) (w_lines w) (w_line w) (w_stdout w) u)  (* the number is not used *)
        else None
      | _ => None
      end
  | VStdout =>
      match vs with
      | [VBytes t] =>
        if String.eqb f "Write" then
          let '(u, e) := written (stdout_fails S) (w_stdout w) t in
          k [VInt 0; VErr e] (World (w_parsed w) (w_lines w) (w_line w) u (w_readme w))
        else None
      | _ => None
      end
  | _ => None
  end.
Definition one (k : val -> world -> out) (vs : list val) (w : world) : out := match vs with [v] => k v w | _ => None end.
Definition boolean (k : bool -> world -> out) (v : val) (w : world) : out := match v with VBool b => k b w | _ => None end.
Definition name (s : env) (x : string) : option val :=
  match lookup s x with
  | Some v => Some v
  | None => if String.eqb x "nil" then Some VNil else if String.eqb x "true" then Some (VBool true) else if String.eqb x "false" then Some (VBool false) else G x
  end.
Definition append (vs : list val) : option val :=
  match vs with
  | [VStrs l; VStr t] => Some (VStrs (l ++ [t]))
  | [VBytes t; VInt z] => if (0 <=? z) && (z <? 256) then Some (VBytes (t ++ [z])) else None
  | _ => None
  end.
Definition slicing (v : val) (lo hi : option Z) (w : world) (k : list val -> world -> out) : out :=
  match v with
  | VBytes t =>
      let l := default 0 lo in let h := default (Z.of_nat (length t)) hi in
      if (0 <=? l) && (l <=? h) && (h <=? Z.of_nat (length t)) then k [VBytes (take (Z.to_nat (h - l)) (drop (Z.to_nat l) t))] w else stop Panicked w
  | _ => None
  end.
Fixpoint ev (e : expr) (s : env) (w : world) (k : list val -> world -> out) {struct e} : out :=
  let evs := fix evs (es : list expr) (w : world) (k : list val -> world -> out) : out :=
    match es with
    | [] => k [] w
    | e :: r => ev e s w (one (fun v w => evs r w (fun vs => k (v :: vs))))
    end in
  match e with
  | EInt z => k [VInt z] w
  | EStr x => k [VStr (codes x)] w
  | EId x => match name s x with Some v => k [v] w | None => None end
  | ESel (EId p) x =>
      if String.eqb p "os" && String.eqb x "Stdin" then k [VStdin] w
      else if String.eqb p "os" && String.eqb x "Stdout" then k [VStdout] w else None
  | EUn o e => if String.eqb o "*" then ev e s w (one (fun v w => match v with VFlag => k [VBool (w_parsed w && flag_w S)] w | _ => None end)) else None
  | EBin o x y =>
      if String.eqb o "||" then ev x s w (one (boolean (fun b w => if b then k [VBool true] w else ev y s w (one (boolean (fun b => k [VBool b]))))))
      else if String.eqb o "&&" then ev x s w (one (boolean (fun b w => if b then ev y s w (one (boolean (fun b => k [VBool b]))) else k [VBool false] w)))
      else ev x s w (one (fun x w => ev y s w (one (fun y w =>
        match x, y with
        | VErr e, VNil => if String.eqb o "!=" then k [VBool e] w else None
        | VInt x, VInt y => if String.eqb o "<" then k [VBool (x <? y)] w else None
        | _, _ => None
        end))))
  | ECall (EId f) [x; EUn o y] =>
      if String.eqb f "append" && String.eqb o "..." then
        ev x s w (one (fun x w => ev y s w (one (fun y w => match x, y with VBytes t, VBytes u => k [VBytes (t ++ u)] w | _, _ => None end))))
      else None
  | ECall (EId f) args =>
      evs args w (fun vs w =>
        if String.eqb f "append" then match append vs with Some v => k [v] w | None => None end
        else if String.eqb f "[]byte" then match vs with [VStr t] => k [VBytes t] w | _ => None end
        else user f vs w k)
  | ECall (ESel (EId p) f) args =>
      match lookup s p with
      | Some v => evs args w (fun vs w => method v f vs w k)
      | None => evs args w (fun vs w => call p f vs w k)
      end
  | ESlice x None (Some h) => ev x s w (one (fun x w => ev h s w (one (fun h w => match h with VInt h => slicing x None (Some h) w k | _ => None end))))
  | ESlice x (Some l) None => ev x s w (one (fun x w => ev l s w (one (fun l w => match l with VInt l => slicing x (Some l) None w k | _ => None end))))
  | ELit (Some (TySlice (TyName t))) es =>
      if String.eqb t "string" then
        evs es w (fun vs w => match allSome (map (fun v => match v with VStr t => Some t | _ => None end) vs) with Some l => k [VStrs l] w | None => None end)
      else None
  | _ => None
  end.
Fixpoint evs (es : list expr) (s : env) (w : world) (k : list val -> world -> out) : out :=
  match es with
  | [] => k [] w
  | e :: r => ev e s w (one (fun v w => evs r s w (fun vs => k (v :: vs))))
  end.
(** The operands of an assignment: one call with several results, or as many expressions. *)
Definition operands (es : list expr) (s : env) (w : world) (k : list val -> world -> out) : out :=
  match es with [e] => ev e s w k | _ => evs es s w k end.

Definition zero (t : ty) : option val :=
  match t with
  | TySlice (TyName x) => if String.eqb x "string" then Some (VStrs []) else if String.eqb x "byte" then Some (VBytes []) else None
  | TyQual p x => if String.eqb p "io" && String.eqb x "Writer" then Some VNil else None
  | _ => None
  end.
(** x, y := ...: a variable declared again in its block is a new one that hides the old. *)
Fixpoint declare (xs : list string) (vs : list val) (s : env) : option env :=
  match xs, vs with
  | [], [] => Some s
  | x :: xs', v :: vs' => if String.eqb x "_" then declare xs' vs' s else declare xs' vs' ((x, v) :: s)
  | _, _ => None
  end.
Fixpoint assign (ls : list expr) (vs : list val) (s : env) : option env :=
  match ls, vs with
  | [], [] => Some s
  | EId x :: ls', v :: vs' => if String.eqb x "_" then assign ls' vs' s else match update s x v with Some s' => assign ls' vs' s' | None => None end
  | _, _ => None
  end.
Fixpoint loop (n : nat) (c : env -> world -> (bool -> world -> out) -> out) (body : env -> world -> (env -> world -> out) -> out)
  (s : env) (w : world) (k : env -> world -> out) : out :=
  match n with
  | O => None
  | Datatypes.S n' => c s w (fun t w => if t then body s w (fun s' w => loop n' c body s' w k) else k s w)
  end.
Fixpoint each (l : list text) (body : text -> env -> world -> (env -> world -> out) -> out) (s : env) (w : world) (k : env -> world -> out) : out :=
  match l with
  | [] => k s w
  | t :: r => body t s w (fun s' w => each r body s' w k)
  end.
Definition seqs (f : stmt -> env -> world -> (env -> world -> out) -> out) : list stmt -> env -> world -> (env -> world -> out) -> out :=
  fix go (l : list stmt) (s : env) (w : world) (k : env -> world -> out) : out :=
    match l with
    | [] => k s w
    | x :: r => f x s w (fun s' w => go r s' w k)
    end.
Fixpoint st (x : stmt) (s : env) (w : world) (k : env -> world -> out) (kr : list val -> world -> out) {struct x} : out :=
  let sts := seqs (fun x s w k => st x s w k kr) in
  match x with
  | SExpr e => ev e s w (fun _ w => k s w)
  | SVar x (Some t) None => match zero t with Some v => k ((x, v) :: s) w | None => None end
  | SVar x None (Some e) => ev e s w (one (fun v w => k ((x, v) :: s) w))
  | SDef xs es => operands es s w (fun vs w => match declare xs vs s with Some s' => k s' w | None => None end)
  | SSet ls es => operands es s w (fun vs w => match assign ls vs s with Some s' => k s' w | None => None end)
  | SIf c x y =>
      ev c s w (one (boolean (fun t w => if t then sts x s w (fun s' w => k (leave s s') w) else sts y s w (fun s' w => k (leave s s') w))))
  | SFor (Some c) [] body =>
      loop fuel (fun s w k => ev c s w (one (boolean k))) (fun s w k => sts body s w (fun s' w => k (leave s s') w)) s w k
  | SRange2 i x e body =>
      if String.eqb i "_" then
        ev e s w (one (fun v w => match v with
          | VStrs l => each l (fun t s w k => sts body ((x, VStr t) :: s) w (fun s' w => k (leave s s') w)) s w k
          | _ => None
          end))
      else None
  (* util.SilentClose at the end of main: the argument is evaluated here, closing has no effect that is modelled *)
  | SDefer (ECall (ESel (EId p) f) [e]) =>
      if String.eqb p "util" && String.eqb f "SilentClose" then ev e s w (one (fun v w => match v with VFile _ => k s w | _ => None end)) else None
  | SReturn es => evs es s w kr
  | SBlock b => sts b s w (fun s' w => k (leave s s') w)
  | _ => None
  end.
Definition sts (l : list stmt) (s : env) (w : world) (k : env -> world -> out) (kr : list val -> world -> out) : out :=
  seqs (fun x s w k => st x s w k kr) l s w k.
End meaning.

Section linked.
Variable S : system.
Variable path : text.                     (* of the README *)
Variable ds : list decl.
Variable fuel : nat.
Definition declares (x : string) (d : decl) : bool :=
  match d with DFunc f => String.eqb x (f_name f) | DConst y _ _ _ | DVar y _ _ | DType y _ => String.eqb x y end.
Definition declared (x : string) : option decl := List.find (declares x) ds.
(** The value of a constant or variable of the package; [n] bounds the depth of references.
    The initializers do not change the state of the program. *)
Fixpoint glob (n : nat) (x : string) : option val :=
  match n with
  | O => None
  | Datatypes.S n' =>
    let value e :=
      match e with
      | EStr t => Some (VStr (codes t))
      | ELit (Some (TySlice (TyName t))) es =>
          if String.eqb t "string" then
            option_map VStrs (allSome (map (fun e => match e with EId y => match glob n' y with Some (VStr t) => Some t | _ => None end | _ => None end) es))
          else None
      (* filepath.Join(os.Getenv(...), ...) and flag.Bool(...) *)
      | ECall (ESel (EId p) f) _ =>
          if String.eqb p "filepath" && String.eqb f "Join" then Some (VStr path)
          else if String.eqb p "flag" && String.eqb f "Bool" then Some VFlag else None
      | _ => None
      end in
    match declared x with
    | Some (DConst _ _ e _) => value e
    | Some (DVar _ _ (Some e)) => value e
    | _ => None
    end
  end.
Fixpoint user (n : nat) (f : string) (vs : list val) (w : world) (k : list val -> world -> out) : out :=
  match n with
  | O => None
  | Datatypes.S n' =>
    match declared f with
    | Some (DFunc (Func _ ps _ (Some b))) =>
        match declare (map fst ps) vs [] with
        | Some s => sts S (glob 3) (user n') fuel b s w (fun _ w => k [] w) k
        | None => None
        end
    | _ => None
    end
  end.
Definition start : world := World false (fst (tokens (raw_lines [] (stdin S)))) [] [] (readme S).
Definition runMain : out := user 2 "main" [] start (fun _ w => stop Returned w).
End linked.
(** Running the program text: [n] bounds the rounds of its loops. *)
Definition execute (ls : list string) (path : text) (n : nat) (S : system) : out :=
  match parse ls with Some f => runMain S path (decls f) n | None => None end.
