(** * The Go syntax used by the repository: tokens, syntax trees, parser

    Written from the Go language specification (lexical elements, automatic semicolons,
    operator precedence, declarations, statements).  Constructs the repository does not
    use are not accepted: the parser answers None. *)
From Coq Require Import ZArith List String Ascii Bool.
Import ListNotations.
Local Open Scope string_scope.
Local Open Scope list_scope.
Local Open Scope Z_scope.

(** ** Tokens *)
Inductive token :=
| TId (s : string)     (* identifiers and keywords *)
| TInt (z : Z)
| TStr (s : string)
| TOp (s : string).    (* operators, delimiters; ";" also stands for an inserted semicolon *)

Definition code (c : ascii) : Z := Z.of_N (N_of_ascii c).
Definition isDigit (c : ascii) : bool := (48 <=? code c) && (code c <=? 57).
Definition isLetter (c : ascii) : bool :=
  ((65 <=? code c) && (code c <=? 90)) || ((97 <=? code c) && (code c <=? 122)) || (code c =? 95).
Definition isSpace (c : ascii) : bool := (code c =? 32) || (code c =? 9) || (code c =? 13).
(** Longest prefix of characters satisfying [p], and the rest. *)
Fixpoint span (p : ascii -> bool) (s : string) : string * string :=
  match s with
  | String c r => if p c then let '(a, b) := span p r in (String c a, b) else ("", s)
  | EmptyString => ("", "")
  end.
Definition hexDigit (c : ascii) : option Z :=
  if isDigit c then Some (code c - 48)
  else if (97 <=? code c) && (code c <=? 102) then Some (code c - 87)
  else if (65 <=? code c) && (code c <=? 70) then Some (code c - 55)
  else None.
Fixpoint digits (base acc : Z) (s : string) : option Z :=
  match s with
  | EmptyString => Some acc
  | String c r => match hexDigit c with
                  | Some d => if d <? base then digits base (base * acc + d) r else None
                  | None =>  (* an underscore between digits *)
                      match r with
                      | String c' _ => if (code c =? 95) && negb (code c' =? 95) then digits base acc r else None
                      | EmptyString => None
                      end
                  end
  end.
(** decimal, 0x and 0b literals; floating-point literals like 1e6, which stand for an integer *)
Definition number (s : string) : option Z :=
  match s with
  | String "0" (String "x" ((String _ _) as r)) => digits 16 0 r
  | String "0" (String "b" ((String _ _) as r)) => digits 2 0 r
  | String "0" EmptyString => Some 0
  | String "0" _ => None
  | String _ _ =>
      match span (fun c => negb (code c =? 101)) s with
      | (a, String _ ((String c _) as b)) =>
          match digits 10 0 a, (if isDigit c then digits 10 0 b else None) with Some m, Some e => Some (m * 10 ^ e) | _, _ => None end
      | (_, String _ EmptyString) => None
      | (_, EmptyString) => digits 10 0 s
      end
  | EmptyString => None
  end.
(** Operators, longest first. *)
Definition operators : list string :=
  ["&^="; "<<="; ">>="; "...";
   "&&"; "||"; "<<"; ">>"; "&^"; "+="; "-="; "*="; "/="; "%="; "|="; "&="; "^="; "=="; "!="; "<="; ">="; ":="; "++"; "--"; "<-";
   "+"; "-"; "*"; "/"; "%"; "&"; "|"; "^"; "<"; ">"; "="; "!"; "("; ")"; "["; "]"; "{"; "}"; ","; ";"; "."; ":"; "~"].
Fixpoint strip (p s : string) : option string :=
  match p, s with
  | EmptyString, _ => Some s
  | String a p', String b s' => if Ascii.eqb a b then strip p' s' else None
  | _, _ => None
  end.
Fixpoint operator (l : list string) (s : string) : option (string * string) :=
  match l with
  | [] => None
  | o :: l' => match strip o s with Some r => Some (o, r) | None => operator l' s end
  end.
(** The rest of an interpreted string literal and what follows it.  The escapes used are
    those for tab, newline, the quote [q] and the backslash. *)
Definition escape (q : Z) (c : ascii) : option ascii :=
  if code c =? 116 then Some (ascii_of_nat 9) else if code c =? 110 then Some (ascii_of_nat 10)
  else if (code c =? q) || (code c =? 92) then Some c else None.
Fixpoint lexString (s : string) : option (string * string) :=
  match s with
  | EmptyString => None
  | String c r =>
    if code c =? 34 then Some ("", r)
    else if code c =? 92 then
      match r with
      | String d r' => match escape 34 d, lexString r' with Some e, Some (a, b) => Some (String e a, b) | _, _ => None end
      | EmptyString => None
      end
    else option_map (fun x => (String c (fst x), snd x)) (lexString r)
  end.
(** The rest of a rune literal: one ASCII character or an escape. *)
Definition lexRune (s : string) : option (Z * string) :=
  match s with
  | String c (String d r) =>
    if code c =? 92 then
      match escape 39 d, r with Some e, String q r' => if code q =? 39 then Some (code e, r') else None | _, _ => None end
    else if (code d =? 39) && negb (code c =? 39) && (code c <? 128) then Some (code c, r) else None
  | _ => None
  end.
(** Floating-point literals with a point are not accepted. *)
Definition dot (s : string) : bool := match s with String c _ => code c =? 46 | EmptyString => false end.
Definition dotDigit (s : string) : bool := match s with String c (String d _) => (code c =? 46) && isDigit d | _ => false end.
(** One line of source. *)
Fixpoint lexLine (fuel : nat) (s : string) : option (list token) :=
  match fuel with
  | O => None
  | S n =>
    match s with
    | EmptyString => Some []
    | String c r =>
      if isSpace c then lexLine n r
      else match strip "//" s with
      | Some _ => Some []
      | None => match strip "/*" s with
      | Some _ => None
      | None =>
        let then_ t r := option_map (cons t) (lexLine n r) in
        if isLetter c then let '(w, r') := span (fun c => isLetter c || isDigit c) s in then_ (TId w) r'
        else if isDigit c then
          let '(w, r') := span (fun c => isLetter c || isDigit c) s in
          if dot r' then None else match number w with Some z => then_ (TInt z) r' | None => None end
        else if code c =? 34 then
          match lexString r with Some (w, r') => then_ (TStr w) r' | None => None end
        else if code c =? 39 then
          match lexRune r with Some (z, r') => then_ (TInt z) r' | None => None end
        else if dotDigit s then None
        else match operator operators s with Some (o, r') => then_ (TOp o) r' | None => None end
      end end
    end
  end.
Definition mem (s : string) (l : list string) : bool := existsb (String.eqb s) l.
Definition keywords : list string :=
  ["func"; "var"; "const"; "type"; "import"; "package"; "if"; "else"; "for"; "range"; "switch"; "case"; "default"; "return"; "fallthrough"; "break"; "continue"; "goto"; "go"; "defer"; "struct"; "interface"; "map"; "chan"; "select"].
(** A newline after these tokens is a semicolon. *)
Definition endsLine (t : token) : bool :=
  match t with
  | TId s => negb (mem s keywords) || mem s ["break"; "continue"; "fallthrough"; "return"]
  | TInt _ | TStr _ => true
  | TOp s => mem s ["++"; "--"; ")"; "]"; "}"]
  end.
Fixpoint lex (ls : list string) : option (list token) :=
  match ls with
  | [] => Some []
  | l :: r =>
    match lexLine (S (String.length l)) l, lex r with
    | Some ts, Some us =>
        Some (match rev ts with
              | t :: _ => if endsLine t then ts ++ TOp ";" :: us else ts ++ us
              | [] => us
              end)
    | _, _ => None
    end
  end.

(** ** Syntax trees *)
Inductive ty :=
| TyName (s : string)              (* uint32, generator *)
| TyQual (p s : string)            (* shared.PerformanceMode *)
| TySlice (t : ty)
| TyArray (n : Z) (t : ty)
| TyPtr (t : ty)
| TyFunc (ps rs : list ty).

Inductive expr :=
| EId (x : string)
| EInt (z : Z)
| EStr (s : string)
| ESel (e : expr) (x : string)           (* e.x *)
| EUn (op : string) (e : expr)
| EBin (op : string) (a b : expr)
| ECall (f : expr) (args : list expr)
| EIdx (e i : expr)                      (* e[i] *)
| ESlice (e : expr) (lo hi : option expr) (* e[lo:hi] *)
| EMake (t : ty) (n : expr)              (* make(t, n) *)
| ELit (t : option ty) (es : list expr)  (* t{es}, and {es} inside a literal *)
| EStruct (t : ty) (fs : list (string * expr)) (* t{f: e, ...} *)
| EFunc (ps : list (string * ty)) (rs : list ty) (body : list stmt)
with stmt :=
| SExpr (e : expr)
| SVar (x : string) (t : option ty) (e : option expr)  (* var x t = e *)
| SDef (xs : list string) (es : list expr)             (* xs := es *)
| SSet (ls : list expr) (es : list expr)               (* ls = es *)
| SOp (op : string) (l e : expr)                       (* l op= e; l++ *)
| SIf (c : expr) (a b : list stmt)
| SFor (c : option expr) (post : list stmt) (body : list stmt) (* for ; c; post { body } *)
| SRange (x : string) (e : expr) (body : list stmt)    (* for x := range e { body } *)
| SRange2 (i x : string) (e : expr) (body : list stmt) (* for i, x := range e { body } *)
| SSwitch (e : expr) (cs : list (list expr * list stmt))  (* no expressions: default *)
| SFall                                                 (* fallthrough *)
| SReturn (es : list expr)
| SDefer (e : expr)
| SBlock (b : list stmt).

Record func := Func { f_name : string; f_params : list (string * ty); f_results : list (string * ty); f_body : option (list stmt) }.
Inductive decl :=
| DFunc (f : func)
| DConst (x : string) (t : option ty) (e : expr) (iota : Z)
| DVar (x : string) (t : option ty) (e : option expr)
| DType (x : string) (t : ty).
Record file := File { package : string; imports : list string; decls : list decl }.

(** ** Parser: recursive descent; the fuel bounds the number of nested calls *)
Definition parser (A : Type) : Type := list token -> option (A * list token).
Definition ret {A} (a : A) : parser A := fun ts => Some (a, ts).
Definition fail {A} : parser A := fun _ => None.
Definition pbind {A B} (p : parser A) (f : A -> parser B) : parser B :=
  fun ts => match p ts with Some (a, ts') => f a ts' | None => None end.
Notation "'get' x <- p ; q" := (pbind p (fun x => q)) (at level 100, x pattern, p at level 99, q at level 100, right associativity).
Notation "p >> q" := (pbind p (fun _ => q)) (at level 60, right associativity).

Definition peekOp (s : string) : parser bool :=
  fun ts => match ts with TOp o :: _ => Some (String.eqb o s, ts) | _ => Some (false, ts) end.
Definition peekId (s : string) : parser bool :=
  fun ts => match ts with TId o :: _ => Some (String.eqb o s, ts) | _ => Some (false, ts) end.
Definition op (s : string) : parser unit :=
  fun ts => match ts with TOp o :: r => if String.eqb o s then Some (tt, r) else None | _ => None end.
Definition kw (s : string) : parser unit :=
  fun ts => match ts with TId o :: r => if String.eqb o s then Some (tt, r) else None | _ => None end.
Definition ident : parser string :=
  fun ts => match ts with TId x :: r => if String.eqb x "" || mem x keywords then None else Some (x, r) | _ => None end.
(** [p] if the next token is the operator [s], else [q]. *)
Definition ifOp {A} (s : string) (p q : parser A) : parser A := get b <- peekOp s; if b then op s >> p else q.
Definition ifId {A} (s : string) (p q : parser A) : parser A := get b <- peekId s; if b then kw s >> p else q.
(** Items up to the closing [stop], separated by [sep]; the last one may be followed by [sep]. *)
Definition int : parser Z := fun ts => match ts with TInt z :: r => Some (z, r) | _ => None end.
Definition peekIdent : parser bool := fun ts => match ts with TId _ :: _ => Some (true, ts) | _ => Some (false, ts) end.
(** Does a type that is not a name follow? *)
Definition peekType : parser bool :=
  get a <- peekOp "["; get b <- peekOp "*"; get c <- peekId "func"; ret (a || b || c).
(** The name of a type. *)
Definition tname : parser ty := get x <- ident; ifOp "." (get y <- ident; ret (TyQual x y)) (ret (TyName x)).
(** Does a struct literal follow?  Only T{f: ... is taken for one (no labels are accepted as
    statements), and T{} after &. *)
Definition opening (f : list token -> bool) (ts : list token) : bool :=
  match ts with
  | TId _ :: TOp a :: TId _ :: TOp b :: r => if String.eqb a "." && String.eqb b "{" then f r else if String.eqb a "{" then f (tl (tl ts)) else false
  | TId _ :: TOp a :: r => String.eqb a "{" && f r
  | _ => false
  end.
Definition peekFields : parser bool := fun ts => Some (opening (fun r => match r with TId x :: TOp c :: _ => negb (mem x keywords) && String.eqb c ":" | _ => false end) ts, ts).
Definition peekEmpty : parser bool := fun ts => Some (opening (fun r => match r with TOp c :: _ => String.eqb c "}" | _ => false end) ts, ts).
Fixpoint items {A} (n : nat) (sep stop : string) (p : parser A) : parser (list A) :=
  match n with
  | O => fail
  | S n' => fun ts =>
      (ifOp stop (ret []) (get a <- p; ifOp sep (get l <- items n' sep stop p; ret (a :: l)) (op stop >> ret [a]))) ts
  end.

(** One type. *)
Fixpoint typ (n : nat) : parser ty :=
  match n with
  | O => fail
  | S n' => fun ts =>
    (ifOp "*" (get t <- typ n'; ret (TyPtr t))
    (ifOp "[" (ifOp "]" (get t <- typ n'; ret (TySlice t)) (get z <- int; op "]" >> get t <- typ n'; ret (TyArray z t)))
    (ifId "func" (op "(" >> get ps <- params n'; get rs <- results n'; ret (TyFunc (map snd ps) (map snd rs)))
    (ifId "interface" (op "{" >> op "}" >> ret (TyName "interface{}"))
    tname)))) ts
  end
(** name type; a name without a type takes that of the next one, a lone type has no name.
    Either all parameters have names or none has. *)
with params (n : nat) : parser (list (string * ty)) :=
  match n with
  | O => fail
  | S n' => fun ts =>
    (ifOp ")" (ret [])
      (get p <- param n';
       ifOp "," (get l <- params n';
                 match p, l with
                 | inl x, [] => ret [("", TyName x)]
                 | inl x, (y, t) :: _ => if String.eqb y "" then ret (("", TyName x) :: l) else ret ((x, t) :: l)
                 | inr q, [] => ret [q]
                 | inr q, (y, _) :: _ => if Bool.eqb (String.eqb (fst q) "") (String.eqb y "") then ret (q :: l) else fail
                 end)
       (op ")" >> match p with inr q => ret [q] | inl x => ret [("", TyName x)] end))) ts
  end
with param (n : nat) : parser (string + string * ty) :=
  match n with
  | O => fail
  | S n' => fun ts =>
    (get u <- peekType;
     if u then get t <- typ n'; ret (inr ("", t))
     else get x <- ident; get c <- peekOp ","; get e <- peekOp ")";
          if c || e then ret (inl x)
          else ifOp "." (get y <- ident; ret (inr ("", TyQual x y))) (get t <- typ n'; ret (inr (x, t)))) ts
  end
with results (n : nat) : parser (list (string * ty)) :=
  match n with
  | O => fail
  | S n' => fun ts =>
    (ifOp "(" (params n')
     (get u <- peekType; get i <- peekIdent; if u || i then get t <- typ n'; ret [("", t)] else ret [])) ts
  end.

(** Precedence of a binary operator, 5 binds strongest. *)
Definition precedence (o : string) : Z :=
  if mem o ["*"; "/"; "%"; "<<"; ">>"; "&"; "&^"] then 5
  else if mem o ["+"; "-"; "|"; "^"] then 4
  else if mem o ["=="; "!="; "<"; "<="; ">"; ">="] then 3
  else if String.eqb o "&&" then 2 else if String.eqb o "||" then 1 else 0.
Definition assignOp (o : string) : option string :=
  if String.eqb o "+=" then Some "+" else if String.eqb o "-=" then Some "-" else if String.eqb o "|=" then Some "|"
  else if String.eqb o "*=" then Some "*" else if String.eqb o "&=" then Some "&" else if String.eqb o "<<=" then Some "<<"
  else if String.eqb o ">>=" then Some ">>" else None.
Definition peekAssign : parser (option string) :=
  fun ts => match ts with TOp o :: _ => Some (assignOp o, ts) | _ => Some (None, ts) end.
Definition skip : parser unit := fun ts => match ts with _ :: r => Some (tt, r) | [] => None end.
(** x, y, ... := *)
Fixpoint defines (ts : list token) : option (list string * list token) :=
  match ts with
  | TId x :: TOp o :: r =>
    if String.eqb x "" || mem x keywords then None
    else if String.eqb o ":=" then Some ([x], r)
    else if String.eqb o "," then option_map (fun p => (x :: fst p, snd p)) (defines r) else None
  | _ => None
  end.
(** Only the last argument can be "e...". *)
Fixpoint spreadLast (l : list expr) : bool :=
  match l with
  | [] | [_] => true
  | e :: r => match e with EUn o _ => negb (String.eqb o "...") | _ => true end && spreadLast r
  end.
(** "x := range e" is no statement. *)
Definition notRange (s : stmt) : parser stmt := match s with SRange _ _ _ | SRange2 _ _ _ _ => fail | _ => ret s end.

(** Expressions and statements. *)
Fixpoint pexpr (n : nat) (prec : Z) : parser expr :=
  match n with
  | O => fail
  | S n' => fun ts => (get a <- punary n'; pbinary n' prec a) ts
  end
with pbinary (n : nat) (prec : Z) (a : expr) : parser expr :=
  match n with
  | O => fail
  | S n' => fun ts =>
    match ts with
    | TOp o :: r => if prec <? precedence o then (get b <- pexpr n' (precedence o); pbinary n' prec (EBin o a b)) r else Some (a, ts)
    | _ => Some (a, ts)
    end
  end
with punary (n : nat) : parser expr :=
  match n with
  | O => fail
  | S n' => fun ts =>
    (ifOp "-" (get a <- punary n'; ret (EUn "-" a))
    (ifOp "!" (get a <- punary n'; ret (EUn "!" a))
    (ifOp "&" (get b <- peekEmpty;
               if b then get t <- tname; op "{" >> op "}" >> ret (EUn "&" (EStruct t [])) else get a <- punary n'; ret (EUn "&" a))
    (ifOp "*" (get a <- punary n'; ret (EUn "*" a))
    (get a <- poperand n'; pprimary n' a))))) ts
  end
(** The conversion []byte(e) is a call of "[]byte". *)
with poperand (n : nat) : parser expr :=
  match n with
  | O => fail
  | S n' => fun ts =>
    match ts with
    | TInt z :: r => Some (EInt z, r)
    | TStr s :: r => Some (EStr s, r)
    | _ =>
      (ifOp "(" (get a <- pexpr n' 0; op ")" >> ret a)
      (get b <- peekOp "["; if b then get t <- typ n'; ifOp "(" (get e <- pexpr n' 0; op ")" >> match t with TySlice (TyName x) => ret (ECall (EId ("[]" ++ x)) [e]) | _ => fail end)
        (op "{" >> get es <- items n' "," "}" (pelem n'); ret (ELit (Some t) es)) else
      ifId "func" (op "(" >> get ps <- params n'; get rs <- results n'; op "{" >> get b <- pblock n'; ret (EFunc ps (map snd rs) b))
      (ifId "make" (op "(" >> get t <- typ n'; op "," >> get e <- pexpr n' 0; op ")" >> ret (EMake t e))
      (get b <- peekFields;
       if b then get t <- tname; op "{" >> get fs <- items n' "," "}" (pfield n'); ret (EStruct t fs)
       else get x <- ident; ret (EId x))))) ts
    end
  end
with pelem (n : nat) : parser expr :=
  match n with
  | O => fail
  | S n' => fun ts => (ifOp "{" (get es <- items n' "," "}" (pelem n'); ret (ELit None es)) (pexpr n' 0)) ts
  end
with pprimary (n : nat) (a : expr) : parser expr :=
  match n with
  | O => fail
  | S n' => fun ts =>
    (ifOp "." (get x <- ident; pprimary n' (ESel a x))
    (ifOp "(" (get es <- items n' "," ")" (parg n'); if spreadLast es then pprimary n' (ECall a es) else fail)
    (ifOp "["
       (ifOp ":" (ifOp "]" (pprimary n' (ESlice a None None)) (get h <- pexpr n' 0; op "]" >> pprimary n' (ESlice a None (Some h))))
        (get i <- pexpr n' 0;
         ifOp ":" (ifOp "]" (pprimary n' (ESlice a (Some i) None)) (get h <- pexpr n' 0; op "]" >> pprimary n' (ESlice a (Some i) (Some h))))
         (op "]" >> pprimary n' (EIdx a i))))
    (ret a)))) ts
  end
with pfield (n : nat) : parser (string * expr) :=
  match n with
  | O => fail
  | S n' => fun ts => (get x <- ident; op ":" >> get e <- pexpr n' 0; ret (x, e)) ts
  end
(** An argument; "e..." is [EUn "..." e]. *)
with parg (n : nat) : parser expr :=
  match n with
  | O => fail
  | S n' => fun ts => (get e <- pexpr n' 0; ifOp "..." (ret (EUn "..." e)) (ret e)) ts
  end
(** Statements up to "}". *)
with pblock (n : nat) : parser (list stmt) :=
  match n with
  | O => fail
  | S n' => fun ts =>
    (ifOp "}" (ret [])
    (ifOp ";" (pblock n')
    (get l <- pstmt n'; ifOp "}" (ret l) (op ";" >> get k <- pblock n'; ret (l ++ k))))) ts
  end
with pstmt (n : nat) : parser (list stmt) :=
  match n with
  | O => fail
  | S n' => fun ts =>
    (ifId "return" (get b <- peekOp ";"; if b then ret [SReturn []] else get es <- pexprs n'; ret [SReturn es])
    (ifId "fallthrough" (ret [SFall])
    (ifId "defer" (get e <- pexpr n' 0; ret [SDefer e])
    (ifId "var" (ifOp "(" (items n' ";" ")" (pvar n')) (get s <- pvar n'; ret [s]))
    (ifOp "{" (get b <- pblock n'; ret [SBlock b])
    (ifId "if" (get s <- pif n'; ret [s])
    (ifId "for" (pfor n')
    (ifId "switch" (get e <- pexpr n' 0; op "{" >> get cs <- pcases n'; ret [SSwitch e cs])
    (get s <- psimple n'; notRange s >> ret [s]))))))))) ts
  end
(** for { }, for x := range e { }, for ; c; p { }, for i; c; p { }, for c { }.  The
    variables of the first clause live in a block of their own. *)
with pfor (n : nat) : parser (list stmt) :=
  match n with
  | O => fail
  | S n' => fun ts =>
    (ifOp "{" (get b <- pblock n'; ret [SFor None [] b])
    (ifOp ";" (get c <- pexpr n' 0; op ";" >> get p <- psimple n'; notRange p >> op "{" >> get b <- pblock n'; ret [SFor (Some c) [p] b])
    (get s <- psimple n';
     match s with
     | SRange x e _ => op "{" >> get b <- pblock n'; ret [SRange x e b]
     | SRange2 i x e _ => op "{" >> get b <- pblock n'; ret [SRange2 i x e b]
     | _ =>
       ifOp ";" (get c <- pexpr n' 0; op ";" >> get p <- psimple n'; notRange p >> op "{" >> get b <- pblock n'; ret [SBlock [s; SFor (Some c) [p] b]])
         (match s with SExpr c => op "{" >> get b <- pblock n'; ret [SFor (Some c) [] b] | _ => fail end)
     end))) ts
  end
(** if c { }, if s; c { }: the variables of s live in a block of their own. *)
with pif (n : nat) : parser stmt :=
  match n with
  | O => fail
  | S n' => fun ts =>
    (get s <- psimple n';
     ifOp ";" (notRange s >> get c <- pexpr n' 0; get i <- pthen n' c; ret (SBlock [s; i]))
       (match s with SExpr c => pthen n' c | _ => fail end)) ts
  end
with pthen (n : nat) (c : expr) : parser stmt :=
  match n with
  | O => fail
  | S n' => fun ts =>
    (op "{" >> get a <- pblock n';
     ifId "else" (ifId "if" (get s <- pif n'; ret (SIf c a [s])) (op "{" >> get b <- pblock n'; ret (SIf c a b))) (ret (SIf c a []))) ts
  end
with pcases (n : nat) : parser (list (list expr * list stmt)) :=
  match n with
  | O => fail
  | S n' => fun ts =>
    (ifOp "}" (ret [])
    (ifId "case" (get es <- pexprs n'; op ":" >> get b <- pclause n'; get cs <- pcases n'; ret ((es, b) :: cs))
    (ifId "default" (op ":" >> get b <- pclause n'; get cs <- pcases n'; ret (([], b) :: cs)) fail))) ts
  end
(** The statements of a clause, up to the next clause or "}" (not consumed). *)
with pclause (n : nat) : parser (list stmt) :=
  match n with
  | O => fail
  | S n' => fun ts =>
    (get a <- peekId "case"; get b <- peekId "default"; get c <- peekOp "}";
     if a || b || c then ret []
     else get l <- pstmt n'; ifOp ";" (get k <- pclause n'; ret (l ++ k)) (get d <- peekOp "}"; if d then ret l else fail)) ts
  end
with pvar (n : nat) : parser stmt :=
  match n with
  | O => fail
  | S n' => fun ts =>
    (get x <- ident;
     ifOp "=" (get e <- pexpr n' 0; ret (SVar x None (Some e)))
     (get t <- typ n'; ifOp "=" (get e <- pexpr n' 0; ret (SVar x (Some t) (Some e))) (ret (SVar x (Some t) None)))) ts
  end
with pexprs (n : nat) : parser (list expr) :=
  match n with
  | O => fail
  | S n' => fun ts => (get a <- pexpr n' 0; ifOp "," (get l <- pexprs n'; ret (a :: l)) (ret [a])) ts
  end
(** Simple statements; "x := range e" is the head of a for statement. *)
with psimple (n : nat) : parser stmt :=
  match n with
  | O => fail
  | S n' => fun ts =>
    match defines ts with
    | Some (xs, r) =>
      ifId "range" (get e <- pexpr n' 0; match xs with [x] => ret (SRange x e []) | [i; x] => ret (SRange2 i x e []) | _ => fail end)
        (get es <- pexprs n'; ret (SDef xs es)) r
    | None =>
    (get l <- pexprs n';
     ifOp "=" (get es <- pexprs n'; ret (SSet l es))
     match l with
     | [e] =>
       ifOp "++" (ret (SOp "+" e (EInt 1)))
       (ifOp "--" (ret (SOp "-" e (EInt 1)))
       (get o <- peekAssign; match o with Some b => skip >> get f <- pexpr n' 0; ret (SOp b e f) | None => ret (SExpr e) end))
     | _ => fail
     end) ts
    end
  end.

(** Top-level declarations. *)
Definition pfunc (n : nat) : parser func :=
  get x <- ident; op "(" >> get ps <- params n; get rs <- results n;
  ifOp "{" (get b <- pblock n; ret (Func x ps rs (Some b))) (ret (Func x ps rs None)).
Definition vardecl (s : stmt) : option decl := match s with SVar x t e => Some (DVar x t e) | _ => None end.
Definition ptype (n : nat) : parser decl := get x <- ident; get t <- typ n; ret (DType x t).
(** One constant; an omitted expression repeats type and expression of the one before. *)
Definition pconst (n : nat) : parser (string * option (option ty * expr)) :=
  get x <- ident;
  ifOp "=" (get e <- pexpr n 0; ret (x, Some (None, e)))
  (get a <- peekOp ";"; get b <- peekOp ")";
   if a || b then ret (x, None) else get t <- typ n; op "=" >> get e <- pexpr n 0; ret (x, Some (Some t, e))).
Fixpoint constGroup (i : Z) (last : option (option ty * expr)) (l : list (string * option (option ty * expr))) : option (list decl) :=
  match l with
  | [] => Some []
  | (x, d) :: r =>
    match (match d with Some _ => d | None => last end) with
    | Some (t, e) => option_map (cons (DConst x t e i)) (constGroup (i + 1) (Some (t, e)) r)
    | None => None
    end
  end.
Fixpoint allSome {A} (l : list (option A)) : option (list A) :=
  match l with [] => Some [] | Some a :: r => option_map (cons a) (allSome r) | None :: _ => None end.
Definition lift {A} (o : option A) : parser A := match o with Some a => ret a | None => fail end.
Definition pdecl (n : nat) : parser (list decl) := fun ts =>
  (ifId "func" (get f <- pfunc n; ret [DFunc f])
  (ifId "var" (ifOp "(" (get l <- items n ";" ")" (pvar n); lift (allSome (map vardecl l))) (get s <- pvar n; lift (allSome [vardecl s])))
  (ifId "type" (get d <- ptype n; ret [d])
  (ifId "const" (ifOp "(" (get l <- items n ";" ")" (pconst n); lift (constGroup 0 None l)) (get c <- pconst n; lift (constGroup 0 None [c])))
   fail)))) ts.
Definition pstring : parser string := fun ts => match ts with TStr s :: r => Some (s, r) | _ => None end.
(** import . "p" is ".p" *)
Definition pspec : parser string := ifOp "." (get s <- pstring; ret (String "." s)) pstring.
Definition pimport (n : nat) : parser (list string) :=
  ifOp "(" (items n ";" ")" pspec) (get s <- pspec; ret [s]).
Fixpoint pimports (n : nat) (m : nat) : parser (list string) :=
  match m with
  | O => fail
  | S m' => fun ts => (ifId "import" (get l <- pimport n; op ";" >> get k <- pimports n m'; ret (l ++ k)) (ret [])) ts
  end.
Fixpoint pdecls (n : nat) (m : nat) : parser (list decl) :=
  match m with
  | O => fail
  | S m' => fun ts => match ts with [] => Some ([], []) | _ => (get l <- pdecl n; op ";" >> get k <- pdecls n m'; ret (l ++ k)) ts end
  end.
Definition pfile (n : nat) : parser file :=
  kw "package" >> get x <- ident; op ";" >> get i <- pimports n n; get d <- pdecls n n; ret (File x i d).
(** A source file. *)
Definition parse (ls : list string) : option file :=
  match lex ls with
  | Some ts => match pfile (List.length ts) ts with Some (f, []) => Some f | _ => None end
  | None => None
  end.
