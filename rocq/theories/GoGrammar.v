(** * The grammar of Go, as far as the repository uses it

    The productions of the Go specification (Types, Expressions, Statements, Declarations,
    Source file organization) as a relation between lists of tokens and syntax trees.  It
    does not mention the parser of GoSyntax.v. *)
From Coq Require Import ZArith List String Ascii Bool.
From Verif Require Import GoSyntax.
Import ListNotations.
Local Open Scope string_scope.
Local Open Scope list_scope.
Local Open Scope Z_scope.

Definition reserved : list string :=
  ["break"; "case"; "chan"; "const"; "continue"; "default"; "defer"; "else"; "fallthrough"; "for"; "func"; "go"; "goto"; "if"; "import";
   "interface"; "map"; "package"; "range"; "return"; "select"; "struct"; "switch"; "type"; "var"].
Definition name (x : string) : Prop := x <> "" /\ ~ In x reserved.

(** Binary operators by precedence, 5 binds strongest; unary and assignment operators. *)
Definition binary_op (k : nat) (o : string) : Prop :=
  match k with
  | 5%nat => In o ["*"; "/"; "%"; "<<"; ">>"; "&"; "&^"]
  | 4%nat => In o ["+"; "-"; "|"; "^"]
  | 3%nat => In o ["=="; "!="; "<"; "<="; ">"; ">="]
  | 2%nat => o = "&&"
  | 1%nat => o = "||"
  | _ => False
  end.
Definition unary_op (o : string) : Prop := In o ["+"; "-"; "!"; "^"; "*"; "&"; "<-"].
Definition assign_op (o : string) : Prop := binary_op 5 o \/ binary_op 4 o.

(** A list with separators.  The last element may be followed by a separator. *)
Inductive separated {A} (sep : string) (P : list token -> A -> Prop) : list token -> list A -> Prop :=
| sep_nil : separated sep P [] []
| sep_one u a : P u a -> separated sep P u [a]
| sep_cons u a v l : P u a -> separated sep P v l -> separated sep P (u ++ TOp sep :: v) (a :: l).
(** x, y, z *)
Fixpoint name_list (xs : list string) : list token :=
  match xs with [] => [] | [x] => [TId x] | x :: r => TId x :: TOp "," :: name_list r end.
Definition names (xs : list string) : Prop := xs <> [] /\ forall x, In x xs -> name x.
(** The constants of a declaration: the number of the place is iota; a place without an
    expression repeats type and expression of the last place that has them. *)
Definition spelled (l : list (string * option (option ty * expr))) (ds : list decl) : Prop :=
  List.length ds = List.length l /\
  forall i x d, nth_error l i = Some (x, d) ->
    exists j y t e, (j <= i)%nat /\ nth_error l j = Some (y, Some (t, e)) /\ (forall k z, (j < k <= i)%nat -> nth_error l k = Some z -> snd z = None) /\
      nth_error ds i = Some (DConst x t e (Z.of_nat i)).

Inductive nt : Type -> Type :=
| TypeName : nt ty
| Type_ : nt ty
| Parameters : nt (list (string * ty))
| Result : nt (list (string * ty))
| Expr (k : nat) : nt expr         (* k = 1 .. 5: binary expressions of precedence at least k; 6: unary; 7: primary *)
| Elem : nt expr                   (* an element of a literal *)
| Bound : nt (option expr)         (* a bound of a slice expression; it can be missing *)
| Field : nt (string * expr)
| Arguments : nt (list expr)
| ExprList : nt (list expr)
| Block : nt (list stmt)
| Stmts (closed : bool) : nt (list stmt) (* closed: the last statement is followed by a semicolon *)
| Stmt : nt (list stmt)            (* the declaration of several variables stands for several statements *)
| Simple : nt stmt
| If : nt stmt
| IfRest : nt stmt
| Clauses : nt (list (list expr * list stmt))
| VarSpec : nt stmt
| ConstSpec : nt (string * option (option ty * expr))
| Decl : nt (list decl)
| ImportSpec : nt string
| Imports : nt (list string)
| Decls : nt (list decl)
| SourceFile : nt file.

Notation "# s" := (TOp s) (at level 5, s at level 0, format "# s").
Notation "$ s" := (TId s) (at level 5, s at level 0, format "$ s").
Definition Expression : nt expr := Expr 1.

Inductive derives : forall {A}, nt A -> list token -> A -> Prop :=
(* Types *)
| d_name x : name x -> derives TypeName [$x] (TyName x)
| d_qual p x : name p -> name x -> derives TypeName [$p; #"."; $x] (TyQual p x)
| d_typename u t : derives TypeName u t -> derives Type_ u t
| d_pointer u t : derives Type_ u t -> derives Type_ (#"*" :: u) (TyPtr t)
| d_slicetype u t : derives Type_ u t -> derives Type_ (#"[" :: #"]" :: u) (TySlice t)
| d_arraytype z u t : derives Type_ u t -> derives Type_ (#"[" :: TInt z :: #"]" :: u) (TyArray z t)
| d_functype u v ps rs : derives Parameters u ps -> derives Result v rs -> derives Type_ ($"func" :: u ++ v) (TyFunc (map snd ps) (map snd rs))
| d_interface : derives Type_ [$"interface"; #"{"; #"}"] (TyName "interface{}")
(* Parameters = "(" [ ParameterDecl { "," ParameterDecl } [ "," ] ] ")"; ParameterDecl = [ IdentifierList ] Type; with names or without *)
| d_unnamed u ts : separated "," (derives Type_) u ts -> derives Parameters (#"(" :: u ++ [#")"]) (map (pair "") ts)
| d_named u gs : separated "," (fun w g => exists v, w = name_list (fst g) ++ v /\ names (fst g) /\ derives Type_ v (snd g)) u gs ->
    derives Parameters (#"(" :: u ++ [#")"]) (flat_map (fun g => map (fun x => (x, snd g)) (fst g)) gs)
| d_noresult : derives Result [] []
| d_result u t : derives Type_ u t -> derives Result u [("", t)]
| d_results u rs : derives Parameters u rs -> derives Result u rs
(* Expressions *)
| d_up k u e : (k <= 6)%nat -> derives (Expr (S k)) u e -> derives (Expr k) u e
| d_binary k o u v a b : binary_op k o -> derives (Expr k) u a -> derives (Expr (S k)) v b -> derives (Expr k) (u ++ #o :: v) (EBin o a b)
| d_unary o u e : unary_op o -> derives (Expr 6) u e -> derives (Expr 6) (#o :: u) (EUn o e)
| d_int z : derives (Expr 7) [TInt z] (EInt z)
| d_string s : derives (Expr 7) [TStr s] (EStr s)
| d_operand x : name x -> x <> "make" -> derives (Expr 7) [$x] (EId x)
| d_paren u e : derives Expression u e -> derives (Expr 7) (#"(" :: u ++ [#")"]) e
| d_literal u t v es : derives Type_ u t -> match t with TySlice _ | TyArray _ _ => True | _ => False end ->
    separated "," (derives Elem) v es -> derives (Expr 7) (u ++ #"{" :: v ++ [#"}"]) (ELit (Some t) es)
| d_struct u t v fs : derives TypeName u t -> separated "," (derives Field) v fs -> derives (Expr 7) (u ++ #"{" :: v ++ [#"}"]) (EStruct t fs)
| d_func u ps v rs w b : derives Parameters u ps -> derives Result v rs -> derives Block w b -> derives (Expr 7) ($"func" :: u ++ v ++ w) (EFunc ps (map snd rs) b)
| d_select u e x : derives (Expr 7) u e -> name x -> derives (Expr 7) (u ++ [#"."; $x]) (ESel e x)
| d_index u e v i : derives (Expr 7) u e -> derives Expression v i -> derives (Expr 7) (u ++ #"[" :: v ++ [#"]"]) (EIdx e i)
| d_slice u e v lo w hi : derives (Expr 7) u e -> derives Bound v lo -> derives Bound w hi -> derives (Expr 7) (u ++ #"[" :: v ++ #":" :: w ++ [#"]"]) (ESlice e lo hi)
| d_nobound : derives Bound [] None
| d_bound u e : derives Expression u e -> derives Bound u (Some e)
| d_call u e v es : derives (Expr 7) u e -> derives Arguments v es -> derives (Expr 7) (u ++ #"(" :: v ++ [#")"]) (ECall e es)
| d_convert u x v e : derives Type_ u (TySlice (TyName x)) -> derives Expression v e -> derives (Expr 7) (u ++ #"(" :: v ++ [#")"]) (ECall (EId ("[]" ++ x)) [e])
| d_make u t v e : derives Type_ u t -> derives Expression v e -> derives (Expr 7) ($"make" :: #"(" :: u ++ #"," :: v ++ [#")"]) (EMake t e)
| d_elem u e : derives Expression u e -> derives Elem u e
| d_elems u es : separated "," (derives Elem) u es -> derives Elem (#"{" :: u ++ [#"}"]) (ELit None es)
| d_field x u e : name x -> derives Expression u e -> derives Field ($x :: #":" :: u) (x, e)
| d_noargs : derives Arguments [] []
| d_arg u e : derives Expression u e -> derives Arguments u [e]
| d_spread u e : derives Expression u e -> derives Arguments (u ++ [#"..."]) [EUn "..." e]
| d_spread_comma u e : derives Expression u e -> derives Arguments (u ++ [#"..."; #","]) [EUn "..." e]
| d_args u e v es : derives Expression u e -> derives Arguments v es -> derives Arguments (u ++ #"," :: v) (e :: es)
| d_expr u e : derives Expression u e -> derives ExprList u [e]
| d_exprs u e v es : derives Expression u e -> derives ExprList v es -> derives ExprList (u ++ #"," :: v) (e :: es)
(* Statements *)
| d_block u b : derives (Stmts false) u b -> derives Block (#"{" :: u ++ [#"}"]) b
| d_nostmt c : derives (Stmts c) [] []
| d_empty c u b : derives (Stmts c) u b -> derives (Stmts c) (#";" :: u) b
| d_last u l : derives Stmt u l -> derives (Stmts false) u l
| d_stmts c u l v k : derives Stmt u l -> derives (Stmts c) v k -> derives (Stmts c) (u ++ #";" :: v) (l ++ k)
| d_return : derives Stmt [$"return"] [SReturn []]
| d_returns u es : derives ExprList u es -> derives Stmt ($"return" :: u) [SReturn es]
| d_fallthrough : derives Stmt [$"fallthrough"] [SFall]
| d_defer u e : derives Expression u e -> derives Stmt ($"defer" :: u) [SDefer e]
| d_var u s : derives VarSpec u s -> derives Stmt ($"var" :: u) [s]
| d_vars u l : separated ";" (derives VarSpec) u l -> derives Stmt ($"var" :: #"(" :: u ++ [#")"]) l
| d_inner u b : derives Block u b -> derives Stmt u [SBlock b]
| d_ifstmt u s : derives If u s -> derives Stmt u [s]
| d_switch u e v cs : derives Expression u e -> derives Clauses v cs -> derives Stmt ($"switch" :: u ++ #"{" :: v ++ [#"}"]) [SSwitch e cs]
| d_simple u s : derives Simple u s -> derives Stmt u [s]
| d_loop u b : derives Block u b -> derives Stmt ($"for" :: u) [SFor None [] b]
| d_while u c v b : derives Expression u c -> derives Block v b -> derives Stmt ($"for" :: u ++ v) [SFor (Some c) [] b]
| d_for0 u c v p w b : derives Expression u c -> derives Simple v p -> derives Block w b ->
    derives Stmt ($"for" :: #";" :: u ++ #";" :: v ++ w) [SFor (Some c) [p] b]
| d_for t i u c v p w b : derives Simple t i -> derives Expression u c -> derives Simple v p -> derives Block w b ->
    derives Stmt ($"for" :: t ++ #";" :: u ++ #";" :: v ++ w) [SBlock [i; SFor (Some c) [p] b]]
| d_range x u e v b : name x -> derives Expression u e -> derives Block v b -> derives Stmt ($"for" :: $x :: #":=" :: $"range" :: u ++ v) [SRange x e b]
| d_range2 i x u e v b : name i -> name x -> derives Expression u e -> derives Block v b ->
    derives Stmt ($"for" :: $i :: #"," :: $x :: #":=" :: $"range" :: u ++ v) [SRange2 i x e b]
| d_if u s : derives IfRest u s -> derives If ($"if" :: u) s
| d_ifinit u i v s : derives Simple u i -> derives IfRest v s -> derives If ($"if" :: u ++ #";" :: v) (SBlock [i; s])
| d_then u c v a : derives Expression u c -> derives Block v a -> derives IfRest (u ++ v) (SIf c a [])
| d_else u c v a w b : derives Expression u c -> derives Block v a -> derives Block w b -> derives IfRest (u ++ v ++ $"else" :: w) (SIf c a b)
| d_elseif u c v a w s : derives Expression u c -> derives Block v a -> derives If w s -> derives IfRest (u ++ v ++ $"else" :: w) (SIf c a [s])
| d_noclause : derives Clauses [] []
| d_lastcase u es v b : derives ExprList u es -> derives (Stmts false) v b -> derives Clauses ($"case" :: u ++ #":" :: v) [(es, b)]
| d_lastdefault v b : derives (Stmts false) v b -> derives Clauses ($"default" :: #":" :: v) [([], b)]
| d_case u es v b w cs : derives ExprList u es -> derives (Stmts true) v b -> derives Clauses w cs -> derives Clauses ($"case" :: u ++ #":" :: v ++ w) ((es, b) :: cs)
| d_default v b w cs : derives (Stmts true) v b -> derives Clauses w cs -> derives Clauses ($"default" :: #":" :: v ++ w) (([], b) :: cs)
| d_varinit x u e : name x -> derives Expression u e -> derives VarSpec ($x :: #"=" :: u) (SVar x None (Some e))
| d_vartype x u t : name x -> derives Type_ u t -> derives VarSpec ($x :: u) (SVar x (Some t) None)
| d_vartypeinit x u t v e : name x -> derives Type_ u t -> derives Expression v e -> derives VarSpec ($x :: u ++ #"=" :: v) (SVar x (Some t) (Some e))
| d_exprstmt u e : derives Expression u e -> derives Simple u (SExpr e)
| d_inc u e : derives Expression u e -> derives Simple (u ++ [#"++"]) (SOp "+" e (EInt 1))
| d_dec u e : derives Expression u e -> derives Simple (u ++ [#"--"]) (SOp "-" e (EInt 1))
| d_assign u ls v es : derives ExprList u ls -> derives ExprList v es -> derives Simple (u ++ #"=" :: v) (SSet ls es)
| d_assignop o u l v e : assign_op o -> derives Expression u l -> derives Expression v e -> derives Simple (u ++ #(o ++ "=") :: v) (SOp o l e)
| d_define xs v es : names xs -> derives ExprList v es -> derives Simple (name_list xs ++ #":=" :: v) (SDef xs es)
(* Declarations *)
| d_constinit x u e : name x -> derives Expression u e -> derives ConstSpec ($x :: #"=" :: u) (x, Some (None, e))
| d_consttype x u t v e : name x -> derives Type_ u t -> derives Expression v e -> derives ConstSpec ($x :: u ++ #"=" :: v) (x, Some (Some t, e))
| d_constagain x : name x -> derives ConstSpec [$x] (x, None)
| d_funcdecl x u ps v rs : name x -> derives Parameters u ps -> derives Result v rs -> derives Decl ($"func" :: $x :: u ++ v) [DFunc (Func x ps rs None)]
| d_funcbody x u ps v rs w b : name x -> derives Parameters u ps -> derives Result v rs -> derives Block w b ->
    derives Decl ($"func" :: $x :: u ++ v ++ w) [DFunc (Func x ps rs (Some b))]
| d_vardecl u x t e : derives VarSpec u (SVar x t e) -> derives Decl ($"var" :: u) [DVar x t e]
| d_vardecls u l : separated ";" (fun v d => exists x t e, d = DVar x t e /\ derives VarSpec v (SVar x t e)) u l -> derives Decl ($"var" :: #"(" :: u ++ [#")"]) l
| d_typedecl x u t : name x -> derives Type_ u t -> derives Decl ($"type" :: $x :: u) [DType x t]
| d_constdecl u c ds : derives ConstSpec u c -> spelled [c] ds -> derives Decl ($"const" :: u) ds
| d_constdecls u cs ds : separated ";" (derives ConstSpec) u cs -> spelled cs ds -> derives Decl ($"const" :: #"(" :: u ++ [#")"]) ds
| d_importspec s : derives ImportSpec [TStr s] s
| d_importdot s : derives ImportSpec [#"."; TStr s] (String "." s)
| d_noimport : derives Imports [] []
| d_import u s v l : derives ImportSpec u s -> derives Imports v l -> derives Imports ($"import" :: u ++ #";" :: v) (s :: l)
| d_imports u k v l : separated ";" (derives ImportSpec) u k -> derives Imports v l -> derives Imports ($"import" :: #"(" :: u ++ #")" :: #";" :: v) (k ++ l)
| d_nodecl : derives Decls [] []
| d_decls u k v l : derives Decl u k -> derives Decls v l -> derives Decls (u ++ #";" :: v) (k ++ l)
| d_file x u i v d : name x -> derives Imports u i -> derives Decls v d -> derives SourceFile ($"package" :: $x :: #";" :: u ++ v) (File x i d).
