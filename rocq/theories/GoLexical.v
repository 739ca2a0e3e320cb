(** * The lexical elements of Go: identifiers, literals, operators, semicolons

    One line of a source text at a time; comments between /* and */ and raw strings, which can
    extend over lines, are not described.  Only ASCII letters are letters. *)
From Coq Require Import ZArith List String Ascii Bool.
From Verif Require Import GoSyntax GoGrammar.
Import ListNotations.
Local Open Scope list_scope.
Local Open Scope string_scope.
Local Open Scope Z_scope.

Definition among (s : string) (c : ascii) : Prop := In c (list_ascii_of_string s).
Definition letter (c : ascii) : Prop := among "abcdefghijklmnopqrstuvwxyzABCDEFGHIJKLMNOPQRSTUVWXYZ_" c.
Definition decimal (c : ascii) : Prop := among "0123456789" c.
Definition every (P : ascii -> Prop) (s : string) : Prop := forall c, In c (list_ascii_of_string s) -> P c.
Definition quote : ascii := ascii_of_nat 34.
Definition apostrophe : ascii := ascii_of_nat 39.
Definition backslash : ascii := ascii_of_nat 92.
Definition backquote : ascii := ascii_of_nat 96.
(** The value of a digit: its place in this list; capital letters have the value of the small ones. *)
Definition digit_value (c : ascii) (d : Z) : Prop :=
  exists i, d = Z.of_nat i /\ (nth_error (list_ascii_of_string "0123456789abcdef") i = Some c \/ nth_error (list_ascii_of_string "0123456789ABCDEF") i = Some c).
(** Digits; an underscore can stand between two of them. *)
Inductive numeral (base : Z) : string -> list Z -> Prop :=
| num_one c d : digit_value c d -> d < base -> numeral base (String c "") [d]
| num_cons c d s ds : digit_value c d -> d < base -> numeral base s ds -> numeral base (String c s) (d :: ds)
| num_line c d s ds : digit_value c d -> d < base -> numeral base s ds -> numeral base (String c (String "_" s)) (d :: ds).
Fixpoint value (base : Z) (ds : list Z) : Z := match ds with [] => 0 | d :: r => d * base ^ Z.of_nat (List.length r) + value base r end.
(** The characters of a string or rune literal between the [q]s, as they are written and as they are meant. *)
Inductive text (q : ascii) : string -> string -> Prop :=
| text_nil : text q "" ""
| text_char c s t : c <> q -> c <> backslash -> text q s t -> text q (String c s) (String c t)
| text_esc c d s t : In (c, d) [("t"%char, ascii_of_nat 9); ("n"%char, ascii_of_nat 10); (q, q); (backslash, backslash)] -> text q s t -> text q (String backslash (String c s)) (String d t).
Definition punctuation : list string :=
  ["+"; "&"; "+="; "&="; "&&"; "=="; "!="; "("; ")"; "-"; "|"; "-="; "|="; "||"; "<"; "<="; "["; "]"; "*"; "^"; "*="; "^="; "<-"; ">"; ">="; "{"; "}";
   "/"; "<<"; "/="; "<<="; "++"; "="; ":="; ","; ";"; "%"; ">>"; "%="; ">>="; "--"; "!"; "..."; "."; ":"; "&^"; "&^="; "~"].
Inductive lexeme : string -> token -> Prop :=
| lx_ident c s : letter c -> every (fun c => letter c \/ decimal c) s -> lexeme (String c s) (TId (String c s))
| lx_zero : lexeme "0" (TInt 0)
| lx_decimal c s ds : c <> "0"%char -> numeral 10 (String c s) ds -> lexeme (String c s) (TInt (value 10 ds))
| lx_hex s u ds : (u = "" \/ u = "_") -> numeral 16 s ds -> lexeme ("0x" ++ u ++ s) (TInt (value 16 ds))
| lx_binary s u ds : (u = "" \/ u = "_") -> numeral 2 s ds -> lexeme ("0b" ++ u ++ s) (TInt (value 2 ds))
| lx_exponent c s ds e es : c <> "0"%char -> numeral 10 (String c s) ds -> numeral 10 e es -> lexeme (String c s ++ "e" ++ e) (TInt (value 10 ds * 10 ^ value 10 es))
| lx_string s t : text quote s t -> lexeme (String quote s ++ String quote "") (TStr t)
| lx_rune s c : text apostrophe s (String c "") -> (nat_of_ascii c < 128)%nat -> lexeme (String apostrophe s ++ String apostrophe "") (TInt (Z.of_nat (nat_of_ascii c)))
| lx_op s : In s punctuation -> lexeme s (TOp s).
(** What can be a token of Go, literals not described above included. *)
Inductive closed (q : ascii) : string -> Prop :=
| closed_end : closed q (String q "")
| closed_char c s : c <> q -> c <> backslash -> closed q s -> closed q (String c s)
| closed_esc c s : closed q s -> closed q (String backslash (String c s)).
Definition number_shape (s : string) : Prop :=
  ((exists c r, s = String c r /\ decimal c) \/ (exists d r', s = String "." (String d r') /\ decimal d)) /\
  forall a c b, s = a ++ String c b -> letter c \/ decimal c \/ c = "."%char \/
    among "+-" c /\ exists a' d, a = a' ++ String d "" /\ among (if String.prefix "0x" s || String.prefix "0X" s then "pP" else "eE") d.
Definition shape (s : string) : Prop :=
  (exists c r, s = String c r /\ letter c /\ every (fun c => letter c \/ decimal c) r) \/ number_shape s \/
  (exists r, s = String quote r /\ closed quote r) \/ (exists r, s = String apostrophe r /\ closed apostrophe r) \/ (exists r, s = String backquote r) \/ In s punctuation.
(** The tokens of a line: blanks separate, a comment ends it, each token is as long as possible. *)
Inductive lexes : string -> list token -> Prop :=
| lexes_end : lexes "" []
| lexes_blank c s ts : In c [" "%char; ascii_of_nat 9; ascii_of_nat 13] -> lexes s ts -> lexes (String c s) ts
| lexes_comment s : lexes ("//" ++ s) []
| lexes_token w r t ts : (forall s, w ++ r <> "//" ++ s) -> (forall s, w ++ r <> "/*" ++ s) -> lexeme w t ->
    (forall w' r', w ++ r = w' ++ r' -> shape w' -> (String.length w' <= String.length w)%nat) -> lexes r ts -> lexes (w ++ r) (t :: ts).
(** A semicolon is put at the end of a line after an identifier, a literal, one of four
    keywords and five operators. *)
Definition completes (t : token) : Prop :=
  match t with
  | TId x => ~ In x reserved \/ In x ["break"; "continue"; "fallthrough"; "return"]
  | TInt _ | TStr _ => True
  | TOp o => In o ["++"; "--"; ")"; "]"; "}"]
  end.
Inductive tokens : list string -> list token -> Prop :=
| tk_nil : tokens [] []
| tk_none s ls ts : lexes s [] -> tokens ls ts -> tokens (s :: ls) ts
| tk_semi s us t ls ts : lexes s (us ++ [t])%list -> completes t -> tokens ls ts -> tokens (s :: ls) (us ++ [t; TOp ";"] ++ ts)%list
| tk_plain s us t ls ts : lexes s (us ++ [t])%list -> ~ completes t -> tokens ls ts -> tokens (s :: ls) (us ++ [t] ++ ts)%list.
