(** * The shell: the part of bash used by tools/generate_and_check.sh, tools/update_bench.sh
    and the recipes of Makefile

    [parse_sh] reads the lines of a script, [interpret] executes it.  The commands that are
    no part of bash (git, sha1sum, make, go, ...) are the parameter [exe]: a command gets its
    words, its standard input and the world, and gives its standard output, its exit status
    and the world after it.  The result [None] means that the script leaves this part of
    bash; nothing is claimed then.

    Simplifications: the stages of a pipeline run one after the other, each to its end; the
    standard input of the script is empty; the error output is not modelled; the variables
    a script sets are not seen by the commands (no variable is exported by the scripts). *)
From Coq Require Import ZArith String Ascii List Bool.
Import ListNotations.
Local Open Scope string_scope.
Local Open Scope list_scope.

(** ** Characters *)
Definition code (c : ascii) : nat := nat_of_ascii c.
Definition within (a b : nat) (c : ascii) : bool := (a <=? code c)%nat && (code c <=? b)%nat.
Definition letter (c : ascii) : bool := within 65 90 c || within 97 122 c || Ascii.eqb c "_".
Definition namechar (c : ascii) : bool := letter c || within 48 57 c.
Definition oneof (s : string) (c : ascii) : bool := existsb (Ascii.eqb c) (list_ascii_of_string s).
(** Characters that stand for themselves in an unquoted word.  The brackets are here for
    [[ and ]]; elsewhere they make a pattern, which [unquoted] below refuses. *)
Definition wordchar (c : ascii) : bool := namechar c || oneof "-./=![]:,+@%" c.
Definition newline : ascii := "010".
Definition tab : ascii := "009".
(** The blanks that split an expansion into words (IFS has its initial value) *)
Definition splits (c : ascii) : bool := Ascii.eqb c " " || Ascii.eqb c tab || Ascii.eqb c newline.
(** Characters that have a meaning in patterns *)
Definition special (c : ascii) : bool := oneof "*?[\(" c.

Fixpoint span (p : ascii -> bool) (s : list ascii) : list ascii * list ascii :=
  match s with
  | c :: s' => if p c then let '(a, b) := span p s' in (c :: a, b) else ([], s)
  | [] => ([], [])
  end.

(** ** Words and tokens *)
Inductive part := Lit (s : string) | Quo (s : string) | Var (x : string).
Definition word := list part.
Inductive token := TWord (w : word) | TOpen (x : string) | TClose | TPipe | TOr | TSemi | TNl.

Definition str := string_of_list_ascii.
Definition plain_word (w : word) : option string := match w with [Lit s] => Some s | _ => None end.
Definition isLit (s : string) (w : word) : bool := match plain_word w with Some t => String.eqb s t | None => false end.
Definition name (s : list ascii) : bool := match s with c :: s' => letter c && forallb namechar s' | [] => false end.

(** The parts of a word, the rest, and whether "$(" comes next *)
Fixpoint lexWord (n : nat) (s : list ascii) : option (word * list ascii) :=
  match n with
  | O => None
  | S n =>
    match s with
    | [] => Some ([], [])
    | c :: s' =>
      if wordchar c then
        let '(a, b) := span wordchar s in
        match lexWord n b with Some (w, r) => Some (Lit (str a) :: w, r) | None => None end
      else if Ascii.eqb c """" then
        let '(a, b) := span (fun c => negb (oneof """$`\" c)) s' in
        match b with
        | q :: b' => if Ascii.eqb q """" then match lexWord n b' with Some (w, r) => Some (Quo (str a) :: w, r) | None => None end else None
        | [] => None
        end
      else if Ascii.eqb c "$" then
        let '(a, b) := span namechar s' in
        if name a then match lexWord n b with Some (w, r) => Some (Var (str a) :: w, r) | None => None end
        else Some ([], s)
      else Some ([], s)
    end
  end.

Definition endsWithEq (s : string) : option string :=
  match rev (list_ascii_of_string s) with
  | c :: r => if Ascii.eqb c "=" && name (rev r) then Some (str (rev r)) else None
  | [] => None
  end.

Fixpoint lex (n : nat) (s : list ascii) : option (list token) :=
  match n with
  | O => None
  | S n =>
    let cons t r := match lex n r with Some ts => Some (t :: ts) | None => None end in
    match s with
    | [] => Some []
    | c :: s' =>
      if Ascii.eqb c " " || Ascii.eqb c tab then lex n s'
      else if Ascii.eqb c newline then cons TNl s'
      else if Ascii.eqb c "#" then lex n (snd (span (fun c => negb (Ascii.eqb c newline)) s'))
      else if Ascii.eqb c ";" then match s' with ";"%char :: _ => None | _ => cons TSemi s' end
      else if Ascii.eqb c ")" then cons TClose s'
      else if Ascii.eqb c "|" then match s' with "|"%char :: s'' => cons TOr s'' | "&"%char :: _ => None | _ => cons TPipe s' end
      else match lexWord (S (length s)) s with
           | Some (w, r) =>
             match w, r with
             | [Lit a], "$"%char :: "("%char :: "("%char :: _ => None
             | [Lit a], "$"%char :: "("%char :: r' => match endsWithEq a with Some x => cons (TOpen x) r' | None => None end
             | [], _ => None
             | _, c :: _ => if splits c || oneof ";|)" c then cons (TWord w) r else None
             | _, [] => cons (TWord w) r
             end
           | None => None
           end
    end
  end.

(** ** Commands *)
Inductive command :=
| Pipe (stages : list (list word))
| Assign (x : string) (stages : list (list word))
| If (unequal : list (word * word)) (body : list command).

Definition reserved : list string :=
  ["if"; "then"; "else"; "elif"; "fi"; "case"; "esac"; "for"; "select"; "while"; "until"; "do"; "done"; "in"; "function"; "time"; "coproc"; "!"; "[["; "]]"].
(** The first word of a command: text without "=" that is no reserved word *)
Definition first_word (w : word) : bool :=
  match plain_word w with
  | Some s => negb (existsb (Ascii.eqb "=") (list_ascii_of_string s)) && negb (existsb (String.eqb s) reserved)
  | None => false
  end.
Fixpoint words_of (ts : list token) : list word * list token :=
  match ts with
  | TWord w :: ts' => let '(a, b) := words_of ts' in (w :: a, b)
  | _ => ([], ts)
  end.
Definition parse_simple (ts : list token) : option (list word * list token) :=
  match words_of ts with
  | (w :: ws, r) => if first_word w then Some (w :: ws, r) else None
  | _ => None
  end.
Fixpoint parse_pipe (n : nat) (ts : list token) : option (list (list word) * list token) :=
  match n with
  | O => None
  | S n =>
    match parse_simple ts with
    | Some (c, TPipe :: r) => match parse_pipe n r with Some (cs, r') => Some (c :: cs, r') | None => None end
    | Some (c, r) => Some ([c], r)
    | None => None
    end
  end.
Fixpoint parse_cond (n : nat) (ts : list token) : option (list (word * word) * list token) :=
  match n with
  | O => None
  | S n =>
    match ts with
    | TWord a :: TWord op :: TWord b :: r =>
      if isLit "!=" op && negb (isLit "]]" a) && negb (isLit "]]" b) && negb (isLit "!" a) then
        match r with
        | TWord e :: r' => if isLit "]]" e then Some ([(a, b)], r') else None
        | TOr :: r' => match parse_cond n r' with Some (cs, r'') => Some ((a, b) :: cs, r'') | None => None end
        | _ => None
        end
      else None
    | _ => None
    end
  end.
Definition separator (t : token) : bool := match t with TSemi | TNl => true | _ => false end.

(** A list of commands up to [fi] (when inside an if) or the end *)
Fixpoint parse_list (n : nat) (inside : bool) (ts : list token) : option (list command * list token) :=
  match n with
  | O => None
  | S n =>
    let next c r :=
      match r with
      | t :: r' => if separator t then match parse_list n inside r' with Some (cs, r'') => Some (c :: cs, r'') | None => None end else None
      | [] => if inside then None else Some ([c], [])
      end in
    match ts with
    | [] => if inside then None else Some ([], [])
    | TNl :: r => parse_list n inside r
    | TOpen x :: r => match parse_pipe (length r) r with Some (p, TClose :: r') => next (Assign x p) r' | _ => None end
    | TWord w :: r =>
      if isLit "fi" w then if inside then Some ([], r) else None
      else if isLit "if" w then
        match r with
        | TWord b :: r1 =>
          if isLit "[[" b then
            match parse_cond (length r1) r1 with
            | Some (c, t :: TWord th :: r2) =>
              if separator t && isLit "then" th then
                match parse_list n true r2 with
                | Some (body, r3) => match body with [] => None | _ => next (If c body) r3 end
                | None => None
                end
              else None
            | _ => None
            end
          else None
        | _ => None
        end
      else match parse_pipe (length ts) ts with Some (p, r') => next (Pipe p) r' | None => None end
    | _ => None
    end
  end.

Fixpoint lines_text (ls : list string) : string :=
  match ls with
  | [] => ""
  | [l] => l
  | l :: ls => (l ++ String newline (lines_text ls))%string
  end.
Definition parse_sh (ls : list string) : option (list command) :=
  let s := list_ascii_of_string (lines_text ls) in
  match lex (S (length s)) s with
  | Some ts => match parse_list (S (length ts)) false ts with Some (cs, []) => Some cs | _ => None end
  | None => None
  end.

(** ** Expansion *)
Definition vars := list (string * string).
(** An unset variable is the empty text (set -u is not used). *)
Fixpoint valueOf (v : vars) (x : string) : string :=
  match v with
  | (y, s) :: v' => if String.eqb x y then s else valueOf v' x
  | [] => ""
  end.
(** Without splitting: assignments and [[ ]] *)
Definition partText (v : vars) (p : part) : string := match p with Lit s | Quo s => s | Var x => valueOf v x end.
Definition whole (v : vars) (w : word) : string := fold_right (fun p s => (partText v p ++ s)%string) "" w.
(** With splitting: the words of a command.  [item] is what remains of a character. *)
Inductive item := Ch (c : ascii) | Sep | Here.
Definition unquoted (c : ascii) : option item := if oneof "*?[\" c then None else Some (Ch c).
Fixpoint mapOption {A B} (f : A -> option B) (l : list A) : option (list B) :=
  match l with
  | [] => Some []
  | x :: l' => match f x, mapOption f l' with Some y, Some ys => Some (y :: ys) | _, _ => None end
  end.
Definition items (v : vars) (p : part) : option (list item) :=
  match p with
  | Quo s => Some (Here :: map Ch (list_ascii_of_string s))
  | Lit s => mapOption unquoted (list_ascii_of_string s)
  | Var x => mapOption (fun c => if splits c then Some Sep else unquoted c) (list_ascii_of_string (valueOf v x))
  end.
(** [cur]: the word being built, if there is one *)
Fixpoint fields (cur : option (list ascii)) (l : list item) : list string :=
  match l with
  | [] => match cur with Some s => [str (rev s)] | None => [] end
  | Sep :: l' => match cur with Some s => str (rev s) :: fields None l' | None => fields None l' end
  | Here :: l' => fields (match cur with Some s => Some s | None => Some [] end) l'
  | Ch c :: l' => fields (Some (c :: match cur with Some s => s | None => [] end)) l'
  end.
Definition expand (v : vars) (w : word) : option (list string) :=
  match mapOption (items v) w with Some l => Some (fields None (concat l)) | None => None end.
Definition expands (v : vars) (ws : list word) : option (list string) :=
  match mapOption (expand v) ws with Some l => Some (concat l) | None => None end.

(** $( ) drops the newlines at the end (and has no NUL: bash drops those) *)
Fixpoint dropNl (s : list ascii) : list ascii :=
  match s with c :: s' => if Ascii.eqb c newline then dropNl s' else s | [] => [] end.
Definition stripped (s : string) : string := str (rev (dropNl (rev (list_ascii_of_string s)))).
Definition hasNul (s : string) : bool := existsb (Ascii.eqb "000") (list_ascii_of_string s).
(** a != b inside [[ ]]: b is a pattern; without special characters it is a text. *)
Definition patternFree (s : string) : bool := negb (existsb special (list_ascii_of_string s)).

(** The other builtins of bash: not modelled *)
Definition builtins : list string :=
  [".";":";"[";"alias";"bg";"bind";"break";"builtin";"caller";"cd";"command";"compgen";"complete";"compopt";"continue";"declare";"dirs";"disown";"echo";"enable";"eval";"exec";"exit";"export";"false";"fc";"fg";"getopts";"hash";"help";"history";"jobs";"kill";"let";"local";"logout";"mapfile";"popd";"printf";"pushd";"pwd";"read";"readarray";"readonly";"return";"set";"shift";"shopt";"source";"suspend";"test";"times";"trap";"true";"type";"typeset";"ulimit";"umask";"unalias";"unset";"wait"].
Fixpoint joined (l : list string) : string :=
  match l with [] => "" | [a] => a | a :: l' => (a ++ " " ++ joined l')%string end.
Definition number (s : string) : option Z :=
  match list_ascii_of_string s with
  | [c] => if within 48 57 c then Some (Z.of_nat (code c - 48)) else None
  | _ => None
  end.

(** ** Execution *)
Section Shell.
Context {W : Type} (exe : list string -> string -> W -> string * Z * W).
Record state := State { s_vars : vars; s_e : bool; s_out : string; s_world : W }.
Inductive result := Next (status : Z) (s : state) | Exits (status : Z) (s : state).

Definition external (v : vars) (ws : list word) (stdin : string) (w : W) : option (string * Z * W) :=
  match expands v ws with
  | Some (a :: args) => if existsb (String.eqb a) builtins then None else Some (exe (a :: args) stdin w)
  | _ => None
  end.
(** The status of a pipeline is that of its last command (pipefail is off). *)
Fixpoint pipeline (v : vars) (stages : list (list word)) (stdin : string) (w : W) : option (string * Z * W) :=
  match stages with
  | [] => None
  | [c] => external v c stdin w
  | c :: cs => match external v c stdin w with Some (o, _, w') => pipeline v cs o w' | None => None end
  end.
(** set -e: a command that fails ends the script with its status. *)
Definition checked (status : Z) (s : state) : result :=
  if s_e s && negb (status =? 0)%Z then Exits status s else Next status s.
Definition builtin (args : list string) (s : state) : option result :=
  match args with
  | ["set"; "-e"] => Some (Next 0%Z (State (s_vars s) true (s_out s) (s_world s)))
  | ["exit"; n] => match number n with Some n => Some (Exits n s) | None => None end
  | "echo" :: a :: l =>
      match a with
      | String "-" _ => None
      | _ => Some (Next 0%Z (State (s_vars s) (s_e s) (s_out s ++ joined (a :: l) ++ String newline "")%string (s_world s)))
      end
  | _ => None
  end.
Fixpoint compare (v : vars) (l : list (word * word)) : option bool :=
  match l with
  | [] => Some false
  | (a, b) :: l' =>
      if patternFree (whole v b) then
        if negb (String.eqb (whole v a) (whole v b)) then Some true else compare v l'
      else None
  end.
Fixpoint exec (c : command) (s : state) : option result :=
  match c with
  | Pipe stages =>
      match stages with
      | [[Lit b] :: ws] =>
          if existsb (String.eqb b) builtins then
            match expands (s_vars s) ws with Some args => builtin (b :: args) s | None => None end
          else match pipeline (s_vars s) stages "" (s_world s) with
               | Some (o, n, w) => Some (checked n (State (s_vars s) (s_e s) (s_out s ++ o)%string w))
               | None => None
               end
      | _ => match pipeline (s_vars s) stages "" (s_world s) with
             | Some (o, n, w) => Some (checked n (State (s_vars s) (s_e s) (s_out s ++ o)%string w))
             | None => None
             end
      end
  | Assign x stages =>
      match pipeline (s_vars s) stages "" (s_world s) with
      | Some (o, n, w) => if hasNul o then None else Some (checked n (State ((x, stripped o) :: s_vars s) (s_e s) (s_out s) w))
      | None => None
      end
  | If l body =>
      match compare (s_vars s) l with
      | Some true =>
          (fix go (cs : list command) (status : Z) (s : state) : option result :=
             match cs with
             | [] => Some (Next status s)
             | c :: cs' => match exec c s with Some (Next n s') => go cs' n s' | r => r end
             end) body 0%Z s
      | Some false => Some (Next 0%Z s)
      | None => None
      end
  end.
Fixpoint execs (cs : list command) (status : Z) (s : state) : option result :=
  match cs with
  | [] => Some (Next status s)
  | c :: cs' => match exec c s with Some (Next n s') => execs cs' n s' | r => r end
  end.
(** A script with the variables of its environment: output, exit status and world *)
Definition interpret (ls : list string) (env : vars) (w : W) : option (string * Z * W) :=
  match parse_sh ls with
  | Some cs => match execs cs 0%Z (State env false "" w) with
               | Some (Next n s) | Some (Exits n s) => Some (s_out s, n, s_world s)
               | None => None
               end
  | None => None
  end.
End Shell.

(** ** make: the recipe of a target in a Makefile whose rules have neither prerequisites nor
    variables

    A target that exists as a file is up to date: nothing is run (no target is declared
    .PHONY).  make prints every command before running it with sh -c and stops at the first
    one that fails, with status 2. *)
Fixpoint rules (ls : list string) : option (list (string * list string)) :=
  match ls with
  | [] => Some []
  | l :: ls' =>
    match rules ls' with
    | None => None
    | Some rs =>
      match list_ascii_of_string l with
      | [] => Some rs
      | c :: r => if Ascii.eqb c tab then Some (("", [str r]) :: rs)
                  else match rev (c :: r) with
                       | e :: n => if Ascii.eqb e ":" && forallb (fun c => namechar c || Ascii.eqb c "-") n then
                                     Some ((str (rev n), []) :: rs) else None
                       | [] => None
                       end
      end
    end
  end.
(** Recipe lines up to the next target *)
Fixpoint recipe_lines (rs : list (string * list string)) : list string :=
  match rs with
  | (t, l) :: rs' => if String.eqb t "" then l ++ recipe_lines rs' else []
  | [] => []
  end.
Fixpoint recipe (rs : list (string * list string)) (target : string) : option (list string) :=
  match rs with
  | (t, _) :: rs' => if String.eqb t target then Some (recipe_lines rs') else recipe rs' target
  | [] => None
  end.
Section Make.
Context {W : Type} (exe : list string -> string -> W -> string * Z * W) (exists_file : W -> string -> bool).
Fixpoint make_runs (cmds : list string) (w : W) : option (string * Z * W) :=
  match cmds with
  | [] => Some ("", 0%Z, w)
  | c :: cs =>
    match interpret exe [c] [] w with
    | Some (o, n, w') =>
      let o := (c ++ String newline o)%string in
      if (n =? 0)%Z then match make_runs cs w' with Some (o', n', w'') => Some ((o ++ o')%string, n', w'') | None => None end
      else Some (o, 2%Z, w')
    | None => None
    end
  end.
Definition make (ls : list string) (target : string) (w : W) : option (string * Z * W) :=
  match rules ls with
  | None => None
  | Some rs =>
    match recipe rs target with
    | None => Some ("", 2%Z, w)
    | Some cmds => if exists_file w target then Some (("make: '" ++ target ++ "' is up to date." ++ String newline "")%string, 0%Z, w)
                   else make_runs cmds w
    end
  end.
End Make.
