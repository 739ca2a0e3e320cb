(** * Model of tools/parse_and_write_bench.go

    Texts are lists of bytes.  Not modelled: errors of the operating system (opening,
    reading, writing) and how the README is located.  BenchInterp.v executes the text of the
    program, with such errors. *)
From stdpp Require Import prelude list strings.
From Coq Require Import ZArith Ascii.
Local Open Scope Z_scope.

Notation text := (list Z).
(** The bytes of a string constant. *)
Fixpoint codes (s : string) : text :=
  match s with EmptyString => [] | String c r => Z.of_nat (nat_of_ascii c) :: codes r end.
Definition nl : Z := 10.
Definition cr : Z := 13.

(** parse_and_write_bench.go:16-25 *)
Definition goos : text := codes "goos".
Definition goarch : text := codes "goarch".
Definition pkg : text := codes "pkg".
Definition cpu : text := codes "cpu".
Definition benchmark : text := codes "Benchmark".
Definition dashes : text := codes "--".
Definition startSentinel : text := codes "## Benchmarks" ++ [nl; nl] ++ codes "```text" ++ [nl].
Definition endSentinel : text := codes "```" ++ [nl].
(** :28-34 *)
Definition validPrefixes : list text := [goos; goarch; pkg; cpu; benchmark].

(** strings.HasPrefix, strings.TrimPrefix, bytes.Index, strings.Join (Go standard library) *)
Fixpoint HasPrefix (s p : text) {struct p} : bool :=
  match p, s with
  | [], _ => true
  | a :: p', b :: s' => (a =? b) && HasPrefix s' p'
  | _ :: _, [] => false
  end.
Definition TrimPrefix (s p : text) : text := if HasPrefix s p then drop (length p) s else s.
Fixpoint Index (s p : text) : option nat :=
  if HasPrefix s p then Some 0%nat else match s with [] => None | _ :: s' => option_map S (Index s' p) end.
Fixpoint Join (l : list text) (sep : text) : text :=
  match l with [] => [] | [x] => x | x :: r => x ++ sep ++ Join r sep end.

(** bufio.Scanner with bufio.ScanLines: lines end at '\n' or at the end of the input,
    a final '\r' is dropped; a line of 64 KiB or more ends the scan with ErrTooLong
    ([None]; bufio.MaxScanTokenSize). *)
Fixpoint raw_lines (cur s : text) : list text :=
  match s with
  | [] => match cur with [] => [] | _ => [rev cur] end
  | c :: r => if c =? nl then rev cur :: raw_lines [] r else raw_lines (c :: cur) r
  end.
Definition dropCR (l : text) : text :=
  match rev l with c :: r => if c =? cr then rev r else l | [] => l end.
Definition Scan (s : text) : option (list text) :=
  let ls := raw_lines [] s in
  if existsb (fun l : text => 65536 <=? Z.of_nat (length l)) ls then None else Some (map dropCR ls).

(** :40-48 *)
Definition anyPrefix (l : text) : bool := existsb (HasPrefix l) validPrefixes.
(** :57-76; the state is (lines, hasBench) *)
Definition process_line (st : list text * bool) (line : text) : list text * bool :=
  let '(lines, hasBench) := st in
  if anyPrefix line then
    let emitDash := HasPrefix line cpu in
    let hasBench := hasBench || HasPrefix line benchmark in
    let emitNewline := hasBench && HasPrefix line goos in
    let lines := if emitNewline then lines ++ [[]] else lines in
    let line := if hasBench then TrimPrefix line benchmark else line in
    let lines := lines ++ [line] in
    let lines := if emitDash then lines ++ [dashes] else lines in
    (lines, hasBench)
  else st.
Definition process (input : list text) : list text := fst (foldl process_line ([], false) input).

(** How a run ends: log.Fatalf, a run-time panic (slice bounds), or normally with what
    was written to the standard output and the README then. *)
Inductive ending := Fatal | Crash | Done (stdout readme : text).
(** :50-127; [write] is the flag -w *)
Definition main (write : bool) (stdin readme : text) : ending :=
  match Scan stdin with
  | None => Fatal                                       (* :78-80 *)
  | Some input =>
      let lines := process input in
      match Index readme startSentinel with
      | None => Fatal                                   (* :98-100 *)
      | Some start =>
          match Index readme endSentinel with
          | None => Crash                               (* :102, :109: allData[-1:] *)
          | Some restStart =>
              let final := take start readme ++ startSentinel ++ Join lines [nl] ++ [nl] ++ drop restStart readme in
              if write then Done [] final else Done final readme
          end
      end
  end.
(** The README after the run. *)
Definition readme_after (readme : text) (e : ending) : text := match e with Done _ r => r | _ => readme end.
