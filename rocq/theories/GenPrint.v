(** * What avo makes of a description: registers and text

    avo (github.com/mmcloughlin/avo, not part of the repository) assigns physical registers
    to the virtual ones and prints the assembly file.  Both are modelled as far as the
    generators use them.
    - Registers: two virtual registers are in conflict if one is written while the other is
      still needed.  The virtual register with the fewest physical registers left is next,
      the one created first among equals; it gets the first register left, in the order
      AX, CX, DX, BX, SI, DI, and X0, X1, ...
    - Text: the command, the include line, the constant data, the routines. *)
From stdpp Require Import prelude list strings.
From Coq Require Import ZArith Ascii.
From Verif Require Import GoSyntax Asm AvoGen AvoSem GenInterp.
Local Open Scope string_scope.
Local Open Scope list_scope.
Local Open Scope Z_scope.

(** ** Registers *)
Fixpoint conflicts (def : vinstr -> option nat) (us : vinstr -> list nat) (c : list vinstr) : list (nat * nat) :=
  match c with
  | [] => []
  | i :: r => match def i with Some d => map (pair d) (without (Some d) (live def us r)) | None => [] end ++ conflicts def us r
  end.
Section registers.
Context {R : Type} (eqb : R -> R -> bool) (order : list R) (edges : list (nat * nat)).
Definition given (al : list (nat * R)) (v : nat) : option R := option_map snd (List.find (fun p => Nat.eqb (fst p) v) al).
(** The registers left for [v]: those of no conflicting virtual register *)
Definition left (al : list (nat * R)) (v : nat) : list R :=
  List.filter (fun r => negb (existsb (fun e =>
    let '(a, b) := e in
    let other := if Nat.eqb a v then Some b else if Nat.eqb b v then Some a else None in
    match other with Some o => match given al o with Some q => eqb q r | None => false end | None => false end) edges)) order.
Fixpoint tightest (al : list (nat * R)) (vs : list nat) : option nat :=
  match vs with
  | [] => None
  | v :: r => match tightest al r with
              | Some u => Some (if Nat.ltb (List.length (left al u)) (List.length (left al v)) then u else v)
              | None => Some v
              end
  end.
Fixpoint allocateIn (n : nat) (al : list (nat * R)) (vs : list nat) : option (list (nat * R)) :=
  match n, vs with
  | _, [] => Some al
  | O, _ => None
  | S n', _ =>
      match tightest al vs with
      | Some v => match left al v with r :: _ => allocateIn n' ((v, r) :: al) (List.filter (fun u => negb (Nat.eqb u v)) vs) | [] => None end
      | None => None
      end
  end.
End registers.
Definition gprs : list gpr := [AX; CX; DX; BX; SI; DI].
Definition xregs : list xreg := [X0; X1; X2; X3; X4; X5].
Definition registers (s : bstate) : option ((nat -> gpr) * (nat -> xreg)) :=
  match allocateIn gpr_eqb gprs (conflicts defg useg (emitted s)) (nextG s) [] (seq 0 (nextG s)),
        allocateIn xreg_eqb xregs (conflicts defx usex (emitted s)) (nextX s) [] (seq 0 (nextX s)) with
  | Some g, Some x => Some (fun n => default AX (given g n), fun n => default X0 (given x n))
  | _, _ => None
  end.

(** ** Text *)
Definition gName (r : gpr) : string := match r with AX => "AX" | BX => "BX" | CX => "CX" | DX => "DX" | SI => "SI" | DI => "DI" end.
(** the low byte *)
Definition bName (r : gpr) : string := match r with AX => "AL" | BX => "BL" | CX => "CL" | DX => "DL" | SI => "SIB" | DI => "DIB" end.
Definition xName (r : xreg) : string := match r with X0 => "X0" | X1 => "X1" | X2 => "X2" | X3 => "X3" | X4 => "X4" | X5 => "X5" end.
Definition dec (z : Z) : string := numeral 10 0 z.
Definition hex (digits : nat) (z : Z) : string := "0x" ++ numeral 16 digits z.
Definition imm (z : Z) : string := "$" ++ hex 2 z.
Definition at_ (r : gpr) (d : Z) : string := (if d =? 0 then "" else dec d) ++ "(" ++ gName r ++ ")".
Section routine.
Variable data : list (string * Z).
Variable sg : signature.
Variable rg : nat -> gpr.
Variable rx : nat -> xreg.
(** name+o(FP) *)
Definition fp (o : Z) : string :=
  match List.find (fun p => fst (snd p) =? o) (param_env sg ++ result_env sg) with
  | Some (n, (_, t)) => n ++ match t with TSlice => "_base" | _ => "" end ++ "+" ++ dec o ++ "(FP)"
  | None => "?"
  end.
Definition sb (z : Z) : string := match List.find (fun p => snd p =? z) data with Some (n, _) => n ++ "<>+0(SB)" | None => "?" end.
(** mnemonic and operands *)
Definition printInstr (i : vinstr) : string * string :=
  let g n := gName (rg n) in let b n := bName (rg n) in let x n := xName (rx n) in
  let l2 o a b := (o, a ++ ", " ++ b)%string in let l3 o a b c := (o, a ++ ", " ++ b ++ ", " ++ c)%string in
  let l4 o a b c d := (o, a ++ ", " ++ b ++ ", " ++ c ++ ", " ++ d)%string in
  match i with
  | vMOVQ_arg o d => l2 "MOVQ" (fp o) (g d)
  | vMOVQ s d => l2 "MOVQ" (g s) (g d)
  | vMOVWQZX_arg o d => l2 "MOVWQZX" (fp o) (g d)
  | vMOVWQZX s d => l2 "MOVWQZX" (g s) (g d)
  | vMOVBQZX s d => l2 "MOVBQZX" (b s) (g d)
  | vMOVBQZX_ld a d => l2 "MOVBQZX" (at_ (rg a) 0) (g d)
  | vSHLQ n d => l2 "SHLQ" (imm n) (g d)
  | vSHRQ n d => l2 "SHRQ" (imm n) (g d)
  | vADDQ s d => l2 "ADDQ" (g s) (g d)
  | vMOVW_ret s o => l2 "MOVW" (g s) (fp o)
  | vVLDDQU n a d => l2 "VLDDQU" (at_ (rg a) n) (x d)
  | vVMOVDQU s n a => l2 "VMOVDQU" (x s) (at_ (rg a) n)
  | vVPBROADCASTW c d => l2 "VPBROADCASTW" (sb c) (x d)
  | vVBROADCASTSS_arg o d => l2 "VBROADCASTSS" (fp o) (x d)
  | vVPMINUB s2 s1 d => l3 "VPMINUB" (x s2) (x s1) (x d)
  | vVPACKUSWB s2 s1 d => l3 "VPACKUSWB" (x s2) (x s1) (x d)
  | vVPMINSW s2 s1 d => l3 "VPMINSW" (x s2) (x s1) (x d)
  | vVPADDUSW s2 s1 d => l3 "VPADDUSW" (x s2) (x s1) (x d)
  | vVPMOVMSKB s d => l2 "VPMOVMSKB" (x s) (g d)
  | vVPSHUFB_ld a s d => l3 "VPSHUFB" (at_ (rg a) 0) (x s) (x d)
  | vVPALIGNR n s2 s1 d => l4 "VPALIGNR" (imm n) (x s2) (x s1) (x d)
  | vVPSUBD s2 s1 d => l3 "VPSUBD" (x s2) (x s1) (x d)
  | vVPADDD s2 s1 d => l3 "VPADDD" (x s2) (x s1) (x d)
  | vVPSLLDQ n s d => l3 "VPSLLDQ" (imm n) (x s) (x d)
  | vVPSHUFD n s d => l3 "VPSHUFD" (imm n) (x s) (x d)
  end.
End routine.
(** "// Requires:" line *)
Definition featureLine (c : list instr) : list string :=
  let has f := existsb (fun i => match needs i, f with FAVX, FAVX | FAVX2, FAVX2 => true | _, _ => false end) c in
  match (if has FAVX then ["AVX"] else []) ++ (if has FAVX2 then ["AVX2"] else []) with
  | [] => []
  | l => [("// Requires: " ++ String.concat ", " l)%string]
  end.
(** Operands start in one column. *)
Fixpoint spaces (n : nat) : string := match n with O => "" | S n' => String " " (spaces n') end.
Definition tab : ascii := ascii_of_nat 9.
Definition aligned (l : list (string * string)) : list string :=
  let w := fold_right Nat.max O (map (fun p => String.length (fst p)) l) in
  map (fun '(o, a) => String tab (if String.eqb a "" then o else o ++ spaces (w - String.length o) ++ " " ++ a)%string) l.
Definition printRoutine (data : list (string * Z)) (d : desc) : option (list string) :=
  match registers (d_state d), strip "func" (d_text d), d_ret d with
  | Some (rg, rx), Some t, true =>
      Some ([("// func " ++ d_name d ++ t)%string] ++ featureLine (map (assign rg rx) (emitted (d_state d))) ++
            [("TEXT ·" ++ d_name d ++ "(SB), NOSPLIT, $0-" ++ dec (arg_bytes (d_sig d)))%string] ++
            aligned (map (printInstr data (d_sig d) rg rx) (emitted (d_state d)) ++ [("RET", "")]))
  | _, _, _ => None
  end.
Definition printData (p : string * Z) : list string :=
  [("DATA " ++ fst p ++ "<>+0(SB)/2, $" ++ hex 4 (snd p))%string; ("GLOBL " ++ fst p ++ "<>(SB), RODATA|NOPTR, $2")%string].
Fixpoint blocks (l : list (list string)) : list string := match l with [] => [] | [b] => b | b :: r => b ++ "" :: blocks r end.
(** The file avo prints.  [args]: the arguments of the command. *)
Definition printFile (args : string) (s : gst) : option (list string) :=
  let data := rev (g_data s) in
  match allSome (map (printRoutine data) (rev (g_descs s))) with
  | Some rs => Some (blocks ([[("// Code generated by command: go run asm.go " ++ args ++ ". DO NOT EDIT.")%string]; ["#include ""textflag.h"""]] ++
                             map printData data ++ rs))
  | None => None
  end.

(** ** go:generate *)
(** The command of the first //go:generate line *)
Fixpoint generateLine (ls : list string) : option string :=
  match ls with [] => None | l :: r => match strip "//go:generate " l with Some c => Some c | None => generateLine r end end.
(** Words separated by single spaces *)
Fixpoint words (s : string) : list string :=
  match s with
  | EmptyString => [""]
  | String c r => if code c =? 32 then "" :: words r else match words r with w :: k => String c w :: k | [] => [String c ""] end
  end.
(** -name value ... *)
Fixpoint flagsOf (l : list string) : option (list (string * string)) :=
  match l with
  | [] => Some []
  | f :: v :: r => match strip "-" f, flagsOf r with Some f, Some k => Some ((f, v) :: k) | _, _ => None end
  | _ => None
  end.
