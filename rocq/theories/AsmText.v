(** * Reading Go assembler text

    A reader for the part of the Go assembler's syntax found in encode_amd64.s and
    decode_amd64.s.  It answers None for anything else. *)
From Coq Require Import ZArith List String Ascii Bool.
From Verif Require Import GoSem Asm GoSyntax.
Import ListNotations.
Local Open Scope string_scope.
Local Open Scope list_scope.
Local Open Scope Z_scope.

(** Operands. *)
Inductive operand :=
| OGpr (r : gpr)
| OLow (r : gpr)                 (* AL: low byte *)
| OXmm (x : xreg)
| OImm (z : Z)                   (* $0x04 *)
| OMem (disp : Z) (r : gpr)      (* 16(AX) *)
| OArg (name : string) (o : Z)   (* in_base+0(FP) *)
| OSym (name : string) (o : Z).  (* mask0101<>+0(SB) *)

Fixpoint assocS {A} (l : list (string * A)) (x : string) : option A :=
  match l with [] => None | (y, a) :: r => if String.eqb x y then Some a else assocS r x end.
Definition gprs : list (string * gpr) := [("AX", AX); ("BX", BX); ("CX", CX); ("DX", DX); ("SI", SI); ("DI", DI)].
Definition lows : list (string * gpr) := [("AL", AX); ("BL", BX); ("CL", CX); ("DL", DX); ("SIB", SI); ("DIB", DI)].
Definition xmms : list (string * xreg) := [("X0", X0); ("X1", X1); ("X2", X2); ("X3", X3); ("X4", X4); ("X5", X5)].

Definition isChar (z : Z) (c : ascii) : bool := code c =? z.
(** Before and after the first character with code [z]. *)
Definition cut (z : Z) (s : string) : option (string * string) :=
  let '(a, b) := span (fun c => negb (isChar z c)) s in
  match b with String _ r => Some (a, r) | EmptyString => None end.
Definition trim (s : string) : string := snd (span isSpace s).
(** Comma separated fields. *)
Fixpoint fields (n : nat) (s : string) : list string :=
  match n with
  | O => []
  | S n' => match cut 44 s with Some (a, r) => trim a :: fields n' r | None => [trim s] end
  end.
(** name+off *)
Definition nameOff (s : string) : option (string * Z) :=
  match cut 43 s with
  | Some (x, o) => option_map (fun z => (x, z)) (number o)
  | None => None
  end.
Definition readOperand (s : string) : option operand :=
  match assocS gprs s, assocS lows s, assocS xmms s with
  | Some r, _, _ => Some (OGpr r)
  | _, Some r, _ => Some (OLow r)
  | _, _, Some x => Some (OXmm x)
  | _, _, _ =>
    match cut 36 s with                                        (* $ *)
    | Some ("", r) => option_map OImm (number r)
    | Some _ => None
    | None =>
      match cut 40 s with                                      (* ( *)
      | Some (p, "FP)") => option_map (fun '(x, o) => OArg x o) (nameOff p)
      | Some (p, "SB)") =>
          match nameOff p with
          | Some (x, o) => match cut 60 x with Some (y, ">") => Some (OSym y o) | _ => None end
          | None => None
          end
      | Some (p, q) =>
          match cut 41 q with
          | Some (r, "") =>
              match assocS gprs r with
              | Some g => if String.eqb p "" then Some (OMem 0 g) else option_map (fun z => OMem z g) (number p)
              | None => None
              end
          | _ => None
          end
      | None => None
      end
    end
  end.

(** Instructions; [data] gives the value of two-byte constants by name. *)
Definition instruction (data : list (string * Z)) (m : string) (l : list operand) : option instr :=
  let is := String.eqb m in
  match l with
  | [OArg _ o; OGpr d] => if is "MOVQ" then Some (MOVQ_arg o d) else if is "MOVWQZX" then Some (MOVWQZX_arg o d) else None
  | [OGpr s; OGpr d] =>
      if is "MOVQ" then Some (MOVQ s d) else if is "MOVWQZX" then Some (MOVWQZX s d) else if is "ADDQ" then Some (ADDQ s d) else None
  | [OLow s; OGpr d] => if is "MOVBQZX" then Some (MOVBQZX s d) else None
  | [OMem 0 a; OGpr d] => if is "MOVBQZX" then Some (MOVBQZX_ld a d) else None
  | [OImm n; OGpr d] => if is "SHLQ" then Some (SHLQ n d) else if is "SHRQ" then Some (SHRQ n d) else None
  | [OGpr s; OArg _ o] => if is "MOVW" then Some (MOVW_ret s o) else None
  | [OMem disp a; OXmm d] => if is "VLDDQU" then Some (VLDDQU disp a d) else None
  | [OXmm s; OMem disp a] => if is "VMOVDQU" then Some (VMOVDQU s disp a) else None
  | [OSym x 0; OXmm d] =>
      if is "VPBROADCASTW" then option_map (fun c => VPBROADCASTW c d) (assocS data x) else None
  | [OArg _ o; OXmm d] => if is "VBROADCASTSS" then Some (VBROADCASTSS_arg o d) else None
  | [OXmm s2; OXmm s1; OXmm d] =>
      if is "VPMINUB" then Some (VPMINUB s2 s1 d) else if is "VPACKUSWB" then Some (VPACKUSWB s2 s1 d)
      else if is "VPMINSW" then Some (VPMINSW s2 s1 d) else if is "VPADDUSW" then Some (VPADDUSW s2 s1 d)
      else if is "VPSUBD" then Some (VPSUBD s2 s1 d) else if is "VPADDD" then Some (VPADDD s2 s1 d) else None
  | [OXmm s; OGpr d] => if is "VPMOVMSKB" then Some (VPMOVMSKB s d) else None
  | [OMem 0 a; OXmm s; OXmm d] => if is "VPSHUFB" then Some (VPSHUFB_ld a s d) else None
  | [OImm n; OXmm s2; OXmm s1; OXmm d] => if is "VPALIGNR" then Some (VPALIGNR n s2 s1 d) else None
  | [OImm n; OXmm s; OXmm d] => if is "VPSLLDQ" then Some (VPSLLDQ n s d) else if is "VPSHUFD" then Some (VPSHUFD n s d) else None
  | _ => None
  end.

(** A routine: its name, the comment lines before it, flags, frame and argument bytes from
    the TEXT line, the instructions before RET, and the arguments they name. *)
Record routine := Routine {
  r_name : string; r_doc : list string; r_flags : string; r_frame : Z; r_args : Z;
  r_code : list instr; r_refs : list (string * Z) }.

(** State of the reader: constants, finished routines, comments since the last blank line,
    the routine being read. *)
Record rstate := RState { st_data : list (string * Z); st_sizes : list (string * (string * Z)); st_done : list routine; st_doc : list string; st_open : option routine }.

Definition argRefs (l : list operand) : list (string * Z) :=
  flat_map (fun o => match o with OArg x z => [(x, z)] | _ => [] end) l.

(** DATA name<>+0(SB)/2, $0x0101 *)
Definition readData (s : string) : option (string * Z) :=
  match fields 5 s with
  | [a; v] =>
      match cut 47 a with
      | Some (b, "2") => match readOperand b, readOperand v with Some (OSym x 0), Some (OImm z) => Some (x, z) | _, _ => None end
      | _ => None
      end
  | _ => None
  end.
(** GLOBL name<>(SB), RODATA|NOPTR, $2 *)
Definition readGlobl (s : string) : option (string * (string * Z)) :=
  match fields 5 s with
  | [a; f; n] =>
      match cut 60 a, readOperand n with Some (x, ">(SB)"), Some (OImm z) => Some (x, (f, z)) | _, _ => None end
  | _ => None
  end.
(** TEXT ·Name(SB), NOSPLIT, $0-66 *)
Definition readText (doc : list string) (s : string) : option routine :=
  match fields 5 s with
  | [a; f; n] =>
      match strip "·" a, cut 36 n with
      | Some x, Some ("", fr) =>
          match cut 40 x, cut 45 fr with
          | Some (nm, "SB)"), Some (l, r) =>
              match number l, number r with
              | Some l, Some r => Some (Routine nm doc f l r [] [])
              | _, _ => None
              end
          | _, _ => None
          end
      | _, _ => None
      end
  | _ => None
  end.

Definition readLine (st : rstate) (line : string) : option rstate :=
  let l := trim line in
  match l with
  | EmptyString => Some (RState (st_data st) (st_sizes st) (st_done st) [] (st_open st))
  | _ =>
    match strip "// " l, strip "#include " l with
    | Some c, _ => Some (RState (st_data st) (st_sizes st) (st_done st) (st_doc st ++ [c]) (st_open st))
    | _, Some _ => Some st
    | _, _ =>
      let '(m, r) := span (fun c => negb (isSpace c)) l in
      if String.eqb m "DATA" then
        match readData r with Some d => Some (RState (st_data st ++ [d]) (st_sizes st) (st_done st) (st_doc st) (st_open st)) | None => None end
      else if String.eqb m "GLOBL" then
        match readGlobl r with Some g => Some (RState (st_data st) (st_sizes st ++ [g]) (st_done st) (st_doc st) (st_open st)) | None => None end
      else if String.eqb m "TEXT" then
        match st_open st, readText (st_doc st) (trim r) with
        | None, Some x => Some (RState (st_data st) (st_sizes st) (st_done st) [] (Some x))
        | _, _ => None
        end
      else
        match st_open st with
        | None => None
        | Some x =>
          if String.eqb l "RET" then Some (RState (st_data st) (st_sizes st) (st_done st ++ [x]) [] None)
          else match allSome (map readOperand (fields 9 (trim r))) with
               | Some ops =>
                   match instruction (st_data st) m ops with
                   | Some i => Some (RState (st_data st) (st_sizes st) (st_done st) (st_doc st)
                       (Some (Routine (r_name x) (r_doc x) (r_flags x) (r_frame x) (r_args x) (r_code x ++ [i]) (r_refs x ++ argRefs ops))))
                   | None => None
                   end
               | None => None
               end
        end
    end
  end.
Fixpoint readLines (st : rstate) (ls : list string) : option rstate :=
  match ls with [] => Some st | l :: r => match readLine st l with Some st' => readLines st' r | None => None end end.

(** An assembly file: its constants (with the flags and sizes of the GLOBL lines) and routines. *)
Record asmfile := AsmFile { a_data : list (string * Z); a_sizes : list (string * (string * Z)); a_routines : list routine }.
Definition readAsm (ls : list string) : option asmfile :=
  match readLines (RState [] [] [] [] None) ls with
  | Some (RState d g rs _ None) => Some (AsmFile d g rs)
  | _ => None
  end.
Definition routineNamed (rs : list routine) (x : string) : option routine := find (fun r => String.eqb (r_name r) x) rs.
