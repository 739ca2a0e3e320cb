(** * Theorems: the text of the repository (C48) *)
From Coq Require Import ZArith List String Bool.
From Verif Require Import GoSem Asm AsmProgs Tables SourceText GoSyntax GoInterp AsmText GoProgram GoSource.
Import ListNotations.
Local Open Scope string_scope.
Local Open Scope list_scope.
Local Open Scope Z_scope.

(** ** Specification: how Go lays out an argument frame (ABI0, GOARCH=amd64) *)
(** Size and alignment. *)
Definition layoutOf (t : ty) : option (Z * Z) :=
  match t with
  | TySlice _ => Some (24, 8)
  | TyPtr _ => Some (8, 8)
  | TyName x =>
      if String.eqb x "uint8" then Some (1, 1) else if String.eqb x "uint16" then Some (2, 2)
      else if String.eqb x "uint32" then Some (4, 4) else None
  | _ => None
  end.
Definition alignUp (o n : Z) : Z := (o + n - 1) / n * n.
(** What the assembler may call the parts of a variable: x, or x_base, x_len, x_cap. *)
Definition parts (x : string) (t : ty) (o : Z) : list (string * Z) :=
  match t with
  | TySlice _ => [((x ++ "_base")%string, o); ((x ++ "_len")%string, o + 8); ((x ++ "_cap")%string, o + 16)]
  | _ => [(x, o)]
  end.
(** Variables laid out one after the other from offset [o]: the parts and the end. *)
Fixpoint sequence (vs : list (string * ty)) (o : Z) : option (list (string * Z) * Z) :=
  match vs with
  | [] => Some ([], o)
  | (x, t) :: r =>
      match layoutOf t with
      | Some (sz, al) =>
          let o' := alignUp o al in
          match sequence r (o' + sz) with Some (l, e) => Some (parts x t o' ++ l, e) | None => None end
      | None => None
      end
  end.
(** Parameters, then results from the next multiple of the word size. *)
Definition frameOf (f : func) : option (list (string * Z) * Z) :=
  match sequence (f_params f) 0 with
  | Some (l, e) =>
      match f_results f with
      | [] => Some (l, e)
      | rs => match sequence rs (alignUp e 8) with Some (l', e') => Some (l ++ l', e') | None => None end
      end
  | None => None
  end.

(** The declaration in the comment line above a routine. *)
Definition documented (r : routine) : option func :=
  match r_doc r with
  | l :: _ => match parse ["package p"; l] with Some (File _ [] [DFunc f]) => Some f | _ => None end
  | [] => None
  end.
(** Routine [r] implements the declaration [f]: the declared frame, no locals, every
    argument it names is where Go puts it, and the comment repeats the declaration. *)
Definition implementsDecl (r : routine) (f : func) : Prop :=
  r_name r = f_name f /\ r_flags r = "NOSPLIT" /\ r_frame r = 0 /\ documented r = Some f /\
  exists l, frameOf f = Some (l, r_args r) /\ forall x o, In (x, o) (r_refs r) -> In (x, o) l.

(** Functions without body of a parsed file. *)
Definition bodyless (ls : list string) : option (list func) :=
  option_map (fun f => flat_map (fun d => match d with DFunc (Func x ps rs None) => [Func x ps rs None] | _ => [] end) (decls f)) (parse ls).

(** ** C48 *)
(** The assembly files contain the instructions the other theorems are about. *)
Theorem C48_instructions :
  option_map (fun f => map (fun r => (r_name r, r_code r)) (a_routines f)) (readAsm encode_amd64_s) =
    Some [("Put8uint32FastAsm", Put8uint32FastAsm_code); ("Put8uint32DeltaFastAsm", Put8uint32DeltaFastAsm_code)] /\
  option_map (fun f => map (fun r => (r_name r, r_code r)) (a_routines f)) (readAsm decode_amd64_s) =
    Some [("Get8uint32FastAsm", Get8uint32FastAsm_code); ("Get8uint32DeltaFastAsm", Get8uint32DeltaFastAsm_code)].
Proof. vm_compute. split; reflexivity. Qed.

(** The constants they load are read-only and as large as the loads. *)
Theorem C48_constants :
  option_map (fun f => (a_data f, a_sizes f)) (readAsm encode_amd64_s) =
    Some ([("mask0101", 257); ("mask7F00", 32512)], [("mask0101", ("RODATA|NOPTR", 2)); ("mask7F00", ("RODATA|NOPTR", 2))]) /\
  option_map (fun f => (a_data f, a_sizes f)) (readAsm decode_amd64_s) = Some ([], []).
Proof. vm_compute. split; reflexivity. Qed.

Local Ltac decl :=
  split; [vm_compute; reflexivity | split; [reflexivity | split; [reflexivity | split; [vm_compute; reflexivity |]]]];
  eexists; split; [vm_compute; reflexivity |];
  let x := fresh in let o := fresh in let H := fresh in intros x o H; vm_compute in H; cbn;
  repeat (destruct H as [H | H]; [inversion H; subst; vm_compute; tauto |]); contradiction.
(** Routine by routine, the assembly files implement the functions declared without body
    in the Go files beside them. *)
Theorem C48_declarations :
  (exists fs a, bodyless encode_amd64_go = Some fs /\ readAsm encode_amd64_s = Some a /\ List.length fs = 2%nat /\ Forall2 implementsDecl (a_routines a) fs) /\
  (exists fs a, bodyless decode_amd64_go = Some fs /\ readAsm decode_amd64_s = Some a /\ List.length fs = 2%nat /\ Forall2 implementsDecl (a_routines a) fs) /\
  Forall (fun ls => bodyless ls = Some [])
    [shared_gen_go; shared_mode_go; shared_tables_go; encode_go; encode_gen_go; encode_base_go; decode_go; decode_gen_go; decode_base_go;
     writer_go; writer_amd64_go; writer_base_go; reader_go; reader_amd64_go; reader_base_go; util_go; varint_go; rand_go].
Proof.
  split; [|split].
  - do 2 eexists. split; [vm_compute; reflexivity |]. split; [vm_compute; reflexivity |]. split; [reflexivity |].
    repeat (constructor; [decl |]). constructor.
  - do 2 eexists. split; [vm_compute; reflexivity |]. split; [vm_compute; reflexivity |]. split; [reflexivity |].
    repeat (constructor; [decl |]). constructor.
  - repeat (constructor; [vm_compute; reflexivity |]). constructor.
Qed.

(** The second comment line names the features the instructions need (see C40_requires). *)
Theorem C48_requires :
  option_map (fun f => map (fun r => tl (r_doc r)) (a_routines f)) (readAsm encode_amd64_s) = Some [["Requires: AVX, AVX2"]; ["Requires: AVX, AVX2"]] /\
  option_map (fun f => map (fun r => tl (r_doc r)) (a_routines f)) (readAsm decode_amd64_s) = Some [["Requires: AVX"]; ["Requires: AVX"]].
Proof. vm_compute. split; reflexivity. Qed.

(** The tables of tables.go, on every architecture. *)
Theorem C48_tables : forall a,
  glob0 a (source a) "shared" "PerNumLenTable" = Some (VArr2 256 4 PerNumLenTable) /\
  glob0 a (source a) "shared" "PerControlLenTable" = Some (VArr 256 PerControlLenTable) /\
  glob0 a (source a) "shared" "EncodeShuffleTable" = Some (VArr2 256 16 EncodeShuffleTable) /\
  glob0 a (source a) "shared" "DecodeShuffleTable" = Some (VArr2 256 16 DecodeShuffleTable).
Proof. intros [b c |]; vm_compute; repeat split. Qed.

(** A frame: Get8uint32DeltaFastAsm of decode_amd64.go:82-85. *)
Example C48_example :
  frameOf (Func "Get8uint32DeltaFastAsm"
    [("in", TySlice (TyName "byte")); ("out", TySlice (TyName "uint32")); ("ctrl", TyName "uint16"); ("prev", TyName "uint32");
     ("shuffle", TyPtr (TyArray 256 (TyArray 16 (TyName "uint8")))); ("lenTable", TyPtr (TyArray 256 (TyName "uint8")))] [] None) =
  Some ([("in_base", 0); ("in_len", 8); ("in_cap", 16); ("out_base", 24); ("out_len", 32); ("out_cap", 40);
         ("ctrl", 48); ("prev", 52); ("shuffle", 56); ("lenTable", 64)], 72).
Proof. vm_compute. reflexivity. Qed.
