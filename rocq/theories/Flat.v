(** * The same instructions on a flat memory

    Registers hold 64 and 128 bits, the memory is one array of bytes indexed by 64-bit
    addresses, of which some are mapped and some of those are writable.  Every instruction is
    written in the notation of the "Operation" sections of the Intel manual: [bits x hi lo] is
    x[hi:lo].  Nothing here refers to the meaning of the instructions in Asm.v, only to their
    names and operands.  Alignment is not required by any of them (VEX encoding). *)
From Coq Require Import ZArith List Bool.
From Verif Require Import Asm.
Import ListNotations.
Local Open Scope Z_scope.

Definition bits (x hi lo : Z) : Z := x / 2 ^ lo mod 2 ^ (hi - lo + 1).
(** The number with [n] fields of [w] bits, field i being f i. *)
Fixpoint fields (w : Z) (n : nat) (f : Z -> Z) (i : Z) : Z :=
  match n with O => 0 | S n' => f i + 2 ^ w * fields w n' f (i + 1) end.
Notation "'FOR' n 'OF' w ':' f" := (fields w n f 0) (at level 10, n at level 9, w at level 9, f at level 200).

Definition field8 (x i : Z) : Z := bits x (8 * i + 7) (8 * i).
Definition field16 (x i : Z) : Z := bits x (16 * i + 15) (16 * i).
Definition field32 (x i : Z) : Z := bits x (32 * i + 31) (32 * i).
(** Two's complement. *)
Definition word_signed (w : Z) : Z := if bits w 15 15 =? 1 then w - 2 ^ 16 else w.

(** SRC1 is the second operand of the manual; SRC2 the third. *)
Definition PMINUB (src1 src2 : Z) : Z :=
  FOR 16 OF 8 : (fun i => if field8 src1 i <? field8 src2 i then field8 src1 i else field8 src2 i).
Definition SaturateSignedWordToUnsignedByte (w : Z) : Z := Z.max 0 (Z.min 255 (word_signed w)).
Definition PACKUSWB (src1 src2 : Z) : Z :=
  FOR 16 OF 8 : (fun i => if i <? 8 then SaturateSignedWordToUnsignedByte (field16 src1 i) else SaturateSignedWordToUnsignedByte (field16 src2 (i - 8))).
Definition PMINSW (src1 src2 : Z) : Z :=
  FOR 8 OF 16 : (fun i => if word_signed (field16 src1 i) <? word_signed (field16 src2 i) then field16 src1 i else field16 src2 i).
Definition SaturateToUnsignedWord (x : Z) : Z := if x >? 65535 then 65535 else x.
Definition PADDUSW (src1 src2 : Z) : Z := FOR 8 OF 16 : (fun i => SaturateToUnsignedWord (field16 src1 i + field16 src2 i)).
Definition PMOVMSKB (src : Z) : Z := FOR 16 OF 1 : (fun i => bits src (8 * i + 7) (8 * i + 7)).
Definition PSHUFB (src1 src2 : Z) : Z :=
  FOR 16 OF 8 : (fun i => if bits src2 (8 * i + 7) (8 * i + 7) =? 1 then 0 else field8 src1 (bits src2 (8 * i + 3) (8 * i))).
Definition PALIGNR (src1 src2 imm8 : Z) : Z := bits ((src1 * 2 ^ 128 + src2) / 2 ^ (imm8 * 8)) 127 0.
Definition PADDD (src1 src2 : Z) : Z := FOR 4 OF 32 : (fun i => (field32 src1 i + field32 src2 i) mod 2 ^ 32).
Definition PSUBD (src1 src2 : Z) : Z := FOR 4 OF 32 : (fun i => (field32 src1 i - field32 src2 i) mod 2 ^ 32).
Definition PSLLDQ (src imm8 : Z) : Z := let temp := if imm8 >? 15 then 16 else imm8 in bits (src * 2 ^ (temp * 8)) 127 0.
Definition PSHUFD (src order : Z) : Z := FOR 4 OF 32 : (fun i => bits (src / 2 ^ (bits order (2 * i + 1) (2 * i) * 32)) 31 0).
Definition BROADCASTW (w : Z) : Z := FOR 8 OF 16 : (fun _ => w).
Definition BROADCASTSS (d : Z) : Z := FOR 4 OF 32 : (fun _ => d).

(** ** Memory *)
Definition fmem := Z -> option Z.
Definition upd (g : fmem) (a v : Z) : fmem := fun x => if x =? a then Some v else g x.
Definition wrap (a : Z) : Z := a mod 2 ^ 64.
(** Little endian; None: an access to an address that is not mapped. *)
Fixpoint fload (n : nat) (g : fmem) (a : Z) : option Z :=
  match n with
  | O => Some 0
  | S n' => match g (wrap a), fload n' g (a + 1) with Some v, Some r => Some (v + 2 ^ 8 * r) | _, _ => None end
  end.
Fixpoint fstore (n : nat) (w : Z -> bool) (g : fmem) (a x : Z) : option fmem :=
  match n with
  | O => Some g
  | S n' => match g (wrap a) with
            | Some _ => if w (wrap a) then fstore n' w (upd g (wrap a) (bits x 7 0)) (a + 1) (x / 2 ^ 8) else None
            | None => None
            end
  end.

(** ** Machine *)
Record fstate := FState { fg : gpr -> Z; fx : xreg -> Z; fm : fmem }.
Definition fsetg (s : fstate) (d : gpr) (v : Z) : fstate := FState (fun r => if gpr_eqb r d then v else fg s r) (fx s) (fm s).
Definition fsetx (s : fstate) (d : xreg) (v : Z) : fstate := FState (fg s) (fun r => if xreg_eqb r d then v else fx s r) (fm s).
Definition setm (s : fstate) (g : fmem) : fstate := FState (fg s) (fx s) g.
(** Where things are: the arguments of the call (FP), the read-only 2-byte constants; what may be stored to. *)
Record machine := Machine { FP : Z; constant : Z -> Z; writable : Z -> bool }.
Definition andthen {A B} (o : option A) (f : A -> option B) : option B := match o with Some a => f a | None => None end.
Definition count64 (n : Z) : Z := bits n 5 0.

(** None: a fault.  name+o(FP) is the memory at FP+o; the Go assembler writes the destination last. *)
Definition fstep (k : machine) (i : instr) (s : fstate) : option fstate :=
  match i with
  | MOVQ_arg o d => andthen (fload 8 (fm s) (FP k + o)) (fun v => Some (fsetg s d v))
  | MOVQ a d => Some (fsetg s d (fg s a))
  | MOVWQZX_arg o d => andthen (fload 2 (fm s) (FP k + o)) (fun v => Some (fsetg s d v))
  | MOVWQZX a d => Some (fsetg s d (bits (fg s a) 15 0))
  | MOVBQZX a d => Some (fsetg s d (bits (fg s a) 7 0))
  | MOVBQZX_ld a d => andthen (fload 1 (fm s) (fg s a)) (fun v => Some (fsetg s d v))
  | SHLQ n d => Some (fsetg s d (bits (fg s d * 2 ^ count64 n) 63 0))
  | SHRQ n d => Some (fsetg s d (fg s d / 2 ^ count64 n))
  | ADDQ a d => Some (fsetg s d (bits (fg s d + fg s a) 63 0))
  | MOVW_ret a o => andthen (fstore 2 (writable k) (fm s) (FP k + o) (bits (fg s a) 15 0)) (fun g => Some (setm s g))
  | VLDDQU disp a d => andthen (fload 16 (fm s) (fg s a + disp)) (fun v => Some (fsetx s d v))
  | VMOVDQU x disp a => andthen (fstore 16 (writable k) (fm s) (fg s a + disp) (fx s x)) (fun g => Some (setm s g))
  | VPBROADCASTW c d => andthen (fload 2 (fm s) (constant k c)) (fun v => Some (fsetx s d (BROADCASTW v)))
  | VBROADCASTSS_arg o d => andthen (fload 4 (fm s) (FP k + o)) (fun v => Some (fsetx s d (BROADCASTSS v)))
  | VPMINUB s2 s1 d => Some (fsetx s d (PMINUB (fx s s1) (fx s s2)))
  | VPACKUSWB s2 s1 d => Some (fsetx s d (PACKUSWB (fx s s1) (fx s s2)))
  | VPMINSW s2 s1 d => Some (fsetx s d (PMINSW (fx s s1) (fx s s2)))
  | VPADDUSW s2 s1 d => Some (fsetx s d (PADDUSW (fx s s1) (fx s s2)))
  | VPMOVMSKB x d => Some (fsetg s d (PMOVMSKB (fx s x)))
  | VPSHUFB_ld a x d => andthen (fload 16 (fm s) (fg s a)) (fun v => Some (fsetx s d (PSHUFB (fx s x) v)))
  | VPALIGNR n s2 s1 d => Some (fsetx s d (PALIGNR (fx s s1) (fx s s2) n))
  | VPSUBD s2 s1 d => Some (fsetx s d (PSUBD (fx s s1) (fx s s2)))
  | VPADDD s2 s1 d => Some (fsetx s d (PADDD (fx s s1) (fx s s2)))
  | VPSLLDQ n x d => Some (fsetx s d (PSLLDQ (fx s x) n))
  | VPSHUFD n x d => Some (fsetx s d (PSHUFD (fx s x) n))
  end.
(** Straight-line code up to RET. *)
Fixpoint fexec (k : machine) (c : list instr) (s : fstate) : option fstate :=
  match c with [] => Some s | i :: r => andthen (fstep k i s) (fexec k r) end.
