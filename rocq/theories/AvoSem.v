(** * Execution on virtual registers, and assignments of physical registers *)
From stdpp Require Import prelude list.
From Coq Require Import ZArith.
From Verif Require Import Spec GoSem Shared Asm AvoGen.
Local Open Scope Z_scope.

(** ** Execution when every virtual register has its own storage.  Same instruction
    meanings as [exec1] of Asm.v. *)
Record vstate := VState { vg : nat -> val; vx : nat -> list Z; vret : option Z }.
Definition vsetg (s : vstate) (d : nat) (v : val) : vstate :=
  VState (fun r => if Nat.eqb r d then v else vg s r) (vx s) (vret s).
Definition vsetx (s : vstate) (d : nat) (v : list Z) : vstate :=
  VState (vg s) (fun r => if Nat.eqb r d then v else vx s r) (vret s).
Definition vop2 (s : vstate) (f : list Z -> list Z -> list Z) (s1 s2 d : nat) : prog vstate :=
  Ret (vsetx s d (f (vx s s1) (vx s s2))).

Definition vneeds (i : vinstr) : feature :=
  match i with
  | vVPBROADCASTW _ _ => FAVX2
  | vMOVQ_arg _ _ | vMOVQ _ _ | vMOVWQZX_arg _ _ | vMOVWQZX _ _ | vMOVBQZX _ _ | vMOVBQZX_ld _ _
  | vSHLQ _ _ | vSHRQ _ _ | vADDQ _ _ | vMOVW_ret _ _ => FBase
  | _ => FAVX
  end.

Definition vexec1 (f : list (Z * cell)) (ro : Z) (i : vinstr) (s : vstate) : prog vstate :=
  match i with
  | vMOVQ_arg o d => match frame_get f o with Some (C64 v) => Ret (vsetg s d v) | _ => Fault end
  | vMOVQ a d => Ret (vsetg s d (vg s a))
  | vMOVWQZX_arg o d => match frame_get f o with Some (C16 z) => Ret (vsetg s d (VI z)) | _ => Fault end
  | vMOVWQZX a d => match vg s a with VI z => Ret (vsetg s d (VI (u16 z))) | _ => Fault end
  | vMOVBQZX a d => match vg s a with VI z => Ret (vsetg s d (VI (u8 z))) | _ => Fault end
  | vMOVBQZX_ld a d => let! z := load8 (vg s a) in Ret (vsetg s d (VI z))
  | vSHLQ n d => match vg s d with VI z => Ret (vsetg s d (VI (u64 (Z.shiftl z n)))) | _ => Fault end
  | vSHRQ n d => match vg s d with VI z => Ret (vsetg s d (VI (Z.shiftr z n))) | _ => Fault end
  | vADDQ a d => Ret (vsetg s d (vadd (vg s a) (vg s d)))
  | vMOVW_ret a o =>
      if o =? ro then match vg s a with VI z => Ret (VState (vg s) (vx s) (Some (u16 z))) | _ => Fault end
      else Fault
  | vVLDDQU disp a d => let! v := load128 (vg s a) disp in Ret (vsetx s d v)
  | vVMOVDQU x disp a => store128 (vg s a) disp (vx s x) ;;; Ret s
  | vVPBROADCASTW c d => Ret (vsetx s d (bytes16 (replicate 8 c)))
  | vVBROADCASTSS_arg o d => match frame_get f o with Some (C32 z) => Ret (vsetx s d (bytes32 (replicate 4 z))) | _ => Fault end
  | vVPMINUB s2 s1 d => vop2 s pminub s1 s2 d
  | vVPACKUSWB s2 s1 d => vop2 s packuswb s1 s2 d
  | vVPMINSW s2 s1 d => vop2 s pminsw s1 s2 d
  | vVPADDUSW s2 s1 d => vop2 s paddusw s1 s2 d
  | vVPMOVMSKB x d => Ret (vsetg s d (VI (pmovmskb (vx s x))))
  | vVPSHUFB_ld a x d => let! mask := load128 (vg s a) 0 in Ret (vsetx s d (pshufb (vx s x) mask))
  | vVPALIGNR n s2 s1 d => Ret (vsetx s d (palignr n (vx s s2) (vx s s1)))
  | vVPSUBD s2 s1 d => vop2 s psubd s1 s2 d
  | vVPADDD s2 s1 d => vop2 s paddd s1 s2 d
  | vVPSLLDQ n x d => Ret (vsetx s d (pslldq n (vx s x)))
  | vVPSHUFD n x d => Ret (vsetx s d (pshufd n (vx s x)))
  end.
Fixpoint vexec (a : arch) (f : list (Z * cell)) (ro : Z) (c : list vinstr) (s : vstate) : prog vstate :=
  match c with
  | [] => Ret s
  | i :: r => if supports a (vneeds i) then let! s' := vexec1 f ro i s in vexec a f ro r s' else BadInstr
  end.
Definition vstate0 : vstate := VState (fun _ => VUndef) (fun _ => []) None.
Definition call_described (a : arch) (c : list vinstr) (ps : list param) : prog (option Z) :=
  let '(f, ro) := layout 0 ps in
  let! s := vexec a f ro c vstate0 in Ret (vret s).

(** ** Putting physical registers in place of virtual ones *)
Definition assign (g : nat -> gpr) (x : nat -> xreg) (i : vinstr) : instr :=
  match i with
  | vMOVQ_arg o d => MOVQ_arg o (g d)
  | vMOVQ s d => MOVQ (g s) (g d)
  | vMOVWQZX_arg o d => MOVWQZX_arg o (g d)
  | vMOVWQZX s d => MOVWQZX (g s) (g d)
  | vMOVBQZX s d => MOVBQZX (g s) (g d)
  | vMOVBQZX_ld a d => MOVBQZX_ld (g a) (g d)
  | vSHLQ n d => SHLQ n (g d)
  | vSHRQ n d => SHRQ n (g d)
  | vADDQ s d => ADDQ (g s) (g d)
  | vMOVW_ret s o => MOVW_ret (g s) o
  | vVLDDQU disp a d => VLDDQU disp (g a) (x d)
  | vVMOVDQU s disp a => VMOVDQU (x s) disp (g a)
  | vVPBROADCASTW c d => VPBROADCASTW c (x d)
  | vVBROADCASTSS_arg o d => VBROADCASTSS_arg o (x d)
  | vVPMINUB s2 s1 d => VPMINUB (x s2) (x s1) (x d)
  | vVPACKUSWB s2 s1 d => VPACKUSWB (x s2) (x s1) (x d)
  | vVPMINSW s2 s1 d => VPMINSW (x s2) (x s1) (x d)
  | vVPADDUSW s2 s1 d => VPADDUSW (x s2) (x s1) (x d)
  | vVPMOVMSKB s d => VPMOVMSKB (x s) (g d)
  | vVPSHUFB_ld a s d => VPSHUFB_ld (g a) (x s) (x d)
  | vVPALIGNR n s2 s1 d => VPALIGNR n (x s2) (x s1) (x d)
  | vVPSUBD s2 s1 d => VPSUBD (x s2) (x s1) (x d)
  | vVPADDD s2 s1 d => VPADDD (x s2) (x s1) (x d)
  | vVPSLLDQ n s d => VPSLLDQ n (x s) (x d)
  | vVPSHUFD n s d => VPSHUFD n (x s) (x d)
  end.

(** ** When an assignment is right: registers still needed are kept apart *)
(** virtual registers written and read *)
Definition defg (i : vinstr) : option nat :=
  match i with
  | vMOVQ_arg _ d | vMOVQ _ d | vMOVWQZX_arg _ d | vMOVWQZX _ d | vMOVBQZX _ d | vMOVBQZX_ld _ d
  | vSHLQ _ d | vSHRQ _ d | vADDQ _ d | vVPMOVMSKB _ d => Some d
  | _ => None
  end.
Definition defx (i : vinstr) : option nat :=
  match i with
  | vVLDDQU _ _ d | vVPBROADCASTW _ d | vVBROADCASTSS_arg _ d | vVPMINUB _ _ d | vVPACKUSWB _ _ d | vVPMINSW _ _ d
  | vVPADDUSW _ _ d | vVPSHUFB_ld _ _ d | vVPALIGNR _ _ _ d | vVPSUBD _ _ d | vVPADDD _ _ d | vVPSLLDQ _ _ d | vVPSHUFD _ _ d => Some d
  | _ => None
  end.
Definition useg (i : vinstr) : list nat :=
  match i with
  | vMOVQ s _ | vMOVWQZX s _ | vMOVBQZX s _ | vMOVBQZX_ld s _ | vMOVW_ret s _ | vVLDDQU _ s _ | vVMOVDQU _ _ s | vVPSHUFB_ld s _ _ => [s]
  | vSHLQ _ d | vSHRQ _ d => [d]
  | vADDQ s d => [s; d]
  | _ => []
  end.
Definition usex (i : vinstr) : list nat :=
  match i with
  | vVMOVDQU s _ _ | vVPMOVMSKB s _ | vVPSHUFB_ld _ s _ | vVPSLLDQ _ s _ | vVPSHUFD _ s _ => [s]
  | vVPMINUB a b _ | vVPACKUSWB a b _ | vVPMINSW a b _ | vVPADDUSW a b _ | vVPALIGNR _ a b _ | vVPSUBD a b _ | vVPADDD a b _ => [a; b]
  | _ => []
  end.
Definition without (d : option nat) (l : list nat) : list nat :=
  match d with Some d => List.filter (fun r => negb (Nat.eqb r d)) l | None => l end.
(** the registers read before they are written *)
Fixpoint live (def : vinstr -> option nat) (us : vinstr -> list nat) (c : list vinstr) : list nat :=
  match c with [] => [] | i :: r => us i ++ without (def i) (live def us r) end.
Fixpoint apart (def : vinstr -> option nat) (us : vinstr -> list nat) {R} (eqb : R -> R -> bool) (g : nat -> R) (c : list vinstr) : bool :=
  match c with
  | [] => true
  | i :: r =>
      match def i with
      | Some d => forallb (fun q => negb (eqb (g q) (g d))) (without (Some d) (live def us r))
      | None => true
      end && apart def us eqb g r
  end.
