(** * The subset of x86-64 / AVX / AVX2 used by encode_amd64.s and decode_amd64.s

    Operand order is Go assembler order (sources first, destination last).
    Instruction meanings follow the Intel SDM.  Vector registers are lists of 16
    bytes, byte 0 = least significant. *)
From stdpp Require Import prelude list.
From Coq Require Import ZArith.
From Verif Require Import Spec GoSem Shared.
Local Open Scope Z_scope.

(** ** Values of general purpose registers
    Pointers are symbolic: allocation plus byte offset.  [PT t o] points at byte
    [o] of the read-only table whose bytes are [t]. *)
Inductive val :=
| VI (z : Z)                  (* 64-bit integer *)
| PB (b : nat) (o : Z)        (* into byte allocation b, byte offset o *)
| PW (b : nat) (o : Z)        (* into uint32 allocation b, byte offset o *)
| PT (t : list Z) (o : Z)
| VUndef.

Inductive gpr := AX | BX | CX | DX | SI | DI.
Inductive xreg := X0 | X1 | X2 | X3 | X4 | X5.

Inductive instr :=
| MOVQ_arg (o : Z) (d : gpr)              (* MOVQ name+o(FP), d *)
| MOVQ (s d : gpr)
| MOVWQZX_arg (o : Z) (d : gpr)           (* MOVWQZX name+o(FP), d *)
| MOVWQZX (s d : gpr)
| MOVBQZX (s d : gpr)                     (* MOVBQZX sL, d: low byte *)
| MOVBQZX_ld (a d : gpr)                  (* MOVBQZX (a), d *)
| SHLQ (n : Z) (d : gpr)
| SHRQ (n : Z) (d : gpr)
| ADDQ (s d : gpr)
| MOVW_ret (s : gpr) (o : Z)              (* MOVW s, r+o(FP) *)
| VLDDQU (disp : Z) (a : gpr) (d : xreg)  (* VLDDQU disp(a), d *)
| VMOVDQU (s : xreg) (disp : Z) (a : gpr) (* VMOVDQU s, disp(a) *)
| VPBROADCASTW (c : Z) (d : xreg)         (* from a 2-byte read-only constant c *)
| VBROADCASTSS_arg (o : Z) (d : xreg)     (* VBROADCASTSS name+o(FP), d *)
| VPMINUB (s2 s1 d : xreg)
| VPACKUSWB (s2 s1 d : xreg)
| VPMINSW (s2 s1 d : xreg)
| VPADDUSW (s2 s1 d : xreg)
| VPMOVMSKB (s : xreg) (d : gpr)
| VPSHUFB_ld (a : gpr) (s d : xreg)       (* VPSHUFB (a), s, d *)
| VPALIGNR (n : Z) (s2 s1 d : xreg)
| VPSUBD (s2 s1 d : xreg)
| VPADDD (s2 s1 d : xreg)
| VPSLLDQ (n : Z) (s d : xreg)
| VPSHUFD (n : Z) (s d : xreg).

(** CPU feature needed (128-bit forms; Intel SDM "CPUID Feature Flag"). *)
Inductive feature := FBase | FAVX | FAVX2.
Definition needs (i : instr) : feature :=
  match i with
  | VPBROADCASTW _ _ => FAVX2
  | VLDDQU _ _ _ | VMOVDQU _ _ _ | VBROADCASTSS_arg _ _ | VPMINUB _ _ _
  | VPACKUSWB _ _ _ | VPMINSW _ _ _ | VPADDUSW _ _ _ | VPMOVMSKB _ _
  | VPSHUFB_ld _ _ _ | VPALIGNR _ _ _ _ | VPSUBD _ _ _ | VPADDD _ _ _
  | VPSLLDQ _ _ _ | VPSHUFD _ _ _ => FAVX
  | _ => FBase
  end.
Definition supports (a : arch) (f : feature) : bool :=
  match a with
  | AMD64 avx avx2 => match f with FBase => true | FAVX => avx | FAVX2 => avx2 end
  | OtherArch => false
  end.

(** ** Vector operations on 16-byte lists *)
Fixpoint map2 {A B C} (f : A -> B -> C) (l : list A) (k : list B) : list C :=
  match l, k with
  | a :: l', b :: k' => f a b :: map2 f l' k'
  | _, _ => []
  end.

(** 16-bit lanes of a byte list, little endian. *)
Fixpoint lanes16 (l : list Z) : list Z :=
  match l with
  | a :: b :: r => (a + 256 * b) :: lanes16 r
  | _ => []
  end.
Fixpoint bytes16 (l : list Z) : list Z :=
  match l with
  | [] => []
  | w :: r => w mod 256 :: w / 256 mod 256 :: bytes16 r
  end.
(** 32-bit lanes. *)
Fixpoint lanes32 (l : list Z) : list Z :=
  match l with
  | a :: b :: c :: d :: r => le_val [a; b; c; d] :: lanes32 r
  | _ => []
  end.
Fixpoint bytes32 (l : list Z) : list Z :=
  match l with
  | [] => []
  | w :: r => le 4 w ++ bytes32 r
  end.

Definition signed16 (w : Z) : Z := if w <? 2 ^ 15 then w else w - 2 ^ 16.

(** VPMINUB: unsigned byte minimum *)
Definition pminub (a b : list Z) : list Z := map2 Z.min a b.
(** VPACKUSWB: signed 16-bit lanes of [lo] then [hi], saturated to unsigned bytes *)
Definition satu8 (w : Z) : Z :=
  let s := signed16 w in if s <? 0 then 0 else if 255 <? s then 255 else s.
Definition packuswb (lo hi : list Z) : list Z := map satu8 (lanes16 lo) ++ map satu8 (lanes16 hi).
(** VPMINSW: signed 16-bit minimum *)
Definition minsw (a b : Z) : Z := if signed16 a <? signed16 b then a else b.
Definition pminsw (a b : list Z) : list Z := bytes16 (map2 minsw (lanes16 a) (lanes16 b)).
(** VPADDUSW: unsigned saturating 16-bit addition *)
Definition addusw (a b : Z) : Z := Z.min (a + b) 65535.
Definition paddusw (a b : list Z) : list Z := bytes16 (map2 addusw (lanes16 a) (lanes16 b)).
(** VPMOVMSKB: most significant bit of every byte *)
Fixpoint pmovmskb (l : list Z) : Z :=
  match l with
  | [] => 0
  | b :: r => b / 128 + 2 * pmovmskb r
  end.
(** VPSHUFB: mask bit 7 zeroes, low 4 bits select *)
Definition pshufb (v mask : list Z) : list Z :=
  map (fun k => if 128 <=? k then 0 else nth (Z.to_nat (k mod 16)) v 0) mask.
(** VPALIGNR n: bytes n .. n+15 of the 32-byte concatenation hi:lo (lo least significant) *)
Definition palignr (n : Z) (lo hi : list Z) : list Z :=
  take 16 (drop (Z.to_nat n) (lo ++ hi ++ replicate 16 0)).
(** VPADDD / VPSUBD: 32-bit lanes modulo 2^32 *)
Definition paddd (a b : list Z) : list Z :=
  bytes32 (map2 (fun x y => (x + y) mod 2 ^ 32) (lanes32 a) (lanes32 b)).
Definition psubd (a b : list Z) : list Z :=
  bytes32 (map2 (fun x y => (x - y) mod 2 ^ 32) (lanes32 a) (lanes32 b)).
(** VPSLLDQ n: shift left by n bytes *)
Definition pslldq (n : Z) (v : list Z) : list Z := take 16 (replicate (Z.to_nat n) 0 ++ v).
(** VPSHUFD imm: lane i := lane (imm >> 2i) & 3 *)
Definition pshufd (n : Z) (v : list Z) : list Z :=
  bytes32 (map (fun i => nth (Z.to_nat (n / 4 ^ i mod 4)) (lanes32 v) 0) [0; 1; 2; 3]).

(** ** Go ABI0 argument frame: parameters in order, each aligned to its size
    (slices = pointer, len, cap words); results start at the next multiple of 8. *)
Inductive param := PSlice (base : val) (len cap : Z) | PPtr (p : val) | PU16 (z : Z) | PU32 (z : Z).
Inductive cell := C64 (v : val) | C32 (z : Z) | C16 (z : Z).
Definition align (n o : Z) : Z := (o + n - 1) / n * n.
Fixpoint layout (o : Z) (ps : list param) : list (Z * cell) * Z :=
  match ps with
  | [] => ([], align 8 o)
  | PSlice b l c :: r =>
      let o := align 8 o in
      let '(f, e) := layout (o + 24) r in
      ((o, C64 b) :: (o + 8, C64 (VI l)) :: (o + 16, C64 (VI c)) :: f, e)
  | PPtr p :: r =>
      let o := align 8 o in let '(f, e) := layout (o + 8) r in ((o, C64 p) :: f, e)
  | PU32 z :: r =>
      let o := align 4 o in let '(f, e) := layout (o + 4) r in ((o, C32 z) :: f, e)
  | PU16 z :: r =>
      let o := align 2 o in let '(f, e) := layout (o + 2) r in ((o, C16 z) :: f, e)
  end.
Fixpoint frame_get (f : list (Z * cell)) (o : Z) : option cell :=
  match f with
  | [] => None
  | (o', c) :: r => if o =? o' then Some c else frame_get r o
  end.

(** ** Machine state and interpreter *)
Record astate := AState { gp : gpr -> val; xm : xreg -> list Z; aret : option Z }.
Definition gpr_eqb (a b : gpr) : bool :=
  match a, b with
  | AX, AX | BX, BX | CX, CX | DX, DX | SI, SI | DI, DI => true
  | _, _ => false
  end.
Definition xreg_eqb (a b : xreg) : bool :=
  match a, b with
  | X0, X0 | X1, X1 | X2, X2 | X3, X3 | X4, X4 | X5, X5 => true
  | _, _ => false
  end.
Definition setg (s : astate) (d : gpr) (v : val) : astate :=
  AState (fun r => if gpr_eqb r d then v else gp s r) (xm s) (aret s).
Definition setx (s : astate) (d : xreg) (v : list Z) : astate :=
  AState (gp s) (fun r => if xreg_eqb r d then v else xm s r) (aret s).

(** Integer + pointer, either order. Address wrap-around is not modelled. *)
Definition vadd (a b : val) : val :=
  match a, b with
  | VI x, VI y => VI (u64 (x + y))
  | VI x, PB k o | PB k o, VI x => PB k (o + x)
  | VI x, PW k o | PW k o, VI x => PW k (o + x)
  | VI x, PT t o | PT t o, VI x => PT t (o + x)
  | _, _ => VUndef
  end.

(** Read [n] consecutive bytes / uint32 elements. *)
Fixpoint readBs (n : nat) (b : nat) (i : Z) : prog (list Z) :=
  match n with
  | O => Ret []
  | S n' => ReadB b i (fun v => bind (readBs n' b (i + 1)) (fun l => Ret (v :: l)))
  end.
Fixpoint readWs (n : nat) (b : nat) (i : Z) : prog (list Z) :=
  match n with
  | O => Ret []
  | S n' => ReadW b i (fun v => bind (readWs n' b (i + 1)) (fun l => Ret (v :: l)))
  end.
Fixpoint writeBs (b : nat) (i : Z) (vs : list Z) : prog unit :=
  match vs with
  | [] => Ret tt
  | v :: r => WriteB b i v (writeBs b (i + 1) r)
  end.
Fixpoint writeWs (b : nat) (i : Z) (vs : list Z) : prog unit :=
  match vs with
  | [] => Ret tt
  | v :: r => WriteW b i v (writeWs b (i + 1) r)
  end.

(** 16-byte load.  Accesses to uint32 allocations are modelled for 4-aligned
    addresses only (anything else is a [Fault] in the model). *)
Definition load128 (p : val) (disp : Z) : prog (list Z) :=
  match p with
  | PB b o => readBs 16 b (o + disp)
  | PW b o => if (o + disp) mod 4 =? 0
              then let! ws := readWs 4 b ((o + disp) / 4) in Ret (bytes32 ws) else Fault
  | PT t o => if (0 <=? o + disp) && (o + disp + 16 <=? Z.of_nat (length t))
              then Ret (take 16 (drop (Z.to_nat (o + disp)) t)) else Fault
  | _ => Fault
  end.
Definition store128 (p : val) (disp : Z) (v : list Z) : prog unit :=
  if Nat.eqb (length v) 16 then
    match p with
    | PB b o => writeBs b (o + disp) v
    | PW b o => if (o + disp) mod 4 =? 0 then writeWs b ((o + disp) / 4) (lanes32 v) else Fault
    | _ => Fault                          (* tables are read-only *)
    end
  else Fault.
(** one-byte load *)
Definition load8 (p : val) : prog Z :=
  match p with
  | PB b o => ReadB b o Ret
  | PT t o => if (0 <=? o) && (o <? Z.of_nat (length t))
              then Ret (nth (Z.to_nat o) t 0) else Fault
  | _ => Fault                            (* not used on uint32 allocations *)
  end.

Definition op2 (s : astate) (f : list Z -> list Z -> list Z) (s1 s2 d : xreg) : prog astate :=
  Ret (setx s d (f (xm s s1) (xm s s2))).

(** One instruction.  [ro] is the frame offset of the result. *)
Definition exec1 (f : list (Z * cell)) (ro : Z) (i : instr) (s : astate) : prog astate :=
  match i with
  | MOVQ_arg o d =>
      match frame_get f o with Some (C64 v) => Ret (setg s d v) | _ => Fault end
  | MOVQ a d => Ret (setg s d (gp s a))
  | MOVWQZX_arg o d =>
      match frame_get f o with Some (C16 z) => Ret (setg s d (VI z)) | _ => Fault end
  | MOVWQZX a d =>
      match gp s a with VI z => Ret (setg s d (VI (u16 z))) | _ => Fault end
  | MOVBQZX a d =>
      match gp s a with VI z => Ret (setg s d (VI (u8 z))) | _ => Fault end
  | MOVBQZX_ld a d => let! z := load8 (gp s a) in Ret (setg s d (VI z))
  | SHLQ n d =>
      match gp s d with VI z => Ret (setg s d (VI (u64 (Z.shiftl z n)))) | _ => Fault end
  | SHRQ n d =>
      match gp s d with VI z => Ret (setg s d (VI (Z.shiftr z n))) | _ => Fault end
  | ADDQ a d => Ret (setg s d (vadd (gp s a) (gp s d)))
  | MOVW_ret a o =>
      if o =? ro then
        match gp s a with VI z => Ret (AState (gp s) (xm s) (Some (u16 z))) | _ => Fault end
      else Fault
  | VLDDQU disp a d => let! v := load128 (gp s a) disp in Ret (setx s d v)
  | VMOVDQU x disp a => store128 (gp s a) disp (xm s x) ;;; Ret s
  | VPBROADCASTW c d => Ret (setx s d (bytes16 (replicate 8 c)))
  | VBROADCASTSS_arg o d =>
      match frame_get f o with Some (C32 z) => Ret (setx s d (bytes32 (replicate 4 z))) | _ => Fault end
  | VPMINUB s2 s1 d => op2 s pminub s1 s2 d
  | VPACKUSWB s2 s1 d => op2 s packuswb s1 s2 d
  | VPMINSW s2 s1 d => op2 s pminsw s1 s2 d
  | VPADDUSW s2 s1 d => op2 s paddusw s1 s2 d
  | VPMOVMSKB x d => Ret (setg s d (VI (pmovmskb (xm s x))))
  | VPSHUFB_ld a x d => let! mask := load128 (gp s a) 0 in Ret (setx s d (pshufb (xm s x) mask))
  | VPALIGNR n s2 s1 d => Ret (setx s d (palignr n (xm s s2) (xm s s1)))
  | VPSUBD s2 s1 d => op2 s psubd s1 s2 d
  | VPADDD s2 s1 d => op2 s paddd s1 s2 d
  | VPSLLDQ n x d => Ret (setx s d (pslldq n (xm s x)))
  | VPSHUFD n x d => Ret (setx s d (pshufd n (xm s x)))
  end.

(** Straight-line code; an instruction the CPU lacks raises #UD ([BadInstr]). *)
Fixpoint exec (a : arch) (f : list (Z * cell)) (ro : Z) (c : list instr) (s : astate) : prog astate :=
  match c with
  | [] => Ret s
  | i :: r => if supports a (needs i)
              then let! s' := exec1 f ro i s in exec a f ro r s' else BadInstr
  end.

Definition astate0 : astate := AState (fun _ => VUndef) (fun _ => []) None.

(** CALL of an assembly function with the given arguments. *)
Definition call_asm (a : arch) (c : list instr) (ps : list param) : prog (option Z) :=
  let '(f, ro) := layout 0 ps in
  let! s := exec a f ro c astate0 in Ret (aret s).
