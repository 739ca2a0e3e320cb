(** * The assembly routines, instruction by instruction.
    RET is the end of the list. *)
From Coq Require Import ZArith List.
From Verif Require Import Asm.
Import ListNotations.
Local Open Scope Z_scope.

(** encode_amd64.s:5-9 *)
Definition mask0101 : Z := 257.    (* 0x0101 *)
Definition mask7F00 : Z := 32512.  (* 0x7f00 *)

(** encode_amd64.s:13-45 *)
Definition Put8uint32FastAsm_code : list instr := [
  MOVQ_arg 0 AX;
  VLDDQU 0 AX X0;
  VLDDQU 16 AX X1;
  VPBROADCASTW mask0101 X2;
  VPBROADCASTW mask7F00 X3;
  VPMINUB X2 X0 X4;
  VPMINUB X2 X1 X5;
  VPACKUSWB X5 X4 X4;
  VPMINSW X2 X4 X4;
  VPADDUSW X3 X4 X4;
  VPMOVMSKB X4 AX;
  MOVW_ret AX 64;
  MOVQ_arg 48 CX;
  MOVBQZX AX DX;
  SHLQ 4 DX;
  ADDQ CX DX;
  MOVWQZX AX BX;
  SHRQ 8 BX;
  SHLQ 4 BX;
  ADDQ CX BX;
  VPSHUFB_ld DX X0 X0;
  VPSHUFB_ld BX X1 X1;
  MOVQ_arg 24 CX;
  MOVQ CX DX;
  MOVQ_arg 56 BX;
  MOVBQZX AX AX;
  ADDQ BX AX;
  MOVBQZX_ld AX AX;
  ADDQ AX DX;
  VMOVDQU X0 0 CX;
  VMOVDQU X1 0 DX
].

(** encode_amd64.s:49-86 *)
Definition Put8uint32DeltaFastAsm_code : list instr := [
  MOVQ_arg 0 AX;
  VLDDQU 0 AX X0;
  VLDDQU 16 AX X1;
  VPALIGNR 12 X0 X1 X2;
  VPSUBD X2 X1 X1;
  VBROADCASTSS_arg 48 X2;
  VPALIGNR 12 X2 X0 X2;
  VPSUBD X2 X0 X0;
  VPBROADCASTW mask0101 X2;
  VPBROADCASTW mask7F00 X3;
  VPMINUB X2 X0 X4;
  VPMINUB X2 X1 X5;
  VPACKUSWB X5 X4 X4;
  VPMINSW X2 X4 X4;
  VPADDUSW X3 X4 X4;
  VPMOVMSKB X4 AX;
  MOVW_ret AX 72;
  MOVQ_arg 56 CX;
  MOVBQZX AX DX;
  SHLQ 4 DX;
  ADDQ CX DX;
  MOVWQZX AX BX;
  SHRQ 8 BX;
  SHLQ 4 BX;
  ADDQ CX BX;
  VPSHUFB_ld DX X0 X0;
  VPSHUFB_ld BX X1 X1;
  MOVQ_arg 24 CX;
  MOVQ CX DX;
  MOVQ_arg 64 BX;
  MOVBQZX AX AX;
  ADDQ BX AX;
  MOVBQZX_ld AX AX;
  ADDQ AX DX;
  VMOVDQU X0 0 CX;
  VMOVDQU X1 0 DX
].

(** decode_amd64.s:7-31 *)
Definition Get8uint32FastAsm_code : list instr := [
  MOVWQZX_arg 48 AX;
  MOVQ_arg 56 CX;
  MOVBQZX AX DX;
  SHLQ 4 DX;
  ADDQ CX DX;
  MOVWQZX AX BX;
  SHRQ 8 BX;
  SHLQ 4 BX;
  ADDQ CX BX;
  MOVQ_arg 0 CX;
  MOVQ CX SI;
  MOVQ_arg 64 DI;
  MOVBQZX AX AX;
  ADDQ DI AX;
  MOVBQZX_ld AX AX;
  ADDQ AX SI;
  VLDDQU 0 CX X0;
  VLDDQU 0 SI X1;
  VPSHUFB_ld DX X0 X0;
  VPSHUFB_ld BX X1 X1;
  MOVQ_arg 24 AX;
  VMOVDQU X0 0 AX;
  VMOVDQU X1 16 AX
].

(** decode_amd64.s:35-71 *)
Definition Get8uint32DeltaFastAsm_code : list instr := [
  MOVWQZX_arg 48 AX;
  MOVQ_arg 56 CX;
  MOVBQZX AX DX;
  SHLQ 4 DX;
  ADDQ CX DX;
  MOVWQZX AX BX;
  SHRQ 8 BX;
  SHLQ 4 BX;
  ADDQ CX BX;
  MOVQ_arg 0 CX;
  MOVQ CX SI;
  MOVQ_arg 64 DI;
  MOVBQZX AX AX;
  ADDQ DI AX;
  MOVBQZX_ld AX AX;
  ADDQ AX SI;
  VLDDQU 0 CX X0;
  VLDDQU 0 SI X1;
  VPSHUFB_ld DX X0 X0;
  VPSHUFB_ld BX X1 X1;
  VBROADCASTSS_arg 52 X2;
  VPSLLDQ 4 X0 X3;
  VPADDD X0 X3 X0;
  VPSLLDQ 8 X0 X3;
  VPADDD X0 X2 X0;
  VPADDD X0 X3 X0;
  VPSHUFD 255 X0 X2;
  VPSLLDQ 4 X1 X3;
  VPADDD X1 X3 X1;
  VPSLLDQ 8 X1 X3;
  VPADDD X1 X2 X1;
  VPADDD X1 X3 X1;
  MOVQ_arg 24 AX;
  VMOVDQU X0 0 AX;
  VMOVDQU X1 16 AX
].
