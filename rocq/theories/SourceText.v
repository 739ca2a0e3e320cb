(** * Source files of the repository, byte for byte (written by tools/embed.py)

    A file is the list of its lines; every line, the last one too, ends with a newline. *)
From Coq Require Import String List.
Import ListNotations.
Local Open Scope string_scope.

(** pkg/encode/encode_amd64.s *)
Definition encode_amd64_s : list string := [
"// Code generated by command: go run asm.go -out ./encode_amd64.s. DO NOT EDIT.";
"";
"#include ""textflag.h""";
"";
"DATA mask0101<>+0(SB)/2, $0x0101";
"GLOBL mask0101<>(SB), RODATA|NOPTR, $2";
"";
"DATA mask7F00<>+0(SB)/2, $0x7f00";
"GLOBL mask7F00<>(SB), RODATA|NOPTR, $2";
"";
"// func Put8uint32FastAsm(in []uint32, outBytes []byte, shuffle *[256][16]uint8, lenTable *[256]uint8) (r uint16)";
"// Requires: AVX, AVX2";
"TEXT ·Put8uint32FastAsm(SB), NOSPLIT, $0-66";
"	MOVQ         in_base+0(FP), AX";
"	VLDDQU       (AX), X0";
"	VLDDQU       16(AX), X1";
"	VPBROADCASTW mask0101<>+0(SB), X2";
"	VPBROADCASTW mask7F00<>+0(SB), X3";
"	VPMINUB      X2, X0, X4";
"	VPMINUB      X2, X1, X5";
"	VPACKUSWB    X5, X4, X4";
"	VPMINSW      X2, X4, X4";
"	VPADDUSW     X3, X4, X4";
"	VPMOVMSKB    X4, AX";
"	MOVW         AX, r+64(FP)";
"	MOVQ         shuffle+48(FP), CX";
"	MOVBQZX      AL, DX";
"	SHLQ         $0x04, DX";
"	ADDQ         CX, DX";
"	MOVWQZX      AX, BX";
"	SHRQ         $0x08, BX";
"	SHLQ         $0x04, BX";
"	ADDQ         CX, BX";
"	VPSHUFB      (DX), X0, X0";
"	VPSHUFB      (BX), X1, X1";
"	MOVQ         outBytes_base+24(FP), CX";
"	MOVQ         CX, DX";
"	MOVQ         lenTable+56(FP), BX";
"	MOVBQZX      AL, AX";
"	ADDQ         BX, AX";
"	MOVBQZX      (AX), AX";
"	ADDQ         AX, DX";
"	VMOVDQU      X0, (CX)";
"	VMOVDQU      X1, (DX)";
"	RET";
"";
"// func Put8uint32DeltaFastAsm(in []uint32, outBytes []byte, prev uint32, shuffle *[256][16]uint8, lenTable *[256]uint8) (r uint16)";
"// Requires: AVX, AVX2";
"TEXT ·Put8uint32DeltaFastAsm(SB), NOSPLIT, $0-74";
"	MOVQ         in_base+0(FP), AX";
"	VLDDQU       (AX), X0";
"	VLDDQU       16(AX), X1";
"	VPALIGNR     $0x0c, X0, X1, X2";
"	VPSUBD       X2, X1, X1";
"	VBROADCASTSS prev+48(FP), X2";
"	VPALIGNR     $0x0c, X2, X0, X2";
"	VPSUBD       X2, X0, X0";
"	VPBROADCASTW mask0101<>+0(SB), X2";
"	VPBROADCASTW mask7F00<>+0(SB), X3";
"	VPMINUB      X2, X0, X4";
"	VPMINUB      X2, X1, X5";
"	VPACKUSWB    X5, X4, X4";
"	VPMINSW      X2, X4, X4";
"	VPADDUSW     X3, X4, X4";
"	VPMOVMSKB    X4, AX";
"	MOVW         AX, r+72(FP)";
"	MOVQ         shuffle+56(FP), CX";
"	MOVBQZX      AL, DX";
"	SHLQ         $0x04, DX";
"	ADDQ         CX, DX";
"	MOVWQZX      AX, BX";
"	SHRQ         $0x08, BX";
"	SHLQ         $0x04, BX";
"	ADDQ         CX, BX";
"	VPSHUFB      (DX), X0, X0";
"	VPSHUFB      (BX), X1, X1";
"	MOVQ         outBytes_base+24(FP), CX";
"	MOVQ         CX, DX";
"	MOVQ         lenTable+64(FP), BX";
"	MOVBQZX      AL, AX";
"	ADDQ         BX, AX";
"	MOVBQZX      (AX), AX";
"	ADDQ         AX, DX";
"	VMOVDQU      X0, (CX)";
"	VMOVDQU      X1, (DX)";
"	RET"].

(** pkg/decode/decode_amd64.s *)
Definition decode_amd64_s : list string := [
"// Code generated by command: go run asm.go -out ./decode_amd64.s. DO NOT EDIT.";
"";
"#include ""textflag.h""";
"";
"// func Get8uint32FastAsm(in []byte, out []uint32, ctrl uint16, shuffle *[256][16]uint8, lenTable *[256]uint8)";
"// Requires: AVX";
"TEXT ·Get8uint32FastAsm(SB), NOSPLIT, $0-72";
"	MOVWQZX ctrl+48(FP), AX";
"	MOVQ    shuffle+56(FP), CX";
"	MOVBQZX AL, DX";
"	SHLQ    $0x04, DX";
"	ADDQ    CX, DX";
"	MOVWQZX AX, BX";
"	SHRQ    $0x08, BX";
"	SHLQ    $0x04, BX";
"	ADDQ    CX, BX";
"	MOVQ    in_base+0(FP), CX";
"	MOVQ    CX, SI";
"	MOVQ    lenTable+64(FP), DI";
"	MOVBQZX AL, AX";
"	ADDQ    DI, AX";
"	MOVBQZX (AX), AX";
"	ADDQ    AX, SI";
"	VLDDQU  (CX), X0";
"	VLDDQU  (SI), X1";
"	VPSHUFB (DX), X0, X0";
"	VPSHUFB (BX), X1, X1";
"	MOVQ    out_base+24(FP), AX";
"	VMOVDQU X0, (AX)";
"	VMOVDQU X1, 16(AX)";
"	RET";
"";
"// func Get8uint32DeltaFastAsm(in []byte, out []uint32, ctrl uint16, prev uint32, shuffle *[256][16]uint8, lenTable *[256]uint8)";
"// Requires: AVX";
"TEXT ·Get8uint32DeltaFastAsm(SB), NOSPLIT, $0-72";
"	MOVWQZX      ctrl+48(FP), AX";
"	MOVQ         shuffle+56(FP), CX";
"	MOVBQZX      AL, DX";
"	SHLQ         $0x04, DX";
"	ADDQ         CX, DX";
"	MOVWQZX      AX, BX";
"	SHRQ         $0x08, BX";
"	SHLQ         $0x04, BX";
"	ADDQ         CX, BX";
"	MOVQ         in_base+0(FP), CX";
"	MOVQ         CX, SI";
"	MOVQ         lenTable+64(FP), DI";
"	MOVBQZX      AL, AX";
"	ADDQ         DI, AX";
"	MOVBQZX      (AX), AX";
"	ADDQ         AX, SI";
"	VLDDQU       (CX), X0";
"	VLDDQU       (SI), X1";
"	VPSHUFB      (DX), X0, X0";
"	VPSHUFB      (BX), X1, X1";
"	VBROADCASTSS prev+52(FP), X2";
"	VPSLLDQ      $0x04, X0, X3";
"	VPADDD       X0, X3, X0";
"	VPSLLDQ      $0x08, X0, X3";
"	VPADDD       X0, X2, X0";
"	VPADDD       X0, X3, X0";
"	VPSHUFD      $0xff, X0, X2";
"	VPSLLDQ      $0x04, X1, X3";
"	VPADDD       X1, X3, X1";
"	VPSLLDQ      $0x08, X1, X3";
"	VPADDD       X1, X2, X1";
"	VPADDD       X1, X3, X1";
"	MOVQ         out_base+24(FP), AX";
"	VMOVDQU      X0, (AX)";
"	VMOVDQU      X1, 16(AX)";
"	RET"].

(** pkg/shared/gen.go *)
Definition shared_gen_go : list string := [
"package shared";
"";
"//go:generate go run ./main/gentables.go -out ./tables.go -package shared";
"";
"func ControlByteToSize(in uint8) int {";
"	return int(PerControlLenTable[in])";
"}";
"";
"func ControlByteToSizeTwo(in uint16) int {";
"	return int(PerControlLenTable[in&0xff] + PerControlLenTable[in>>8])";
"}"].

(** pkg/shared/mode.go *)
Definition shared_mode_go : list string := [
"package shared";
"";
"// PerformanceMode indicates which mode the code is operating under. If Normal,";
"// then the code is NOT using special hardware instructions and instead relying";
"// on portable Go code. If Fast, then the code IS using special hardware instructions";
"// that is platform dependent. Each package exports a func that can be used to debug";
"// or inspect the configuration at runtime.";
"type PerformanceMode int";
"";
"const (";
"	Normal PerformanceMode = iota";
"	Fast";
")";
"";
"type CheckMode func() PerformanceMode"].

(** pkg/shared/tables.go *)
Definition shared_tables_go : list string := [
"// Code generated by gentables. DO NOT EDIT.";
"";
"package shared";
"";
"var PerNumLenTable *[256][4]uint8 = &[256][4]uint8{";
"	{1, 1, 1, 1}, {2, 1, 1, 1}, {3, 1, 1, 1}, {4, 1, 1, 1},";
"	{1, 2, 1, 1}, {2, 2, 1, 1}, {3, 2, 1, 1}, {4, 2, 1, 1},";
"	{1, 3, 1, 1}, {2, 3, 1, 1}, {3, 3, 1, 1}, {4, 3, 1, 1},";
"	{1, 4, 1, 1}, {2, 4, 1, 1}, {3, 4, 1, 1}, {4, 4, 1, 1},";
"	{1, 1, 2, 1}, {2, 1, 2, 1}, {3, 1, 2, 1}, {4, 1, 2, 1},";
"	{1, 2, 2, 1}, {2, 2, 2, 1}, {3, 2, 2, 1}, {4, 2, 2, 1},";
"	{1, 3, 2, 1}, {2, 3, 2, 1}, {3, 3, 2, 1}, {4, 3, 2, 1},";
"	{1, 4, 2, 1}, {2, 4, 2, 1}, {3, 4, 2, 1}, {4, 4, 2, 1},";
"	{1, 1, 3, 1}, {2, 1, 3, 1}, {3, 1, 3, 1}, {4, 1, 3, 1},";
"	{1, 2, 3, 1}, {2, 2, 3, 1}, {3, 2, 3, 1}, {4, 2, 3, 1},";
"	{1, 3, 3, 1}, {2, 3, 3, 1}, {3, 3, 3, 1}, {4, 3, 3, 1},";
"	{1, 4, 3, 1}, {2, 4, 3, 1}, {3, 4, 3, 1}, {4, 4, 3, 1},";
"	{1, 1, 4, 1}, {2, 1, 4, 1}, {3, 1, 4, 1}, {4, 1, 4, 1},";
"	{1, 2, 4, 1}, {2, 2, 4, 1}, {3, 2, 4, 1}, {4, 2, 4, 1},";
"	{1, 3, 4, 1}, {2, 3, 4, 1}, {3, 3, 4, 1}, {4, 3, 4, 1},";
"	{1, 4, 4, 1}, {2, 4, 4, 1}, {3, 4, 4, 1}, {4, 4, 4, 1},";
"	{1, 1, 1, 2}, {2, 1, 1, 2}, {3, 1, 1, 2}, {4, 1, 1, 2},";
"	{1, 2, 1, 2}, {2, 2, 1, 2}, {3, 2, 1, 2}, {4, 2, 1, 2},";
"	{1, 3, 1, 2}, {2, 3, 1, 2}, {3, 3, 1, 2}, {4, 3, 1, 2},";
"	{1, 4, 1, 2}, {2, 4, 1, 2}, {3, 4, 1, 2}, {4, 4, 1, 2},";
"	{1, 1, 2, 2}, {2, 1, 2, 2}, {3, 1, 2, 2}, {4, 1, 2, 2},";
"	{1, 2, 2, 2}, {2, 2, 2, 2}, {3, 2, 2, 2}, {4, 2, 2, 2},";
"	{1, 3, 2, 2}, {2, 3, 2, 2}, {3, 3, 2, 2}, {4, 3, 2, 2},";
"	{1, 4, 2, 2}, {2, 4, 2, 2}, {3, 4, 2, 2}, {4, 4, 2, 2},";
"	{1, 1, 3, 2}, {2, 1, 3, 2}, {3, 1, 3, 2}, {4, 1, 3, 2},";
"	{1, 2, 3, 2}, {2, 2, 3, 2}, {3, 2, 3, 2}, {4, 2, 3, 2},";
"	{1, 3, 3, 2}, {2, 3, 3, 2}, {3, 3, 3, 2}, {4, 3, 3, 2},";
"	{1, 4, 3, 2}, {2, 4, 3, 2}, {3, 4, 3, 2}, {4, 4, 3, 2},";
"	{1, 1, 4, 2}, {2, 1, 4, 2}, {3, 1, 4, 2}, {4, 1, 4, 2},";
"	{1, 2, 4, 2}, {2, 2, 4, 2}, {3, 2, 4, 2}, {4, 2, 4, 2},";
"	{1, 3, 4, 2}, {2, 3, 4, 2}, {3, 3, 4, 2}, {4, 3, 4, 2},";
"	{1, 4, 4, 2}, {2, 4, 4, 2}, {3, 4, 4, 2}, {4, 4, 4, 2},";
"	{1, 1, 1, 3}, {2, 1, 1, 3}, {3, 1, 1, 3}, {4, 1, 1, 3},";
"	{1, 2, 1, 3}, {2, 2, 1, 3}, {3, 2, 1, 3}, {4, 2, 1, 3},";
"	{1, 3, 1, 3}, {2, 3, 1, 3}, {3, 3, 1, 3}, {4, 3, 1, 3},";
"	{1, 4, 1, 3}, {2, 4, 1, 3}, {3, 4, 1, 3}, {4, 4, 1, 3},";
"	{1, 1, 2, 3}, {2, 1, 2, 3}, {3, 1, 2, 3}, {4, 1, 2, 3},";
"	{1, 2, 2, 3}, {2, 2, 2, 3}, {3, 2, 2, 3}, {4, 2, 2, 3},";
"	{1, 3, 2, 3}, {2, 3, 2, 3}, {3, 3, 2, 3}, {4, 3, 2, 3},";
"	{1, 4, 2, 3}, {2, 4, 2, 3}, {3, 4, 2, 3}, {4, 4, 2, 3},";
"	{1, 1, 3, 3}, {2, 1, 3, 3}, {3, 1, 3, 3}, {4, 1, 3, 3},";
"	{1, 2, 3, 3}, {2, 2, 3, 3}, {3, 2, 3, 3}, {4, 2, 3, 3},";
"	{1, 3, 3, 3}, {2, 3, 3, 3}, {3, 3, 3, 3}, {4, 3, 3, 3},";
"	{1, 4, 3, 3}, {2, 4, 3, 3}, {3, 4, 3, 3}, {4, 4, 3, 3},";
"	{1, 1, 4, 3}, {2, 1, 4, 3}, {3, 1, 4, 3}, {4, 1, 4, 3},";
"	{1, 2, 4, 3}, {2, 2, 4, 3}, {3, 2, 4, 3}, {4, 2, 4, 3},";
"	{1, 3, 4, 3}, {2, 3, 4, 3}, {3, 3, 4, 3}, {4, 3, 4, 3},";
"	{1, 4, 4, 3}, {2, 4, 4, 3}, {3, 4, 4, 3}, {4, 4, 4, 3},";
"	{1, 1, 1, 4}, {2, 1, 1, 4}, {3, 1, 1, 4}, {4, 1, 1, 4},";
"	{1, 2, 1, 4}, {2, 2, 1, 4}, {3, 2, 1, 4}, {4, 2, 1, 4},";
"	{1, 3, 1, 4}, {2, 3, 1, 4}, {3, 3, 1, 4}, {4, 3, 1, 4},";
"	{1, 4, 1, 4}, {2, 4, 1, 4}, {3, 4, 1, 4}, {4, 4, 1, 4},";
"	{1, 1, 2, 4}, {2, 1, 2, 4}, {3, 1, 2, 4}, {4, 1, 2, 4},";
"	{1, 2, 2, 4}, {2, 2, 2, 4}, {3, 2, 2, 4}, {4, 2, 2, 4},";
"	{1, 3, 2, 4}, {2, 3, 2, 4}, {3, 3, 2, 4}, {4, 3, 2, 4},";
"	{1, 4, 2, 4}, {2, 4, 2, 4}, {3, 4, 2, 4}, {4, 4, 2, 4},";
"	{1, 1, 3, 4}, {2, 1, 3, 4}, {3, 1, 3, 4}, {4, 1, 3, 4},";
"	{1, 2, 3, 4}, {2, 2, 3, 4}, {3, 2, 3, 4}, {4, 2, 3, 4},";
"	{1, 3, 3, 4}, {2, 3, 3, 4}, {3, 3, 3, 4}, {4, 3, 3, 4},";
"	{1, 4, 3, 4}, {2, 4, 3, 4}, {3, 4, 3, 4}, {4, 4, 3, 4},";
"	{1, 1, 4, 4}, {2, 1, 4, 4}, {3, 1, 4, 4}, {4, 1, 4, 4},";
"	{1, 2, 4, 4}, {2, 2, 4, 4}, {3, 2, 4, 4}, {4, 2, 4, 4},";
"	{1, 3, 4, 4}, {2, 3, 4, 4}, {3, 3, 4, 4}, {4, 3, 4, 4},";
"	{1, 4, 4, 4}, {2, 4, 4, 4}, {3, 4, 4, 4}, {4, 4, 4, 4},";
"}";
"";
"var PerControlLenTable *[256]uint8 = &[256]uint8{";
"	4, 5, 6, 7, 5, 6, 7, 8,";
"	6, 7, 8, 9, 7, 8, 9, 10,";
"	5, 6, 7, 8, 6, 7, 8, 9,";
"	7, 8, 9, 10, 8, 9, 10, 11,";
"	6, 7, 8, 9, 7, 8, 9, 10,";
"	8, 9, 10, 11, 9, 10, 11, 12,";
"	7, 8, 9, 10, 8, 9, 10, 11,";
"	9, 10, 11, 12, 10, 11, 12, 13,";
"	5, 6, 7, 8, 6, 7, 8, 9,";
"	7, 8, 9, 10, 8, 9, 10, 11,";
"	6, 7, 8, 9, 7, 8, 9, 10,";
"	8, 9, 10, 11, 9, 10, 11, 12,";
"	7, 8, 9, 10, 8, 9, 10, 11,";
"	9, 10, 11, 12, 10, 11, 12, 13,";
"	8, 9, 10, 11, 9, 10, 11, 12,";
"	10, 11, 12, 13, 11, 12, 13, 14,";
"	6, 7, 8, 9, 7, 8, 9, 10,";
"	8, 9, 10, 11, 9, 10, 11, 12,";
"	7, 8, 9, 10, 8, 9, 10, 11,";
"	9, 10, 11, 12, 10, 11, 12, 13,";
"	8, 9, 10, 11, 9, 10, 11, 12,";
"	10, 11, 12, 13, 11, 12, 13, 14,";
"	9, 10, 11, 12, 10, 11, 12, 13,";
"	11, 12, 13, 14, 12, 13, 14, 15,";
"	7, 8, 9, 10, 8, 9, 10, 11,";
"	9, 10, 11, 12, 10, 11, 12, 13,";
"	8, 9, 10, 11, 9, 10, 11, 12,";
"	10, 11, 12, 13, 11, 12, 13, 14,";
"	9, 10, 11, 12, 10, 11, 12, 13,";
"	11, 12, 13, 14, 12, 13, 14, 15,";
"	10, 11, 12, 13, 11, 12, 13, 14,";
"	12, 13, 14, 15, 13, 14, 15, 16,";
"}";
"";
"var EncodeShuffleTable *[256][16]uint8 = &[256][16]uint8{";
"	// 0	0x00	00000000	len	1	1	1	1";
"	{0x00, 0x04, 0x08, 0x0c, 0xff, 0xff, 0xff, 0xff, 0xff, 0xff, 0xff, 0xff, 0xff, 0xff, 0xff, 0xff},";
"	// 1	0x01	00000001	len	2	1	1	1";
"	{0x00, 0x01, 0x04, 0x08, 0x0c, 0xff, 0xff, 0xff, 0xff, 0xff, 0xff, 0xff, 0xff, 0xff, 0xff, 0xff},";
"	// 2	0x02	00000010	len	3	1	1	1";
"	{0x00, 0x01, 0x02, 0x04, 0x08, 0x0c, 0xff, 0xff, 0xff, 0xff, 0xff, 0xff, 0xff, 0xff, 0xff, 0xff},";
"	// 3	0x03	00000011	len	4	1	1	1";
"	{0x00, 0x01, 0x02, 0x03, 0x04, 0x08, 0x0c, 0xff, 0xff, 0xff, 0xff, 0xff, 0xff, 0xff, 0xff, 0xff},";
"	// 4	0x04	00000100	len	1	2	1	1";
"	{0x00, 0x04, 0x05, 0x08, 0x0c, 0xff, 0xff, 0xff, 0xff, 0xff, 0xff, 0xff, 0xff, 0xff, 0xff, 0xff},";
"	// 5	0x05	00000101	len	2	2	1	1";
"	{0x00, 0x01, 0x04, 0x05, 0x08, 0x0c, 0xff, 0xff, 0xff, 0xff, 0xff, 0xff, 0xff, 0xff, 0xff, 0xff},";
"	// 6	0x06	00000110	len	3	2	1	1";
"	{0x00, 0x01, 0x02, 0x04, 0x05, 0x08, 0x0c, 0xff, 0xff, 0xff, 0xff, 0xff, 0xff, 0xff, 0xff, 0xff},";
"	// 7	0x07	00000111	len	4	2	1	1";
"	{0x00, 0x01, 0x02, 0x03, 0x04, 0x05, 0x08, 0x0c, 0xff, 0xff, 0xff, 0xff, 0xff, 0xff, 0xff, 0xff},";
"	// 8	0x08	00001000	len	1	3	1	1";
"	{0x00, 0x04, 0x05, 0x06, 0x08, 0x0c, 0xff, 0xff, 0xff, 0xff, 0xff, 0xff, 0xff, 0xff, 0xff, 0xff},";
"	// 9	0x09	00001001	len	2	3	1	1";
"	{0x00, 0x01, 0x04, 0x05, 0x06, 0x08, 0x0c, 0xff, 0xff, 0xff, 0xff, 0xff, 0xff, 0xff, 0xff, 0xff},";
"	// 10	0x0a	00001010	len	3	3	1	1";
"	{0x00, 0x01, 0x02, 0x04, 0x05, 0x06, 0x08, 0x0c, 0xff, 0xff, 0xff, 0xff, 0xff, 0xff, 0xff, 0xff},";
"	// 11	0x0b	00001011	len	4	3	1	1";
"	{0x00, 0x01, 0x02, 0x03, 0x04, 0x05, 0x06, 0x08, 0x0c, 0xff, 0xff, 0xff, 0xff, 0xff, 0xff, 0xff},";
"	// 12	0x0c	00001100	len	1	4	1	1";
"	{0x00, 0x04, 0x05, 0x06, 0x07, 0x08, 0x0c, 0xff, 0xff, 0xff, 0xff, 0xff, 0xff, 0xff, 0xff, 0xff},";
"	// 13	0x0d	00001101	len	2	4	1	1";
"	{0x00, 0x01, 0x04, 0x05, 0x06, 0x07, 0x08, 0x0c, 0xff, 0xff, 0xff, 0xff, 0xff, 0xff, 0xff, 0xff},";
"	// 14	0x0e	00001110	len	3	4	1	1";
"	{0x00, 0x01, 0x02, 0x04, 0x05, 0x06, 0x07, 0x08, 0x0c, 0xff, 0xff, 0xff, 0xff, 0xff, 0xff, 0xff},";
"	// 15	0x0f	00001111	len	4	4	1	1";
"	{0x00, 0x01, 0x02, 0x03, 0x04, 0x05, 0x06, 0x07, 0x08, 0x0c, 0xff, 0xff, 0xff, 0xff, 0xff, 0xff},";
"	// 16	0x10	00010000	len	1	1	2	1";
"	{0x00, 0x04, 0x08, 0x09, 0x0c, 0xff, 0xff, 0xff, 0xff, 0xff, 0xff, 0xff, 0xff, 0xff, 0xff, 0xff},";
"	// 17	0x11	00010001	len	2	1	2	1";
"	{0x00, 0x01, 0x04, 0x08, 0x09, 0x0c, 0xff, 0xff, 0xff, 0xff, 0xff, 0xff, 0xff, 0xff, 0xff, 0xff},";
"	// 18	0x12	00010010	len	3	1	2	1";
"	{0x00, 0x01, 0x02, 0x04, 0x08, 0x09, 0x0c, 0xff, 0xff, 0xff, 0xff, 0xff, 0xff, 0xff, 0xff, 0xff},";
"	// 19	0x13	00010011	len	4	1	2	1";
"	{0x00, 0x01, 0x02, 0x03, 0x04, 0x08, 0x09, 0x0c, 0xff, 0xff, 0xff, 0xff, 0xff, 0xff, 0xff, 0xff},";
"	// 20	0x14	00010100	len	1	2	2	1";
"	{0x00, 0x04, 0x05, 0x08, 0x09, 0x0c, 0xff, 0xff, 0xff, 0xff, 0xff, 0xff, 0xff, 0xff, 0xff, 0xff},";
"	// 21	0x15	00010101	len	2	2	2	1";
"	{0x00, 0x01, 0x04, 0x05, 0x08, 0x09, 0x0c, 0xff, 0xff, 0xff, 0xff, 0xff, 0xff, 0xff, 0xff, 0xff},";
"	// 22	0x16	00010110	len	3	2	2	1";
"	{0x00, 0x01, 0x02, 0x04, 0x05, 0x08, 0x09, 0x0c, 0xff, 0xff, 0xff, 0xff, 0xff, 0xff, 0xff, 0xff},";
"	// 23	0x17	00010111	len	4	2	2	1";
"	{0x00, 0x01, 0x02, 0x03, 0x04, 0x05, 0x08, 0x09, 0x0c, 0xff, 0xff, 0xff, 0xff, 0xff, 0xff, 0xff},";
"	// 24	0x18	00011000	len	1	3	2	1";
"	{0x00, 0x04, 0x05, 0x06, 0x08, 0x09, 0x0c, 0xff, 0xff, 0xff, 0xff, 0xff, 0xff, 0xff, 0xff, 0xff},";
"	// 25	0x19	00011001	len	2	3	2	1";
"	{0x00, 0x01, 0x04, 0x05, 0x06, 0x08, 0x09, 0x0c, 0xff, 0xff, 0xff, 0xff, 0xff, 0xff, 0xff, 0xff},";
"	// 26	0x1a	00011010	len	3	3	2	1";
"	{0x00, 0x01, 0x02, 0x04, 0x05, 0x06, 0x08, 0x09, 0x0c, 0xff, 0xff, 0xff, 0xff, 0xff, 0xff, 0xff},";
"	// 27	0x1b	00011011	len	4	3	2	1";
"	{0x00, 0x01, 0x02, 0x03, 0x04, 0x05, 0x06, 0x08, 0x09, 0x0c, 0xff, 0xff, 0xff, 0xff, 0xff, 0xff},";
"	// 28	0x1c	00011100	len	1	4	2	1";
"	{0x00, 0x04, 0x05, 0x06, 0x07, 0x08, 0x09, 0x0c, 0xff, 0xff, 0xff, 0xff, 0xff, 0xff, 0xff, 0xff},";
"	// 29	0x1d	00011101	len	2	4	2	1";
"	{0x00, 0x01, 0x04, 0x05, 0x06, 0x07, 0x08, 0x09, 0x0c, 0xff, 0xff, 0xff, 0xff, 0xff, 0xff, 0xff},";
"	// 30	0x1e	00011110	len	3	4	2	1";
"	{0x00, 0x01, 0x02, 0x04, 0x05, 0x06, 0x07, 0x08, 0x09, 0x0c, 0xff, 0xff, 0xff, 0xff, 0xff, 0xff},";
"	// 31	0x1f	00011111	len	4	4	2	1";
"	{0x00, 0x01, 0x02, 0x03, 0x04, 0x05, 0x06, 0x07, 0x08, 0x09, 0x0c, 0xff, 0xff, 0xff, 0xff, 0xff},";
"	// 32	0x20	00100000	len	1	1	3	1";
"	{0x00, 0x04, 0x08, 0x09, 0x0a, 0x0c, 0xff, 0xff, 0xff, 0xff, 0xff, 0xff, 0xff, 0xff, 0xff, 0xff},";
"	// 33	0x21	00100001	len	2	1	3	1";
"	{0x00, 0x01, 0x04, 0x08, 0x09, 0x0a, 0x0c, 0xff, 0xff, 0xff, 0xff, 0xff, 0xff, 0xff, 0xff, 0xff},";
"	// 34	0x22	00100010	len	3	1	3	1";
"	{0x00, 0x01, 0x02, 0x04, 0x08, 0x09, 0x0a, 0x0c, 0xff, 0xff, 0xff, 0xff, 0xff, 0xff, 0xff, 0xff},";
"	// 35	0x23	00100011	len	4	1	3	1";
"	{0x00, 0x01, 0x02, 0x03, 0x04, 0x08, 0x09, 0x0a, 0x0c, 0xff, 0xff, 0xff, 0xff, 0xff, 0xff, 0xff},";
"	// 36	0x24	00100100	len	1	2	3	1";
"	{0x00, 0x04, 0x05, 0x08, 0x09, 0x0a, 0x0c, 0xff, 0xff, 0xff, 0xff, 0xff, 0xff, 0xff, 0xff, 0xff},";
"	// 37	0x25	00100101	len	2	2	3	1";
"	{0x00, 0x01, 0x04, 0x05, 0x08, 0x09, 0x0a, 0x0c, 0xff, 0xff, 0xff, 0xff, 0xff, 0xff, 0xff, 0xff},";
"	// 38	0x26	00100110	len	3	2	3	1";
"	{0x00, 0x01, 0x02, 0x04, 0x05, 0x08, 0x09, 0x0a, 0x0c, 0xff, 0xff, 0xff, 0xff, 0xff, 0xff, 0xff},";
"	// 39	0x27	00100111	len	4	2	3	1";
"	{0x00, 0x01, 0x02, 0x03, 0x04, 0x05, 0x08, 0x09, 0x0a, 0x0c, 0xff, 0xff, 0xff, 0xff, 0xff, 0xff},";
"	// 40	0x28	00101000	len	1	3	3	1";
"	{0x00, 0x04, 0x05, 0x06, 0x08, 0x09, 0x0a, 0x0c, 0xff, 0xff, 0xff, 0xff, 0xff, 0xff, 0xff, 0xff},";
"	// 41	0x29	00101001	len	2	3	3	1";
"	{0x00, 0x01, 0x04, 0x05, 0x06, 0x08, 0x09, 0x0a, 0x0c, 0xff, 0xff, 0xff, 0xff, 0xff, 0xff, 0xff},";
"	// 42	0x2a	00101010	len	3	3	3	1";
"	{0x00, 0x01, 0x02, 0x04, 0x05, 0x06, 0x08, 0x09, 0x0a, 0x0c, 0xff, 0xff, 0xff, 0xff, 0xff, 0xff},";
"	// 43	0x2b	00101011	len	4	3	3	1";
"	{0x00, 0x01, 0x02, 0x03, 0x04, 0x05, 0x06, 0x08, 0x09, 0x0a, 0x0c, 0xff, 0xff, 0xff, 0xff, 0xff},";
"	// 44	0x2c	00101100	len	1	4	3	1";
"	{0x00, 0x04, 0x05, 0x06, 0x07, 0x08, 0x09, 0x0a, 0x0c, 0xff, 0xff, 0xff, 0xff, 0xff, 0xff, 0xff},";
"	// 45	0x2d	00101101	len	2	4	3	1";
"	{0x00, 0x01, 0x04, 0x05, 0x06, 0x07, 0x08, 0x09, 0x0a, 0x0c, 0xff, 0xff, 0xff, 0xff, 0xff, 0xff},";
"	// 46	0x2e	00101110	len	3	4	3	1";
"	{0x00, 0x01, 0x02, 0x04, 0x05, 0x06, 0x07, 0x08, 0x09, 0x0a, 0x0c, 0xff, 0xff, 0xff, 0xff, 0xff},";
"	// 47	0x2f	00101111	len	4	4	3	1";
"	{0x00, 0x01, 0x02, 0x03, 0x04, 0x05, 0x06, 0x07, 0x08, 0x09, 0x0a, 0x0c, 0xff, 0xff, 0xff, 0xff},";
"	// 48	0x30	00110000	len	1	1	4	1";
"	{0x00, 0x04, 0x08, 0x09, 0x0a, 0x0b, 0x0c, 0xff, 0xff, 0xff, 0xff, 0xff, 0xff, 0xff, 0xff, 0xff},";
"	// 49	0x31	00110001	len	2	1	4	1";
"	{0x00, 0x01, 0x04, 0x08, 0x09, 0x0a, 0x0b, 0x0c, 0xff, 0xff, 0xff, 0xff, 0xff, 0xff, 0xff, 0xff},";
"	// 50	0x32	00110010	len	3	1	4	1";
"	{0x00, 0x01, 0x02, 0x04, 0x08, 0x09, 0x0a, 0x0b, 0x0c, 0xff, 0xff, 0xff, 0xff, 0xff, 0xff, 0xff},";
"	// 51	0x33	00110011	len	4	1	4	1";
"	{0x00, 0x01, 0x02, 0x03, 0x04, 0x08, 0x09, 0x0a, 0x0b, 0x0c, 0xff, 0xff, 0xff, 0xff, 0xff, 0xff},";
"	// 52	0x34	00110100	len	1	2	4	1";
"	{0x00, 0x04, 0x05, 0x08, 0x09, 0x0a, 0x0b, 0x0c, 0xff, 0xff, 0xff, 0xff, 0xff, 0xff, 0xff, 0xff},";
"	// 53	0x35	00110101	len	2	2	4	1";
"	{0x00, 0x01, 0x04, 0x05, 0x08, 0x09, 0x0a, 0x0b, 0x0c, 0xff, 0xff, 0xff, 0xff, 0xff, 0xff, 0xff},";
"	// 54	0x36	00110110	len	3	2	4	1";
"	{0x00, 0x01, 0x02, 0x04, 0x05, 0x08, 0x09, 0x0a, 0x0b, 0x0c, 0xff, 0xff, 0xff, 0xff, 0xff, 0xff},";
"	// 55	0x37	00110111	len	4	2	4	1";
"	{0x00, 0x01, 0x02, 0x03, 0x04, 0x05, 0x08, 0x09, 0x0a, 0x0b, 0x0c, 0xff, 0xff, 0xff, 0xff, 0xff},";
"	// 56	0x38	00111000	len	1	3	4	1";
"	{0x00, 0x04, 0x05, 0x06, 0x08, 0x09, 0x0a, 0x0b, 0x0c, 0xff, 0xff, 0xff, 0xff, 0xff, 0xff, 0xff},";
"	// 57	0x39	00111001	len	2	3	4	1";
"	{0x00, 0x01, 0x04, 0x05, 0x06, 0x08, 0x09, 0x0a, 0x0b, 0x0c, 0xff, 0xff, 0xff, 0xff, 0xff, 0xff},";
"	// 58	0x3a	00111010	len	3	3	4	1";
"	{0x00, 0x01, 0x02, 0x04, 0x05, 0x06, 0x08, 0x09, 0x0a, 0x0b, 0x0c, 0xff, 0xff, 0xff, 0xff, 0xff},";
"	// 59	0x3b	00111011	len	4	3	4	1";
"	{0x00, 0x01, 0x02, 0x03, 0x04, 0x05, 0x06, 0x08, 0x09, 0x0a, 0x0b, 0x0c, 0xff, 0xff, 0xff, 0xff},";
"	// 60	0x3c	00111100	len	1	4	4	1";
"	{0x00, 0x04, 0x05, 0x06, 0x07, 0x08, 0x09, 0x0a, 0x0b, 0x0c, 0xff, 0xff, 0xff, 0xff, 0xff, 0xff},";
"	// 61	0x3d	00111101	len	2	4	4	1";
"	{0x00, 0x01, 0x04, 0x05, 0x06, 0x07, 0x08, 0x09, 0x0a, 0x0b, 0x0c, 0xff, 0xff, 0xff, 0xff, 0xff},";
"	// 62	0x3e	00111110	len	3	4	4	1";
"	{0x00, 0x01, 0x02, 0x04, 0x05, 0x06, 0x07, 0x08, 0x09, 0x0a, 0x0b, 0x0c, 0xff, 0xff, 0xff, 0xff},";
"	// 63	0x3f	00111111	len	4	4	4	1";
"	{0x00, 0x01, 0x02, 0x03, 0x04, 0x05, 0x06, 0x07, 0x08, 0x09, 0x0a, 0x0b, 0x0c, 0xff, 0xff, 0xff},";
"	// 64	0x40	01000000	len	1	1	1	2";
"	{0x00, 0x04, 0x08, 0x0c, 0x0d, 0xff, 0xff, 0xff, 0xff, 0xff, 0xff, 0xff, 0xff, 0xff, 0xff, 0xff},";
"	// 65	0x41	01000001	len	2	1	1	2";
"	{0x00, 0x01, 0x04, 0x08, 0x0c, 0x0d, 0xff, 0xff, 0xff, 0xff, 0xff, 0xff, 0xff, 0xff, 0xff, 0xff},";
"	// 66	0x42	01000010	len	3	1	1	2";
"	{0x00, 0x01, 0x02, 0x04, 0x08, 0x0c, 0x0d, 0xff, 0xff, 0xff, 0xff, 0xff, 0xff, 0xff, 0xff, 0xff},";
"	// 67	0x43	01000011	len	4	1	1	2";
"	{0x00, 0x01, 0x02, 0x03, 0x04, 0x08, 0x0c, 0x0d, 0xff, 0xff, 0xff, 0xff, 0xff, 0xff, 0xff, 0xff},";
"	// 68	0x44	01000100	len	1	2	1	2";
"	{0x00, 0x04, 0x05, 0x08, 0x0c, 0x0d, 0xff, 0xff, 0xff, 0xff, 0xff, 0xff, 0xff, 0xff, 0xff, 0xff},";
"	// 69	0x45	01000101	len	2	2	1	2";
"	{0x00, 0x01, 0x04, 0x05, 0x08, 0x0c, 0x0d, 0xff, 0xff, 0xff, 0xff, 0xff, 0xff, 0xff, 0xff, 0xff},";
"	// 70	0x46	01000110	len	3	2	1	2";
"	{0x00, 0x01, 0x02, 0x04, 0x05, 0x08, 0x0c, 0x0d, 0xff, 0xff, 0xff, 0xff, 0xff, 0xff, 0xff, 0xff},";
"	// 71	0x47	01000111	len	4	2	1	2";
"	{0x00, 0x01, 0x02, 0x03, 0x04, 0x05, 0x08, 0x0c, 0x0d, 0xff, 0xff, 0xff, 0xff, 0xff, 0xff, 0xff},";
"	// 72	0x48	01001000	len	1	3	1	2";
"	{0x00, 0x04, 0x05, 0x06, 0x08, 0x0c, 0x0d, 0xff, 0xff, 0xff, 0xff, 0xff, 0xff, 0xff, 0xff, 0xff},";
"	// 73	0x49	01001001	len	2	3	1	2";
"	{0x00, 0x01, 0x04, 0x05, 0x06, 0x08, 0x0c, 0x0d, 0xff, 0xff, 0xff, 0xff, 0xff, 0xff, 0xff, 0xff},";
"	// 74	0x4a	01001010	len	3	3	1	2";
"	{0x00, 0x01, 0x02, 0x04, 0x05, 0x06, 0x08, 0x0c, 0x0d, 0xff, 0xff, 0xff, 0xff, 0xff, 0xff, 0xff},";
"	// 75	0x4b	01001011	len	4	3	1	2";
"	{0x00, 0x01, 0x02, 0x03, 0x04, 0x05, 0x06, 0x08, 0x0c, 0x0d, 0xff, 0xff, 0xff, 0xff, 0xff, 0xff},";
"	// 76	0x4c	01001100	len	1	4	1	2";
"	{0x00, 0x04, 0x05, 0x06, 0x07, 0x08, 0x0c, 0x0d, 0xff, 0xff, 0xff, 0xff, 0xff, 0xff, 0xff, 0xff},";
"	// 77	0x4d	01001101	len	2	4	1	2";
"	{0x00, 0x01, 0x04, 0x05, 0x06, 0x07, 0x08, 0x0c, 0x0d, 0xff, 0xff, 0xff, 0xff, 0xff, 0xff, 0xff},";
"	// 78	0x4e	01001110	len	3	4	1	2";
"	{0x00, 0x01, 0x02, 0x04, 0x05, 0x06, 0x07, 0x08, 0x0c, 0x0d, 0xff, 0xff, 0xff, 0xff, 0xff, 0xff},";
"	// 79	0x4f	01001111	len	4	4	1	2";
"	{0x00, 0x01, 0x02, 0x03, 0x04, 0x05, 0x06, 0x07, 0x08, 0x0c, 0x0d, 0xff, 0xff, 0xff, 0xff, 0xff},";
"	// 80	0x50	01010000	len	1	1	2	2";
"	{0x00, 0x04, 0x08, 0x09, 0x0c, 0x0d, 0xff, 0xff, 0xff, 0xff, 0xff, 0xff, 0xff, 0xff, 0xff, 0xff},";
"	// 81	0x51	01010001	len	2	1	2	2";
"	{0x00, 0x01, 0x04, 0x08, 0x09, 0x0c, 0x0d, 0xff, 0xff, 0xff, 0xff, 0xff, 0xff, 0xff, 0xff, 0xff},";
"	// 82	0x52	01010010	len	3	1	2	2";
"	{0x00, 0x01, 0x02, 0x04, 0x08, 0x09, 0x0c, 0x0d, 0xff, 0xff, 0xff, 0xff, 0xff, 0xff, 0xff, 0xff},";
"	// 83	0x53	01010011	len	4	1	2	2";
"	{0x00, 0x01, 0x02, 0x03, 0x04, 0x08, 0x09, 0x0c, 0x0d, 0xff, 0xff, 0xff, 0xff, 0xff, 0xff, 0xff},";
"	// 84	0x54	01010100	len	1	2	2	2";
"	{0x00, 0x04, 0x05, 0x08, 0x09, 0x0c, 0x0d, 0xff, 0xff, 0xff, 0xff, 0xff, 0xff, 0xff, 0xff, 0xff},";
"	// 85	0x55	01010101	len	2	2	2	2";
"	{0x00, 0x01, 0x04, 0x05, 0x08, 0x09, 0x0c, 0x0d, 0xff, 0xff, 0xff, 0xff, 0xff, 0xff, 0xff, 0xff},";
"	// 86	0x56	01010110	len	3	2	2	2";
"	{0x00, 0x01, 0x02, 0x04, 0x05, 0x08, 0x09, 0x0c, 0x0d, 0xff, 0xff, 0xff, 0xff, 0xff, 0xff, 0xff},";
"	// 87	0x57	01010111	len	4	2	2	2";
"	{0x00, 0x01, 0x02, 0x03, 0x04, 0x05, 0x08, 0x09, 0x0c, 0x0d, 0xff, 0xff, 0xff, 0xff, 0xff, 0xff},";
"	// 88	0x58	01011000	len	1	3	2	2";
"	{0x00, 0x04, 0x05, 0x06, 0x08, 0x09, 0x0c, 0x0d, 0xff, 0xff, 0xff, 0xff, 0xff, 0xff, 0xff, 0xff},";
"	// 89	0x59	01011001	len	2	3	2	2";
"	{0x00, 0x01, 0x04, 0x05, 0x06, 0x08, 0x09, 0x0c, 0x0d, 0xff, 0xff, 0xff, 0xff, 0xff, 0xff, 0xff},";
"	// 90	0x5a	01011010	len	3	3	2	2";
"	{0x00, 0x01, 0x02, 0x04, 0x05, 0x06, 0x08, 0x09, 0x0c, 0x0d, 0xff, 0xff, 0xff, 0xff, 0xff, 0xff},";
"	// 91	0x5b	01011011	len	4	3	2	2";
"	{0x00, 0x01, 0x02, 0x03, 0x04, 0x05, 0x06, 0x08, 0x09, 0x0c, 0x0d, 0xff, 0xff, 0xff, 0xff, 0xff},";
"	// 92	0x5c	01011100	len	1	4	2	2";
"	{0x00, 0x04, 0x05, 0x06, 0x07, 0x08, 0x09, 0x0c, 0x0d, 0xff, 0xff, 0xff, 0xff, 0xff, 0xff, 0xff},";
"	// 93	0x5d	01011101	len	2	4	2	2";
"	{0x00, 0x01, 0x04, 0x05, 0x06, 0x07, 0x08, 0x09, 0x0c, 0x0d, 0xff, 0xff, 0xff, 0xff, 0xff, 0xff},";
"	// 94	0x5e	01011110	len	3	4	2	2";
"	{0x00, 0x01, 0x02, 0x04, 0x05, 0x06, 0x07, 0x08, 0x09, 0x0c, 0x0d, 0xff, 0xff, 0xff, 0xff, 0xff},";
"	// 95	0x5f	01011111	len	4	4	2	2";
"	{0x00, 0x01, 0x02, 0x03, 0x04, 0x05, 0x06, 0x07, 0x08, 0x09, 0x0c, 0x0d, 0xff, 0xff, 0xff, 0xff},";
"	// 96	0x60	01100000	len	1	1	3	2";
"	{0x00, 0x04, 0x08, 0x09, 0x0a, 0x0c, 0x0d, 0xff, 0xff, 0xff, 0xff, 0xff, 0xff, 0xff, 0xff, 0xff},";
"	// 97	0x61	01100001	len	2	1	3	2";
"	{0x00, 0x01, 0x04, 0x08, 0x09, 0x0a, 0x0c, 0x0d, 0xff, 0xff, 0xff, 0xff, 0xff, 0xff, 0xff, 0xff},";
"	// 98	0x62	01100010	len	3	1	3	2";
"	{0x00, 0x01, 0x02, 0x04, 0x08, 0x09, 0x0a, 0x0c, 0x0d, 0xff, 0xff, 0xff, 0xff, 0xff, 0xff, 0xff},";
"	// 99	0x63	01100011	len	4	1	3	2";
"	{0x00, 0x01, 0x02, 0x03, 0x04, 0x08, 0x09, 0x0a, 0x0c, 0x0d, 0xff, 0xff, 0xff, 0xff, 0xff, 0xff},";
"	// 100	0x64	01100100	len	1	2	3	2";
"	{0x00, 0x04, 0x05, 0x08, 0x09, 0x0a, 0x0c, 0x0d, 0xff, 0xff, 0xff, 0xff, 0xff, 0xff, 0xff, 0xff},";
"	// 101	0x65	01100101	len	2	2	3	2";
"	{0x00, 0x01, 0x04, 0x05, 0x08, 0x09, 0x0a, 0x0c, 0x0d, 0xff, 0xff, 0xff, 0xff, 0xff, 0xff, 0xff},";
"	// 102	0x66	01100110	len	3	2	3	2";
"	{0x00, 0x01, 0x02, 0x04, 0x05, 0x08, 0x09, 0x0a, 0x0c, 0x0d, 0xff, 0xff, 0xff, 0xff, 0xff, 0xff},";
"	// 103	0x67	01100111	len	4	2	3	2";
"	{0x00, 0x01, 0x02, 0x03, 0x04, 0x05, 0x08, 0x09, 0x0a, 0x0c, 0x0d, 0xff, 0xff, 0xff, 0xff, 0xff},";
"	// 104	0x68	01101000	len	1	3	3	2";
"	{0x00, 0x04, 0x05, 0x06, 0x08, 0x09, 0x0a, 0x0c, 0x0d, 0xff, 0xff, 0xff, 0xff, 0xff, 0xff, 0xff},";
"	// 105	0x69	01101001	len	2	3	3	2";
"	{0x00, 0x01, 0x04, 0x05, 0x06, 0x08, 0x09, 0x0a, 0x0c, 0x0d, 0xff, 0xff, 0xff, 0xff, 0xff, 0xff},";
"	// 106	0x6a	01101010	len	3	3	3	2";
"	{0x00, 0x01, 0x02, 0x04, 0x05, 0x06, 0x08, 0x09, 0x0a, 0x0c, 0x0d, 0xff, 0xff, 0xff, 0xff, 0xff},";
"	// 107	0x6b	01101011	len	4	3	3	2";
"	{0x00, 0x01, 0x02, 0x03, 0x04, 0x05, 0x06, 0x08, 0x09, 0x0a, 0x0c, 0x0d, 0xff, 0xff, 0xff, 0xff},";
"	// 108	0x6c	01101100	len	1	4	3	2";
"	{0x00, 0x04, 0x05, 0x06, 0x07, 0x08, 0x09, 0x0a, 0x0c, 0x0d, 0xff, 0xff, 0xff, 0xff, 0xff, 0xff},";
"	// 109	0x6d	01101101	len	2	4	3	2";
"	{0x00, 0x01, 0x04, 0x05, 0x06, 0x07, 0x08, 0x09, 0x0a, 0x0c, 0x0d, 0xff, 0xff, 0xff, 0xff, 0xff},";
"	// 110	0x6e	01101110	len	3	4	3	2";
"	{0x00, 0x01, 0x02, 0x04, 0x05, 0x06, 0x07, 0x08, 0x09, 0x0a, 0x0c, 0x0d, 0xff, 0xff, 0xff, 0xff},";
"	// 111	0x6f	01101111	len	4	4	3	2";
"	{0x00, 0x01, 0x02, 0x03, 0x04, 0x05, 0x06, 0x07, 0x08, 0x09, 0x0a, 0x0c, 0x0d, 0xff, 0xff, 0xff},";
"	// 112	0x70	01110000	len	1	1	4	2";
"	{0x00, 0x04, 0x08, 0x09, 0x0a, 0x0b, 0x0c, 0x0d, 0xff, 0xff, 0xff, 0xff, 0xff, 0xff, 0xff, 0xff},";
"	// 113	0x71	01110001	len	2	1	4	2";
"	{0x00, 0x01, 0x04, 0x08, 0x09, 0x0a, 0x0b, 0x0c, 0x0d, 0xff, 0xff, 0xff, 0xff, 0xff, 0xff, 0xff},";
"	// 114	0x72	01110010	len	3	1	4	2";
"	{0x00, 0x01, 0x02, 0x04, 0x08, 0x09, 0x0a, 0x0b, 0x0c, 0x0d, 0xff, 0xff, 0xff, 0xff, 0xff, 0xff},";
"	// 115	0x73	01110011	len	4	1	4	2";
"	{0x00, 0x01, 0x02, 0x03, 0x04, 0x08, 0x09, 0x0a, 0x0b, 0x0c, 0x0d, 0xff, 0xff, 0xff, 0xff, 0xff},";
"	// 116	0x74	01110100	len	1	2	4	2";
"	{0x00, 0x04, 0x05, 0x08, 0x09, 0x0a, 0x0b, 0x0c, 0x0d, 0xff, 0xff, 0xff, 0xff, 0xff, 0xff, 0xff},";
"	// 117	0x75	01110101	len	2	2	4	2";
"	{0x00, 0x01, 0x04, 0x05, 0x08, 0x09, 0x0a, 0x0b, 0x0c, 0x0d, 0xff, 0xff, 0xff, 0xff, 0xff, 0xff},";
"	// 118	0x76	01110110	len	3	2	4	2";
"	{0x00, 0x01, 0x02, 0x04, 0x05, 0x08, 0x09, 0x0a, 0x0b, 0x0c, 0x0d, 0xff, 0xff, 0xff, 0xff, 0xff},";
"	// 119	0x77	01110111	len	4	2	4	2";
"	{0x00, 0x01, 0x02, 0x03, 0x04, 0x05, 0x08, 0x09, 0x0a, 0x0b, 0x0c, 0x0d, 0xff, 0xff, 0xff, 0xff},";
"	// 120	0x78	01111000	len	1	3	4	2";
"	{0x00, 0x04, 0x05, 0x06, 0x08, 0x09, 0x0a, 0x0b, 0x0c, 0x0d, 0xff, 0xff, 0xff, 0xff, 0xff, 0xff},";
"	// 121	0x79	01111001	len	2	3	4	2";
"	{0x00, 0x01, 0x04, 0x05, 0x06, 0x08, 0x09, 0x0a, 0x0b, 0x0c, 0x0d, 0xff, 0xff, 0xff, 0xff, 0xff},";
"	// 122	0x7a	01111010	len	3	3	4	2";
"	{0x00, 0x01, 0x02, 0x04, 0x05, 0x06, 0x08, 0x09, 0x0a, 0x0b, 0x0c, 0x0d, 0xff, 0xff, 0xff, 0xff},";
"	// 123	0x7b	01111011	len	4	3	4	2";
"	{0x00, 0x01, 0x02, 0x03, 0x04, 0x05, 0x06, 0x08, 0x09, 0x0a, 0x0b, 0x0c, 0x0d, 0xff, 0xff, 0xff},";
"	// 124	0x7c	01111100	len	1	4	4	2";
"	{0x00, 0x04, 0x05, 0x06, 0x07, 0x08, 0x09, 0x0a, 0x0b, 0x0c, 0x0d, 0xff, 0xff, 0xff, 0xff, 0xff},";
"	// 125	0x7d	01111101	len	2	4	4	2";
"	{0x00, 0x01, 0x04, 0x05, 0x06, 0x07, 0x08, 0x09, 0x0a, 0x0b, 0x0c, 0x0d, 0xff, 0xff, 0xff, 0xff},";
"	// 126	0x7e	01111110	len	3	4	4	2";
"	{0x00, 0x01, 0x02, 0x04, 0x05, 0x06, 0x07, 0x08, 0x09, 0x0a, 0x0b, 0x0c, 0x0d, 0xff, 0xff, 0xff},";
"	// 127	0x7f	01111111	len	4	4	4	2";
"	{0x00, 0x01, 0x02, 0x03, 0x04, 0x05, 0x06, 0x07, 0x08, 0x09, 0x0a, 0x0b, 0x0c, 0x0d, 0xff, 0xff},";
"	// 128	0x80	10000000	len	1	1	1	3";
"	{0x00, 0x04, 0x08, 0x0c, 0x0d, 0x0e, 0xff, 0xff, 0xff, 0xff, 0xff, 0xff, 0xff, 0xff, 0xff, 0xff},";
"	// 129	0x81	10000001	len	2	1	1	3";
"	{0x00, 0x01, 0x04, 0x08, 0x0c, 0x0d, 0x0e, 0xff, 0xff, 0xff, 0xff, 0xff, 0xff, 0xff, 0xff, 0xff},";
"	// 130	0x82	10000010	len	3	1	1	3";
"	{0x00, 0x01, 0x02, 0x04, 0x08, 0x0c, 0x0d, 0x0e, 0xff, 0xff, 0xff, 0xff, 0xff, 0xff, 0xff, 0xff},";
"	// 131	0x83	10000011	len	4	1	1	3";
"	{0x00, 0x01, 0x02, 0x03, 0x04, 0x08, 0x0c, 0x0d, 0x0e, 0xff, 0xff, 0xff, 0xff, 0xff, 0xff, 0xff},";
"	// 132	0x84	10000100	len	1	2	1	3";
"	{0x00, 0x04, 0x05, 0x08, 0x0c, 0x0d, 0x0e, 0xff, 0xff, 0xff, 0xff, 0xff, 0xff, 0xff, 0xff, 0xff},";
"	// 133	0x85	10000101	len	2	2	1	3";
"	{0x00, 0x01, 0x04, 0x05, 0x08, 0x0c, 0x0d, 0x0e, 0xff, 0xff, 0xff, 0xff, 0xff, 0xff, 0xff, 0xff},";
"	// 134	0x86	10000110	len	3	2	1	3";
"	{0x00, 0x01, 0x02, 0x04, 0x05, 0x08, 0x0c, 0x0d, 0x0e, 0xff, 0xff, 0xff, 0xff, 0xff, 0xff, 0xff},";
"	// 135	0x87	10000111	len	4	2	1	3";
"	{0x00, 0x01, 0x02, 0x03, 0x04, 0x05, 0x08, 0x0c, 0x0d, 0x0e, 0xff, 0xff, 0xff, 0xff, 0xff, 0xff},";
"	// 136	0x88	10001000	len	1	3	1	3";
"	{0x00, 0x04, 0x05, 0x06, 0x08, 0x0c, 0x0d, 0x0e, 0xff, 0xff, 0xff, 0xff, 0xff, 0xff, 0xff, 0xff},";
"	// 137	0x89	10001001	len	2	3	1	3";
"	{0x00, 0x01, 0x04, 0x05, 0x06, 0x08, 0x0c, 0x0d, 0x0e, 0xff, 0xff, 0xff, 0xff, 0xff, 0xff, 0xff},";
"	// 138	0x8a	10001010	len	3	3	1	3";
"	{0x00, 0x01, 0x02, 0x04, 0x05, 0x06, 0x08, 0x0c, 0x0d, 0x0e, 0xff, 0xff, 0xff, 0xff, 0xff, 0xff},";
"	// 139	0x8b	10001011	len	4	3	1	3";
"	{0x00, 0x01, 0x02, 0x03, 0x04, 0x05, 0x06, 0x08, 0x0c, 0x0d, 0x0e, 0xff, 0xff, 0xff, 0xff, 0xff},";
"	// 140	0x8c	10001100	len	1	4	1	3";
"	{0x00, 0x04, 0x05, 0x06, 0x07, 0x08, 0x0c, 0x0d, 0x0e, 0xff, 0xff, 0xff, 0xff, 0xff, 0xff, 0xff},";
"	// 141	0x8d	10001101	len	2	4	1	3";
"	{0x00, 0x01, 0x04, 0x05, 0x06, 0x07, 0x08, 0x0c, 0x0d, 0x0e, 0xff, 0xff, 0xff, 0xff, 0xff, 0xff},";
"	// 142	0x8e	10001110	len	3	4	1	3";
"	{0x00, 0x01, 0x02, 0x04, 0x05, 0x06, 0x07, 0x08, 0x0c, 0x0d, 0x0e, 0xff, 0xff, 0xff, 0xff, 0xff},";
"	// 143	0x8f	10001111	len	4	4	1	3";
"	{0x00, 0x01, 0x02, 0x03, 0x04, 0x05, 0x06, 0x07, 0x08, 0x0c, 0x0d, 0x0e, 0xff, 0xff, 0xff, 0xff},";
"	// 144	0x90	10010000	len	1	1	2	3";
"	{0x00, 0x04, 0x08, 0x09, 0x0c, 0x0d, 0x0e, 0xff, 0xff, 0xff, 0xff, 0xff, 0xff, 0xff, 0xff, 0xff},";
"	// 145	0x91	10010001	len	2	1	2	3";
"	{0x00, 0x01, 0x04, 0x08, 0x09, 0x0c, 0x0d, 0x0e, 0xff, 0xff, 0xff, 0xff, 0xff, 0xff, 0xff, 0xff},";
"	// 146	0x92	10010010	len	3	1	2	3";
"	{0x00, 0x01, 0x02, 0x04, 0x08, 0x09, 0x0c, 0x0d, 0x0e, 0xff, 0xff, 0xff, 0xff, 0xff, 0xff, 0xff},";
"	// 147	0x93	10010011	len	4	1	2	3";
"	{0x00, 0x01, 0x02, 0x03, 0x04, 0x08, 0x09, 0x0c, 0x0d, 0x0e, 0xff, 0xff, 0xff, 0xff, 0xff, 0xff},";
"	// 148	0x94	10010100	len	1	2	2	3";
"	{0x00, 0x04, 0x05, 0x08, 0x09, 0x0c, 0x0d, 0x0e, 0xff, 0xff, 0xff, 0xff, 0xff, 0xff, 0xff, 0xff},";
"	// 149	0x95	10010101	len	2	2	2	3";
"	{0x00, 0x01, 0x04, 0x05, 0x08, 0x09, 0x0c, 0x0d, 0x0e, 0xff, 0xff, 0xff, 0xff, 0xff, 0xff, 0xff},";
"	// 150	0x96	10010110	len	3	2	2	3";
"	{0x00, 0x01, 0x02, 0x04, 0x05, 0x08, 0x09, 0x0c, 0x0d, 0x0e, 0xff, 0xff, 0xff, 0xff, 0xff, 0xff},";
"	// 151	0x97	10010111	len	4	2	2	3";
"	{0x00, 0x01, 0x02, 0x03, 0x04, 0x05, 0x08, 0x09, 0x0c, 0x0d, 0x0e, 0xff, 0xff, 0xff, 0xff, 0xff},";
"	// 152	0x98	10011000	len	1	3	2	3";
"	{0x00, 0x04, 0x05, 0x06, 0x08, 0x09, 0x0c, 0x0d, 0x0e, 0xff, 0xff, 0xff, 0xff, 0xff, 0xff, 0xff},";
"	// 153	0x99	10011001	len	2	3	2	3";
"	{0x00, 0x01, 0x04, 0x05, 0x06, 0x08, 0x09, 0x0c, 0x0d, 0x0e, 0xff, 0xff, 0xff, 0xff, 0xff, 0xff},";
"	// 154	0x9a	10011010	len	3	3	2	3";
"	{0x00, 0x01, 0x02, 0x04, 0x05, 0x06, 0x08, 0x09, 0x0c, 0x0d, 0x0e, 0xff, 0xff, 0xff, 0xff, 0xff},";
"	// 155	0x9b	10011011	len	4	3	2	3";
"	{0x00, 0x01, 0x02, 0x03, 0x04, 0x05, 0x06, 0x08, 0x09, 0x0c, 0x0d, 0x0e, 0xff, 0xff, 0xff, 0xff},";
"	// 156	0x9c	10011100	len	1	4	2	3";
"	{0x00, 0x04, 0x05, 0x06, 0x07, 0x08, 0x09, 0x0c, 0x0d, 0x0e, 0xff, 0xff, 0xff, 0xff, 0xff, 0xff},";
"	// 157	0x9d	10011101	len	2	4	2	3";
"	{0x00, 0x01, 0x04, 0x05, 0x06, 0x07, 0x08, 0x09, 0x0c, 0x0d, 0x0e, 0xff, 0xff, 0xff, 0xff, 0xff},";
"	// 158	0x9e	10011110	len	3	4	2	3";
"	{0x00, 0x01, 0x02, 0x04, 0x05, 0x06, 0x07, 0x08, 0x09, 0x0c, 0x0d, 0x0e, 0xff, 0xff, 0xff, 0xff},";
"	// 159	0x9f	10011111	len	4	4	2	3";
"	{0x00, 0x01, 0x02, 0x03, 0x04, 0x05, 0x06, 0x07, 0x08, 0x09, 0x0c, 0x0d, 0x0e, 0xff, 0xff, 0xff},";
"	// 160	0xa0	10100000	len	1	1	3	3";
"	{0x00, 0x04, 0x08, 0x09, 0x0a, 0x0c, 0x0d, 0x0e, 0xff, 0xff, 0xff, 0xff, 0xff, 0xff, 0xff, 0xff},";
"	// 161	0xa1	10100001	len	2	1	3	3";
"	{0x00, 0x01, 0x04, 0x08, 0x09, 0x0a, 0x0c, 0x0d, 0x0e, 0xff, 0xff, 0xff, 0xff, 0xff, 0xff, 0xff},";
"	// 162	0xa2	10100010	len	3	1	3	3";
"	{0x00, 0x01, 0x02, 0x04, 0x08, 0x09, 0x0a, 0x0c, 0x0d, 0x0e, 0xff, 0xff, 0xff, 0xff, 0xff, 0xff},";
"	// 163	0xa3	10100011	len	4	1	3	3";
"	{0x00, 0x01, 0x02, 0x03, 0x04, 0x08, 0x09, 0x0a, 0x0c, 0x0d, 0x0e, 0xff, 0xff, 0xff, 0xff, 0xff},";
"	// 164	0xa4	10100100	len	1	2	3	3";
"	{0x00, 0x04, 0x05, 0x08, 0x09, 0x0a, 0x0c, 0x0d, 0x0e, 0xff, 0xff, 0xff, 0xff, 0xff, 0xff, 0xff},";
"	// 165	0xa5	10100101	len	2	2	3	3";
"	{0x00, 0x01, 0x04, 0x05, 0x08, 0x09, 0x0a, 0x0c, 0x0d, 0x0e, 0xff, 0xff, 0xff, 0xff, 0xff, 0xff},";
"	// 166	0xa6	10100110	len	3	2	3	3";
"	{0x00, 0x01, 0x02, 0x04, 0x05, 0x08, 0x09, 0x0a, 0x0c, 0x0d, 0x0e, 0xff, 0xff, 0xff, 0xff, 0xff},";
"	// 167	0xa7	10100111	len	4	2	3	3";
"	{0x00, 0x01, 0x02, 0x03, 0x04, 0x05, 0x08, 0x09, 0x0a, 0x0c, 0x0d, 0x0e, 0xff, 0xff, 0xff, 0xff},";
"	// 168	0xa8	10101000	len	1	3	3	3";
"	{0x00, 0x04, 0x05, 0x06, 0x08, 0x09, 0x0a, 0x0c, 0x0d, 0x0e, 0xff, 0xff, 0xff, 0xff, 0xff, 0xff},";
"	// 169	0xa9	10101001	len	2	3	3	3";
"	{0x00, 0x01, 0x04, 0x05, 0x06, 0x08, 0x09, 0x0a, 0x0c, 0x0d, 0x0e, 0xff, 0xff, 0xff, 0xff, 0xff},";
"	// 170	0xaa	10101010	len	3	3	3	3";
"	{0x00, 0x01, 0x02, 0x04, 0x05, 0x06, 0x08, 0x09, 0x0a, 0x0c, 0x0d, 0x0e, 0xff, 0xff, 0xff, 0xff},";
"	// 171	0xab	10101011	len	4	3	3	3";
"	{0x00, 0x01, 0x02, 0x03, 0x04, 0x05, 0x06, 0x08, 0x09, 0x0a, 0x0c, 0x0d, 0x0e, 0xff, 0xff, 0xff},";
"	// 172	0xac	10101100	len	1	4	3	3";
"	{0x00, 0x04, 0x05, 0x06, 0x07, 0x08, 0x09, 0x0a, 0x0c, 0x0d, 0x0e, 0xff, 0xff, 0xff, 0xff, 0xff},";
"	// 173	0xad	10101101	len	2	4	3	3";
"	{0x00, 0x01, 0x04, 0x05, 0x06, 0x07, 0x08, 0x09, 0x0a, 0x0c, 0x0d, 0x0e, 0xff, 0xff, 0xff, 0xff},";
"	// 174	0xae	10101110	len	3	4	3	3";
"	{0x00, 0x01, 0x02, 0x04, 0x05, 0x06, 0x07, 0x08, 0x09, 0x0a, 0x0c, 0x0d, 0x0e, 0xff, 0xff, 0xff},";
"	// 175	0xaf	10101111	len	4	4	3	3";
"	{0x00, 0x01, 0x02, 0x03, 0x04, 0x05, 0x06, 0x07, 0x08, 0x09, 0x0a, 0x0c, 0x0d, 0x0e, 0xff, 0xff},";
"	// 176	0xb0	10110000	len	1	1	4	3";
"	{0x00, 0x04, 0x08, 0x09, 0x0a, 0x0b, 0x0c, 0x0d, 0x0e, 0xff, 0xff, 0xff, 0xff, 0xff, 0xff, 0xff},";
"	// 177	0xb1	10110001	len	2	1	4	3";
"	{0x00, 0x01, 0x04, 0x08, 0x09, 0x0a, 0x0b, 0x0c, 0x0d, 0x0e, 0xff, 0xff, 0xff, 0xff, 0xff, 0xff},";
"	// 178	0xb2	10110010	len	3	1	4	3";
"	{0x00, 0x01, 0x02, 0x04, 0x08, 0x09, 0x0a, 0x0b, 0x0c, 0x0d, 0x0e, 0xff, 0xff, 0xff, 0xff, 0xff},";
"	// 179	0xb3	10110011	len	4	1	4	3";
"	{0x00, 0x01, 0x02, 0x03, 0x04, 0x08, 0x09, 0x0a, 0x0b, 0x0c, 0x0d, 0x0e, 0xff, 0xff, 0xff, 0xff},";
"	// 180	0xb4	10110100	len	1	2	4	3";
"	{0x00, 0x04, 0x05, 0x08, 0x09, 0x0a, 0x0b, 0x0c, 0x0d, 0x0e, 0xff, 0xff, 0xff, 0xff, 0xff, 0xff},";
"	// 181	0xb5	10110101	len	2	2	4	3";
"	{0x00, 0x01, 0x04, 0x05, 0x08, 0x09, 0x0a, 0x0b, 0x0c, 0x0d, 0x0e, 0xff, 0xff, 0xff, 0xff, 0xff},";
"	// 182	0xb6	10110110	len	3	2	4	3";
"	{0x00, 0x01, 0x02, 0x04, 0x05, 0x08, 0x09, 0x0a, 0x0b, 0x0c, 0x0d, 0x0e, 0xff, 0xff, 0xff, 0xff},";
"	// 183	0xb7	10110111	len	4	2	4	3";
"	{0x00, 0x01, 0x02, 0x03, 0x04, 0x05, 0x08, 0x09, 0x0a, 0x0b, 0x0c, 0x0d, 0x0e, 0xff, 0xff, 0xff},";
"	// 184	0xb8	10111000	len	1	3	4	3";
"	{0x00, 0x04, 0x05, 0x06, 0x08, 0x09, 0x0a, 0x0b, 0x0c, 0x0d, 0x0e, 0xff, 0xff, 0xff, 0xff, 0xff},";
"	// 185	0xb9	10111001	len	2	3	4	3";
"	{0x00, 0x01, 0x04, 0x05, 0x06, 0x08, 0x09, 0x0a, 0x0b, 0x0c, 0x0d, 0x0e, 0xff, 0xff, 0xff, 0xff},";
"	// 186	0xba	10111010	len	3	3	4	3";
"	{0x00, 0x01, 0x02, 0x04, 0x05, 0x06, 0x08, 0x09, 0x0a, 0x0b, 0x0c, 0x0d, 0x0e, 0xff, 0xff, 0xff},";
"	// 187	0xbb	10111011	len	4	3	4	3";
"	{0x00, 0x01, 0x02, 0x03, 0x04, 0x05, 0x06, 0x08, 0x09, 0x0a, 0x0b, 0x0c, 0x0d, 0x0e, 0xff, 0xff},";
"	// 188	0xbc	10111100	len	1	4	4	3";
"	{0x00, 0x04, 0x05, 0x06, 0x07, 0x08, 0x09, 0x0a, 0x0b, 0x0c, 0x0d, 0x0e, 0xff, 0xff, 0xff, 0xff},";
"	// 189	0xbd	10111101	len	2	4	4	3";
"	{0x00, 0x01, 0x04, 0x05, 0x06, 0x07, 0x08, 0x09, 0x0a, 0x0b, 0x0c, 0x0d, 0x0e, 0xff, 0xff, 0xff},";
"	// 190	0xbe	10111110	len	3	4	4	3";
"	{0x00, 0x01, 0x02, 0x04, 0x05, 0x06, 0x07, 0x08, 0x09, 0x0a, 0x0b, 0x0c, 0x0d, 0x0e, 0xff, 0xff},";
"	// 191	0xbf	10111111	len	4	4	4	3";
"	{0x00, 0x01, 0x02, 0x03, 0x04, 0x05, 0x06, 0x07, 0x08, 0x09, 0x0a, 0x0b, 0x0c, 0x0d, 0x0e, 0xff},";
"	// 192	0xc0	11000000	len	1	1	1	4";
"	{0x00, 0x04, 0x08, 0x0c, 0x0d, 0x0e, 0x0f, 0xff, 0xff, 0xff, 0xff, 0xff, 0xff, 0xff, 0xff, 0xff},";
"	// 193	0xc1	11000001	len	2	1	1	4";
"	{0x00, 0x01, 0x04, 0x08, 0x0c, 0x0d, 0x0e, 0x0f, 0xff, 0xff, 0xff, 0xff, 0xff, 0xff, 0xff, 0xff},";
"	// 194	0xc2	11000010	len	3	1	1	4";
"	{0x00, 0x01, 0x02, 0x04, 0x08, 0x0c, 0x0d, 0x0e, 0x0f, 0xff, 0xff, 0xff, 0xff, 0xff, 0xff, 0xff},";
"	// 195	0xc3	11000011	len	4	1	1	4";
"	{0x00, 0x01, 0x02, 0x03, 0x04, 0x08, 0x0c, 0x0d, 0x0e, 0x0f, 0xff, 0xff, 0xff, 0xff, 0xff, 0xff},";
"	// 196	0xc4	11000100	len	1	2	1	4";
"	{0x00, 0x04, 0x05, 0x08, 0x0c, 0x0d, 0x0e, 0x0f, 0xff, 0xff, 0xff, 0xff, 0xff, 0xff, 0xff, 0xff},";
"	// 197	0xc5	11000101	len	2	2	1	4";
"	{0x00, 0x01, 0x04, 0x05, 0x08, 0x0c, 0x0d, 0x0e, 0x0f, 0xff, 0xff, 0xff, 0xff, 0xff, 0xff, 0xff},";
"	// 198	0xc6	11000110	len	3	2	1	4";
"	{0x00, 0x01, 0x02, 0x04, 0x05, 0x08, 0x0c, 0x0d, 0x0e, 0x0f, 0xff, 0xff, 0xff, 0xff, 0xff, 0xff},";
"	// 199	0xc7	11000111	len	4	2	1	4";
"	{0x00, 0x01, 0x02, 0x03, 0x04, 0x05, 0x08, 0x0c, 0x0d, 0x0e, 0x0f, 0xff, 0xff, 0xff, 0xff, 0xff},";
"	// 200	0xc8	11001000	len	1	3	1	4";
"	{0x00, 0x04, 0x05, 0x06, 0x08, 0x0c, 0x0d, 0x0e, 0x0f, 0xff, 0xff, 0xff, 0xff, 0xff, 0xff, 0xff},";
"	// 201	0xc9	11001001	len	2	3	1	4";
"	{0x00, 0x01, 0x04, 0x05, 0x06, 0x08, 0x0c, 0x0d, 0x0e, 0x0f, 0xff, 0xff, 0xff, 0xff, 0xff, 0xff},";
"	// 202	0xca	11001010	len	3	3	1	4";
"	{0x00, 0x01, 0x02, 0x04, 0x05, 0x06, 0x08, 0x0c, 0x0d, 0x0e, 0x0f, 0xff, 0xff, 0xff, 0xff, 0xff},";
"	// 203	0xcb	11001011	len	4	3	1	4";
"	{0x00, 0x01, 0x02, 0x03, 0x04, 0x05, 0x06, 0x08, 0x0c, 0x0d, 0x0e, 0x0f, 0xff, 0xff, 0xff, 0xff},";
"	// 204	0xcc	11001100	len	1	4	1	4";
"	{0x00, 0x04, 0x05, 0x06, 0x07, 0x08, 0x0c, 0x0d, 0x0e, 0x0f, 0xff, 0xff, 0xff, 0xff, 0xff, 0xff},";
"	// 205	0xcd	11001101	len	2	4	1	4";
"	{0x00, 0x01, 0x04, 0x05, 0x06, 0x07, 0x08, 0x0c, 0x0d, 0x0e, 0x0f, 0xff, 0xff, 0xff, 0xff, 0xff},";
"	// 206	0xce	11001110	len	3	4	1	4";
"	{0x00, 0x01, 0x02, 0x04, 0x05, 0x06, 0x07, 0x08, 0x0c, 0x0d, 0x0e, 0x0f, 0xff, 0xff, 0xff, 0xff},";
"	// 207	0xcf	11001111	len	4	4	1	4";
"	{0x00, 0x01, 0x02, 0x03, 0x04, 0x05, 0x06, 0x07, 0x08, 0x0c, 0x0d, 0x0e, 0x0f, 0xff, 0xff, 0xff},";
"	// 208	0xd0	11010000	len	1	1	2	4";
"	{0x00, 0x04, 0x08, 0x09, 0x0c, 0x0d, 0x0e, 0x0f, 0xff, 0xff, 0xff, 0xff, 0xff, 0xff, 0xff, 0xff},";
"	// 209	0xd1	11010001	len	2	1	2	4";
"	{0x00, 0x01, 0x04, 0x08, 0x09, 0x0c, 0x0d, 0x0e, 0x0f, 0xff, 0xff, 0xff, 0xff, 0xff, 0xff, 0xff},";
"	// 210	0xd2	11010010	len	3	1	2	4";
"	{0x00, 0x01, 0x02, 0x04, 0x08, 0x09, 0x0c, 0x0d, 0x0e, 0x0f, 0xff, 0xff, 0xff, 0xff, 0xff, 0xff},";
"	// 211	0xd3	11010011	len	4	1	2	4";
"	{0x00, 0x01, 0x02, 0x03, 0x04, 0x08, 0x09, 0x0c, 0x0d, 0x0e, 0x0f, 0xff, 0xff, 0xff, 0xff, 0xff},";
"	// 212	0xd4	11010100	len	1	2	2	4";
"	{0x00, 0x04, 0x05, 0x08, 0x09, 0x0c, 0x0d, 0x0e, 0x0f, 0xff, 0xff, 0xff, 0xff, 0xff, 0xff, 0xff},";
"	// 213	0xd5	11010101	len	2	2	2	4";
"	{0x00, 0x01, 0x04, 0x05, 0x08, 0x09, 0x0c, 0x0d, 0x0e, 0x0f, 0xff, 0xff, 0xff, 0xff, 0xff, 0xff},";
"	// 214	0xd6	11010110	len	3	2	2	4";
"	{0x00, 0x01, 0x02, 0x04, 0x05, 0x08, 0x09, 0x0c, 0x0d, 0x0e, 0x0f, 0xff, 0xff, 0xff, 0xff, 0xff},";
"	// 215	0xd7	11010111	len	4	2	2	4";
"	{0x00, 0x01, 0x02, 0x03, 0x04, 0x05, 0x08, 0x09, 0x0c, 0x0d, 0x0e, 0x0f, 0xff, 0xff, 0xff, 0xff},";
"	// 216	0xd8	11011000	len	1	3	2	4";
"	{0x00, 0x04, 0x05, 0x06, 0x08, 0x09, 0x0c, 0x0d, 0x0e, 0x0f, 0xff, 0xff, 0xff, 0xff, 0xff, 0xff},";
"	// 217	0xd9	11011001	len	2	3	2	4";
"	{0x00, 0x01, 0x04, 0x05, 0x06, 0x08, 0x09, 0x0c, 0x0d, 0x0e, 0x0f, 0xff, 0xff, 0xff, 0xff, 0xff},";
"	// 218	0xda	11011010	len	3	3	2	4";
"	{0x00, 0x01, 0x02, 0x04, 0x05, 0x06, 0x08, 0x09, 0x0c, 0x0d, 0x0e, 0x0f, 0xff, 0xff, 0xff, 0xff},";
"	// 219	0xdb	11011011	len	4	3	2	4";
"	{0x00, 0x01, 0x02, 0x03, 0x04, 0x05, 0x06, 0x08, 0x09, 0x0c, 0x0d, 0x0e, 0x0f, 0xff, 0xff, 0xff},";
"	// 220	0xdc	11011100	len	1	4	2	4";
"	{0x00, 0x04, 0x05, 0x06, 0x07, 0x08, 0x09, 0x0c, 0x0d, 0x0e, 0x0f, 0xff, 0xff, 0xff, 0xff, 0xff},";
"	// 221	0xdd	11011101	len	2	4	2	4";
"	{0x00, 0x01, 0x04, 0x05, 0x06, 0x07, 0x08, 0x09, 0x0c, 0x0d, 0x0e, 0x0f, 0xff, 0xff, 0xff, 0xff},";
"	// 222	0xde	11011110	len	3	4	2	4";
"	{0x00, 0x01, 0x02, 0x04, 0x05, 0x06, 0x07, 0x08, 0x09, 0x0c, 0x0d, 0x0e, 0x0f, 0xff, 0xff, 0xff},";
"	// 223	0xdf	11011111	len	4	4	2	4";
"	{0x00, 0x01, 0x02, 0x03, 0x04, 0x05, 0x06, 0x07, 0x08, 0x09, 0x0c, 0x0d, 0x0e, 0x0f, 0xff, 0xff},";
"	// 224	0xe0	11100000	len	1	1	3	4";
"	{0x00, 0x04, 0x08, 0x09, 0x0a, 0x0c, 0x0d, 0x0e, 0x0f, 0xff, 0xff, 0xff, 0xff, 0xff, 0xff, 0xff},";
"	// 225	0xe1	11100001	len	2	1	3	4";
"	{0x00, 0x01, 0x04, 0x08, 0x09, 0x0a, 0x0c, 0x0d, 0x0e, 0x0f, 0xff, 0xff, 0xff, 0xff, 0xff, 0xff},";
"	// 226	0xe2	11100010	len	3	1	3	4";
"	{0x00, 0x01, 0x02, 0x04, 0x08, 0x09, 0x0a, 0x0c, 0x0d, 0x0e, 0x0f, 0xff, 0xff, 0xff, 0xff, 0xff},";
"	// 227	0xe3	11100011	len	4	1	3	4";
"	{0x00, 0x01, 0x02, 0x03, 0x04, 0x08, 0x09, 0x0a, 0x0c, 0x0d, 0x0e, 0x0f, 0xff, 0xff, 0xff, 0xff},";
"	// 228	0xe4	11100100	len	1	2	3	4";
"	{0x00, 0x04, 0x05, 0x08, 0x09, 0x0a, 0x0c, 0x0d, 0x0e, 0x0f, 0xff, 0xff, 0xff, 0xff, 0xff, 0xff},";
"	// 229	0xe5	11100101	len	2	2	3	4";
"	{0x00, 0x01, 0x04, 0x05, 0x08, 0x09, 0x0a, 0x0c, 0x0d, 0x0e, 0x0f, 0xff, 0xff, 0xff, 0xff, 0xff},";
"	// 230	0xe6	11100110	len	3	2	3	4";
"	{0x00, 0x01, 0x02, 0x04, 0x05, 0x08, 0x09, 0x0a, 0x0c, 0x0d, 0x0e, 0x0f, 0xff, 0xff, 0xff, 0xff},";
"	// 231	0xe7	11100111	len	4	2	3	4";
"	{0x00, 0x01, 0x02, 0x03, 0x04, 0x05, 0x08, 0x09, 0x0a, 0x0c, 0x0d, 0x0e, 0x0f, 0xff, 0xff, 0xff},";
"	// 232	0xe8	11101000	len	1	3	3	4";
"	{0x00, 0x04, 0x05, 0x06, 0x08, 0x09, 0x0a, 0x0c, 0x0d, 0x0e, 0x0f, 0xff, 0xff, 0xff, 0xff, 0xff},";
"	// 233	0xe9	11101001	len	2	3	3	4";
"	{0x00, 0x01, 0x04, 0x05, 0x06, 0x08, 0x09, 0x0a, 0x0c, 0x0d, 0x0e, 0x0f, 0xff, 0xff, 0xff, 0xff},";
"	// 234	0xea	11101010	len	3	3	3	4";
"	{0x00, 0x01, 0x02, 0x04, 0x05, 0x06, 0x08, 0x09, 0x0a, 0x0c, 0x0d, 0x0e, 0x0f, 0xff, 0xff, 0xff},";
"	// 235	0xeb	11101011	len	4	3	3	4";
"	{0x00, 0x01, 0x02, 0x03, 0x04, 0x05, 0x06, 0x08, 0x09, 0x0a, 0x0c, 0x0d, 0x0e, 0x0f, 0xff, 0xff},";
"	// 236	0xec	11101100	len	1	4	3	4";
"	{0x00, 0x04, 0x05, 0x06, 0x07, 0x08, 0x09, 0x0a, 0x0c, 0x0d, 0x0e, 0x0f, 0xff, 0xff, 0xff, 0xff},";
"	// 237	0xed	11101101	len	2	4	3	4";
"	{0x00, 0x01, 0x04, 0x05, 0x06, 0x07, 0x08, 0x09, 0x0a, 0x0c, 0x0d, 0x0e, 0x0f, 0xff, 0xff, 0xff},";
"	// 238	0xee	11101110	len	3	4	3	4";
"	{0x00, 0x01, 0x02, 0x04, 0x05, 0x06, 0x07, 0x08, 0x09, 0x0a, 0x0c, 0x0d, 0x0e, 0x0f, 0xff, 0xff},";
"	// 239	0xef	11101111	len	4	4	3	4";
"	{0x00, 0x01, 0x02, 0x03, 0x04, 0x05, 0x06, 0x07, 0x08, 0x09, 0x0a, 0x0c, 0x0d, 0x0e, 0x0f, 0xff},";
"	// 240	0xf0	11110000	len	1	1	4	4";
"	{0x00, 0x04, 0x08, 0x09, 0x0a, 0x0b, 0x0c, 0x0d, 0x0e, 0x0f, 0xff, 0xff, 0xff, 0xff, 0xff, 0xff},";
"	// 241	0xf1	11110001	len	2	1	4	4";
"	{0x00, 0x01, 0x04, 0x08, 0x09, 0x0a, 0x0b, 0x0c, 0x0d, 0x0e, 0x0f, 0xff, 0xff, 0xff, 0xff, 0xff},";
"	// 242	0xf2	11110010	len	3	1	4	4";
"	{0x00, 0x01, 0x02, 0x04, 0x08, 0x09, 0x0a, 0x0b, 0x0c, 0x0d, 0x0e, 0x0f, 0xff, 0xff, 0xff, 0xff},";
"	// 243	0xf3	11110011	len	4	1	4	4";
"	{0x00, 0x01, 0x02, 0x03, 0x04, 0x08, 0x09, 0x0a, 0x0b, 0x0c, 0x0d, 0x0e, 0x0f, 0xff, 0xff, 0xff},";
"	// 244	0xf4	11110100	len	1	2	4	4";
"	{0x00, 0x04, 0x05, 0x08, 0x09, 0x0a, 0x0b, 0x0c, 0x0d, 0x0e, 0x0f, 0xff, 0xff, 0xff, 0xff, 0xff},";
"	// 245	0xf5	11110101	len	2	2	4	4";
"	{0x00, 0x01, 0x04, 0x05, 0x08, 0x09, 0x0a, 0x0b, 0x0c, 0x0d, 0x0e, 0x0f, 0xff, 0xff, 0xff, 0xff},";
"	// 246	0xf6	11110110	len	3	2	4	4";
"	{0x00, 0x01, 0x02, 0x04, 0x05, 0x08, 0x09, 0x0a, 0x0b, 0x0c, 0x0d, 0x0e, 0x0f, 0xff, 0xff, 0xff},";
"	// 247	0xf7	11110111	len	4	2	4	4";
"	{0x00, 0x01, 0x02, 0x03, 0x04, 0x05, 0x08, 0x09, 0x0a, 0x0b, 0x0c, 0x0d, 0x0e, 0x0f, 0xff, 0xff},";
"	// 248	0xf8	11111000	len	1	3	4	4";
"	{0x00, 0x04, 0x05, 0x06, 0x08, 0x09, 0x0a, 0x0b, 0x0c, 0x0d, 0x0e, 0x0f, 0xff, 0xff, 0xff, 0xff},";
"	// 249	0xf9	11111001	len	2	3	4	4";
"	{0x00, 0x01, 0x04, 0x05, 0x06, 0x08, 0x09, 0x0a, 0x0b, 0x0c, 0x0d, 0x0e, 0x0f, 0xff, 0xff, 0xff},";
"	// 250	0xfa	11111010	len	3	3	4	4";
"	{0x00, 0x01, 0x02, 0x04, 0x05, 0x06, 0x08, 0x09, 0x0a, 0x0b, 0x0c, 0x0d, 0x0e, 0x0f, 0xff, 0xff},";
"	// 251	0xfb	11111011	len	4	3	4	4";
"	{0x00, 0x01, 0x02, 0x03, 0x04, 0x05, 0x06, 0x08, 0x09, 0x0a, 0x0b, 0x0c, 0x0d, 0x0e, 0x0f, 0xff},";
"	// 252	0xfc	11111100	len	1	4	4	4";
"	{0x00, 0x04, 0x05, 0x06, 0x07, 0x08, 0x09, 0x0a, 0x0b, 0x0c, 0x0d, 0x0e, 0x0f, 0xff, 0xff, 0xff},";
"	// 253	0xfd	11111101	len	2	4	4	4";
"	{0x00, 0x01, 0x04, 0x05, 0x06, 0x07, 0x08, 0x09, 0x0a, 0x0b, 0x0c, 0x0d, 0x0e, 0x0f, 0xff, 0xff},";
"	// 254	0xfe	11111110	len	3	4	4	4";
"	{0x00, 0x01, 0x02, 0x04, 0x05, 0x06, 0x07, 0x08, 0x09, 0x0a, 0x0b, 0x0c, 0x0d, 0x0e, 0x0f, 0xff},";
"	// 255	0xff	11111111	len	4	4	4	4";
"	{0x00, 0x01, 0x02, 0x03, 0x04, 0x05, 0x06, 0x07, 0x08, 0x09, 0x0a, 0x0b, 0x0c, 0x0d, 0x0e, 0x0f},";
"}";
"";
"var DecodeShuffleTable *[256][16]uint8 = &[256][16]uint8{";
"	// 0	0x00	00000000	len	1	1	1	1";
"	{0x00, 0xff, 0xff, 0xff, 0x01, 0xff, 0xff, 0xff, 0x02, 0xff, 0xff, 0xff, 0x03, 0xff, 0xff, 0xff},";
"	// 1	0x01	00000001	len	2	1	1	1";
"	{0x00, 0x01, 0xff, 0xff, 0x02, 0xff, 0xff, 0xff, 0x03, 0xff, 0xff, 0xff, 0x04, 0xff, 0xff, 0xff},";
"	// 2	0x02	00000010	len	3	1	1	1";
"	{0x00, 0x01, 0x02, 0xff, 0x03, 0xff, 0xff, 0xff, 0x04, 0xff, 0xff, 0xff, 0x05, 0xff, 0xff, 0xff},";
"	// 3	0x03	00000011	len	4	1	1	1";
"	{0x00, 0x01, 0x02, 0x03, 0x04, 0xff, 0xff, 0xff, 0x05, 0xff, 0xff, 0xff, 0x06, 0xff, 0xff, 0xff},";
"	// 4	0x04	00000100	len	1	2	1	1";
"	{0x00, 0xff, 0xff, 0xff, 0x01, 0x02, 0xff, 0xff, 0x03, 0xff, 0xff, 0xff, 0x04, 0xff, 0xff, 0xff},";
"	// 5	0x05	00000101	len	2	2	1	1";
"	{0x00, 0x01, 0xff, 0xff, 0x02, 0x03, 0xff, 0xff, 0x04, 0xff, 0xff, 0xff, 0x05, 0xff, 0xff, 0xff},";
"	// 6	0x06	00000110	len	3	2	1	1";
"	{0x00, 0x01, 0x02, 0xff, 0x03, 0x04, 0xff, 0xff, 0x05, 0xff, 0xff, 0xff, 0x06, 0xff, 0xff, 0xff},";
"	// 7	0x07	00000111	len	4	2	1	1";
"	{0x00, 0x01, 0x02, 0x03, 0x04, 0x05, 0xff, 0xff, 0x06, 0xff, 0xff, 0xff, 0x07, 0xff, 0xff, 0xff},";
"	// 8	0x08	00001000	len	1	3	1	1";
"	{0x00, 0xff, 0xff, 0xff, 0x01, 0x02, 0x03, 0xff, 0x04, 0xff, 0xff, 0xff, 0x05, 0xff, 0xff, 0xff},";
"	// 9	0x09	00001001	len	2	3	1	1";
"	{0x00, 0x01, 0xff, 0xff, 0x02, 0x03, 0x04, 0xff, 0x05, 0xff, 0xff, 0xff, 0x06, 0xff, 0xff, 0xff},";
"	// 10	0x0a	00001010	len	3	3	1	1";
"	{0x00, 0x01, 0x02, 0xff, 0x03, 0x04, 0x05, 0xff, 0x06, 0xff, 0xff, 0xff, 0x07, 0xff, 0xff, 0xff},";
"	// 11	0x0b	00001011	len	4	3	1	1";
"	{0x00, 0x01, 0x02, 0x03, 0x04, 0x05, 0x06, 0xff, 0x07, 0xff, 0xff, 0xff, 0x08, 0xff, 0xff, 0xff},";
"	// 12	0x0c	00001100	len	1	4	1	1";
"	{0x00, 0xff, 0xff, 0xff, 0x01, 0x02, 0x03, 0x04, 0x05, 0xff, 0xff, 0xff, 0x06, 0xff, 0xff, 0xff},";
"	// 13	0x0d	00001101	len	2	4	1	1";
"	{0x00, 0x01, 0xff, 0xff, 0x02, 0x03, 0x04, 0x05, 0x06, 0xff, 0xff, 0xff, 0x07, 0xff, 0xff, 0xff},";
"	// 14	0x0e	00001110	len	3	4	1	1";
"	{0x00, 0x01, 0x02, 0xff, 0x03, 0x04, 0x05, 0x06, 0x07, 0xff, 0xff, 0xff, 0x08, 0xff, 0xff, 0xff},";
"	// 15	0x0f	00001111	len	4	4	1	1";
"	{0x00, 0x01, 0x02, 0x03, 0x04, 0x05, 0x06, 0x07, 0x08, 0xff, 0xff, 0xff, 0x09, 0xff, 0xff, 0xff},";
"	// 16	0x10	00010000	len	1	1	2	1";
"	{0x00, 0xff, 0xff, 0xff, 0x01, 0xff, 0xff, 0xff, 0x02, 0x03, 0xff, 0xff, 0x04, 0xff, 0xff, 0xff},";
"	// 17	0x11	00010001	len	2	1	2	1";
"	{0x00, 0x01, 0xff, 0xff, 0x02, 0xff, 0xff, 0xff, 0x03, 0x04, 0xff, 0xff, 0x05, 0xff, 0xff, 0xff},";
"	// 18	0x12	00010010	len	3	1	2	1";
"	{0x00, 0x01, 0x02, 0xff, 0x03, 0xff, 0xff, 0xff, 0x04, 0x05, 0xff, 0xff, 0x06, 0xff, 0xff, 0xff},";
"	// 19	0x13	00010011	len	4	1	2	1";
"	{0x00, 0x01, 0x02, 0x03, 0x04, 0xff, 0xff, 0xff, 0x05, 0x06, 0xff, 0xff, 0x07, 0xff, 0xff, 0xff},";
"	// 20	0x14	00010100	len	1	2	2	1";
"	{0x00, 0xff, 0xff, 0xff, 0x01, 0x02, 0xff, 0xff, 0x03, 0x04, 0xff, 0xff, 0x05, 0xff, 0xff, 0xff},";
"	// 21	0x15	00010101	len	2	2	2	1";
"	{0x00, 0x01, 0xff, 0xff, 0x02, 0x03, 0xff, 0xff, 0x04, 0x05, 0xff, 0xff, 0x06, 0xff, 0xff, 0xff},";
"	// 22	0x16	00010110	len	3	2	2	1";
"	{0x00, 0x01, 0x02, 0xff, 0x03, 0x04, 0xff, 0xff, 0x05, 0x06, 0xff, 0xff, 0x07, 0xff, 0xff, 0xff},";
"	// 23	0x17	00010111	len	4	2	2	1";
"	{0x00, 0x01, 0x02, 0x03, 0x04, 0x05, 0xff, 0xff, 0x06, 0x07, 0xff, 0xff, 0x08, 0xff, 0xff, 0xff},";
"	// 24	0x18	00011000	len	1	3	2	1";
"	{0x00, 0xff, 0xff, 0xff, 0x01, 0x02, 0x03, 0xff, 0x04, 0x05, 0xff, 0xff, 0x06, 0xff, 0xff, 0xff},";
"	// 25	0x19	00011001	len	2	3	2	1";
"	{0x00, 0x01, 0xff, 0xff, 0x02, 0x03, 0x04, 0xff, 0x05, 0x06, 0xff, 0xff, 0x07, 0xff, 0xff, 0xff},";
"	// 26	0x1a	00011010	len	3	3	2	1";
"	{0x00, 0x01, 0x02, 0xff, 0x03, 0x04, 0x05, 0xff, 0x06, 0x07, 0xff, 0xff, 0x08, 0xff, 0xff, 0xff},";
"	// 27	0x1b	00011011	len	4	3	2	1";
"	{0x00, 0x01, 0x02, 0x03, 0x04, 0x05, 0x06, 0xff, 0x07, 0x08, 0xff, 0xff, 0x09, 0xff, 0xff, 0xff},";
"	// 28	0x1c	00011100	len	1	4	2	1";
"	{0x00, 0xff, 0xff, 0xff, 0x01, 0x02, 0x03, 0x04, 0x05, 0x06, 0xff, 0xff, 0x07, 0xff, 0xff, 0xff},";
"	// 29	0x1d	00011101	len	2	4	2	1";
"	{0x00, 0x01, 0xff, 0xff, 0x02, 0x03, 0x04, 0x05, 0x06, 0x07, 0xff, 0xff, 0x08, 0xff, 0xff, 0xff},";
"	// 30	0x1e	00011110	len	3	4	2	1";
"	{0x00, 0x01, 0x02, 0xff, 0x03, 0x04, 0x05, 0x06, 0x07, 0x08, 0xff, 0xff, 0x09, 0xff, 0xff, 0xff},";
"	// 31	0x1f	00011111	len	4	4	2	1";
"	{0x00, 0x01, 0x02, 0x03, 0x04, 0x05, 0x06, 0x07, 0x08, 0x09, 0xff, 0xff, 0x0a, 0xff, 0xff, 0xff},";
"	// 32	0x20	00100000	len	1	1	3	1";
"	{0x00, 0xff, 0xff, 0xff, 0x01, 0xff, 0xff, 0xff, 0x02, 0x03, 0x04, 0xff, 0x05, 0xff, 0xff, 0xff},";
"	// 33	0x21	00100001	len	2	1	3	1";
"	{0x00, 0x01, 0xff, 0xff, 0x02, 0xff, 0xff, 0xff, 0x03, 0x04, 0x05, 0xff, 0x06, 0xff, 0xff, 0xff},";
"	// 34	0x22	00100010	len	3	1	3	1";
"	{0x00, 0x01, 0x02, 0xff, 0x03, 0xff, 0xff, 0xff, 0x04, 0x05, 0x06, 0xff, 0x07, 0xff, 0xff, 0xff},";
"	// 35	0x23	00100011	len	4	1	3	1";
"	{0x00, 0x01, 0x02, 0x03, 0x04, 0xff, 0xff, 0xff, 0x05, 0x06, 0x07, 0xff, 0x08, 0xff, 0xff, 0xff},";
"	// 36	0x24	00100100	len	1	2	3	1";
"	{0x00, 0xff, 0xff, 0xff, 0x01, 0x02, 0xff, 0xff, 0x03, 0x04, 0x05, 0xff, 0x06, 0xff, 0xff, 0xff},";
"	// 37	0x25	00100101	len	2	2	3	1";
"	{0x00, 0x01, 0xff, 0xff, 0x02, 0x03, 0xff, 0xff, 0x04, 0x05, 0x06, 0xff, 0x07, 0xff, 0xff, 0xff},";
"	// 38	0x26	00100110	len	3	2	3	1";
"	{0x00, 0x01, 0x02, 0xff, 0x03, 0x04, 0xff, 0xff, 0x05, 0x06, 0x07, 0xff, 0x08, 0xff, 0xff, 0xff},";
"	// 39	0x27	00100111	len	4	2	3	1";
"	{0x00, 0x01, 0x02, 0x03, 0x04, 0x05, 0xff, 0xff, 0x06, 0x07, 0x08, 0xff, 0x09, 0xff, 0xff, 0xff},";
"	// 40	0x28	00101000	len	1	3	3	1";
"	{0x00, 0xff, 0xff, 0xff, 0x01, 0x02, 0x03, 0xff, 0x04, 0x05, 0x06, 0xff, 0x07, 0xff, 0xff, 0xff},";
"	// 41	0x29	00101001	len	2	3	3	1";
"	{0x00, 0x01, 0xff, 0xff, 0x02, 0x03, 0x04, 0xff, 0x05, 0x06, 0x07, 0xff, 0x08, 0xff, 0xff, 0xff},";
"	// 42	0x2a	00101010	len	3	3	3	1";
"	{0x00, 0x01, 0x02, 0xff, 0x03, 0x04, 0x05, 0xff, 0x06, 0x07, 0x08, 0xff, 0x09, 0xff, 0xff, 0xff},";
"	// 43	0x2b	00101011	len	4	3	3	1";
"	{0x00, 0x01, 0x02, 0x03, 0x04, 0x05, 0x06, 0xff, 0x07, 0x08, 0x09, 0xff, 0x0a, 0xff, 0xff, 0xff},";
"	// 44	0x2c	00101100	len	1	4	3	1";
"	{0x00, 0xff, 0xff, 0xff, 0x01, 0x02, 0x03, 0x04, 0x05, 0x06, 0x07, 0xff, 0x08, 0xff, 0xff, 0xff},";
"	// 45	0x2d	00101101	len	2	4	3	1";
"	{0x00, 0x01, 0xff, 0xff, 0x02, 0x03, 0x04, 0x05, 0x06, 0x07, 0x08, 0xff, 0x09, 0xff, 0xff, 0xff},";
"	// 46	0x2e	00101110	len	3	4	3	1";
"	{0x00, 0x01, 0x02, 0xff, 0x03, 0x04, 0x05, 0x06, 0x07, 0x08, 0x09, 0xff, 0x0a, 0xff, 0xff, 0xff},";
"	// 47	0x2f	00101111	len	4	4	3	1";
"	{0x00, 0x01, 0x02, 0x03, 0x04, 0x05, 0x06, 0x07, 0x08, 0x09, 0x0a, 0xff, 0x0b, 0xff, 0xff, 0xff},";
"	// 48	0x30	00110000	len	1	1	4	1";
"	{0x00, 0xff, 0xff, 0xff, 0x01, 0xff, 0xff, 0xff, 0x02, 0x03, 0x04, 0x05, 0x06, 0xff, 0xff, 0xff},";
"	// 49	0x31	00110001	len	2	1	4	1";
"	{0x00, 0x01, 0xff, 0xff, 0x02, 0xff, 0xff, 0xff, 0x03, 0x04, 0x05, 0x06, 0x07, 0xff, 0xff, 0xff},";
"	// 50	0x32	00110010	len	3	1	4	1";
"	{0x00, 0x01, 0x02, 0xff, 0x03, 0xff, 0xff, 0xff, 0x04, 0x05, 0x06, 0x07, 0x08, 0xff, 0xff, 0xff},";
"	// 51	0x33	00110011	len	4	1	4	1";
"	{0x00, 0x01, 0x02, 0x03, 0x04, 0xff, 0xff, 0xff, 0x05, 0x06, 0x07, 0x08, 0x09, 0xff, 0xff, 0xff},";
"	// 52	0x34	00110100	len	1	2	4	1";
"	{0x00, 0xff, 0xff, 0xff, 0x01, 0x02, 0xff, 0xff, 0x03, 0x04, 0x05, 0x06, 0x07, 0xff, 0xff, 0xff},";
"	// 53	0x35	00110101	len	2	2	4	1";
"	{0x00, 0x01, 0xff, 0xff, 0x02, 0x03, 0xff, 0xff, 0x04, 0x05, 0x06, 0x07, 0x08, 0xff, 0xff, 0xff},";
"	// 54	0x36	00110110	len	3	2	4	1";
"	{0x00, 0x01, 0x02, 0xff, 0x03, 0x04, 0xff, 0xff, 0x05, 0x06, 0x07, 0x08, 0x09, 0xff, 0xff, 0xff},";
"	// 55	0x37	00110111	len	4	2	4	1";
"	{0x00, 0x01, 0x02, 0x03, 0x04, 0x05, 0xff, 0xff, 0x06, 0x07, 0x08, 0x09, 0x0a, 0xff, 0xff, 0xff},";
"	// 56	0x38	00111000	len	1	3	4	1";
"	{0x00, 0xff, 0xff, 0xff, 0x01, 0x02, 0x03, 0xff, 0x04, 0x05, 0x06, 0x07, 0x08, 0xff, 0xff, 0xff},";
"	// 57	0x39	00111001	len	2	3	4	1";
"	{0x00, 0x01, 0xff, 0xff, 0x02, 0x03, 0x04, 0xff, 0x05, 0x06, 0x07, 0x08, 0x09, 0xff, 0xff, 0xff},";
"	// 58	0x3a	00111010	len	3	3	4	1";
"	{0x00, 0x01, 0x02, 0xff, 0x03, 0x04, 0x05, 0xff, 0x06, 0x07, 0x08, 0x09, 0x0a, 0xff, 0xff, 0xff},";
"	// 59	0x3b	00111011	len	4	3	4	1";
"	{0x00, 0x01, 0x02, 0x03, 0x04, 0x05, 0x06, 0xff, 0x07, 0x08, 0x09, 0x0a, 0x0b, 0xff, 0xff, 0xff},";
"	// 60	0x3c	00111100	len	1	4	4	1";
"	{0x00, 0xff, 0xff, 0xff, 0x01, 0x02, 0x03, 0x04, 0x05, 0x06, 0x07, 0x08, 0x09, 0xff, 0xff, 0xff},";
"	// 61	0x3d	00111101	len	2	4	4	1";
"	{0x00, 0x01, 0xff, 0xff, 0x02, 0x03, 0x04, 0x05, 0x06, 0x07, 0x08, 0x09, 0x0a, 0xff, 0xff, 0xff},";
"	// 62	0x3e	00111110	len	3	4	4	1";
"	{0x00, 0x01, 0x02, 0xff, 0x03, 0x04, 0x05, 0x06, 0x07, 0x08, 0x09, 0x0a, 0x0b, 0xff, 0xff, 0xff},";
"	// 63	0x3f	00111111	len	4	4	4	1";
"	{0x00, 0x01, 0x02, 0x03, 0x04, 0x05, 0x06, 0x07, 0x08, 0x09, 0x0a, 0x0b, 0x0c, 0xff, 0xff, 0xff},";
"	// 64	0x40	01000000	len	1	1	1	2";
"	{0x00, 0xff, 0xff, 0xff, 0x01, 0xff, 0xff, 0xff, 0x02, 0xff, 0xff, 0xff, 0x03, 0x04, 0xff, 0xff},";
"	// 65	0x41	01000001	len	2	1	1	2";
"	{0x00, 0x01, 0xff, 0xff, 0x02, 0xff, 0xff, 0xff, 0x03, 0xff, 0xff, 0xff, 0x04, 0x05, 0xff, 0xff},";
"	// 66	0x42	01000010	len	3	1	1	2";
"	{0x00, 0x01, 0x02, 0xff, 0x03, 0xff, 0xff, 0xff, 0x04, 0xff, 0xff, 0xff, 0x05, 0x06, 0xff, 0xff},";
"	// 67	0x43	01000011	len	4	1	1	2";
"	{0x00, 0x01, 0x02, 0x03, 0x04, 0xff, 0xff, 0xff, 0x05, 0xff, 0xff, 0xff, 0x06, 0x07, 0xff, 0xff},";
"	// 68	0x44	01000100	len	1	2	1	2";
"	{0x00, 0xff, 0xff, 0xff, 0x01, 0x02, 0xff, 0xff, 0x03, 0xff, 0xff, 0xff, 0x04, 0x05, 0xff, 0xff},";
"	// 69	0x45	01000101	len	2	2	1	2";
"	{0x00, 0x01, 0xff, 0xff, 0x02, 0x03, 0xff, 0xff, 0x04, 0xff, 0xff, 0xff, 0x05, 0x06, 0xff, 0xff},";
"	// 70	0x46	01000110	len	3	2	1	2";
"	{0x00, 0x01, 0x02, 0xff, 0x03, 0x04, 0xff, 0xff, 0x05, 0xff, 0xff, 0xff, 0x06, 0x07, 0xff, 0xff},";
"	// 71	0x47	01000111	len	4	2	1	2";
"	{0x00, 0x01, 0x02, 0x03, 0x04, 0x05, 0xff, 0xff, 0x06, 0xff, 0xff, 0xff, 0x07, 0x08, 0xff, 0xff},";
"	// 72	0x48	01001000	len	1	3	1	2";
"	{0x00, 0xff, 0xff, 0xff, 0x01, 0x02, 0x03, 0xff, 0x04, 0xff, 0xff, 0xff, 0x05, 0x06, 0xff, 0xff},";
"	// 73	0x49	01001001	len	2	3	1	2";
"	{0x00, 0x01, 0xff, 0xff, 0x02, 0x03, 0x04, 0xff, 0x05, 0xff, 0xff, 0xff, 0x06, 0x07, 0xff, 0xff},";
"	// 74	0x4a	01001010	len	3	3	1	2";
"	{0x00, 0x01, 0x02, 0xff, 0x03, 0x04, 0x05, 0xff, 0x06, 0xff, 0xff, 0xff, 0x07, 0x08, 0xff, 0xff},";
"	// 75	0x4b	01001011	len	4	3	1	2";
"	{0x00, 0x01, 0x02, 0x03, 0x04, 0x05, 0x06, 0xff, 0x07, 0xff, 0xff, 0xff, 0x08, 0x09, 0xff, 0xff},";
"	// 76	0x4c	01001100	len	1	4	1	2";
"	{0x00, 0xff, 0xff, 0xff, 0x01, 0x02, 0x03, 0x04, 0x05, 0xff, 0xff, 0xff, 0x06, 0x07, 0xff, 0xff},";
"	// 77	0x4d	01001101	len	2	4	1	2";
"	{0x00, 0x01, 0xff, 0xff, 0x02, 0x03, 0x04, 0x05, 0x06, 0xff, 0xff, 0xff, 0x07, 0x08, 0xff, 0xff},";
"	// 78	0x4e	01001110	len	3	4	1	2";
"	{0x00, 0x01, 0x02, 0xff, 0x03, 0x04, 0x05, 0x06, 0x07, 0xff, 0xff, 0xff, 0x08, 0x09, 0xff, 0xff},";
"	// 79	0x4f	01001111	len	4	4	1	2";
"	{0x00, 0x01, 0x02, 0x03, 0x04, 0x05, 0x06, 0x07, 0x08, 0xff, 0xff, 0xff, 0x09, 0x0a, 0xff, 0xff},";
"	// 80	0x50	01010000	len	1	1	2	2";
"	{0x00, 0xff, 0xff, 0xff, 0x01, 0xff, 0xff, 0xff, 0x02, 0x03, 0xff, 0xff, 0x04, 0x05, 0xff, 0xff},";
"	// 81	0x51	01010001	len	2	1	2	2";
"	{0x00, 0x01, 0xff, 0xff, 0x02, 0xff, 0xff, 0xff, 0x03, 0x04, 0xff, 0xff, 0x05, 0x06, 0xff, 0xff},";
"	// 82	0x52	01010010	len	3	1	2	2";
"	{0x00, 0x01, 0x02, 0xff, 0x03, 0xff, 0xff, 0xff, 0x04, 0x05, 0xff, 0xff, 0x06, 0x07, 0xff, 0xff},";
"	// 83	0x53	01010011	len	4	1	2	2";
"	{0x00, 0x01, 0x02, 0x03, 0x04, 0xff, 0xff, 0xff, 0x05, 0x06, 0xff, 0xff, 0x07, 0x08, 0xff, 0xff},";
"	// 84	0x54	01010100	len	1	2	2	2";
"	{0x00, 0xff, 0xff, 0xff, 0x01, 0x02, 0xff, 0xff, 0x03, 0x04, 0xff, 0xff, 0x05, 0x06, 0xff, 0xff},";
"	// 85	0x55	01010101	len	2	2	2	2";
"	{0x00, 0x01, 0xff, 0xff, 0x02, 0x03, 0xff, 0xff, 0x04, 0x05, 0xff, 0xff, 0x06, 0x07, 0xff, 0xff},";
"	// 86	0x56	01010110	len	3	2	2	2";
"	{0x00, 0x01, 0x02, 0xff, 0x03, 0x04, 0xff, 0xff, 0x05, 0x06, 0xff, 0xff, 0x07, 0x08, 0xff, 0xff},";
"	// 87	0x57	01010111	len	4	2	2	2";
"	{0x00, 0x01, 0x02, 0x03, 0x04, 0x05, 0xff, 0xff, 0x06, 0x07, 0xff, 0xff, 0x08, 0x09, 0xff, 0xff},";
"	// 88	0x58	01011000	len	1	3	2	2";
"	{0x00, 0xff, 0xff, 0xff, 0x01, 0x02, 0x03, 0xff, 0x04, 0x05, 0xff, 0xff, 0x06, 0x07, 0xff, 0xff},";
"	// 89	0x59	01011001	len	2	3	2	2";
"	{0x00, 0x01, 0xff, 0xff, 0x02, 0x03, 0x04, 0xff, 0x05, 0x06, 0xff, 0xff, 0x07, 0x08, 0xff, 0xff},";
"	// 90	0x5a	01011010	len	3	3	2	2";
"	{0x00, 0x01, 0x02, 0xff, 0x03, 0x04, 0x05, 0xff, 0x06, 0x07, 0xff, 0xff, 0x08, 0x09, 0xff, 0xff},";
"	// 91	0x5b	01011011	len	4	3	2	2";
"	{0x00, 0x01, 0x02, 0x03, 0x04, 0x05, 0x06, 0xff, 0x07, 0x08, 0xff, 0xff, 0x09, 0x0a, 0xff, 0xff},";
"	// 92	0x5c	01011100	len	1	4	2	2";
"	{0x00, 0xff, 0xff, 0xff, 0x01, 0x02, 0x03, 0x04, 0x05, 0x06, 0xff, 0xff, 0x07, 0x08, 0xff, 0xff},";
"	// 93	0x5d	01011101	len	2	4	2	2";
"	{0x00, 0x01, 0xff, 0xff, 0x02, 0x03, 0x04, 0x05, 0x06, 0x07, 0xff, 0xff, 0x08, 0x09, 0xff, 0xff},";
"	// 94	0x5e	01011110	len	3	4	2	2";
"	{0x00, 0x01, 0x02, 0xff, 0x03, 0x04, 0x05, 0x06, 0x07, 0x08, 0xff, 0xff, 0x09, 0x0a, 0xff, 0xff},";
"	// 95	0x5f	01011111	len	4	4	2	2";
"	{0x00, 0x01, 0x02, 0x03, 0x04, 0x05, 0x06, 0x07, 0x08, 0x09, 0xff, 0xff, 0x0a, 0x0b, 0xff, 0xff},";
"	// 96	0x60	01100000	len	1	1	3	2";
"	{0x00, 0xff, 0xff, 0xff, 0x01, 0xff, 0xff, 0xff, 0x02, 0x03, 0x04, 0xff, 0x05, 0x06, 0xff, 0xff},";
"	// 97	0x61	01100001	len	2	1	3	2";
"	{0x00, 0x01, 0xff, 0xff, 0x02, 0xff, 0xff, 0xff, 0x03, 0x04, 0x05, 0xff, 0x06, 0x07, 0xff, 0xff},";
"	// 98	0x62	01100010	len	3	1	3	2";
"	{0x00, 0x01, 0x02, 0xff, 0x03, 0xff, 0xff, 0xff, 0x04, 0x05, 0x06, 0xff, 0x07, 0x08, 0xff, 0xff},";
"	// 99	0x63	01100011	len	4	1	3	2";
"	{0x00, 0x01, 0x02, 0x03, 0x04, 0xff, 0xff, 0xff, 0x05, 0x06, 0x07, 0xff, 0x08, 0x09, 0xff, 0xff},";
"	// 100	0x64	01100100	len	1	2	3	2";
"	{0x00, 0xff, 0xff, 0xff, 0x01, 0x02, 0xff, 0xff, 0x03, 0x04, 0x05, 0xff, 0x06, 0x07, 0xff, 0xff},";
"	// 101	0x65	01100101	len	2	2	3	2";
"	{0x00, 0x01, 0xff, 0xff, 0x02, 0x03, 0xff, 0xff, 0x04, 0x05, 0x06, 0xff, 0x07, 0x08, 0xff, 0xff},";
"	// 102	0x66	01100110	len	3	2	3	2";
"	{0x00, 0x01, 0x02, 0xff, 0x03, 0x04, 0xff, 0xff, 0x05, 0x06, 0x07, 0xff, 0x08, 0x09, 0xff, 0xff},";
"	// 103	0x67	01100111	len	4	2	3	2";
"	{0x00, 0x01, 0x02, 0x03, 0x04, 0x05, 0xff, 0xff, 0x06, 0x07, 0x08, 0xff, 0x09, 0x0a, 0xff, 0xff},";
"	// 104	0x68	01101000	len	1	3	3	2";
"	{0x00, 0xff, 0xff, 0xff, 0x01, 0x02, 0x03, 0xff, 0x04, 0x05, 0x06, 0xff, 0x07, 0x08, 0xff, 0xff},";
"	// 105	0x69	01101001	len	2	3	3	2";
"	{0x00, 0x01, 0xff, 0xff, 0x02, 0x03, 0x04, 0xff, 0x05, 0x06, 0x07, 0xff, 0x08, 0x09, 0xff, 0xff},";
"	// 106	0x6a	01101010	len	3	3	3	2";
"	{0x00, 0x01, 0x02, 0xff, 0x03, 0x04, 0x05, 0xff, 0x06, 0x07, 0x08, 0xff, 0x09, 0x0a, 0xff, 0xff},";
"	// 107	0x6b	01101011	len	4	3	3	2";
"	{0x00, 0x01, 0x02, 0x03, 0x04, 0x05, 0x06, 0xff, 0x07, 0x08, 0x09, 0xff, 0x0a, 0x0b, 0xff, 0xff},";
"	// 108	0x6c	01101100	len	1	4	3	2";
"	{0x00, 0xff, 0xff, 0xff, 0x01, 0x02, 0x03, 0x04, 0x05, 0x06, 0x07, 0xff, 0x08, 0x09, 0xff, 0xff},";
"	// 109	0x6d	01101101	len	2	4	3	2";
"	{0x00, 0x01, 0xff, 0xff, 0x02, 0x03, 0x04, 0x05, 0x06, 0x07, 0x08, 0xff, 0x09, 0x0a, 0xff, 0xff},";
"	// 110	0x6e	01101110	len	3	4	3	2";
"	{0x00, 0x01, 0x02, 0xff, 0x03, 0x04, 0x05, 0x06, 0x07, 0x08, 0x09, 0xff, 0x0a, 0x0b, 0xff, 0xff},";
"	// 111	0x6f	01101111	len	4	4	3	2";
"	{0x00, 0x01, 0x02, 0x03, 0x04, 0x05, 0x06, 0x07, 0x08, 0x09, 0x0a, 0xff, 0x0b, 0x0c, 0xff, 0xff},";
"	// 112	0x70	01110000	len	1	1	4	2";
"	{0x00, 0xff, 0xff, 0xff, 0x01, 0xff, 0xff, 0xff, 0x02, 0x03, 0x04, 0x05, 0x06, 0x07, 0xff, 0xff},";
"	// 113	0x71	01110001	len	2	1	4	2";
"	{0x00, 0x01, 0xff, 0xff, 0x02, 0xff, 0xff, 0xff, 0x03, 0x04, 0x05, 0x06, 0x07, 0x08, 0xff, 0xff},";
"	// 114	0x72	01110010	len	3	1	4	2";
"	{0x00, 0x01, 0x02, 0xff, 0x03, 0xff, 0xff, 0xff, 0x04, 0x05, 0x06, 0x07, 0x08, 0x09, 0xff, 0xff},";
"	// 115	0x73	01110011	len	4	1	4	2";
"	{0x00, 0x01, 0x02, 0x03, 0x04, 0xff, 0xff, 0xff, 0x05, 0x06, 0x07, 0x08, 0x09, 0x0a, 0xff, 0xff},";
"	// 116	0x74	01110100	len	1	2	4	2";
"	{0x00, 0xff, 0xff, 0xff, 0x01, 0x02, 0xff, 0xff, 0x03, 0x04, 0x05, 0x06, 0x07, 0x08, 0xff, 0xff},";
"	// 117	0x75	01110101	len	2	2	4	2";
"	{0x00, 0x01, 0xff, 0xff, 0x02, 0x03, 0xff, 0xff, 0x04, 0x05, 0x06, 0x07, 0x08, 0x09, 0xff, 0xff},";
"	// 118	0x76	01110110	len	3	2	4	2";
"	{0x00, 0x01, 0x02, 0xff, 0x03, 0x04, 0xff, 0xff, 0x05, 0x06, 0x07, 0x08, 0x09, 0x0a, 0xff, 0xff},";
"	// 119	0x77	01110111	len	4	2	4	2";
"	{0x00, 0x01, 0x02, 0x03, 0x04, 0x05, 0xff, 0xff, 0x06, 0x07, 0x08, 0x09, 0x0a, 0x0b, 0xff, 0xff},";
"	// 120	0x78	01111000	len	1	3	4	2";
"	{0x00, 0xff, 0xff, 0xff, 0x01, 0x02, 0x03, 0xff, 0x04, 0x05, 0x06, 0x07, 0x08, 0x09, 0xff, 0xff},";
"	// 121	0x79	01111001	len	2	3	4	2";
"	{0x00, 0x01, 0xff, 0xff, 0x02, 0x03, 0x04, 0xff, 0x05, 0x06, 0x07, 0x08, 0x09, 0x0a, 0xff, 0xff},";
"	// 122	0x7a	01111010	len	3	3	4	2";
"	{0x00, 0x01, 0x02, 0xff, 0x03, 0x04, 0x05, 0xff, 0x06, 0x07, 0x08, 0x09, 0x0a, 0x0b, 0xff, 0xff},";
"	// 123	0x7b	01111011	len	4	3	4	2";
"	{0x00, 0x01, 0x02, 0x03, 0x04, 0x05, 0x06, 0xff, 0x07, 0x08, 0x09, 0x0a, 0x0b, 0x0c, 0xff, 0xff},";
"	// 124	0x7c	01111100	len	1	4	4	2";
"	{0x00, 0xff, 0xff, 0xff, 0x01, 0x02, 0x03, 0x04, 0x05, 0x06, 0x07, 0x08, 0x09, 0x0a, 0xff, 0xff},";
"	// 125	0x7d	01111101	len	2	4	4	2";
"	{0x00, 0x01, 0xff, 0xff, 0x02, 0x03, 0x04, 0x05, 0x06, 0x07, 0x08, 0x09, 0x0a, 0x0b, 0xff, 0xff},";
"	// 126	0x7e	01111110	len	3	4	4	2";
"	{0x00, 0x01, 0x02, 0xff, 0x03, 0x04, 0x05, 0x06, 0x07, 0x08, 0x09, 0x0a, 0x0b, 0x0c, 0xff, 0xff},";
"	// 127	0x7f	01111111	len	4	4	4	2";
"	{0x00, 0x01, 0x02, 0x03, 0x04, 0x05, 0x06, 0x07, 0x08, 0x09, 0x0a, 0x0b, 0x0c, 0x0d, 0xff, 0xff},";
"	// 128	0x80	10000000	len	1	1	1	3";
"	{0x00, 0xff, 0xff, 0xff, 0x01, 0xff, 0xff, 0xff, 0x02, 0xff, 0xff, 0xff, 0x03, 0x04, 0x05, 0xff},";
"	// 129	0x81	10000001	len	2	1	1	3";
"	{0x00, 0x01, 0xff, 0xff, 0x02, 0xff, 0xff, 0xff, 0x03, 0xff, 0xff, 0xff, 0x04, 0x05, 0x06, 0xff},";
"	// 130	0x82	10000010	len	3	1	1	3";
"	{0x00, 0x01, 0x02, 0xff, 0x03, 0xff, 0xff, 0xff, 0x04, 0xff, 0xff, 0xff, 0x05, 0x06, 0x07, 0xff},";
"	// 131	0x83	10000011	len	4	1	1	3";
"	{0x00, 0x01, 0x02, 0x03, 0x04, 0xff, 0xff, 0xff, 0x05, 0xff, 0xff, 0xff, 0x06, 0x07, 0x08, 0xff},";
"	// 132	0x84	10000100	len	1	2	1	3";
"	{0x00, 0xff, 0xff, 0xff, 0x01, 0x02, 0xff, 0xff, 0x03, 0xff, 0xff, 0xff, 0x04, 0x05, 0x06, 0xff},";
"	// 133	0x85	10000101	len	2	2	1	3";
"	{0x00, 0x01, 0xff, 0xff, 0x02, 0x03, 0xff, 0xff, 0x04, 0xff, 0xff, 0xff, 0x05, 0x06, 0x07, 0xff},";
"	// 134	0x86	10000110	len	3	2	1	3";
"	{0x00, 0x01, 0x02, 0xff, 0x03, 0x04, 0xff, 0xff, 0x05, 0xff, 0xff, 0xff, 0x06, 0x07, 0x08, 0xff},";
"	// 135	0x87	10000111	len	4	2	1	3";
"	{0x00, 0x01, 0x02, 0x03, 0x04, 0x05, 0xff, 0xff, 0x06, 0xff, 0xff, 0xff, 0x07, 0x08, 0x09, 0xff},";
"	// 136	0x88	10001000	len	1	3	1	3";
"	{0x00, 0xff, 0xff, 0xff, 0x01, 0x02, 0x03, 0xff, 0x04, 0xff, 0xff, 0xff, 0x05, 0x06, 0x07, 0xff},";
"	// 137	0x89	10001001	len	2	3	1	3";
"	{0x00, 0x01, 0xff, 0xff, 0x02, 0x03, 0x04, 0xff, 0x05, 0xff, 0xff, 0xff, 0x06, 0x07, 0x08, 0xff},";
"	// 138	0x8a	10001010	len	3	3	1	3";
"	{0x00, 0x01, 0x02, 0xff, 0x03, 0x04, 0x05, 0xff, 0x06, 0xff, 0xff, 0xff, 0x07, 0x08, 0x09, 0xff},";
"	// 139	0x8b	10001011	len	4	3	1	3";
"	{0x00, 0x01, 0x02, 0x03, 0x04, 0x05, 0x06, 0xff, 0x07, 0xff, 0xff, 0xff, 0x08, 0x09, 0x0a, 0xff},";
"	// 140	0x8c	10001100	len	1	4	1	3";
"	{0x00, 0xff, 0xff, 0xff, 0x01, 0x02, 0x03, 0x04, 0x05, 0xff, 0xff, 0xff, 0x06, 0x07, 0x08, 0xff},";
"	// 141	0x8d	10001101	len	2	4	1	3";
"	{0x00, 0x01, 0xff, 0xff, 0x02, 0x03, 0x04, 0x05, 0x06, 0xff, 0xff, 0xff, 0x07, 0x08, 0x09, 0xff},";
"	// 142	0x8e	10001110	len	3	4	1	3";
"	{0x00, 0x01, 0x02, 0xff, 0x03, 0x04, 0x05, 0x06, 0x07, 0xff, 0xff, 0xff, 0x08, 0x09, 0x0a, 0xff},";
"	// 143	0x8f	10001111	len	4	4	1	3";
"	{0x00, 0x01, 0x02, 0x03, 0x04, 0x05, 0x06, 0x07, 0x08, 0xff, 0xff, 0xff, 0x09, 0x0a, 0x0b, 0xff},";
"	// 144	0x90	10010000	len	1	1	2	3";
"	{0x00, 0xff, 0xff, 0xff, 0x01, 0xff, 0xff, 0xff, 0x02, 0x03, 0xff, 0xff, 0x04, 0x05, 0x06, 0xff},";
"	// 145	0x91	10010001	len	2	1	2	3";
"	{0x00, 0x01, 0xff, 0xff, 0x02, 0xff, 0xff, 0xff, 0x03, 0x04, 0xff, 0xff, 0x05, 0x06, 0x07, 0xff},";
"	// 146	0x92	10010010	len	3	1	2	3";
"	{0x00, 0x01, 0x02, 0xff, 0x03, 0xff, 0xff, 0xff, 0x04, 0x05, 0xff, 0xff, 0x06, 0x07, 0x08, 0xff},";
"	// 147	0x93	10010011	len	4	1	2	3";
"	{0x00, 0x01, 0x02, 0x03, 0x04, 0xff, 0xff, 0xff, 0x05, 0x06, 0xff, 0xff, 0x07, 0x08, 0x09, 0xff},";
"	// 148	0x94	10010100	len	1	2	2	3";
"	{0x00, 0xff, 0xff, 0xff, 0x01, 0x02, 0xff, 0xff, 0x03, 0x04, 0xff, 0xff, 0x05, 0x06, 0x07, 0xff},";
"	// 149	0x95	10010101	len	2	2	2	3";
"	{0x00, 0x01, 0xff, 0xff, 0x02, 0x03, 0xff, 0xff, 0x04, 0x05, 0xff, 0xff, 0x06, 0x07, 0x08, 0xff},";
"	// 150	0x96	10010110	len	3	2	2	3";
"	{0x00, 0x01, 0x02, 0xff, 0x03, 0x04, 0xff, 0xff, 0x05, 0x06, 0xff, 0xff, 0x07, 0x08, 0x09, 0xff},";
"	// 151	0x97	10010111	len	4	2	2	3";
"	{0x00, 0x01, 0x02, 0x03, 0x04, 0x05, 0xff, 0xff, 0x06, 0x07, 0xff, 0xff, 0x08, 0x09, 0x0a, 0xff},";
"	// 152	0x98	10011000	len	1	3	2	3";
"	{0x00, 0xff, 0xff, 0xff, 0x01, 0x02, 0x03, 0xff, 0x04, 0x05, 0xff, 0xff, 0x06, 0x07, 0x08, 0xff},";
"	// 153	0x99	10011001	len	2	3	2	3";
"	{0x00, 0x01, 0xff, 0xff, 0x02, 0x03, 0x04, 0xff, 0x05, 0x06, 0xff, 0xff, 0x07, 0x08, 0x09, 0xff},";
"	// 154	0x9a	10011010	len	3	3	2	3";
"	{0x00, 0x01, 0x02, 0xff, 0x03, 0x04, 0x05, 0xff, 0x06, 0x07, 0xff, 0xff, 0x08, 0x09, 0x0a, 0xff},";
"	// 155	0x9b	10011011	len	4	3	2	3";
"	{0x00, 0x01, 0x02, 0x03, 0x04, 0x05, 0x06, 0xff, 0x07, 0x08, 0xff, 0xff, 0x09, 0x0a, 0x0b, 0xff},";
"	// 156	0x9c	10011100	len	1	4	2	3";
"	{0x00, 0xff, 0xff, 0xff, 0x01, 0x02, 0x03, 0x04, 0x05, 0x06, 0xff, 0xff, 0x07, 0x08, 0x09, 0xff},";
"	// 157	0x9d	10011101	len	2	4	2	3";
"	{0x00, 0x01, 0xff, 0xff, 0x02, 0x03, 0x04, 0x05, 0x06, 0x07, 0xff, 0xff, 0x08, 0x09, 0x0a, 0xff},";
"	// 158	0x9e	10011110	len	3	4	2	3";
"	{0x00, 0x01, 0x02, 0xff, 0x03, 0x04, 0x05, 0x06, 0x07, 0x08, 0xff, 0xff, 0x09, 0x0a, 0x0b, 0xff},";
"	// 159	0x9f	10011111	len	4	4	2	3";
"	{0x00, 0x01, 0x02, 0x03, 0x04, 0x05, 0x06, 0x07, 0x08, 0x09, 0xff, 0xff, 0x0a, 0x0b, 0x0c, 0xff},";
"	// 160	0xa0	10100000	len	1	1	3	3";
"	{0x00, 0xff, 0xff, 0xff, 0x01, 0xff, 0xff, 0xff, 0x02, 0x03, 0x04, 0xff, 0x05, 0x06, 0x07, 0xff},";
"	// 161	0xa1	10100001	len	2	1	3	3";
"	{0x00, 0x01, 0xff, 0xff, 0x02, 0xff, 0xff, 0xff, 0x03, 0x04, 0x05, 0xff, 0x06, 0x07, 0x08, 0xff},";
"	// 162	0xa2	10100010	len	3	1	3	3";
"	{0x00, 0x01, 0x02, 0xff, 0x03, 0xff, 0xff, 0xff, 0x04, 0x05, 0x06, 0xff, 0x07, 0x08, 0x09, 0xff},";
"	// 163	0xa3	10100011	len	4	1	3	3";
"	{0x00, 0x01, 0x02, 0x03, 0x04, 0xff, 0xff, 0xff, 0x05, 0x06, 0x07, 0xff, 0x08, 0x09, 0x0a, 0xff},";
"	// 164	0xa4	10100100	len	1	2	3	3";
"	{0x00, 0xff, 0xff, 0xff, 0x01, 0x02, 0xff, 0xff, 0x03, 0x04, 0x05, 0xff, 0x06, 0x07, 0x08, 0xff},";
"	// 165	0xa5	10100101	len	2	2	3	3";
"	{0x00, 0x01, 0xff, 0xff, 0x02, 0x03, 0xff, 0xff, 0x04, 0x05, 0x06, 0xff, 0x07, 0x08, 0x09, 0xff},";
"	// 166	0xa6	10100110	len	3	2	3	3";
"	{0x00, 0x01, 0x02, 0xff, 0x03, 0x04, 0xff, 0xff, 0x05, 0x06, 0x07, 0xff, 0x08, 0x09, 0x0a, 0xff},";
"	// 167	0xa7	10100111	len	4	2	3	3";
"	{0x00, 0x01, 0x02, 0x03, 0x04, 0x05, 0xff, 0xff, 0x06, 0x07, 0x08, 0xff, 0x09, 0x0a, 0x0b, 0xff},";
"	// 168	0xa8	10101000	len	1	3	3	3";
"	{0x00, 0xff, 0xff, 0xff, 0x01, 0x02, 0x03, 0xff, 0x04, 0x05, 0x06, 0xff, 0x07, 0x08, 0x09, 0xff},";
"	// 169	0xa9	10101001	len	2	3	3	3";
"	{0x00, 0x01, 0xff, 0xff, 0x02, 0x03, 0x04, 0xff, 0x05, 0x06, 0x07, 0xff, 0x08, 0x09, 0x0a, 0xff},";
"	// 170	0xaa	10101010	len	3	3	3	3";
"	{0x00, 0x01, 0x02, 0xff, 0x03, 0x04, 0x05, 0xff, 0x06, 0x07, 0x08, 0xff, 0x09, 0x0a, 0x0b, 0xff},";
"	// 171	0xab	10101011	len	4	3	3	3";
"	{0x00, 0x01, 0x02, 0x03, 0x04, 0x05, 0x06, 0xff, 0x07, 0x08, 0x09, 0xff, 0x0a, 0x0b, 0x0c, 0xff},";
"	// 172	0xac	10101100	len	1	4	3	3";
"	{0x00, 0xff, 0xff, 0xff, 0x01, 0x02, 0x03, 0x04, 0x05, 0x06, 0x07, 0xff, 0x08, 0x09, 0x0a, 0xff},";
"	// 173	0xad	10101101	len	2	4	3	3";
"	{0x00, 0x01, 0xff, 0xff, 0x02, 0x03, 0x04, 0x05, 0x06, 0x07, 0x08, 0xff, 0x09, 0x0a, 0x0b, 0xff},";
"	// 174	0xae	10101110	len	3	4	3	3";
"	{0x00, 0x01, 0x02, 0xff, 0x03, 0x04, 0x05, 0x06, 0x07, 0x08, 0x09, 0xff, 0x0a, 0x0b, 0x0c, 0xff},";
"	// 175	0xaf	10101111	len	4	4	3	3";
"	{0x00, 0x01, 0x02, 0x03, 0x04, 0x05, 0x06, 0x07, 0x08, 0x09, 0x0a, 0xff, 0x0b, 0x0c, 0x0d, 0xff},";
"	// 176	0xb0	10110000	len	1	1	4	3";
"	{0x00, 0xff, 0xff, 0xff, 0x01, 0xff, 0xff, 0xff, 0x02, 0x03, 0x04, 0x05, 0x06, 0x07, 0x08, 0xff},";
"	// 177	0xb1	10110001	len	2	1	4	3";
"	{0x00, 0x01, 0xff, 0xff, 0x02, 0xff, 0xff, 0xff, 0x03, 0x04, 0x05, 0x06, 0x07, 0x08, 0x09, 0xff},";
"	// 178	0xb2	10110010	len	3	1	4	3";
"	{0x00, 0x01, 0x02, 0xff, 0x03, 0xff, 0xff, 0xff, 0x04, 0x05, 0x06, 0x07, 0x08, 0x09, 0x0a, 0xff},";
"	// 179	0xb3	10110011	len	4	1	4	3";
"	{0x00, 0x01, 0x02, 0x03, 0x04, 0xff, 0xff, 0xff, 0x05, 0x06, 0x07, 0x08, 0x09, 0x0a, 0x0b, 0xff},";
"	// 180	0xb4	10110100	len	1	2	4	3";
"	{0x00, 0xff, 0xff, 0xff, 0x01, 0x02, 0xff, 0xff, 0x03, 0x04, 0x05, 0x06, 0x07, 0x08, 0x09, 0xff},";
"	// 181	0xb5	10110101	len	2	2	4	3";
"	{0x00, 0x01, 0xff, 0xff, 0x02, 0x03, 0xff, 0xff, 0x04, 0x05, 0x06, 0x07, 0x08, 0x09, 0x0a, 0xff},";
"	// 182	0xb6	10110110	len	3	2	4	3";
"	{0x00, 0x01, 0x02, 0xff, 0x03, 0x04, 0xff, 0xff, 0x05, 0x06, 0x07, 0x08, 0x09, 0x0a, 0x0b, 0xff},";
"	// 183	0xb7	10110111	len	4	2	4	3";
"	{0x00, 0x01, 0x02, 0x03, 0x04, 0x05, 0xff, 0xff, 0x06, 0x07, 0x08, 0x09, 0x0a, 0x0b, 0x0c, 0xff},";
"	// 184	0xb8	10111000	len	1	3	4	3";
"	{0x00, 0xff, 0xff, 0xff, 0x01, 0x02, 0x03, 0xff, 0x04, 0x05, 0x06, 0x07, 0x08, 0x09, 0x0a, 0xff},";
"	// 185	0xb9	10111001	len	2	3	4	3";
"	{0x00, 0x01, 0xff, 0xff, 0x02, 0x03, 0x04, 0xff, 0x05, 0x06, 0x07, 0x08, 0x09, 0x0a, 0x0b, 0xff},";
"	// 186	0xba	10111010	len	3	3	4	3";
"	{0x00, 0x01, 0x02, 0xff, 0x03, 0x04, 0x05, 0xff, 0x06, 0x07, 0x08, 0x09, 0x0a, 0x0b, 0x0c, 0xff},";
"	// 187	0xbb	10111011	len	4	3	4	3";
"	{0x00, 0x01, 0x02, 0x03, 0x04, 0x05, 0x06, 0xff, 0x07, 0x08, 0x09, 0x0a, 0x0b, 0x0c, 0x0d, 0xff},";
"	// 188	0xbc	10111100	len	1	4	4	3";
"	{0x00, 0xff, 0xff, 0xff, 0x01, 0x02, 0x03, 0x04, 0x05, 0x06, 0x07, 0x08, 0x09, 0x0a, 0x0b, 0xff},";
"	// 189	0xbd	10111101	len	2	4	4	3";
"	{0x00, 0x01, 0xff, 0xff, 0x02, 0x03, 0x04, 0x05, 0x06, 0x07, 0x08, 0x09, 0x0a, 0x0b, 0x0c, 0xff},";
"	// 190	0xbe	10111110	len	3	4	4	3";
"	{0x00, 0x01, 0x02, 0xff, 0x03, 0x04, 0x05, 0x06, 0x07, 0x08, 0x09, 0x0a, 0x0b, 0x0c, 0x0d, 0xff},";
"	// 191	0xbf	10111111	len	4	4	4	3";
"	{0x00, 0x01, 0x02, 0x03, 0x04, 0x05, 0x06, 0x07, 0x08, 0x09, 0x0a, 0x0b, 0x0c, 0x0d, 0x0e, 0xff},";
"	// 192	0xc0	11000000	len	1	1	1	4";
"	{0x00, 0xff, 0xff, 0xff, 0x01, 0xff, 0xff, 0xff, 0x02, 0xff, 0xff, 0xff, 0x03, 0x04, 0x05, 0x06},";
"	// 193	0xc1	11000001	len	2	1	1	4";
"	{0x00, 0x01, 0xff, 0xff, 0x02, 0xff, 0xff, 0xff, 0x03, 0xff, 0xff, 0xff, 0x04, 0x05, 0x06, 0x07},";
"	// 194	0xc2	11000010	len	3	1	1	4";
"	{0x00, 0x01, 0x02, 0xff, 0x03, 0xff, 0xff, 0xff, 0x04, 0xff, 0xff, 0xff, 0x05, 0x06, 0x07, 0x08},";
"	// 195	0xc3	11000011	len	4	1	1	4";
"	{0x00, 0x01, 0x02, 0x03, 0x04, 0xff, 0xff, 0xff, 0x05, 0xff, 0xff, 0xff, 0x06, 0x07, 0x08, 0x09},";
"	// 196	0xc4	11000100	len	1	2	1	4";
"	{0x00, 0xff, 0xff, 0xff, 0x01, 0x02, 0xff, 0xff, 0x03, 0xff, 0xff, 0xff, 0x04, 0x05, 0x06, 0x07},";
"	// 197	0xc5	11000101	len	2	2	1	4";
"	{0x00, 0x01, 0xff, 0xff, 0x02, 0x03, 0xff, 0xff, 0x04, 0xff, 0xff, 0xff, 0x05, 0x06, 0x07, 0x08},";
"	// 198	0xc6	11000110	len	3	2	1	4";
"	{0x00, 0x01, 0x02, 0xff, 0x03, 0x04, 0xff, 0xff, 0x05, 0xff, 0xff, 0xff, 0x06, 0x07, 0x08, 0x09},";
"	// 199	0xc7	11000111	len	4	2	1	4";
"	{0x00, 0x01, 0x02, 0x03, 0x04, 0x05, 0xff, 0xff, 0x06, 0xff, 0xff, 0xff, 0x07, 0x08, 0x09, 0x0a},";
"	// 200	0xc8	11001000	len	1	3	1	4";
"	{0x00, 0xff, 0xff, 0xff, 0x01, 0x02, 0x03, 0xff, 0x04, 0xff, 0xff, 0xff, 0x05, 0x06, 0x07, 0x08},";
"	// 201	0xc9	11001001	len	2	3	1	4";
"	{0x00, 0x01, 0xff, 0xff, 0x02, 0x03, 0x04, 0xff, 0x05, 0xff, 0xff, 0xff, 0x06, 0x07, 0x08, 0x09},";
"	// 202	0xca	11001010	len	3	3	1	4";
"	{0x00, 0x01, 0x02, 0xff, 0x03, 0x04, 0x05, 0xff, 0x06, 0xff, 0xff, 0xff, 0x07, 0x08, 0x09, 0x0a},";
"	// 203	0xcb	11001011	len	4	3	1	4";
"	{0x00, 0x01, 0x02, 0x03, 0x04, 0x05, 0x06, 0xff, 0x07, 0xff, 0xff, 0xff, 0x08, 0x09, 0x0a, 0x0b},";
"	// 204	0xcc	11001100	len	1	4	1	4";
"	{0x00, 0xff, 0xff, 0xff, 0x01, 0x02, 0x03, 0x04, 0x05, 0xff, 0xff, 0xff, 0x06, 0x07, 0x08, 0x09},";
"	// 205	0xcd	11001101	len	2	4	1	4";
"	{0x00, 0x01, 0xff, 0xff, 0x02, 0x03, 0x04, 0x05, 0x06, 0xff, 0xff, 0xff, 0x07, 0x08, 0x09, 0x0a},";
"	// 206	0xce	11001110	len	3	4	1	4";
"	{0x00, 0x01, 0x02, 0xff, 0x03, 0x04, 0x05, 0x06, 0x07, 0xff, 0xff, 0xff, 0x08, 0x09, 0x0a, 0x0b},";
"	// 207	0xcf	11001111	len	4	4	1	4";
"	{0x00, 0x01, 0x02, 0x03, 0x04, 0x05, 0x06, 0x07, 0x08, 0xff, 0xff, 0xff, 0x09, 0x0a, 0x0b, 0x0c},";
"	// 208	0xd0	11010000	len	1	1	2	4";
"	{0x00, 0xff, 0xff, 0xff, 0x01, 0xff, 0xff, 0xff, 0x02, 0x03, 0xff, 0xff, 0x04, 0x05, 0x06, 0x07},";
"	// 209	0xd1	11010001	len	2	1	2	4";
"	{0x00, 0x01, 0xff, 0xff, 0x02, 0xff, 0xff, 0xff, 0x03, 0x04, 0xff, 0xff, 0x05, 0x06, 0x07, 0x08},";
"	// 210	0xd2	11010010	len	3	1	2	4";
"	{0x00, 0x01, 0x02, 0xff, 0x03, 0xff, 0xff, 0xff, 0x04, 0x05, 0xff, 0xff, 0x06, 0x07, 0x08, 0x09},";
"	// 211	0xd3	11010011	len	4	1	2	4";
"	{0x00, 0x01, 0x02, 0x03, 0x04, 0xff, 0xff, 0xff, 0x05, 0x06, 0xff, 0xff, 0x07, 0x08, 0x09, 0x0a},";
"	// 212	0xd4	11010100	len	1	2	2	4";
"	{0x00, 0xff, 0xff, 0xff, 0x01, 0x02, 0xff, 0xff, 0x03, 0x04, 0xff, 0xff, 0x05, 0x06, 0x07, 0x08},";
"	// 213	0xd5	11010101	len	2	2	2	4";
"	{0x00, 0x01, 0xff, 0xff, 0x02, 0x03, 0xff, 0xff, 0x04, 0x05, 0xff, 0xff, 0x06, 0x07, 0x08, 0x09},";
"	// 214	0xd6	11010110	len	3	2	2	4";
"	{0x00, 0x01, 0x02, 0xff, 0x03, 0x04, 0xff, 0xff, 0x05, 0x06, 0xff, 0xff, 0x07, 0x08, 0x09, 0x0a},";
"	// 215	0xd7	11010111	len	4	2	2	4";
"	{0x00, 0x01, 0x02, 0x03, 0x04, 0x05, 0xff, 0xff, 0x06, 0x07, 0xff, 0xff, 0x08, 0x09, 0x0a, 0x0b},";
"	// 216	0xd8	11011000	len	1	3	2	4";
"	{0x00, 0xff, 0xff, 0xff, 0x01, 0x02, 0x03, 0xff, 0x04, 0x05, 0xff, 0xff, 0x06, 0x07, 0x08, 0x09},";
"	// 217	0xd9	11011001	len	2	3	2	4";
"	{0x00, 0x01, 0xff, 0xff, 0x02, 0x03, 0x04, 0xff, 0x05, 0x06, 0xff, 0xff, 0x07, 0x08, 0x09, 0x0a},";
"	// 218	0xda	11011010	len	3	3	2	4";
"	{0x00, 0x01, 0x02, 0xff, 0x03, 0x04, 0x05, 0xff, 0x06, 0x07, 0xff, 0xff, 0x08, 0x09, 0x0a, 0x0b},";
"	// 219	0xdb	11011011	len	4	3	2	4";
"	{0x00, 0x01, 0x02, 0x03, 0x04, 0x05, 0x06, 0xff, 0x07, 0x08, 0xff, 0xff, 0x09, 0x0a, 0x0b, 0x0c},";
"	// 220	0xdc	11011100	len	1	4	2	4";
"	{0x00, 0xff, 0xff, 0xff, 0x01, 0x02, 0x03, 0x04, 0x05, 0x06, 0xff, 0xff, 0x07, 0x08, 0x09, 0x0a},";
"	// 221	0xdd	11011101	len	2	4	2	4";
"	{0x00, 0x01, 0xff, 0xff, 0x02, 0x03, 0x04, 0x05, 0x06, 0x07, 0xff, 0xff, 0x08, 0x09, 0x0a, 0x0b},";
"	// 222	0xde	11011110	len	3	4	2	4";
"	{0x00, 0x01, 0x02, 0xff, 0x03, 0x04, 0x05, 0x06, 0x07, 0x08, 0xff, 0xff, 0x09, 0x0a, 0x0b, 0x0c},";
"	// 223	0xdf	11011111	len	4	4	2	4";
"	{0x00, 0x01, 0x02, 0x03, 0x04, 0x05, 0x06, 0x07, 0x08, 0x09, 0xff, 0xff, 0x0a, 0x0b, 0x0c, 0x0d},";
"	// 224	0xe0	11100000	len	1	1	3	4";
"	{0x00, 0xff, 0xff, 0xff, 0x01, 0xff, 0xff, 0xff, 0x02, 0x03, 0x04, 0xff, 0x05, 0x06, 0x07, 0x08},";
"	// 225	0xe1	11100001	len	2	1	3	4";
"	{0x00, 0x01, 0xff, 0xff, 0x02, 0xff, 0xff, 0xff, 0x03, 0x04, 0x05, 0xff, 0x06, 0x07, 0x08, 0x09},";
"	// 226	0xe2	11100010	len	3	1	3	4";
"	{0x00, 0x01, 0x02, 0xff, 0x03, 0xff, 0xff, 0xff, 0x04, 0x05, 0x06, 0xff, 0x07, 0x08, 0x09, 0x0a},";
"	// 227	0xe3	11100011	len	4	1	3	4";
"	{0x00, 0x01, 0x02, 0x03, 0x04, 0xff, 0xff, 0xff, 0x05, 0x06, 0x07, 0xff, 0x08, 0x09, 0x0a, 0x0b},";
"	// 228	0xe4	11100100	len	1	2	3	4";
"	{0x00, 0xff, 0xff, 0xff, 0x01, 0x02, 0xff, 0xff, 0x03, 0x04, 0x05, 0xff, 0x06, 0x07, 0x08, 0x09},";
"	// 229	0xe5	11100101	len	2	2	3	4";
"	{0x00, 0x01, 0xff, 0xff, 0x02, 0x03, 0xff, 0xff, 0x04, 0x05, 0x06, 0xff, 0x07, 0x08, 0x09, 0x0a},";
"	// 230	0xe6	11100110	len	3	2	3	4";
"	{0x00, 0x01, 0x02, 0xff, 0x03, 0x04, 0xff, 0xff, 0x05, 0x06, 0x07, 0xff, 0x08, 0x09, 0x0a, 0x0b},";
"	// 231	0xe7	11100111	len	4	2	3	4";
"	{0x00, 0x01, 0x02, 0x03, 0x04, 0x05, 0xff, 0xff, 0x06, 0x07, 0x08, 0xff, 0x09, 0x0a, 0x0b, 0x0c},";
"	// 232	0xe8	11101000	len	1	3	3	4";
"	{0x00, 0xff, 0xff, 0xff, 0x01, 0x02, 0x03, 0xff, 0x04, 0x05, 0x06, 0xff, 0x07, 0x08, 0x09, 0x0a},";
"	// 233	0xe9	11101001	len	2	3	3	4";
"	{0x00, 0x01, 0xff, 0xff, 0x02, 0x03, 0x04, 0xff, 0x05, 0x06, 0x07, 0xff, 0x08, 0x09, 0x0a, 0x0b},";
"	// 234	0xea	11101010	len	3	3	3	4";
"	{0x00, 0x01, 0x02, 0xff, 0x03, 0x04, 0x05, 0xff, 0x06, 0x07, 0x08, 0xff, 0x09, 0x0a, 0x0b, 0x0c},";
"	// 235	0xeb	11101011	len	4	3	3	4";
"	{0x00, 0x01, 0x02, 0x03, 0x04, 0x05, 0x06, 0xff, 0x07, 0x08, 0x09, 0xff, 0x0a, 0x0b, 0x0c, 0x0d},";
"	// 236	0xec	11101100	len	1	4	3	4";
"	{0x00, 0xff, 0xff, 0xff, 0x01, 0x02, 0x03, 0x04, 0x05, 0x06, 0x07, 0xff, 0x08, 0x09, 0x0a, 0x0b},";
"	// 237	0xed	11101101	len	2	4	3	4";
"	{0x00, 0x01, 0xff, 0xff, 0x02, 0x03, 0x04, 0x05, 0x06, 0x07, 0x08, 0xff, 0x09, 0x0a, 0x0b, 0x0c},";
"	// 238	0xee	11101110	len	3	4	3	4";
"	{0x00, 0x01, 0x02, 0xff, 0x03, 0x04, 0x05, 0x06, 0x07, 0x08, 0x09, 0xff, 0x0a, 0x0b, 0x0c, 0x0d},";
"	// 239	0xef	11101111	len	4	4	3	4";
"	{0x00, 0x01, 0x02, 0x03, 0x04, 0x05, 0x06, 0x07, 0x08, 0x09, 0x0a, 0xff, 0x0b, 0x0c, 0x0d, 0x0e},";
"	// 240	0xf0	11110000	len	1	1	4	4";
"	{0x00, 0xff, 0xff, 0xff, 0x01, 0xff, 0xff, 0xff, 0x02, 0x03, 0x04, 0x05, 0x06, 0x07, 0x08, 0x09},";
"	// 241	0xf1	11110001	len	2	1	4	4";
"	{0x00, 0x01, 0xff, 0xff, 0x02, 0xff, 0xff, 0xff, 0x03, 0x04, 0x05, 0x06, 0x07, 0x08, 0x09, 0x0a},";
"	// 242	0xf2	11110010	len	3	1	4	4";
"	{0x00, 0x01, 0x02, 0xff, 0x03, 0xff, 0xff, 0xff, 0x04, 0x05, 0x06, 0x07, 0x08, 0x09, 0x0a, 0x0b},";
"	// 243	0xf3	11110011	len	4	1	4	4";
"	{0x00, 0x01, 0x02, 0x03, 0x04, 0xff, 0xff, 0xff, 0x05, 0x06, 0x07, 0x08, 0x09, 0x0a, 0x0b, 0x0c},";
"	// 244	0xf4	11110100	len	1	2	4	4";
"	{0x00, 0xff, 0xff, 0xff, 0x01, 0x02, 0xff, 0xff, 0x03, 0x04, 0x05, 0x06, 0x07, 0x08, 0x09, 0x0a},";
"	// 245	0xf5	11110101	len	2	2	4	4";
"	{0x00, 0x01, 0xff, 0xff, 0x02, 0x03, 0xff, 0xff, 0x04, 0x05, 0x06, 0x07, 0x08, 0x09, 0x0a, 0x0b},";
"	// 246	0xf6	11110110	len	3	2	4	4";
"	{0x00, 0x01, 0x02, 0xff, 0x03, 0x04, 0xff, 0xff, 0x05, 0x06, 0x07, 0x08, 0x09, 0x0a, 0x0b, 0x0c},";
"	// 247	0xf7	11110111	len	4	2	4	4";
"	{0x00, 0x01, 0x02, 0x03, 0x04, 0x05, 0xff, 0xff, 0x06, 0x07, 0x08, 0x09, 0x0a, 0x0b, 0x0c, 0x0d},";
"	// 248	0xf8	11111000	len	1	3	4	4";
"	{0x00, 0xff, 0xff, 0xff, 0x01, 0x02, 0x03, 0xff, 0x04, 0x05, 0x06, 0x07, 0x08, 0x09, 0x0a, 0x0b},";
"	// 249	0xf9	11111001	len	2	3	4	4";
"	{0x00, 0x01, 0xff, 0xff, 0x02, 0x03, 0x04, 0xff, 0x05, 0x06, 0x07, 0x08, 0x09, 0x0a, 0x0b, 0x0c},";
"	// 250	0xfa	11111010	len	3	3	4	4";
"	{0x00, 0x01, 0x02, 0xff, 0x03, 0x04, 0x05, 0xff, 0x06, 0x07, 0x08, 0x09, 0x0a, 0x0b, 0x0c, 0x0d},";
"	// 251	0xfb	11111011	len	4	3	4	4";
"	{0x00, 0x01, 0x02, 0x03, 0x04, 0x05, 0x06, 0xff, 0x07, 0x08, 0x09, 0x0a, 0x0b, 0x0c, 0x0d, 0x0e},";
"	// 252	0xfc	11111100	len	1	4	4	4";
"	{0x00, 0xff, 0xff, 0xff, 0x01, 0x02, 0x03, 0x04, 0x05, 0x06, 0x07, 0x08, 0x09, 0x0a, 0x0b, 0x0c},";
"	// 253	0xfd	11111101	len	2	4	4	4";
"	{0x00, 0x01, 0xff, 0xff, 0x02, 0x03, 0x04, 0x05, 0x06, 0x07, 0x08, 0x09, 0x0a, 0x0b, 0x0c, 0x0d},";
"	// 254	0xfe	11111110	len	3	4	4	4";
"	{0x00, 0x01, 0x02, 0xff, 0x03, 0x04, 0x05, 0x06, 0x07, 0x08, 0x09, 0x0a, 0x0b, 0x0c, 0x0d, 0x0e},";
"	// 255	0xff	11111111	len	4	4	4	4";
"	{0x00, 0x01, 0x02, 0x03, 0x04, 0x05, 0x06, 0x07, 0x08, 0x09, 0x0a, 0x0b, 0x0c, 0x0d, 0x0e, 0x0f},";
"}"].

(** pkg/encode/encode.go *)
Definition encode_go : list string := [
"package encode";
"";
"import (";
"	""math/bits""";
"";
"	""github.com/theMPatel/streamvbyte-simdgo/pkg/shared""";
")";
"";
"const (";
"	MaxBytesPerNum = 4";
")";
"";
"var (";
"	putImpl      Put8Impl";
"	putDeltaImpl Put8DeltaImpl";
")";
"";
"type Put8Impl func(in []uint32, out []byte) (ctrl uint16)";
"type Put8DeltaImpl func(in []uint32, out []byte, prev uint32) (ctrl uint16)";
"";
"func init() {";
"	if GetMode() == shared.Fast {";
"		putImpl = Put8uint32Fast";
"		putDeltaImpl = Put8uint32DeltaFast";
"	} else {";
"		putImpl = Put8uint32Scalar";
"		putDeltaImpl = Put8uint32DeltaScalar";
"	}";
"}";
"";
"// Put8uint32 is a general func you can use to encode 8 uint32's at a time.";
"// It will use the fastest implementation available determined during";
"// package initialization. If your CPU supports special hardware instructions";
"// then it will use an accelerated version of Stream VByte. Otherwise, the";
"// scalar implementation will be used as the fallback.";
"func Put8uint32(in []uint32, out []byte) uint16 {";
"	return putImpl(in, out)";
"}";
"";
"// Put8uint32Delta is a general func you can use to encode 8 differentially coded";
"// uint32's with at a time. It will use the fastest implementation available";
"// determined during package initialization. If your CPU supports special hardware";
"// instructions then it will use an accelerated version of Stream VByte. Otherwise,";
"// the scalar implementation will be used as the fallback.";
"func Put8uint32Delta(in []uint32, out []byte, prev uint32) uint16 {";
"	return putDeltaImpl(in, out, prev)";
"}";
"";
"// PutUint32Scalar encodes up to 4 integers from in into out using the";
"// Stream VByte format.";
"//";
"// Note: It is your responsibility to ensure that the incoming slices have";
"// the appropriate sizes and data otherwise this func will panic.";
"func PutUint32Scalar(in []uint32, out []byte, count int) uint8 {";
"	if count == 0 {";
"		return 0";
"	}";
"";
"	if count > 4 {";
"		count = 4";
"	}";
"";
"	var (";
"		ctrl  uint8";
"		shift = 0";
"		total = 0";
"	)";
"	for i := 0; i < count; i++ {";
"		size := encodeOne(in[i], out[total:])";
"		total += size";
"		ctrl |= uint8(size-1) << shift";
"		shift += 2";
"	}";
"";
"	return ctrl";
"}";
"";
"// PutUint32DeltaScalar encodes up to 4 integers from in into out using the";
"// Stream VByte format.";
"//";
"// Note: It is your responsibility to ensure that the incoming slices have";
"// the appropriate sizes and data otherwise this func will panic.";
"func PutUint32DeltaScalar(in []uint32, out []byte, count int, prev uint32) uint8 {";
"	if count == 0 {";
"		return 0";
"	}";
"";
"	if count > 4 {";
"		count = 4";
"	}";
"";
"	var (";
"		ctrl  uint8";
"		shift = 0";
"		total = 0";
"	)";
"	for i := 0; i < count; i++ {";
"		size := encodeOne(in[i]-prev, out[total:])";
"		total += size";
"		ctrl |= uint8(size-1) << shift";
"		shift += 2";
"		prev = in[i]";
"	}";
"";
"	return ctrl";
"}";
"";
"// Put8uint32Scalar will encode 8 uint32 values from in into out using the";
"// Stream VByte format. Returns an 16-bit control value produced from the";
"// encoding.";
"//";
"// Note: It is your responsibility to ensure that the incoming slices have";
"// the appropriate sizes and data otherwise this func will panic.";
"func Put8uint32Scalar(in []uint32, out []byte) uint16 {";
"	var ctrl uint16";
"	first := Put4uint32Scalar(in, out)";
"	ctrl |= uint16(first)";
"	encoded := shared.ControlByteToSize(first)";
"	second := Put4uint32Scalar(in[4:], out[encoded:])";
"	return ctrl | uint16(second)<<8";
"}";
"";
"// Put4uint32Scalar will encode 4 uint32 values from in into out using the";
"// Stream VByte format. Returns an 8-bit control value produced from the";
"// encoding. Every incoming number is variably encoded, and an 8-bit control";
"// is constructed from the 2-bit len of each uint32. Below is an example of";
"// 4 uint32's and how they are encoded.";
"//";
"// 00000000 00000000 00000000 01101111  =        111";
"// 00000000 00000000 00000100 11010010  =       1234";
"// 00000000 00001100 00001010 10000011  =     789123";
"// 01000000 00000000 00000000 00000000  = 1073741824";
"//";
"// Num         Len      2-bit control";
"// ----------------------------------";
"// 111          1                0b00";
"// 1234         2                0b01";
"// 789123       3                0b10";
"// 1073741824   4                0b11";
"//";
"// Final Control byte";
"// 0b11100100";
"//";
"// Encoded data (little endian right-to-left bottom-to-top)";
"// 0b01000000 0b00000000 0b00000000 0b00000000 0b00001100";
"// 0b00001010 0b10000011 0b00000100 0b11010010 0b01101111";
"//";
"// Note: It is your responsibility to ensure that the incoming slices have";
"// the appropriate sizes and data otherwise this func will panic.";
"func Put4uint32Scalar(in []uint32, out []byte) uint8 {";
"	// bounds check hint to compiler";
"	_ = in[3]";
"";
"	num0 := in[0]";
"	num1 := in[1]";
"	num2 := in[2]";
"	num3 := in[3]";
"";
"	len0 := encodeOne(num0, out)";
"	len1 := encodeOne(num1, out[len0:])";
"	len2 := encodeOne(num2, out[len0+len1:])";
"	len3 := encodeOne(num3, out[len0+len1+len2:])";
"";
"	return uint8((len0 - 1) | (len1-1)<<2 | (len2-1)<<4 | (len3-1)<<6)";
"}";
"";
"// Put8uint32DeltaScalar will differentially encode 8 uint32 values from in into out.";
"// Prev provides a way for you to indicate the base value for this batch of 8.";
"// For example, when encoding the second batch of 8 integers out of, e.g. 16, you would";
"// provide a prev value of the last value in the first batch of 8 you encoded. This";
"// is done to ensure that the integers are correctly resolved to the correct diff. An";
"// example below. Note that this func assumes that the input integers are already sorted.";
"//";
"// Input:	[ 10, 20, 30, 40, 50, 60, 70, 80 ] [ 90, 100, 110, 120, 130, 140, 150, 160 ]";
"// Output:	[ 10, 10, 10, 10, 10, 10, 10, 10 ] [ 10, 10, 10, 10, 10, 10, 10, 10 ]";
"// Prev: 80";
"func Put8uint32DeltaScalar(in []uint32, out []byte, prev uint32) uint16 {";
"	var ctrl uint16";
"	first := Put4uint32DeltaScalar(in, out, prev)";
"	ctrl |= uint16(first)";
"	encoded := shared.ControlByteToSize(first)";
"	second := Put4uint32DeltaScalar(in[4:], out[encoded:], in[3])";
"	return ctrl | uint16(second)<<8";
"}";
"";
"// Put4uint32DeltaScalar will differentially encode 4 uint32 values from in into out.";
"// Prev provides a way for you to indicate the base value for this batch of 4.";
"// For example, when encoding the second batch of 4 integers out of, e.g. 8, you would";
"// provide a prev value of the last value in the first batch of 4 you encoded. This";
"// is done to ensure that the integers are correctly resolved to the correct diff. An";
"// example below. Note that this func assumes that the input integers are already sorted.";
"//";
"// Input:	[ 10, 20, 30, 40 ] [ 50, 60, 70, 80 ]";
"// Output:	[ 10, 10, 10, 10 ] [ 10, 10, 10, 10 ]";
"// Prev: 40";
"func Put4uint32DeltaScalar(in []uint32, out []byte, prev uint32) uint8 {";
"	// bounds check hint to compiler";
"	_ = in[3]";
"";
"	num0 := in[0] - prev";
"	num1 := in[1] - in[0]";
"	num2 := in[2] - in[1]";
"	num3 := in[3] - in[2]";
"";
"	len0 := encodeOne(num0, out)";
"	len1 := encodeOne(num1, out[len0:])";
"	len2 := encodeOne(num2, out[len0+len1:])";
"	len3 := encodeOne(num3, out[len0+len1+len2:])";
"";
"	return uint8((len0 - 1) | (len1-1)<<2 | (len2-1)<<4 | (len3-1)<<6)";
"}";
"";
"func encodeOne(num uint32, out []byte) int {";
"	size := max(1, 4-(bits.LeadingZeros32(num)/8))";
"	switch size {";
"	case 4:";
"		out[3] = byte(num >> 24)";
"		fallthrough";
"	case 3:";
"		out[2] = byte(num >> 16)";
"		fallthrough";
"	case 2:";
"		out[1] = byte(num >> 8)";
"		fallthrough";
"	case 1:";
"		out[0] = byte(num)";
"	}";
"	return size";
"}";
"";
"func max(a, b int) int {";
"	if a < b {";
"		return b";
"	}";
"	return a";
"}"].

(** pkg/encode/gen.go *)
Definition encode_gen_go : list string := [
"package encode";
"";
"//go:generate go run ./main/asm.go -out ./encode_amd64.s"].

(** pkg/encode/encode_amd64.go *)
Definition encode_amd64_go : list string := [
"// +build amd64";
"";
"// Package encode provides an x86_64 implementation of two";
"// Stream VByte encoding algorithms, a normal encoding approach";
"// and one that incorporates differential coding.";
"package encode";
"";
"import (";
"	""github.com/theMPatel/streamvbyte-simdgo/pkg/shared""";
"	""golang.org/x/sys/cpu""";
")";
"";
"// GetMode performs a check to see if the current ISA supports";
"// the below encoding funcs.";
"func GetMode() shared.PerformanceMode {";
"	if cpu.X86.HasAVX && cpu.X86.HasAVX2 {";
"		return shared.Fast";
"	}";
"	return shared.Normal";
"}";
"";
"// Put8uint32Fast binds to put8uint32Fast which is implemented";
"// in assembly.";
"func Put8uint32Fast(in []uint32, out []byte) uint16 {";
"	return Put8uint32FastAsm(in, out,";
"		shared.EncodeShuffleTable,";
"		shared.PerControlLenTable,";
"	)";
"}";
"";
"// Put8uint32DeltaFast binds to put8uint32DeltaFast which is implemented";
"// in assembly.";
"func Put8uint32DeltaFast(in []uint32, out []byte, prev uint32) uint16 {";
"	return Put8uint32DeltaFastAsm(";
"		in, out, prev,";
"		shared.EncodeShuffleTable,";
"		shared.PerControlLenTable,";
"	)";
"}";
"";
"// Put8uint32FastAsm has three core phases. First a 16-bit control is";
"// generated for the incoming 8 uint32s. Then, the calculated control";
"// is used to index into shared.EncodeShuffleTable to fetch the";
"// correct shuffle mask to compress the incoming integers. Finally,";
"// the calculated control is used to index into shared.PerControlLenTable";
"// to determine the offsets in the output array to write to.";
"//";
"// Based on the algorithm devised by Lemire et al., the SIMD control";
"// byte generation algorithm proceeds as follows. Note that here we";
"// are using 1234 as our first example integer.";
"//";
"// 00000000 00000000 00000100 11010010 // 1234";
"// 00000001 00000001 00000001 00000001 // 0x0101 mask";
"// ----------------------------------- // byte-min(1234, 0x0101)";
"// 00000000 00000000 00000001 00000001";
"//";
"// The algorithm first uses a mask where every byte is equal to 1. If";
"// you perform a per-byte min operation on our integer and the 1's mask,";
"// the result will have a 1 at every byte that had a value in the original";
"// integer.";
"//";
"// 00000000 00000000 00000001 00000001";
"// ----------------------------------- // pack unsigned saturating";
"// 00000000 00000000 00000000 11111111 // 16-bit to 8-bit";
"//";
"// Now you perform a 16-bit to 8-bit unsigned saturating pack operation.";
"// Practically this means that you're taking every 16-bit value and trying";
"// to shove that into 8 bits. If the 16-bit integer is larger than the";
"// largest unsigned integer 8 bits can support, the pack saturates to the";
"// largest unsigned 8-bit value.";
"//";
"// Why this is performed will become more clear in the subsequent steps,";
"// however, at a high level, for every integer you want to encode, you";
"// want for the MSB of two consecutive bytes in the control bits stream";
"// to be representative of the final 2-bit control. For example, if you";
"// have a 3-byte integer, you want the MSB of two consecutive bytes to be";
"// 1 and 0, in that order. The reason you would want this is that there";
"// is a vector pack instruction that takes the MSB from every byte in the";
"// control bits stream and packs it into the lowest byte. This would thus";
"// represent the value `0b10` in the final byte for this 3-byte integer,";
"// which is what we want.";
"//";
"// Performing a 16-bit to 8-bit unsigned saturating pack has the effect";
"// that you can use the saturation behavior to conditionally turn on the";
"// MSB of these bytes depending on which bytes have values in the original";
"// 32-bit integer.";
"//";
"// 00000000 00000000 00000000 11111111 // control bits stream";
"// 00000001 00000001 00000001 00000001 // 0x0101 mask";
"// ----------------------------------- // signed 16-bit min";
"// 00000000 00000000 00000000 11111111";
"//";
"// We then take the 1's mask we used before and perform a signed 16-bit";
"// min operation. The reason for this is more clear if you look at an";
"// example using a 3-byte integer.";
"//";
"// 00000000 00001100 00001010 10000011 // 789123";
"// 00000001 00000001 00000001 00000001 // 0x0101 mask";
"// ----------------------------------- // byte-min(789123, 0x0101)";
"// 00000000 00000001 00000001 00000001";
"// ----------------------------------- // pack unsigned saturating 16-bit to 8-bit";
"// 00000000 00000000 00000001 11111111";
"// 00000001 00000001 00000001 00000001 // 0x0101 mask";
"// ----------------------------------- // signed 16-bit min";
"// 00000000 00000000 00000001 00000001";
"//";
"// The signed 16-bit min operation has three important effects.";
"//";
"// First, for 3-byte integers, it has the effect of turning off the";
"// MSB of the lowest byte. This is necessary because a 3-byte integer";
"// should have a 2-bit control that is `0b10` and without this step";
"// using the MSB pack operation would result in a 2-bit control that";
"// looks something like `0b_1`, where the lowest bit is on. Obviously";
"// this is wrong, since only integers that require 2 or 4 bytes to";
"// encode should have that lower bit on, i.e. 1 or 3 as a zero-indexed";
"// length.";
"//";
"// Second, for 4-byte integers, the signed aspect has the effect of";
"// leaving both MSBs of the 2 bytes on. When using the MSB pack";
"// operation later on, it will result in a 2-bit control value of";
"// `0b11`, which is what we want.";
"//";
"// Third, for 1 and 2 byte integers, it has no effect. This is great";
"// for 2-byte values since the MSB will remain on and 1 byte values";
"// will not have any MSB on anyways, so it is effectively a noop in";
"// both scenarios.";
"//";
"// 00000000 00000000 00000000 11111111 // control bits stream (original 1234)";
"// 01111111 00000000 01111111 00000000 // 0x7F00 mask";
"// ----------------------------------- // add unsigned saturating 16-bit";
"// 01111111 00000000 01111111 11111111";
"//";
"// Next, we take a mask with the value `0x7F00` and perform an unsigned";
"// saturating add to the control bits stream. In the case for the integer";
"// `1234` this has no real effect. We maintain the MSB in the lowest byte.";
"// You'll note, however, that the only byte that has its MSB on is the last";
"// one, so performing an MSB pack operation would result in a value of";
"// `0b0001`, which is what we want. An example of this step on the integer";
"// `789123` might paint a clearer picture.";
"//";
"// 00000000 00000000 00000001 00000001 // control bits stream (789123)";
"// 01111111 00000000 01111111 00000000 // 0x7F00 mask";
"// ----------------------------------- // add unsigned saturating 16-bit";
"// 01111111 00000000 11111111 00000001";
"//";
"// You'll note here that the addition of `0x01` with `0x7F` in the upper";
"// byte results in the MSB of the resulting upper byte turning on. The MSB";
"// in the lower byte remains off and now an MSB pack operation will resolve";
"// to `0b0010`, which is what we want. The unsigned saturation behavior is";
"// really important for 4-byte numbers that only have bits in the most";
"// significant byte on. An example below:";
"//";
"// 01000000 00000000 00000000 00000000 // 1073741824";
"// 00000001 00000001 00000001 00000001 // 0x0101 mask";
"// ----------------------------------- // byte-min(1073741824, 0x0101)";
"// 00000001 00000000 00000000 00000000";
"// ----------------------------------- // pack unsigned saturating 16-bit to 8-bit";
"// 00000000 00000000 11111111 00000000";
"// 00000001 00000001 00000001 00000001 // 0x0101 mask";
"// ----------------------------------- // signed 16-bit min";
"// 00000000 00000000 11111111 00000000";
"// 01111111 00000000 01111111 00000000 // 0x7F00 mask";
"// ----------------------------------- // add unsigned saturating 16-bit";
"// 01111111 00000000 11111111 11111111";
"//";
"// Note here that because only the upper byte had a value in it, the lowest";
"// byte in the control bits stream remains zero for the duration of the";
"// algorithm. This poses an issue, since for a 4-byte value, we want for the";
"// 2-bit control to result in a value of `0b11`. Performing a 16-bit unsigned";
"// saturating addition has the effect of turning on all bits in the lower";
"// byte, and thus we get a result with the MSB in the lower byte on.";
"//";
"// 01111111 00000000 11111111 00000001 // control bits stream (789123)";
"// ----------------------------------- // move byte mask";
"// 00000000 00000000 00000000 00000010 // 2-bit control";
"//";
"// The final move byte mask is performed on the control bits stream, and we";
"// now have the result we wanted.";
"//";
"// We then use the above control bits we generated to get the appropriate";
"// shuffle masks. Below is an example of how the shuffle operation and a";
"// mask allows for us to tightly pack two integers into the output buffer.";
"//";
"// input [1234, 789123] (little endian R-to-L)";
"// 00000000 00001100 00001010 10000011 00000000 00000000 00000100 11010010";
"//            |       |         |                             |        |";
"//            |       |         |____________________         |        |";
"//            |       |_____________________         |        |        |";
"//            |____________________         |        |        |        |";
"//                                 v        v        v        v        v";
"//    0xff     0xff     0xff     0x06     0x05     0x04     0x01     0x00 // mask in hex";
"// -----------------------------------------------------------------------";
"// 00000000 00000000 00000000 00001100 00001010 10000011 00000100 11010010 // packed";
"//go:noescape";
"func Put8uint32FastAsm(";
"	in []uint32, outBytes []byte,";
"	shuffle *[256][16]uint8, lenTable *[256]uint8,";
") (r uint16)";
"";
"// Put8uint32DeltaFastAsm works similarly to put8uint32Fast except";
"// that prior to encoding the 8 uint32s, we first use differential";
"// coding to change the original numbers into deltas using SIMD";
"// techniques. Afterwards, the encoding algorithm follows the same";
"// flow as put8uint32Fast. The basic differential coding algorithm";
"// is as follows:";
"//";
"// Prev:            [P P P P]";
"// Input:           [A B C D]";
"// Concat-shift:    [P A B C]";
"// Subtract:        [A-P B-A C-B D-C]";
"//go:noescape";
"func Put8uint32DeltaFastAsm(";
"	in []uint32, outBytes []byte, prev uint32,";
"	shuffle *[256][16]uint8, lenTable *[256]uint8,";
") (r uint16)"].

(** pkg/encode/encode_base.go *)
Definition encode_base_go : list string := [
"// +build !amd64";
"";
"package encode";
"";
"import (";
"	""github.com/theMPatel/streamvbyte-simdgo/pkg/shared""";
")";
"";
"func GetMode() shared.PerformanceMode {";
"	return shared.Normal";
"}";
"";
"func Put8uint32Fast(in []uint32, out []byte) uint16 {";
"	panic(""unreachable"")";
"}";
"";
"func Put8uint32DeltaFast(in []uint32, out []byte, prev uint32) uint16 {";
"	panic(""unreachable"")";
"}"].

(** pkg/decode/decode.go *)
Definition decode_go : list string := [
"package decode";
"";
"import (";
"	""github.com/theMPatel/streamvbyte-simdgo/pkg/shared""";
")";
"";
"var (";
"	getImpl      Get8Impl";
"	getDeltaImpl Get8DeltaImpl";
")";
"";
"type Get8Impl func(in []byte, out []uint32, ctrl uint16)";
"type Get8DeltaImpl func(in []byte, out []uint32, ctrl uint16, prev uint32)";
"";
"func init() {";
"	if GetMode() == shared.Fast {";
"		getImpl = Get8uint32Fast";
"		getDeltaImpl = Get8uint32DeltaFast";
"	} else {";
"		getImpl = Get8uint32Scalar";
"		getDeltaImpl = Get8uint32DeltaScalar";
"	}";
"}";
"";
"// Get8uint32 is a general func you can use to decode 8 uint32's at a time.";
"// It will use the fastest implementation available determined during";
"// package initialization. If your CPU supports special hardware instructions";
"// then it will use an accelerated version of Stream VByte. Otherwise, the";
"// scalar implementation will be used as the fallback.";
"func Get8uint32(in []byte, out []uint32, ctrl uint16) {";
"	getImpl(in, out, ctrl)";
"}";
"";
"// Get8uint32Delta is a general func you can use to decode 8 differentially coded";
"// uint32's at a time. It will use the fastest implementation available determined";
"// during package initialization. If your CPU supports special hardware instructions";
"// then it will use an accelerated version of Stream VByte. Otherwise, the";
"// scalar implementation will be used as the fallback.";
"func Get8uint32Delta(in []byte, out []uint32, ctrl uint16, prev uint32) {";
"	getDeltaImpl(in, out, ctrl, prev)";
"}";
"";
"// Get8uint32Scalar will decode 8 uint32 values from in into out using the";
"// Stream VByte format. Returns the number of bytes read from the input";
"// buffer.";
"//";
"// Note: It is your responsibility to ensure that the incoming slices have";
"// the appropriate sizes and data otherwise this func will panic.";
"func Get8uint32Scalar(in []byte, out []uint32, ctrl uint16) {";
"	lower := uint8(ctrl & 0xff)";
"	upper := uint8(ctrl >> 8)";
"	lowerSize := shared.ControlByteToSize(lower)";
"	Get4uint32Scalar(in, out, lower)";
"	Get4uint32Scalar(in[lowerSize:], out[4:], upper)";
"}";
"";
"// Get4uint32Scalar will decode 4 uint32 values from in into out using the";
"// Stream VByte format. Returns the number of bytes read from the input";
"// buffer.";
"//";
"// Note: It is your responsibility to ensure that the incoming slices have";
"// the appropriate sizes and data otherwise this func will panic.";
"func Get4uint32Scalar(in []byte, out []uint32, ctrl uint8) {";
"	sizes := shared.PerNumLenTable[ctrl]";
"";
"	len3 := sizes[3]";
"	len2 := sizes[2]";
"	len1 := sizes[1]";
"	len0 := sizes[0]";
"";
"	out[3] = decodeOne(in[len0+len1+len2:], len3)";
"	out[2] = decodeOne(in[len0+len1:], len2)";
"	out[1] = decodeOne(in[len0:], len1)";
"	out[0] = decodeOne(in, len0)";
"}";
"";
"// GetUint32Scalar decodes up to 4 integers from in into out using the";
"// Stream VByte format.";
"//";
"// Note: It is your responsibility to ensure that the incoming slices have";
"// the appropriate sizes and data otherwise this func will panic.";
"func GetUint32Scalar(in []byte, out []uint32, ctrl uint8, count int) int {";
"	if count == 0 {";
"		return 0";
"	}";
"";
"	if count > 4 {";
"		count = 4";
"	}";
"";
"	shift := 0";
"	total := 0";
"	for i := 0; i < count; i++ {";
"		size := ((ctrl >> shift) & 0x3) + 1";
"		out[i] = decodeOne(in[total:], size)";
"		total += int(size)";
"		shift += 2";
"	}";
"";
"	return total";
"}";
"";
"// GetUint32DeltaScalar decodes up to 4 integers from in into out using the";
"// Stream VByte format. It will reconstruct the original non differentially";
"// encoded values.";
"//";
"// Note: It is your responsibility to ensure that the incoming slices have";
"// the appropriate sizes and data otherwise this func will panic.";
"func GetUint32DeltaScalar(in []byte, out []uint32, ctrl uint8, count int, prev uint32) int {";
"	if count == 0 {";
"		return 0";
"	}";
"";
"	if count > 4 {";
"		count = 4";
"	}";
"";
"	shift := 0";
"	total := 0";
"	for i := 0; i < count; i++ {";
"		size := ((ctrl >> shift) & 0x3) + 1";
"		num := decodeOne(in[total:], size) + prev";
"		out[i] = num";
"		prev = num";
"		total += int(size)";
"		shift += 2";
"	}";
"";
"	return total";
"}";
"";
"// Get8uint32DeltaScalar will decode 8 uint32 values from in into out and reconstruct";
"// the original values via differential coding. Prev provides a way for you to";
"// indicate the base value for this batch of 8. For example, when decoding the second";
"// batch of 8 integers out of, e.g. 16, you would provide a prev value of the last value";
"// in the first batch of 8 you decoded. This is done to ensure that the integers are";
"// correctly resolved to the correct diff. An example below.";
"//";
"// Input:	[ 10, 10, 10, 10, 10, 10, 10, 10 ] [ 10, 10, 10, 10, 10, 10, 10, 10 ]";
"// Output:	[ 10, 20, 30, 40, 50, 60, 70, 80 ] [ 90, 100, 110, 120, 130, 140, 150, 160 ]";
"// Prev: 80";
"func Get8uint32DeltaScalar(in []byte, out []uint32, ctrl uint16, prev uint32) {";
"	lower := uint8(ctrl & 0xff)";
"	upper := uint8(ctrl >> 8)";
"	lowerSize := shared.ControlByteToSize(lower)";
"	Get4uint32DeltaScalar(in, out, lower, prev)";
"	Get4uint32DeltaScalar(in[lowerSize:], out[4:], upper, out[3])";
"}";
"";
"// Get4uint32DeltaScalar will decode 4 uint32 values from in into out and reconstruct";
"// the original values via differential coding. Prev provides a way for you to";
"// indicate the base value for this batch of 4. For example, when decoding the second";
"// batch of 4 integers out of, e.g. 8, you would provide a prev value of the last value";
"// in the first batch of 4 you decoded. This is done to ensure that the integers are";
"// correctly resolved to the correct diff. An example below.";
"//";
"// Input:	[ 10, 10, 10, 10 ] [ 10, 10, 10, 10 ]";
"// Output:	[ 10, 20, 30, 40 ] [ 50, 60, 70, 80 ]";
"// Prev: 40";
"func Get4uint32DeltaScalar(in []byte, out []uint32, ctrl uint8, prev uint32) {";
"	sizes := shared.PerNumLenTable[ctrl]";
"";
"	len0 := sizes[0]";
"	len1 := sizes[1]";
"	len2 := sizes[2]";
"	len3 := sizes[3]";
"";
"	// bounds check hint to compiler";
"	_ = out[3]";
"	out[0] = decodeOne(in, len0) + prev";
"	out[1] = decodeOne(in[len0:], len1) + out[0]";
"	out[2] = decodeOne(in[len0+len1:], len2) + out[1]";
"	out[3] = decodeOne(in[len0+len1+len2:], len3) + out[2]";
"}";
"";
"func decodeOne(b []byte, size uint8) uint32 {";
"	switch size {";
"	case 4:";
"		return uint32(b[3])<<24 | uint32(b[2])<<16 | uint32(b[1])<<8 | uint32(b[0])";
"	case 3:";
"		return uint32(b[2])<<16 | uint32(b[1])<<8 | uint32(b[0])";
"	case 2:";
"		return uint32(b[1])<<8 | uint32(b[0])";
"	case 1:";
"		return uint32(b[0])";
"	}";
"	panic(""impossible"")";
"}"].

(** pkg/decode/gen.go *)
Definition decode_gen_go : list string := [
"package decode";
"";
"//go:generate go run ./main/asm.go -out ./decode_amd64.s"].

(** pkg/decode/decode_amd64.go *)
Definition decode_amd64_go : list string := [
"// +build amd64";
"";
"// Package decode provides an x86_64 implementation of two";
"// Stream VByte decoding algorithms, a normal decoding approach";
"// and one that incorporates differential coding.";
"package decode";
"";
"import (";
"	""github.com/theMPatel/streamvbyte-simdgo/pkg/shared""";
"	""golang.org/x/sys/cpu""";
")";
"";
"// GetMode performs a check to see if the current ISA supports";
"// the below decoding funcs.";
"func GetMode() shared.PerformanceMode {";
"	if cpu.X86.HasAVX {";
"		return shared.Fast";
"	}";
"	return shared.Normal";
"}";
"";
"// Get8uint32Fast binds to get8uint32Fast which is implemented in";
"// assembly.";
"func Get8uint32Fast(in []byte, out []uint32, ctrl uint16) {";
"	Get8uint32FastAsm(in, out, ctrl,";
"		shared.DecodeShuffleTable,";
"		shared.PerControlLenTable,";
"	)";
"}";
"";
"// Get8uint32DeltaFast binds to get8uint32DeltaFast which is implemented";
"// in assembly.";
"func Get8uint32DeltaFast(in []byte, out []uint32, ctrl uint16, prev uint32) {";
"	Get8uint32DeltaFastAsm(";
"		in, out, ctrl, prev,";
"		shared.DecodeShuffleTable,";
"		shared.PerControlLenTable,";
"	)";
"}";
"";
"// Get8uint32FastAsm uses the provided 16-bit control to load the";
"// appropriate decoding shuffle masks and performs a shuffle";
"// operation on the provided input bytes. This in effect decompresses";
"// the input byte stream to uint32s. The result is written to";
"// the provided output slice.";
"//go:noescape";
"func Get8uint32FastAsm(";
"	in []byte, out []uint32, ctrl uint16,";
"	shuffle *[256][16]uint8, lenTable *[256]uint8,";
")";
"";
"// Get8uint32DeltaFastAsm works similarly to get8uint32Fast with the";
"// exception that prior to writing the uncompressed integers out";
"// to the output slice, the original values are reconstructed from";
"// the diffs. The basic reconstruction algorithm is as follows:";
"//";
"// Input:           [A B C D]";
"// Input Shifted:   [- A  B  C]";
"// Add above two:   [A AB BC CD]";
"// Add Prev:        [PA PAB PBC PCD]";
"// Input Shifted:   [- - A AB]";
"// Add Shifted:     [PA PAB PABC PABCD]";
"//go:noescape";
"func Get8uint32DeltaFastAsm(";
"	in []byte, out []uint32, ctrl uint16, prev uint32,";
"	shuffle *[256][16]uint8, lenTable *[256]uint8,";
")"].

(** pkg/decode/decode_base.go *)
Definition decode_base_go : list string := [
"// +build !amd64";
"";
"package decode";
"";
"import (";
"	""github.com/theMPatel/streamvbyte-simdgo/pkg/shared""";
")";
"";
"func GetMode() shared.PerformanceMode {";
"	return shared.Normal";
"}";
"";
"func Get8uint32Fast(in []byte, out []uint32, ctrl uint16) int {";
"	panic(""unreachable"")";
"}";
"";
"func Get8uint32DeltaFast(in []byte, out []uint32, ctrl uint16, prev uint32) int {";
"	panic(""unreachable"")";
"}"].

(** pkg/stream/writer/writer.go *)
Definition writer_go : list string := [
"package writer";
"";
"import (";
"	""github.com/theMPatel/streamvbyte-simdgo/pkg/encode""";
"	""github.com/theMPatel/streamvbyte-simdgo/pkg/shared""";
")";
"";
"const (";
"	jump     = 16";
"	jumpCtrl = jump / 4";
")";
"";
"// WriteAll will encode all the integers from in using the Stream VByte";
"// format and will return the byte array holding the encoded data. It will";
"// select the best implementation depending on the presence of special";
"// hardware instructions.";
"func WriteAll(in []uint32) []byte {";
"	if encode.GetMode() == shared.Fast {";
"		return WriteAllFast(in)";
"	} else {";
"		return WriteAllScalar(in)";
"	}";
"}";
"";
"// WriteAllDelta will differentially encode all the integers from in using";
"// the Stream VByte format and will return the byte array holding the encoded";
"// data. It will select the best implementation depending on the presence of";
"// special hardware instructions.";
"func WriteAllDelta(in []uint32, prev uint32) []byte {";
"	if encode.GetMode() == shared.Fast {";
"		return WriteAllDeltaFast(in, prev)";
"	} else {";
"		return WriteAllDeltaScalar(in, prev)";
"	}";
"}";
"";
"// WriteAllScalar will encode all the integers from in using the Stream VByte";
"// format and will return the byte array holding the encoded data.";
"func WriteAllScalar(in []uint32) []byte {";
"	var (";
"		count   = len(in)";
"		ctrlLen = (count + 3) / 4";
"		stream  = make([]byte, ctrlLen+(encode.MaxBytesPerNum*count))";
"";
"		dataPos    = ctrlLen";
"		ctrlPos    = 0";
"		encoded    = 0";
"		lowestJump = count &^ (jump - 1)";
"		lowest4    = count &^ 3";
"	)";
"";
"	for ; encoded < lowestJump; encoded += jump {";
"		nums := in[encoded : encoded+jump]";
"		data := stream[dataPos:]";
"		ctrls := stream[ctrlPos : ctrlPos+jumpCtrl]";
"";
"		ctrl := encode.Put4uint32Scalar(nums, data)";
"		ctrls[0] = ctrl";
"		sizeA := shared.ControlByteToSize(ctrl)";
"";
"		ctrl = encode.Put4uint32Scalar(nums[4:], data[sizeA:])";
"		ctrls[1] = ctrl";
"		sizeB := shared.ControlByteToSize(ctrl)";
"";
"		ctrl = encode.Put4uint32Scalar(nums[8:], data[sizeA+sizeB:])";
"		ctrls[2] = ctrl";
"		sizeC := shared.ControlByteToSize(ctrl)";
"";
"		ctrl = encode.Put4uint32Scalar(nums[12:], data[sizeA+sizeB+sizeC:])";
"		ctrls[3] = ctrl";
"		sizeD := shared.ControlByteToSize(ctrl)";
"";
"		dataPos += sizeA + sizeB + sizeC + sizeD";
"		ctrlPos += jumpCtrl";
"	}";
"";
"	for ; encoded < lowest4; encoded += 4 {";
"		ctrl := encode.Put4uint32Scalar(in[encoded:], stream[dataPos:])";
"		stream[ctrlPos] = ctrl";
"		size := shared.ControlByteToSize(ctrl)";
"		dataPos += size";
"		ctrlPos++";
"	}";
"";
"	if lowest4 != count {";
"		nums := count - lowest4";
"		ctrl := encode.PutUint32Scalar(in[encoded:], stream[dataPos:], nums)";
"		size := shared.ControlByteToSize(ctrl)";
"		size -= 4 - nums";
"		dataPos += size";
"		stream[ctrlPos] = ctrl";
"	}";
"";
"	return stream[:dataPos]";
"}";
"";
"// WriteAllDeltaScalar will differentially encode all the integers from in using";
"// the Stream VByte format and will return the byte array holding the encoded data.";
"func WriteAllDeltaScalar(in []uint32, prev uint32) []byte {";
"	var (";
"		count   = len(in)";
"		ctrlLen = (count + 3) / 4";
"		stream  = make([]byte, ctrlLen+(encode.MaxBytesPerNum*count))";
"";
"		dataPos    = ctrlLen";
"		ctrlPos    = 0";
"		encoded    = 0";
"		lowestJump = count &^ (jump - 1)";
"		lowest4    = count &^ 3";
"	)";
"";
"	for ; encoded < lowestJump; encoded += jump {";
"		nums := in[encoded : encoded+jump]";
"		data := stream[dataPos:]";
"		ctrls := stream[ctrlPos : ctrlPos+jumpCtrl]";
"";
"		ctrl := encode.Put4uint32DeltaScalar(nums, data, prev)";
"		ctrls[0] = ctrl";
"		sizeA := shared.ControlByteToSize(ctrl)";
"";
"		ctrl = encode.Put4uint32DeltaScalar(nums[4:], data[sizeA:], nums[3])";
"		ctrls[1] = ctrl";
"		sizeB := shared.ControlByteToSize(ctrl)";
"";
"		ctrl = encode.Put4uint32DeltaScalar(nums[8:], data[sizeA+sizeB:], nums[7])";
"		ctrls[2] = ctrl";
"		sizeC := shared.ControlByteToSize(ctrl)";
"";
"		ctrl = encode.Put4uint32DeltaScalar(nums[12:], data[sizeA+sizeB+sizeC:], nums[11])";
"		ctrls[3] = ctrl";
"		sizeD := shared.ControlByteToSize(ctrl)";
"";
"		dataPos += sizeA + sizeB + sizeC + sizeD";
"		ctrlPos += jumpCtrl";
"		prev = nums[15]";
"	}";
"";
"	for ; encoded < lowest4; encoded += 4 {";
"		ctrl := encode.Put4uint32DeltaScalar(in[encoded:], stream[dataPos:], prev)";
"		stream[ctrlPos] = ctrl";
"		size := shared.ControlByteToSize(ctrl)";
"		dataPos += size";
"		ctrlPos++";
"		prev = in[encoded+3]";
"	}";
"";
"	if lowest4 != count {";
"		nums := count - lowest4";
"		ctrl := encode.PutUint32DeltaScalar(in[encoded:], stream[dataPos:], nums, prev)";
"		size := shared.ControlByteToSize(ctrl)";
"		size -= 4 - nums";
"		dataPos += size";
"		stream[ctrlPos] = ctrl";
"	}";
"";
"	return stream[:dataPos]";
"}"].

(** pkg/stream/writer/writer_amd64.go *)
Definition writer_amd64_go : list string := [
"// +build amd64";
"";
"package writer";
"";
"import (";
"	""github.com/theMPatel/streamvbyte-simdgo/pkg/encode""";
"	""github.com/theMPatel/streamvbyte-simdgo/pkg/shared""";
")";
"";
"// WriteAllFast will encode all the integers from in using the Stream VByte";
"// format using special hardware instructions and will return the byte array";
"// holding the encoded data.";
"func WriteAllFast(in []uint32) []byte {";
"	var (";
"		count   = len(in)";
"		ctrlLen = (count + 3) / 4";
"		stream  = make([]byte, ctrlLen+(encode.MaxBytesPerNum*count))";
"";
"		dataPos  = ctrlLen";
"		ctrlPos  = 0";
"		encoded  = 0";
"		lowest32 = ((ctrlLen - 3) * 4) &^ 31";
"	)";
"";
"	for ; encoded < lowest32; encoded += 32 {";
"		ctrls := stream[ctrlPos : ctrlPos+8]";
"		nums := in[encoded : encoded+32]";
"		out := stream[dataPos:]";
"";
"		ctrl := encode.Put8uint32FastAsm(";
"			nums[0:8],";
"			out,";
"			shared.EncodeShuffleTable,";
"			shared.PerControlLenTable,";
"		)";
"";
"		ctrls[0] = uint8(ctrl & 0xff)";
"		ctrls[1] = uint8(ctrl >> 8)";
"		sizeA := shared.ControlByteToSizeTwo(ctrl)";
"";
"		ctrl = encode.Put8uint32FastAsm(";
"			nums[8:16],";
"			out[sizeA:],";
"			shared.EncodeShuffleTable,";
"			shared.PerControlLenTable,";
"		)";
"";
"		ctrls[2] = uint8(ctrl & 0xff)";
"		ctrls[3] = uint8(ctrl >> 8)";
"		sizeB := shared.ControlByteToSizeTwo(ctrl)";
"";
"		ctrl = encode.Put8uint32FastAsm(";
"			nums[16:24],";
"			out[sizeA+sizeB:],";
"			shared.EncodeShuffleTable,";
"			shared.PerControlLenTable,";
"		)";
"";
"		ctrls[4] = uint8(ctrl & 0xff)";
"		ctrls[5] = uint8(ctrl >> 8)";
"		sizeC := shared.ControlByteToSizeTwo(ctrl)";
"";
"		ctrl = encode.Put8uint32FastAsm(";
"			nums[24:],";
"			out[sizeA+sizeB+sizeC:],";
"			shared.EncodeShuffleTable,";
"			shared.PerControlLenTable,";
"		)";
"";
"		ctrls[6] = uint8(ctrl & 0xff)";
"		ctrls[7] = uint8(ctrl >> 8)";
"		sizeD := shared.ControlByteToSizeTwo(ctrl)";
"";
"		ctrlPos += 8";
"		dataPos += sizeA + sizeB + sizeC + sizeD";
"	}";
"";
"	for ; ctrlPos < ctrlLen-2; ctrlPos += 2 {";
"		ctrl := encode.Put8uint32FastAsm(";
"			in[encoded:],";
"			stream[dataPos:],";
"			shared.EncodeShuffleTable,";
"			shared.PerControlLenTable,";
"		)";
"";
"		stream[ctrlPos] = uint8(ctrl & 0xff)";
"		stream[ctrlPos+1] = uint8(ctrl >> 8)";
"		encoded += 8";
"		dataPos += shared.ControlByteToSizeTwo(ctrl)";
"	}";
"";
"	for ; ctrlPos < ctrlLen; ctrlPos += 1 {";
"		nums := count - encoded";
"		if nums > 4 {";
"			nums = 4";
"		}";
"		ctrl := encode.PutUint32Scalar(in[encoded:], stream[dataPos:], nums)";
"		size := shared.ControlByteToSize(ctrl)";
"		stream[ctrlPos] = ctrl";
"		size -= 4 - nums";
"		dataPos += size";
"		encoded += nums";
"	}";
"";
"	return stream[:dataPos]";
"}";
"";
"// WriteAllDeltaFast will differentially encode all the integers from in using";
"// the Stream VByte format using special hardware instructions and will return";
"// the byte array holding the encoded data.";
"func WriteAllDeltaFast(in []uint32, prev uint32) []byte {";
"	var (";
"		count   = len(in)";
"		ctrlLen = (count + 3) / 4";
"		stream  = make([]byte, ctrlLen+(encode.MaxBytesPerNum*count))";
"";
"		dataPos  = ctrlLen";
"		ctrlPos  = 0";
"		encoded  = 0";
"		lowest32 = ((ctrlLen - 3) * 4) &^ 31";
"	)";
"";
"	for ; encoded < lowest32; encoded += 32 {";
"		ctrls := stream[ctrlPos : ctrlPos+8]";
"		nums := in[encoded : encoded+32]";
"		out := stream[dataPos:]";
"";
"		ctrl := encode.Put8uint32DeltaFastAsm(";
"			nums[0:8],";
"			out,";
"			prev,";
"			shared.EncodeShuffleTable,";
"			shared.PerControlLenTable,";
"		)";
"";
"		ctrls[0] = uint8(ctrl & 0xff)";
"		ctrls[1] = uint8(ctrl >> 8)";
"		sizeA := shared.ControlByteToSizeTwo(ctrl)";
"";
"		ctrl = encode.Put8uint32DeltaFastAsm(";
"			nums[8:16],";
"			out[sizeA:],";
"			nums[7],";
"			shared.EncodeShuffleTable,";
"			shared.PerControlLenTable,";
"		)";
"";
"		ctrls[2] = uint8(ctrl & 0xff)";
"		ctrls[3] = uint8(ctrl >> 8)";
"		sizeB := shared.ControlByteToSizeTwo(ctrl)";
"";
"		ctrl = encode.Put8uint32DeltaFastAsm(";
"			nums[16:24],";
"			out[sizeA+sizeB:],";
"			nums[15],";
"			shared.EncodeShuffleTable,";
"			shared.PerControlLenTable,";
"		)";
"";
"		ctrls[4] = uint8(ctrl & 0xff)";
"		ctrls[5] = uint8(ctrl >> 8)";
"		sizeC := shared.ControlByteToSizeTwo(ctrl)";
"";
"		ctrl = encode.Put8uint32DeltaFastAsm(";
"			nums[24:],";
"			out[sizeA+sizeB+sizeC:],";
"			nums[23],";
"			shared.EncodeShuffleTable,";
"			shared.PerControlLenTable,";
"		)";
"";
"		ctrls[6] = uint8(ctrl & 0xff)";
"		ctrls[7] = uint8(ctrl >> 8)";
"		sizeD := shared.ControlByteToSizeTwo(ctrl)";
"";
"		ctrlPos += 8";
"		dataPos += sizeA + sizeB + sizeC + sizeD";
"		prev = nums[31]";
"	}";
"";
"	for ; ctrlPos < ctrlLen-2; ctrlPos += 2 {";
"		ctrl := encode.Put8uint32DeltaFastAsm(";
"			in[encoded:],";
"			stream[dataPos:],";
"			prev,";
"			shared.EncodeShuffleTable,";
"			shared.PerControlLenTable,";
"		)";
"";
"		stream[ctrlPos] = uint8(ctrl & 0xff)";
"		stream[ctrlPos+1] = uint8(ctrl >> 8)";
"		encoded += 8";
"		dataPos += shared.ControlByteToSizeTwo(ctrl)";
"		prev = in[encoded-1]";
"	}";
"";
"	for ; ctrlPos < ctrlLen; ctrlPos += 1 {";
"		nums := count - encoded";
"		if nums > 4 {";
"			nums = 4";
"		}";
"		ctrl := encode.PutUint32DeltaScalar(in[encoded:], stream[dataPos:], nums, prev)";
"		size := shared.ControlByteToSize(ctrl)";
"		stream[ctrlPos] = ctrl";
"		size -= 4 - nums";
"		dataPos += size";
"		encoded += nums";
"		prev = in[encoded-1]";
"	}";
"";
"	return stream[:dataPos]";
"}"].

(** pkg/stream/writer/writer_base.go *)
Definition writer_base_go : list string := [
"// +build !amd64";
"";
"package writer";
"";
"func WriteAllFast(in []uint32) []byte {";
"	panic(""unreachable"")";
"}"].

(** pkg/stream/reader/reader.go *)
Definition reader_go : list string := [
"package reader";
"";
"import (";
"	""github.com/theMPatel/streamvbyte-simdgo/pkg/decode""";
"	""github.com/theMPatel/streamvbyte-simdgo/pkg/shared""";
")";
"";
"const (";
"	jump     = 16";
"	jumpCtrl = jump / 4";
")";
"";
"// ReadAll will read the entire input stream into out according to the";
"// Stream VByte format. It will select the best implementation depending";
"// on the presence of special hardware instructions.";
"//";
"// Note: It is your responsibility to ensure that the incoming slices are";
"// appropriately sized as well as tracking the count of integers in the";
"// stream.";
"func ReadAll(count int, stream []byte, out []uint32) {";
"	if decode.GetMode() == shared.Fast {";
"		ReadAllFast(count, stream, out)";
"	} else {";
"		ReadAllScalar(count, stream, out)";
"	}";
"}";
"";
"// ReadAllDelta will read the entire input stream into out according to the";
"// Stream VByte format. It will select the best implementation depending";
"// on the presence of special hardware instructions. It will reconstruct the";
"// original non differentially encoded values.";
"//";
"// Note: It is your responsibility to ensure that the incoming slices are";
"// appropriately sized as well as tracking the count of integers in the";
"// stream.";
"func ReadAllDelta(count int, stream []byte, out []uint32, prev uint32) {";
"	if decode.GetMode() == shared.Fast {";
"		ReadAllDeltaFast(count, stream, out, prev)";
"	} else {";
"		ReadAllDeltaScalar(count, stream, out, prev)";
"	}";
"}";
"";
"// ReadAllScalar will read the entire input stream into out according to the";
"// Stream VByte format.";
"//";
"// Note: It is your responsibility to ensure that the incoming slices are";
"// appropriately sized as well as tracking the count of integers in the";
"// stream.";
"func ReadAllScalar(count int, stream []byte, out []uint32) {";
"	var (";
"		ctrlLen = (count + 3) / 4";
"";
"		dataPos    = ctrlLen";
"		ctrlPos    = 0";
"		decoded    = 0";
"		lowestJump = count &^ (jump - 1)";
"		lowest4    = count &^ 3";
"	)";
"";
"	for ; decoded < lowestJump; decoded += jump {";
"		data := stream[dataPos:]";
"		ctrls := stream[ctrlPos : ctrlPos+jumpCtrl]";
"		nums := out[decoded : decoded+jump]";
"";
"		ctrl := ctrls[0]";
"		decode.Get4uint32Scalar(data, nums, ctrl)";
"		sizeA := shared.ControlByteToSize(ctrl)";
"";
"		ctrl = ctrls[1]";
"		decode.Get4uint32Scalar(data[sizeA:], nums[4:], ctrl)";
"		sizeB := shared.ControlByteToSize(ctrl)";
"";
"		ctrl = ctrls[2]";
"		decode.Get4uint32Scalar(data[sizeA+sizeB:], nums[8:], ctrl)";
"		sizeC := shared.ControlByteToSize(ctrl)";
"";
"		ctrl = ctrls[3]";
"		decode.Get4uint32Scalar(data[sizeA+sizeB+sizeC:], nums[12:], ctrl)";
"		sizeD := shared.ControlByteToSize(ctrl)";
"";
"		dataPos += sizeA + sizeB + sizeC + sizeD";
"		ctrlPos += jumpCtrl";
"	}";
"";
"	for ; decoded < lowest4; decoded += 4 {";
"		ctrl := stream[ctrlPos]";
"		decode.Get4uint32Scalar(stream[dataPos:], out[decoded:], ctrl)";
"		size := shared.ControlByteToSize(ctrl)";
"		dataPos += size";
"		ctrlPos++";
"	}";
"";
"	if lowest4 != count {";
"		decode.GetUint32Scalar(stream[dataPos:], out[decoded:], stream[ctrlPos], count-lowest4)";
"	}";
"}";
"";
"// ReadAllDeltaScalar will read the entire input stream into out according to the";
"// Stream VByte format. It will reconstruct the original non differentially";
"// encoded values.";
"//";
"// Note: It is your responsibility to ensure that the incoming slices are";
"// appropriately sized as well as tracking the count of integers in the";
"// stream.";
"func ReadAllDeltaScalar(count int, stream []byte, out []uint32, prev uint32) {";
"	var (";
"		ctrlLen = (count + 3) / 4";
"";
"		dataPos    = ctrlLen";
"		ctrlPos    = 0";
"		decoded    = 0";
"		lowestJump = count &^ (jump - 1)";
"		lowest4    = count &^ 3";
"	)";
"";
"	for ; decoded < lowestJump; decoded += jump {";
"		data := stream[dataPos:]";
"		ctrls := stream[ctrlPos : ctrlPos+jumpCtrl]";
"		nums := out[decoded : decoded+jump]";
"";
"		ctrl := ctrls[0]";
"		decode.Get4uint32DeltaScalar(data, nums, ctrl, prev)";
"		sizeA := shared.ControlByteToSize(ctrl)";
"";
"		ctrl = ctrls[1]";
"		decode.Get4uint32DeltaScalar(data[sizeA:], nums[4:], ctrl, nums[3])";
"		sizeB := shared.ControlByteToSize(ctrl)";
"";
"		ctrl = ctrls[2]";
"		decode.Get4uint32DeltaScalar(data[sizeA+sizeB:], nums[8:], ctrl, nums[7])";
"		sizeC := shared.ControlByteToSize(ctrl)";
"";
"		ctrl = ctrls[3]";
"		decode.Get4uint32DeltaScalar(data[sizeA+sizeB+sizeC:], nums[12:], ctrl, nums[11])";
"		sizeD := shared.ControlByteToSize(ctrl)";
"";
"		dataPos += sizeA + sizeB + sizeC + sizeD";
"		ctrlPos += jumpCtrl";
"		prev = nums[15]";
"	}";
"";
"	for ; decoded < lowest4; decoded += 4 {";
"		ctrl := stream[ctrlPos]";
"		decode.Get4uint32DeltaScalar(stream[dataPos:], out[decoded:], ctrl, prev)";
"		size := shared.ControlByteToSize(ctrl)";
"		dataPos += size";
"		ctrlPos++";
"		prev = out[decoded+3]";
"	}";
"";
"	if lowest4 != count {";
"		decode.GetUint32DeltaScalar(stream[dataPos:], out[decoded:], stream[ctrlPos], count-lowest4, prev)";
"	}";
"}"].

(** pkg/stream/reader/reader_amd64.go *)
Definition reader_amd64_go : list string := [
"// +build amd64";
"";
"package reader";
"";
"import (";
"	""github.com/theMPatel/streamvbyte-simdgo/pkg/decode""";
"	""github.com/theMPatel/streamvbyte-simdgo/pkg/shared""";
")";
"";
"// ReadAllFast will read the entire input stream into out according to the";
"// Stream VByte format using special hardware instructions.";
"//";
"// Note: It is your responsibility to ensure that the incoming slices are";
"// appropriately sized as well as tracking the count of integers in the";
"// stream.";
"func ReadAllFast(count int, stream []byte, out []uint32) {";
"	var (";
"		ctrlPos = 0";
"		decoded = 0";
"		dataPos = (count + 3) / 4";
"		ctrlLen = dataPos";
"		// lowest32 is the limit for the count of integers we'll read in";
"		// bulk 8 at a time directly from the input stream. We subtract 3";
"		// here since we load 16 bytes at a time in the assembly code. If";
"		// you attempt to load the last few control bytes worth of data,";
"		// it's possible there won't be enough bytes in the data stream to";
"		// support it, which can lead to loading from uninitialized memory.";
"		//";
"		// [ _ _ _ _ | _ _ _ _ | _ _ _ _ | _ _ _ _ ]";
"		//                    works fine --^ ^-- bad things here";
"		//";
"		// Imagine the last group of 16 in the above array is all encoded with";
"		// 4 bytes. Decoding the first 4 integers in that group will work fine,";
"		// since it will load the last 3 (unused) bytes. However, when attempting";
"		// to decode the last three groups of 4, each load will need an extra";
"		// 1, 2, or 3 bytes (respectively) in order to be considered safe.";
"		lowest32 = ((ctrlLen - 3) * 4) &^ 31";
"	)";
"";
"	for ; decoded < lowest32; decoded += 32 {";
"		data := stream[dataPos:]";
"		ctrls := stream[ctrlPos : ctrlPos+8]";
"		nums := out[decoded : decoded+32]";
"";
"		ctrl := uint16(ctrls[0]) | uint16(ctrls[1])<<8";
"		decode.Get8uint32FastAsm(";
"			data,";
"			nums,";
"			ctrl,";
"			shared.DecodeShuffleTable,";
"			shared.PerControlLenTable,";
"		)";
"		sizeA := shared.ControlByteToSize(ctrls[0]) + shared.ControlByteToSize(ctrls[1])";
"";
"		ctrl = uint16(ctrls[2]) | uint16(ctrls[3])<<8";
"		decode.Get8uint32FastAsm(";
"			data[sizeA:],";
"			nums[8:],";
"			ctrl,";
"			shared.DecodeShuffleTable,";
"			shared.PerControlLenTable,";
"		)";
"		sizeB := shared.ControlByteToSize(ctrls[2]) + shared.ControlByteToSize(ctrls[3])";
"";
"		ctrl = uint16(ctrls[4]) | uint16(ctrls[5])<<8";
"		decode.Get8uint32FastAsm(";
"			data[sizeA+sizeB:],";
"			nums[16:],";
"			ctrl,";
"			shared.DecodeShuffleTable,";
"			shared.PerControlLenTable,";
"		)";
"		sizeC := shared.ControlByteToSize(ctrls[4]) + shared.ControlByteToSize(ctrls[5])";
"";
"		ctrl = uint16(ctrls[6]) | uint16(ctrls[7])<<8";
"		decode.Get8uint32FastAsm(";
"			data[sizeA+sizeB+sizeC:],";
"			nums[24:],";
"			ctrl,";
"			shared.DecodeShuffleTable,";
"			shared.PerControlLenTable,";
"		)";
"		sizeD := shared.ControlByteToSize(ctrls[6]) + shared.ControlByteToSize(ctrls[7])";
"";
"		dataPos += sizeA + sizeB + sizeC + sizeD";
"		ctrlPos += 8";
"	}";
"";
"	// Must be strictly less than the last 4 blocks of integers, since we can't safely";
"	// decode 8 if our ctrl pos starts at the first 4 in the block.";
"	for ; ctrlPos < ctrlLen-4; ctrlPos += 2 {";
"		ctrl := uint16(stream[ctrlPos]) | uint16(stream[ctrlPos+1])<<8";
"		decode.Get8uint32FastAsm(";
"			stream[dataPos:],";
"			out[decoded:],";
"			ctrl,";
"			shared.DecodeShuffleTable,";
"			shared.PerControlLenTable,";
"		)";
"		dataPos += shared.ControlByteToSize(stream[ctrlPos]) + shared.ControlByteToSize(stream[ctrlPos+1])";
"		decoded += 8";
"	}";
"";
"	for ; ctrlPos < ctrlLen; ctrlPos += 1 {";
"		nums := count - decoded";
"		if nums > 4 {";
"			nums = 4";
"		}";
"		dataPos += decode.GetUint32Scalar(";
"			stream[dataPos:],";
"			out[decoded:],";
"			stream[ctrlPos],";
"			nums,";
"		)";
"		decoded += nums";
"	}";
"}";
"";
"// ReadAllDeltaFast will read the entire input stream into out according to the";
"// Stream VByte format using special hardware instructions. It will reconstruct";
"// the original non differentially encoded values.";
"//";
"// Note: It is your responsibility to ensure that the incoming slices are";
"// appropriately sized as well as tracking the count of integers in the";
"// stream.";
"func ReadAllDeltaFast(count int, stream []byte, out []uint32, prev uint32) {";
"	var (";
"		ctrlPos = 0";
"		decoded = 0";
"		dataPos = (count + 3) / 4";
"		ctrlLen = dataPos";
"		// lowest32 is the limit for the count of integers we'll read in";
"		// bulk 8 at a time directly from the input stream. We subtract 3";
"		// here since we load 16 bytes at a time in the assembly code. If";
"		// you attempt to load the last few control bytes worth of data,";
"		// it's possible there won't be enough bytes in the data stream to";
"		// support it, which can lead to loading from uninitialized memory.";
"		//";
"		// [ _ _ _ _ | _ _ _ _ | _ _ _ _ | _ _ _ _ ]";
"		//                    works fine --^ ^-- bad things here";
"		//";
"		// Imagine the last group of 16 in the above array is all encoded with";
"		// 4 bytes. Decoding the first 4 integers in that group will work fine,";
"		// since it will load the last 3 (unused) bytes. However, when attempting";
"		// to decode the last three groups of 4, each load will need an extra";
"		// 1, 2, or 3 bytes (respectively) in order to be considered safe.";
"		lowest32 = ((ctrlLen - 3) * 4) &^ 31";
"	)";
"";
"	for ; decoded < lowest32; decoded += 32 {";
"		data := stream[dataPos:]";
"		ctrls := stream[ctrlPos : ctrlPos+8]";
"		nums := out[decoded : decoded+32]";
"";
"		ctrl := uint16(ctrls[0]) | uint16(ctrls[1])<<8";
"		decode.Get8uint32DeltaFastAsm(";
"			data,";
"			nums,";
"			ctrl,";
"			prev,";
"			shared.DecodeShuffleTable,";
"			shared.PerControlLenTable,";
"		)";
"		sizeA := shared.ControlByteToSize(ctrls[0]) + shared.ControlByteToSize(ctrls[1])";
"";
"		ctrl = uint16(ctrls[2]) | uint16(ctrls[3])<<8";
"		decode.Get8uint32DeltaFastAsm(";
"			data[sizeA:],";
"			nums[8:],";
"			ctrl,";
"			nums[7],";
"			shared.DecodeShuffleTable,";
"			shared.PerControlLenTable,";
"		)";
"		sizeB := shared.ControlByteToSize(ctrls[2]) + shared.ControlByteToSize(ctrls[3])";
"";
"		ctrl = uint16(ctrls[4]) | uint16(ctrls[5])<<8";
"		decode.Get8uint32DeltaFastAsm(";
"			data[sizeA+sizeB:],";
"			nums[16:],";
"			ctrl,";
"			nums[15],";
"			shared.DecodeShuffleTable,";
"			shared.PerControlLenTable,";
"		)";
"		sizeC := shared.ControlByteToSize(ctrls[4]) + shared.ControlByteToSize(ctrls[5])";
"";
"		ctrl = uint16(ctrls[6]) | uint16(ctrls[7])<<8";
"		decode.Get8uint32DeltaFastAsm(";
"			data[sizeA+sizeB+sizeC:],";
"			nums[24:],";
"			ctrl,";
"			nums[23],";
"			shared.DecodeShuffleTable,";
"			shared.PerControlLenTable,";
"		)";
"		sizeD := shared.ControlByteToSize(ctrls[6]) + shared.ControlByteToSize(ctrls[7])";
"";
"		dataPos += sizeA + sizeB + sizeC + sizeD";
"		ctrlPos += 8";
"		prev = nums[31]";
"	}";
"";
"	// Must be strictly less than the last 4 blocks of integers, since we can't safely";
"	// decode 8 if our ctrl pos starts at the first 4 in the block.";
"	for ; ctrlPos < ctrlLen-4; ctrlPos += 2 {";
"		ctrl := uint16(stream[ctrlPos]) | uint16(stream[ctrlPos+1])<<8";
"		decode.Get8uint32DeltaFastAsm(";
"			stream[dataPos:],";
"			out[decoded:],";
"			ctrl,";
"			prev,";
"			shared.DecodeShuffleTable,";
"			shared.PerControlLenTable,";
"		)";
"		dataPos += shared.ControlByteToSize(stream[ctrlPos]) + shared.ControlByteToSize(stream[ctrlPos+1])";
"		decoded += 8";
"		prev = out[decoded-1]";
"	}";
"";
"	for ; ctrlPos < ctrlLen; ctrlPos += 1 {";
"		nums := count - decoded";
"		if nums > 4 {";
"			nums = 4";
"		}";
"		dataPos += decode.GetUint32DeltaScalar(";
"			stream[dataPos:],";
"			out[decoded:],";
"			stream[ctrlPos],";
"			nums,";
"			prev,";
"		)";
"		decoded += nums";
"		prev = out[decoded-1]";
"	}";
"}"].

(** pkg/stream/reader/reader_base.go *)
Definition reader_base_go : list string := [
"// +build !amd64";
"";
"package reader";
"";
"func ReadAllFast(count int, stream []byte, out []uint32) {";
"	panic(""unreachable"")";
"}"].

(** pkg/util/util.go *)
Definition util_go : list string := [
"package util";
"";
"import (";
"	""io""";
"	""sort""";
")";
"";
"func SilentClose(closer io.Closer) {";
"	_ = closer.Close()";
"}";
"";
"func GenUint32(n int) []uint32 {";
"	nums := make([]uint32, n)";
"	for i := 0; i < n; i++ {";
"		nums[i] = RandUint32()";
"	}";
"";
"	return nums";
"}";
"";
"func SortUint32(in []uint32) {";
"	sort.Slice(in, func(i, j int) bool {";
"		return in[i] < in[j]";
"	})";
"}";
"";
"func Delta(in []uint32, out []uint32) {";
"	for i := range in {";
"		if i > 0 {";
"			out[i] = in[i] - in[i-1]";
"		} else {";
"			out[i] = in[i]";
"		}";
"	}";
"}"].

(** pkg/util/varint.go *)
Definition varint_go : list string := [
"package util";
"";
"import ""encoding/binary""";
"";
"func PutVarint(nums []uint32, out []byte) int {";
"	pos := 0";
"	for i := range nums {";
"		size := binary.PutUvarint(out[pos:], uint64(nums[i]))";
"		pos += size";
"	}";
"";
"	return pos";
"}";
"";
"func GetVarint(data []byte, out []uint32) int {";
"	pos := 0";
"	i := 0";
"	for pos < len(data) {";
"		num, read := binary.Uvarint(data[pos:])";
"		pos += read";
"		out[i] = uint32(num)";
"		i++";
"	}";
"	return pos";
"}";
"";
"func PutDeltaVarint(nums []uint32, out []byte, prev uint32) int {";
"	pos := 0";
"	for i := range nums {";
"		size := binary.PutUvarint(out[pos:], uint64(nums[i]-prev))";
"		pos += size";
"		prev = nums[i]";
"	}";
"";
"	return pos";
"}";
"";
"func GetDeltaVarint(in []byte, out []uint32, prev uint32) int {";
"	pos := 0";
"	i := 0";
"	for pos < len(in) {";
"		num, size := binary.Uvarint(in[pos:])";
"		pos += size";
"		res := uint32(num) + prev";
"		out[i] = res";
"		prev = res";
"		i++";
"	}";
"";
"	return pos";
"}"].

(** pkg/util/rand.go *)
Definition rand_go : list string := [
"package util";
"";
"// This file provides a more uniform random number generator that creates";
"// numbers that have a more normal distribution along the number of bytes";
"// required to encode them. This is needed because the larger encoded bytes";
"// i.e. 3 and 4 bytes have more numbers to pick from versus those that require";
"// just 1 or 2. Thus, using a normally generated number is more likely to produce";
"// a number that requires 3 or 4 bytes to encode.";
"";
"import (";
"	""math""";
"	""math/rand""";
")";
"";
"type generator func() uint32";
"";
"func randUint32Range(low, high uint32) uint32 {";
"	return (rand.Uint32() % (high - low + 1)) + low";
"}";
"";
"var (";
"	generators = []generator{";
"		// 1 byte,";
"		func() uint32 {";
"			return randUint32Range(0, 1<<8)";
"		},";
"		// 2 byte,";
"		func() uint32 {";
"			return randUint32Range(1<<8, 1<<16)";
"		},";
"		// 3 byte,";
"		func() uint32 {";
"			return randUint32Range(1<<16, 1<<24)";
"		},";
"		// 4 byte,";
"		func() uint32 {";
"			return randUint32Range(1<<24, math.MaxUint32)";
"		},";
"	}";
")";
"";
"// RandUint32 generates a random number that is also uniformly random";
"// on the axis for the number of bytes required to encode it. It first";
"// randomly chooses a byte length, i.e. 1, 2, 3 or 4 and then randomly";
"// generates a number whose encoded length would be that length.";
"func RandUint32() uint32 {";
"	return generators[rand.Int()%4]()";
"}"].

(** pkg/shared/asm.go *)
Definition shared_asm_go : list string := [
"package shared";
"";
"import (";
"	. ""github.com/mmcloughlin/avo/build""";
"	""github.com/mmcloughlin/avo/operand""";
"	""github.com/mmcloughlin/avo/reg""";
")";
"";
"func CalculateShuffleAddrFromCtrl(shuffleBase reg.Register, ctrl reg.GPVirtual, upper bool) operand.Mem {";
"	addr := GP64()";
"	if upper {";
"		MOVWQZX(ctrl.As16(), addr)";
"		SHRQ(operand.Imm(8), addr)";
"	} else {";
"		MOVBQZX(ctrl.As8(), addr)";
"	}";
"";
"	// Left shift by 4 to get the byte level offset for the shuffle table";
"	SHLQ(operand.Imm(4), addr)";
"	ADDQ(shuffleBase, addr)";
"";
"	return operand.Mem{Base: addr}";
"}";
"";
"func LenValueAddr(ctrl reg.GPVirtual, upper bool, lenTableParam string) (operand.Mem, reg.GPVirtual) {";
"	lenTableBase := Load(Param(lenTableParam), GP64())";
"	lenValueAddr := GP64()";
"	if upper {";
"		MOVWQZX(ctrl.As16(), lenValueAddr)";
"		SHRQ(operand.Imm(8), lenValueAddr)";
"	} else {";
"		MOVBQZX(ctrl.As8L(), lenValueAddr)";
"	}";
"	ADDQ(lenTableBase, lenValueAddr)";
"";
"	return operand.Mem{Base: lenValueAddr}, lenValueAddr";
"}";
"";
"func Load8(paramName string) (reg.VecVirtual, reg.VecVirtual) {";
"	arrBase := operand.Mem{";
"		Base: Load(Param(paramName).Base(), GP64()),";
"	}";
"	firstFour := XMM()";
"	secondFour := XMM()";
"	VLDDQU(arrBase, firstFour)";
"	VLDDQU(arrBase.Offset(16), secondFour)";
"";
"	return firstFour, secondFour";
"}"].

(** pkg/shared/main/gentables.go *)
Definition gentables_go : list string := [
"package main";
"";
"import (";
"	""bytes""";
"	""flag""";
"	""fmt""";
"	""go/format""";
"	""io""";
"	""log""";
"	""os""";
"";
"	""github.com/pkg/errors""";
"	""github.com/theMPatel/streamvbyte-simdgo/pkg/util""";
")";
"";
"var (";
"	fOut     = flag.String(""out"", """", ""path to output"")";
"	fPackage = flag.String(""package"", ""shared"", ""package name"")";
")";
"";
"const MaxControlByte = 1 << 8";
"";
"func main() {";
"	flag.Parse()";
"";
"	if *fOut == """" {";
"		log.Fatalf(""outfile cannot be empty"")";
"	}";
"";
"	out := &bytes.Buffer{}";
"";
"	_, _ = fmt.Fprintln(out, ""// Code generated by gentables. DO NOT EDIT."")";
"	_, _ = fmt.Fprintf(out, ""\npackage %s\n"", *fPackage)";
"";
"	if err := genPerNumLengthTable(out); err != nil {";
"		log.Fatalf(""failed to gen per num length table"")";
"	}";
"";
"	if err := genPerQuadLengthTable(out); err != nil {";
"		log.Fatalf(""failed to gen sum length table"")";
"	}";
"";
"	if err := genEncodeShuffleTable(out); err != nil {";
"		log.Fatalf(""failed to gen encode shuffle table"")";
"	}";
"";
"	if err := genDecodeShuffleTable(out); err != nil {";
"		log.Fatalf(""failed to gen decode shuffle table"")";
"	}";
"";
"	final, err := format.Source(out.Bytes())";
"	if err != nil {";
"		log.Fatalf(""failed to go fmt output"")";
"	}";
"";
"	fileOut, err := os.Create(*fOut)";
"	if err != nil {";
"		log.Fatalf(""failed to open: %s %s"", *fOut, err)";
"	}";
"	defer util.SilentClose(fileOut)";
"";
"	_, err = fileOut.Write(final)";
"	if err != nil {";
"		log.Fatalf(""failed to write generated tables to file"")";
"	}";
"}";
"";
"func newLineAfter(countPerLine int) func(out io.Writer) {";
"	count := 1";
"	return func(out io.Writer) {";
"		if count%countPerLine == 0 {";
"			_, _ = fmt.Fprintln(out, """")";
"		} else {";
"			_, _ = fmt.Fprintf(out, "" "")";
"		}";
"		count++";
"	}";
"}";
"";
"func genPerNumLengthTable(out io.Writer) error {";
"	_, _ = fmt.Fprintf(out, ""\nvar PerNumLenTable *[256][4]uint8 = &[256][4]uint8{\n"")";
"	tabber := newLineAfter(4)";
"	for i := 0; i < MaxControlByte; i++ {";
"		one, two, three, four := sizes(uint8(i))";
"		_, err := fmt.Fprintf(out, ""\t{%d, %d, %d, %d},"", one, two, three, four)";
"		if err != nil {";
"			return errors.Wrapf(err, ""failed to write per num len: %d"", i)";
"		}";
"		tabber(out)";
"	}";
"	_, _ = fmt.Fprintln(out, ""}"")";
"	return nil";
"}";
"";
"func genPerQuadLengthTable(out io.Writer) error {";
"	_, _ = fmt.Fprintf(out, ""\nvar PerControlLenTable *[256]uint8 = &[256]uint8{\n"")";
"	tabber := newLineAfter(8)";
"	for i := 0; i < MaxControlByte; i++ {";
"		one, two, three, four := sizes(uint8(i))";
"		_, err := fmt.Fprintf(out, ""\t%d,"", one+two+three+four)";
"		if err != nil {";
"			return errors.Wrapf(err, ""failed to write summed len: %d"", i)";
"		}";
"		tabber(out)";
"	}";
"	_, _ = fmt.Fprintln(out, ""}"")";
"	return nil";
"}";
"";
"const (";
"	shuffleFmtStr = ""%#02x, %#02x, %#02x, %#02x, %#02x, %#02x, %#02x, %#02x, %#02x, %#02x, %#02x, %#02x, %#02x, %#02x, %#02x, %#02x},""";
"	commentStr    = ""\t// %d\t%#02x\t%08b\tlen\t%d\t%d\t%d\t%d\n""";
")";
"";
"func genEncodeShuffleTable(out io.Writer) error {";
"	_, _ = fmt.Fprintf(out, ""\nvar EncodeShuffleTable *[256][16]uint8 = &[256][16]uint8{\n"")";
"	tabber := newLineAfter(1)";
"	for i := 0; i < MaxControlByte; i++ {";
"		one, two, three, four := sizes(uint8(i))";
"		_, _ = fmt.Fprintf(out, commentStr, i, i, i, one, two, three, four)";
"		_, err := fmt.Fprintf(out, ""\t{"")";
"		if err != nil {";
"			return errors.Wrapf(err, ""failed to write encode shuffle table"")";
"		}";
"";
"		var positions []interface{}";
"		var base uint8";
"		for _, size := range []uint8{one, two, three, four} {";
"			for j := uint8(0); j < size; j++ {";
"				positions = append(positions, base+j)";
"			}";
"			base += 4";
"		}";
"";
"		for len(positions) < 16 {";
"			positions = append(positions, 0xff)";
"		}";
"		_, err = fmt.Fprintf(out, shuffleFmtStr, positions...)";
"		if err != nil {";
"			return errors.Wrapf(err, ""failed to write per num len: %d"", i)";
"		}";
"		tabber(out)";
"	}";
"	_, _ = fmt.Fprintln(out, ""}"")";
"	return nil";
"}";
"";
"func genDecodeShuffleTable(out io.Writer) error {";
"	_, _ = fmt.Fprintf(out, ""\nvar DecodeShuffleTable *[256][16]uint8 = &[256][16]uint8{\n"")";
"	tabber := newLineAfter(1)";
"	for i := 0; i < MaxControlByte; i++ {";
"		one, two, three, four := sizes(uint8(i))";
"		_, _ = fmt.Fprintf(out, commentStr, i, i, i, one, two, three, four)";
"		_, err := fmt.Fprintf(out, ""\t{"")";
"		if err != nil {";
"			return errors.Wrapf(err, ""failed to write encode shuffle table"")";
"		}";
"";
"		var positions []interface{}";
"		var pos uint8";
"		for _, size := range []uint8{one, two, three, four} {";
"			for j := 0; j < 4; j++ {";
"				if size > 0 {";
"					positions = append(positions, pos)";
"					pos++";
"					size--";
"				} else {";
"					positions = append(positions, 0xff)";
"				}";
"			}";
"		}";
"";
"		_, err = fmt.Fprintf(out, shuffleFmtStr, positions...)";
"		if err != nil {";
"			return errors.Wrapf(err, ""failed to write per num len: %d"", i)";
"		}";
"		tabber(out)";
"	}";
"	_, _ = fmt.Fprintln(out, ""}"")";
"	return nil";
"}";
"";
"// sizes returns the length in bytes for each of the four numbers";
"// represented by the provided control byte.";
"func sizes(control uint8) (one uint8, two uint8, three uint8, four uint8) {";
"	one = (control & 3) + 1";
"	two = (control >> 2 & 3) + 1";
"	three = (control >> 4 & 3) + 1";
"	four = (control >> 6 & 3) + 1";
"	return";
"}"].

(** pkg/encode/main/asm.go *)
Definition encode_asm_go : list string := [
"package main";
"";
"import (";
"	""fmt""";
"	""log""";
"";
"	. ""github.com/mmcloughlin/avo/build""";
"	""github.com/mmcloughlin/avo/operand""";
"	""github.com/mmcloughlin/avo/reg""";
"	""github.com/theMPatel/streamvbyte-simdgo/pkg/shared""";
")";
"";
"const (";
"	name      = ""Put8uint32FastAsm""";
"	nameDelta = ""Put8uint32DeltaFastAsm""";
"	pIn       = ""in""";
"	pOut      = ""outBytes""";
"	pShuffle  = ""shuffle""";
"	pLenTable = ""lenTable""";
"	pPrev     = ""prev""";
"	pR        = ""r""";
")";
"";
"var (";
"	signature = fmt.Sprintf(";
"		""func(%s []uint32, %s []byte, %s *[256][16]uint8, %s *[256]uint8) (%s uint16)"",";
"		pIn, pOut, pShuffle, pLenTable, pR)";
"";
"	signatureDelta = fmt.Sprintf(";
"		""func(%s []uint32, %s []byte, %s uint32, %s *[256][16]uint8, %s *[256]uint8) (%s uint16)"",";
"		pIn, pOut, pPrev, pShuffle, pLenTable, pR)";
"";
"	mask1111R = ConstData(""mask0101"", operand.U16(0x0101))";
"	mask7F00R = ConstData(""mask7F00"", operand.U16(0x7F00))";
")";
"";
"func main() {";
"	regular()";
"	differential()";
"	Generate()";
"}";
"";
"func differential() {";
"	TEXT(nameDelta, NOSPLIT, signatureDelta)";
"";
"	prevSingular, err := Param(pPrev).Resolve()";
"	if err != nil {";
"		log.Fatalf(""failed to get addr of prev"")";
"	}";
"";
"	firstFour, secondFour := shared.Load8(pIn)";
"	prev := XMM()";
"	VPALIGNR(operand.Imm(12), firstFour, secondFour, prev)";
"	VPSUBD(prev, secondFour, secondFour)";
"";
"	VBROADCASTSS(prevSingular.Addr, prev)";
"	VPALIGNR(operand.Imm(12), prev, firstFour, prev)";
"	VPSUBD(prev, firstFour, firstFour)";
"";
"	coreAlgorithm(firstFour, secondFour)";
"}";
"";
"func regular() {";
"	TEXT(name, NOSPLIT, signature)";
"	coreAlgorithm(shared.Load8(pIn))";
"}";
"";
"func coreAlgorithm(firstFour, secondFour reg.VecVirtual) {";
"	onesMask := XMM()";
"	sevenFzerozero := XMM()";
"	VPBROADCASTW(mask1111R, onesMask)";
"	VPBROADCASTW(mask7F00R, sevenFzerozero)";
"";
"	minFirstFour := XMM()";
"	minSecondFour := XMM()";
"	VPMINUB(onesMask, firstFour, minFirstFour)";
"	VPMINUB(onesMask, secondFour, minSecondFour)";
"";
"	// Re-use minFirstFour register";
"	VPACKUSWB(minSecondFour, minFirstFour, minFirstFour)";
"	VPMINSW(onesMask, minFirstFour, minFirstFour)";
"	VPADDUSW(sevenFzerozero, minFirstFour, minFirstFour)";
"";
"	ctrl := GP32()";
"	VPMOVMSKB(minFirstFour, ctrl)";
"	Store(ctrl.As16(), Return(pR))";
"";
"	shuffleBase := Load(Param(pShuffle), GP64())";
"	firstShuffle := shared.CalculateShuffleAddrFromCtrl(shuffleBase, ctrl, false)";
"	secondShuffle := shared.CalculateShuffleAddrFromCtrl(shuffleBase, ctrl, true)";
"";
"	VPSHUFB(firstShuffle, firstFour, firstFour)";
"	VPSHUFB(secondShuffle, secondFour, secondFour)";
"";
"	firstAddr := Load(Param(pOut).Base(), GP64())";
"	secondAddr := GP64()";
"	MOVQ(firstAddr, secondAddr)";
"";
"	lenAddr, lenValue := shared.LenValueAddr(ctrl, false, pLenTable)";
"";
"	MOVBQZX(lenAddr, lenValue)";
"	ADDQ(lenValue, secondAddr)";
"";
"	VMOVDQU(firstFour, operand.Mem{Base: firstAddr})";
"	VMOVDQU(secondFour, operand.Mem{Base: secondAddr})";
"";
"	RET()";
"}"].

(** pkg/decode/main/asm.go *)
Definition decode_asm_go : list string := [
"package main";
"";
"import (";
"	""fmt""";
"	""log""";
"";
"	. ""github.com/mmcloughlin/avo/build""";
"	""github.com/mmcloughlin/avo/operand""";
"	""github.com/mmcloughlin/avo/reg""";
"	""github.com/theMPatel/streamvbyte-simdgo/pkg/shared""";
")";
"";
"const (";
"	name      = ""Get8uint32FastAsm""";
"	nameDelta = ""Get8uint32DeltaFastAsm""";
"";
"	pIn       = ""in""";
"	pOut      = ""out""";
"	pCtrl     = ""ctrl""";
"	pShuffle  = ""shuffle""";
"	pLenTable = ""lenTable""";
"	pPrev     = ""prev""";
")";
"";
"var (";
"	signature = fmt.Sprintf(";
"		""func(%s []byte, %s []uint32, %s uint16, %s *[256][16]uint8, %s *[256]uint8)"",";
"		pIn, pOut, pCtrl, pShuffle, pLenTable)";
"";
"	signatureDelta = fmt.Sprintf(";
"		""func(%s []byte, %s []uint32, %s uint16, %s uint32, %s *[256][16]uint8, %s *[256]uint8)"",";
"		pIn, pOut, pCtrl, pPrev, pShuffle, pLenTable)";
")";
"";
"func main() {";
"	regular()";
"	differential()";
"	Generate()";
"}";
"";
"func regular() {";
"	TEXT(name, NOSPLIT, signature)";
"";
"	firstFour, secondFour := coreAlgorithm()";
"	outBase := operand.Mem{Base: Load(Param(pOut).Base(), GP64())}";
"";
"	VMOVDQU(firstFour, outBase)";
"	VMOVDQU(secondFour, outBase.Offset(16))";
"";
"	RET()";
"}";
"";
"func differential() {";
"	TEXT(nameDelta, NOSPLIT, signatureDelta)";
"";
"	firstFour, secondFour := coreAlgorithm() // [A B C D] [E F G H]";
"	prevSingular, err := Param(pPrev).Resolve()";
"	if err != nil {";
"		log.Fatalf(""failed to get addr of prev"")";
"	}";
"";
"	prev := XMM()";
"	VBROADCASTSS(prevSingular.Addr, prev) // [P P P P]";
"	undoDelta(firstFour, prev)";
"";
"	VPSHUFD(operand.Imm(0xff), firstFour, prev) // [A B C D] -> [D D D D]";
"	undoDelta(secondFour, prev)";
"";
"	outBase := operand.Mem{Base: Load(Param(pOut).Base(), GP64())}";
"";
"	VMOVDQU(firstFour, outBase)";
"	VMOVDQU(secondFour, outBase.Offset(16))";
"";
"	RET()";
"}";
"";
"func undoDelta(four, prev reg.VecVirtual) {";
"	adder := XMM()                       // [A B C D]";
"	VPSLLDQ(operand.Imm(4), four, adder) // [- A  B  C]";
"	VPADDD(four, adder, four)            // [A AB BC CD]";
"	VPSLLDQ(operand.Imm(8), four, adder) // [- - A AB]";
"	VPADDD(four, prev, four)             // [PA PAB PBC PCD]";
"	VPADDD(four, adder, four)            // [PA PAB PABC PABCD]";
"}";
"";
"func coreAlgorithm() (reg.VecVirtual, reg.VecVirtual) {";
"	ctrl := GP64()";
"	Load(Param(pCtrl), ctrl)";
"";
"	shuffleBase := Load(Param(pShuffle), GP64())";
"	shuffleA := shared.CalculateShuffleAddrFromCtrl(shuffleBase, ctrl, false)";
"	shuffleB := shared.CalculateShuffleAddrFromCtrl(shuffleBase, ctrl, true)";
"";
"	firstBlock := Load(Param(pIn).Base(), GP64())";
"	secondBlock := GP64()";
"	MOVQ(firstBlock, secondBlock)";
"	lowerAddr, lowerSize := shared.LenValueAddr(ctrl, false, pLenTable)";
"";
"	MOVBQZX(lowerAddr, lowerSize)";
"	ADDQ(lowerSize, secondBlock)";
"";
"	firstFour := XMM()";
"	secondFour := XMM()";
"	VLDDQU(operand.Mem{Base: firstBlock}, firstFour)";
"	VLDDQU(operand.Mem{Base: secondBlock}, secondFour)";
"";
"	VPSHUFB(shuffleA, firstFour, firstFour)";
"	VPSHUFB(shuffleB, secondFour, secondFour)";
"";
"	return firstFour, secondFour";
"}"].

(** Every file built into the packages, with its path. *)
Definition sources : list (string * list string) := [
("pkg/encode/encode_amd64.s", encode_amd64_s);
("pkg/decode/decode_amd64.s", decode_amd64_s);
("pkg/shared/gen.go", shared_gen_go);
("pkg/shared/mode.go", shared_mode_go);
("pkg/shared/tables.go", shared_tables_go);
("pkg/encode/encode.go", encode_go);
("pkg/encode/gen.go", encode_gen_go);
("pkg/encode/encode_amd64.go", encode_amd64_go);
("pkg/encode/encode_base.go", encode_base_go);
("pkg/decode/decode.go", decode_go);
("pkg/decode/gen.go", decode_gen_go);
("pkg/decode/decode_amd64.go", decode_amd64_go);
("pkg/decode/decode_base.go", decode_base_go);
("pkg/stream/writer/writer.go", writer_go);
("pkg/stream/writer/writer_amd64.go", writer_amd64_go);
("pkg/stream/writer/writer_base.go", writer_base_go);
("pkg/stream/reader/reader.go", reader_go);
("pkg/stream/reader/reader_amd64.go", reader_amd64_go);
("pkg/stream/reader/reader_base.go", reader_base_go);
("pkg/util/util.go", util_go);
("pkg/util/varint.go", varint_go);
("pkg/util/rand.go", rand_go)].
