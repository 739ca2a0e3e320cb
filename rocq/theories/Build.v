(** * Which files are built for which target, and whether they fit together (C27)

    The packages under /repo/pkg as lists of files.  For every non-test Go file we record
    - its build constraints: the [// +build] line and the _GOARCH part of the file name
      (go/build: goodOSArchFile, Go 1.16),
    - its package-level declarations with their types,
    - every use it makes of a declaration of one of these packages, with the type that
      the context of the use needs,
    - for assembly files the TEXT symbols they define.
    Uses of the standard library and of other modules are taken to be fine on every target,
    and so are the bodies of the functions apart from the recorded uses.  Line numbers of uses
    are those of the first occurrence; equal uses in one file are recorded once.
    Packages main and files *_test.go are not part of the library and are left out. *)
Require Import Coq.Strings.String Coq.Lists.List Coq.Bool.Bool Coq.Arith.PeanoNat Coq.Strings.Ascii.
Import ListNotations.
Local Open Scope string_scope.
Local Open Scope list_scope.

Inductive ty :=
| U8 | U16 | U32 | Int | Bool | Str
| Sl (t : ty) | Arr (n : nat) (t : ty) | Ptr (t : ty)
| Named (pkg name : string)            (* a defined type; pkg may be another module *)
| Fn (args results : list ty).

Fixpoint ty_eqb (a b : ty) : bool :=
  let fix all (x y : list ty) :=
    match x, y with [], [] => true | p :: x', q :: y' => ty_eqb p q && all x' y' | _, _ => false end in
  match a, b with
  | U8, U8 | U16, U16 | U32, U32 | Int, Int | Bool, Bool | Str, Str => true
  | Sl x, Sl y => ty_eqb x y
  | Arr n x, Arr k y => Nat.eqb n k && ty_eqb x y
  | Ptr x, Ptr y => ty_eqb x y
  | Named p x, Named q y => String.eqb p q && String.eqb x y
  | Fn x r, Fn y s => all x y && all r s
  | _, _ => false
  end.

Inductive decl :=
| DFunc (args results : list ty)       (* func with a body *)
| DExtern (args results : list ty)     (* func without a body *)
| DVar (t : ty)
| DConst
| DType (under : ty).

Inductive use :=
| UCall (args : list ty) (results : option (list ty))   (* [None]: the results are dropped *)
| UValue (t : ty)      (* assigned to a variable of type t *)
| UConst
| UType.

Inductive tag := NoTag | Only (goarch : string) | Not (goarch : string).

Record file := File {
  f_pkg : string;
  f_name : string;
  f_tag : tag;
  f_decls : list (string * decl);
  f_uses : list (string * string * use);   (* package, name, use *)
  f_text : list string }.

(** ** Selection of files *)
(** go/build/syslist.go, Go 1.16: goarchList *)
Definition known_arch : list string :=
  ["386"; "amd64"; "amd64p32"; "arm"; "armbe"; "arm64"; "arm64be"; "ppc64"; "ppc64le"; "mips"; "mipsle"; "mips64"; "mips64le";
   "mips64p32"; "mips64p32le"; "ppc"; "riscv"; "riscv64"; "s390"; "s390x"; "sparc"; "sparc64"; "wasm"].
(** The part of a file name after its last underscore and before the first dot; [None]
    when there is no underscore. *)
Fixpoint stem (s : string) : string :=
  match s with EmptyString => EmptyString | String c r => if Ascii.eqb c "." then EmptyString else String c (stem r) end.
Fixpoint after_last (s : string) : option string :=
  match s with
  | EmptyString => None
  | String c r => match after_last r with Some x => Some x | None => if Ascii.eqb c "_" then Some r else None end
  end.
Definition name_ok (goarch : string) (name : string) : bool :=
  match after_last (stem name) with
  | Some x => if existsb (String.eqb x) known_arch then String.eqb x goarch else true
  | None => true
  end.
Definition tag_ok (goarch : string) (t : tag) : bool :=
  match t with NoTag => true | Only a => String.eqb a goarch | Not a => negb (String.eqb a goarch) end.
Definition selected (goarch : string) (f : file) : bool := name_ok goarch (f_name f) && tag_ok goarch (f_tag f).

(** ** What the compiler and linker check *)
Definition package (goarch : string) (fs : list file) (p : string) : list file :=
  filter (fun f => selected goarch f && String.eqb (f_pkg f) p) fs.
Definition decls (goarch : string) (fs : list file) (p : string) : list (string * decl) :=
  flat_map f_decls (package goarch fs p).

Definition exported (s : string) : bool :=
  match s with String c _ => let n := nat_of_ascii c in Nat.leb 65 n && Nat.leb n 90 | EmptyString => false end.

(** The type behind a defined type of these packages. *)
Definition under (goarch : string) (fs : list file) (t : ty) : ty :=
  match t with
  | Named p n => match find (fun d => String.eqb (fst d) n) (decls goarch fs p) with Some (_, DType u) => u | _ => t end
  | _ => t
  end.
Definition same (a b : list ty) : bool := ty_eqb (Fn a []) (Fn b []).
Definition fits_call (a r a' : list ty) (r' : option (list ty)) : bool :=
  same a a' && match r' with None => true | Some r' => same r r' end.
(** Does a declaration serve a use? *)
Definition serves (goarch : string) (fs : list file) (d : decl) (u : use) : bool :=
  match d, u with
  | (DFunc a r | DExtern a r), UCall a' r' => fits_call a r a' r'
  | (DFunc a r | DExtern a r), UValue t => ty_eqb (Fn a r) (under goarch fs t)
  | DVar t, UCall a' r' => match under goarch fs t with Fn a r => fits_call a r a' r' | _ => false end
  | DVar t, UValue t' => ty_eqb t t'
  | DConst, UConst => true
  | DType _, UType => true
  | _, _ => false
  end.
(** A use in package [p] of name [n] of package [q] is resolved. *)
Definition resolved (goarch : string) (fs : list file) (p q n : string) (u : use) : Prop :=
  (p = q \/ exported n = true) /\ exists d, In (n, d) (decls goarch fs q) /\ serves goarch fs d u = true.

(** One package compiles and links, its imports aside. *)
Definition own (goarch : string) (fs : list file) (p : string) : Prop :=
  (forall n i j d d', n <> "init" -> nth_error (decls goarch fs p) i = Some (n, d) -> nth_error (decls goarch fs p) j = Some (n, d') -> i = j) /\
  (forall f q n u, In f (package goarch fs p) -> In (q, n, u) (f_uses f) -> resolved goarch fs p q n u) /\
  (forall n a r, In (n, DExtern a r) (decls goarch fs p) -> exists f, In f (package goarch fs p) /\ In n (f_text f)).

(** Package [p] needs package [q]: by chains of uses in the selected files. *)
Inductive needs (goarch : string) (fs : list file) : string -> string -> Prop :=
| needs_self : forall p, needs goarch fs p p
| needs_use : forall p f q n u r, In f (package goarch fs p) -> In (q, n, u) (f_uses f) -> needs goarch fs q r -> needs goarch fs p r.

Definition compiles (goarch : string) (fs : list file) (p : string) : Prop := forall q, needs goarch fs p q -> own goarch fs q.

(** ** The files *)
(** pkg/shared/asm.go:9-49 *)
Definition f_shared_asm : file := File "shared" "asm.go" (NoTag)
  [("CalculateShuffleAddrFromCtrl", DFunc [Named "avo/reg" "Register"; Named "avo/reg" "GPVirtual"; Bool] [Named "avo/operand" "Mem"]);
   ("LenValueAddr", DFunc [Named "avo/reg" "GPVirtual"; Bool; Str] [Named "avo/operand" "Mem"; Named "avo/reg" "GPVirtual"]);
   ("Load8", DFunc [Str] [Named "avo/reg" "VecVirtual"; Named "avo/reg" "VecVirtual"])]
  []
  [].
(** pkg/shared/gen.go:5-11 *)
Definition f_shared_gen : file := File "shared" "gen.go" (NoTag)
  [("ControlByteToSize", DFunc [U8] [Int]);
   ("ControlByteToSizeTwo", DFunc [U16] [Int])]
  [("shared", "PerControlLenTable", UValue (Ptr (Arr 256 U8)))]
  [].
(** pkg/shared/mode.go:8-15 *)
Definition f_shared_mode : file := File "shared" "mode.go" (NoTag)
  [("PerformanceMode", DType (Int));
   ("Normal", DConst);
   ("Fast", DConst);
   ("CheckMode", DType (Fn [] [Named "shared" "PerformanceMode"]))]
  [("shared", "PerformanceMode", UType)]
  [].
(** pkg/shared/tables.go:5, 72, 107, 622 *)
Definition f_shared_tables : file := File "shared" "tables.go" (NoTag)
  [("PerNumLenTable", DVar (Ptr (Arr 256 (Arr 4 U8))));
   ("PerControlLenTable", DVar (Ptr (Arr 256 U8)));
   ("EncodeShuffleTable", DVar (Ptr (Arr 256 (Arr 16 U8))));
   ("DecodeShuffleTable", DVar (Ptr (Arr 256 (Arr 16 U8))))]
  []
  [].
(** pkg/encode/encode.go:9-236 *)
Definition f_encode_go : file := File "encode" "encode.go" (NoTag)
  [("MaxBytesPerNum", DConst);
   ("putImpl", DVar (Named "encode" "Put8Impl"));
   ("putDeltaImpl", DVar (Named "encode" "Put8DeltaImpl"));
   ("Put8Impl", DType (Fn [Sl U32; Sl U8] [U16]));
   ("Put8DeltaImpl", DType (Fn [Sl U32; Sl U8; U32] [U16]));
   ("init", DFunc [] []);
   ("Put8uint32", DFunc [Sl U32; Sl U8] [U16]);
   ("Put8uint32Delta", DFunc [Sl U32; Sl U8; U32] [U16]);
   ("PutUint32Scalar", DFunc [Sl U32; Sl U8; Int] [U8]);
   ("PutUint32DeltaScalar", DFunc [Sl U32; Sl U8; Int; U32] [U8]);
   ("Put8uint32Scalar", DFunc [Sl U32; Sl U8] [U16]);
   ("Put4uint32Scalar", DFunc [Sl U32; Sl U8] [U8]);
   ("Put8uint32DeltaScalar", DFunc [Sl U32; Sl U8; U32] [U16]);
   ("Put4uint32DeltaScalar", DFunc [Sl U32; Sl U8; U32] [U8]);
   ("encodeOne", DFunc [U32; Sl U8] [Int]);
   ("max", DFunc [Int; Int] [Int])]
  [("encode", "Put8Impl", UType);
   ("encode", "Put8DeltaImpl", UType);
   ("encode", "GetMode", UCall [] (Some [Named "shared" "PerformanceMode"]));
   ("shared", "Fast", UConst);
   ("encode", "putImpl", UValue (Named "encode" "Put8Impl"));
   ("encode", "putDeltaImpl", UValue (Named "encode" "Put8DeltaImpl"));
   ("encode", "Put8uint32Fast", UValue (Named "encode" "Put8Impl"));
   ("encode", "Put8uint32DeltaFast", UValue (Named "encode" "Put8DeltaImpl"));
   ("encode", "Put8uint32Scalar", UValue (Named "encode" "Put8Impl"));
   ("encode", "Put8uint32DeltaScalar", UValue (Named "encode" "Put8DeltaImpl"));
   ("encode", "putImpl", UCall [Sl U32; Sl U8] (Some [U16]));
   ("encode", "putDeltaImpl", UCall [Sl U32; Sl U8; U32] (Some [U16]));
   ("encode", "encodeOne", UCall [U32; Sl U8] (Some [Int]));
   ("encode", "Put4uint32Scalar", UCall [Sl U32; Sl U8] (Some [U8]));
   ("shared", "ControlByteToSize", UCall [U8] (Some [Int]));
   ("encode", "Put4uint32DeltaScalar", UCall [Sl U32; Sl U8; U32] (Some [U8]));
   ("encode", "max", UCall [Int; Int] (Some [Int]))]
  [].
(** pkg/encode/encode_amd64.go:1-215 *)
Definition f_encode_amd64 : file := File "encode" "encode_amd64.go" (Only "amd64")
  [("GetMode", DFunc [] [Named "shared" "PerformanceMode"]);
   ("Put8uint32Fast", DFunc [Sl U32; Sl U8] [U16]);
   ("Put8uint32DeltaFast", DFunc [Sl U32; Sl U8; U32] [U16]);
   ("Put8uint32FastAsm", DExtern [Sl U32; Sl U8; Ptr (Arr 256 (Arr 16 U8)); Ptr (Arr 256 U8)] [U16]);
   ("Put8uint32DeltaFastAsm", DExtern [Sl U32; Sl U8; U32; Ptr (Arr 256 (Arr 16 U8)); Ptr (Arr 256 U8)] [U16])]
  [("shared", "PerformanceMode", UType);
   ("shared", "Fast", UConst);
   ("shared", "Normal", UConst);
   ("encode", "Put8uint32FastAsm", UCall [Sl U32; Sl U8; Ptr (Arr 256 (Arr 16 U8)); Ptr (Arr 256 U8)] (Some [U16]));
   ("encode", "Put8uint32DeltaFastAsm", UCall [Sl U32; Sl U8; U32; Ptr (Arr 256 (Arr 16 U8)); Ptr (Arr 256 U8)] (Some [U16]));
   ("shared", "EncodeShuffleTable", UValue (Ptr (Arr 256 (Arr 16 U8))));
   ("shared", "PerControlLenTable", UValue (Ptr (Arr 256 U8)))]
  [].
(** pkg/encode/encode_base.go:1-19 *)
Definition f_encode_base : file := File "encode" "encode_base.go" (Not "amd64")
  [("GetMode", DFunc [] [Named "shared" "PerformanceMode"]);
   ("Put8uint32Fast", DFunc [Sl U32; Sl U8] [U16]);
   ("Put8uint32DeltaFast", DFunc [Sl U32; Sl U8; U32] [U16])]
  [("shared", "PerformanceMode", UType);
   ("shared", "Normal", UConst)]
  [].
(** pkg/encode/encode_amd64.s:13, 49 *)
Definition f_encode_s : file := File "encode" "encode_amd64.s" (NoTag)
  []
  []
  ["Put8uint32FastAsm"; "Put8uint32DeltaFastAsm"].
(** pkg/encode/gen.go *)
Definition f_encode_gen : file := File "encode" "gen.go" (NoTag)
  []
  []
  [].
(** pkg/decode/decode.go:7-188 *)
Definition f_decode_go : file := File "decode" "decode.go" (NoTag)
  [("getImpl", DVar (Named "decode" "Get8Impl"));
   ("getDeltaImpl", DVar (Named "decode" "Get8DeltaImpl"));
   ("Get8Impl", DType (Fn [Sl U8; Sl U32; U16] []));
   ("Get8DeltaImpl", DType (Fn [Sl U8; Sl U32; U16; U32] []));
   ("init", DFunc [] []);
   ("Get8uint32", DFunc [Sl U8; Sl U32; U16] []);
   ("Get8uint32Delta", DFunc [Sl U8; Sl U32; U16; U32] []);
   ("Get8uint32Scalar", DFunc [Sl U8; Sl U32; U16] []);
   ("Get4uint32Scalar", DFunc [Sl U8; Sl U32; U8] []);
   ("GetUint32Scalar", DFunc [Sl U8; Sl U32; U8; Int] [Int]);
   ("GetUint32DeltaScalar", DFunc [Sl U8; Sl U32; U8; Int; U32] [Int]);
   ("Get8uint32DeltaScalar", DFunc [Sl U8; Sl U32; U16; U32] []);
   ("Get4uint32DeltaScalar", DFunc [Sl U8; Sl U32; U8; U32] []);
   ("decodeOne", DFunc [Sl U8; U8] [U32])]
  [("decode", "Get8Impl", UType);
   ("decode", "Get8DeltaImpl", UType);
   ("decode", "GetMode", UCall [] (Some [Named "shared" "PerformanceMode"]));
   ("shared", "Fast", UConst);
   ("decode", "getImpl", UValue (Named "decode" "Get8Impl"));
   ("decode", "getDeltaImpl", UValue (Named "decode" "Get8DeltaImpl"));
   ("decode", "Get8uint32Fast", UValue (Named "decode" "Get8Impl"));
   ("decode", "Get8uint32DeltaFast", UValue (Named "decode" "Get8DeltaImpl"));
   ("decode", "Get8uint32Scalar", UValue (Named "decode" "Get8Impl"));
   ("decode", "Get8uint32DeltaScalar", UValue (Named "decode" "Get8DeltaImpl"));
   ("decode", "getImpl", UCall [Sl U8; Sl U32; U16] None);
   ("decode", "getDeltaImpl", UCall [Sl U8; Sl U32; U16; U32] None);
   ("shared", "ControlByteToSize", UCall [U8] (Some [Int]));
   ("decode", "Get4uint32Scalar", UCall [Sl U8; Sl U32; U8] None);
   ("shared", "PerNumLenTable", UValue (Ptr (Arr 256 (Arr 4 U8))));
   ("decode", "decodeOne", UCall [Sl U8; U8] (Some [U32]));
   ("decode", "Get4uint32DeltaScalar", UCall [Sl U8; Sl U32; U8; U32] None)]
  [].
(** pkg/decode/decode_amd64.go:1-67 *)
Definition f_decode_amd64 : file := File "decode" "decode_amd64.go" (Only "amd64")
  [("GetMode", DFunc [] [Named "shared" "PerformanceMode"]);
   ("Get8uint32Fast", DFunc [Sl U8; Sl U32; U16] []);
   ("Get8uint32DeltaFast", DFunc [Sl U8; Sl U32; U16; U32] []);
   ("Get8uint32FastAsm", DExtern [Sl U8; Sl U32; U16; Ptr (Arr 256 (Arr 16 U8)); Ptr (Arr 256 U8)] []);
   ("Get8uint32DeltaFastAsm", DExtern [Sl U8; Sl U32; U16; U32; Ptr (Arr 256 (Arr 16 U8)); Ptr (Arr 256 U8)] [])]
  [("shared", "PerformanceMode", UType);
   ("shared", "Fast", UConst);
   ("shared", "Normal", UConst);
   ("decode", "Get8uint32FastAsm", UCall [Sl U8; Sl U32; U16; Ptr (Arr 256 (Arr 16 U8)); Ptr (Arr 256 U8)] None);
   ("decode", "Get8uint32DeltaFastAsm", UCall [Sl U8; Sl U32; U16; U32; Ptr (Arr 256 (Arr 16 U8)); Ptr (Arr 256 U8)] None);
   ("shared", "DecodeShuffleTable", UValue (Ptr (Arr 256 (Arr 16 U8))));
   ("shared", "PerControlLenTable", UValue (Ptr (Arr 256 U8)))]
  [].
(** pkg/decode/decode_base.go:1-19 *)
Definition f_decode_base : file := File "decode" "decode_base.go" (Not "amd64")
  [("GetMode", DFunc [] [Named "shared" "PerformanceMode"]);
   ("Get8uint32Fast", DFunc [Sl U8; Sl U32; U16] [Int]);
   ("Get8uint32DeltaFast", DFunc [Sl U8; Sl U32; U16; U32] [Int])]
  [("shared", "PerformanceMode", UType);
   ("shared", "Normal", UConst)]
  [].
(** pkg/decode/decode_amd64.s:7, 35 *)
Definition f_decode_s : file := File "decode" "decode_amd64.s" (NoTag)
  []
  []
  ["Get8uint32FastAsm"; "Get8uint32DeltaFastAsm"].
(** pkg/decode/gen.go *)
Definition f_decode_gen : file := File "decode" "gen.go" (NoTag)
  []
  []
  [].
(** pkg/stream/reader/reader.go:8-155 *)
Definition f_reader_go : file := File "reader" "reader.go" (NoTag)
  [("jump", DConst);
   ("jumpCtrl", DConst);
   ("ReadAll", DFunc [Int; Sl U8; Sl U32] []);
   ("ReadAllDelta", DFunc [Int; Sl U8; Sl U32; U32] []);
   ("ReadAllScalar", DFunc [Int; Sl U8; Sl U32] []);
   ("ReadAllDeltaScalar", DFunc [Int; Sl U8; Sl U32; U32] [])]
  [("reader", "jump", UConst);
   ("reader", "jumpCtrl", UConst);
   ("decode", "GetMode", UCall [] (Some [Named "shared" "PerformanceMode"]));
   ("shared", "Fast", UConst);
   ("reader", "ReadAllFast", UCall [Int; Sl U8; Sl U32] None);
   ("reader", "ReadAllScalar", UCall [Int; Sl U8; Sl U32] None);
   ("reader", "ReadAllDeltaFast", UCall [Int; Sl U8; Sl U32; U32] None);
   ("reader", "ReadAllDeltaScalar", UCall [Int; Sl U8; Sl U32; U32] None);
   ("decode", "Get4uint32Scalar", UCall [Sl U8; Sl U32; U8] None);
   ("shared", "ControlByteToSize", UCall [U8] (Some [Int]));
   ("decode", "GetUint32Scalar", UCall [Sl U8; Sl U32; U8; Int] (Some [Int]));
   ("decode", "Get4uint32DeltaScalar", UCall [Sl U8; Sl U32; U8; U32] None);
   ("decode", "GetUint32DeltaScalar", UCall [Sl U8; Sl U32; U8; Int; U32] (Some [Int]))]
  [].
(** pkg/stream/reader/reader_amd64.go:1-236 *)
Definition f_reader_amd64 : file := File "reader" "reader_amd64.go" (Only "amd64")
  [("ReadAllFast", DFunc [Int; Sl U8; Sl U32] []);
   ("ReadAllDeltaFast", DFunc [Int; Sl U8; Sl U32; U32] [])]
  [("decode", "Get8uint32FastAsm", UCall [Sl U8; Sl U32; U16; Ptr (Arr 256 (Arr 16 U8)); Ptr (Arr 256 U8)] None);
   ("shared", "DecodeShuffleTable", UValue (Ptr (Arr 256 (Arr 16 U8))));
   ("shared", "PerControlLenTable", UValue (Ptr (Arr 256 U8)));
   ("shared", "ControlByteToSize", UCall [U8] (Some [Int]));
   ("decode", "GetUint32Scalar", UCall [Sl U8; Sl U32; U8; Int] (Some [Int]));
   ("decode", "Get8uint32DeltaFastAsm", UCall [Sl U8; Sl U32; U16; U32; Ptr (Arr 256 (Arr 16 U8)); Ptr (Arr 256 U8)] None);
   ("decode", "GetUint32DeltaScalar", UCall [Sl U8; Sl U32; U8; Int; U32] (Some [Int]))]
  [].
(** pkg/stream/reader/reader_base.go:1-7 *)
Definition f_reader_base : file := File "reader" "reader_base.go" (Not "amd64")
  [("ReadAllFast", DFunc [Int; Sl U8; Sl U32] [])]
  []
  [].
(** pkg/stream/writer/writer.go:8-157 *)
Definition f_writer_go : file := File "writer" "writer.go" (NoTag)
  [("jump", DConst);
   ("jumpCtrl", DConst);
   ("WriteAll", DFunc [Sl U32] [Sl U8]);
   ("WriteAllDelta", DFunc [Sl U32; U32] [Sl U8]);
   ("WriteAllScalar", DFunc [Sl U32] [Sl U8]);
   ("WriteAllDeltaScalar", DFunc [Sl U32; U32] [Sl U8])]
  [("writer", "jump", UConst);
   ("writer", "jumpCtrl", UConst);
   ("encode", "GetMode", UCall [] (Some [Named "shared" "PerformanceMode"]));
   ("shared", "Fast", UConst);
   ("writer", "WriteAllFast", UCall [Sl U32] (Some [Sl U8]));
   ("writer", "WriteAllScalar", UCall [Sl U32] (Some [Sl U8]));
   ("writer", "WriteAllDeltaFast", UCall [Sl U32; U32] (Some [Sl U8]));
   ("writer", "WriteAllDeltaScalar", UCall [Sl U32; U32] (Some [Sl U8]));
   ("encode", "MaxBytesPerNum", UConst);
   ("encode", "Put4uint32Scalar", UCall [Sl U32; Sl U8] (Some [U8]));
   ("shared", "ControlByteToSize", UCall [U8] (Some [Int]));
   ("encode", "PutUint32Scalar", UCall [Sl U32; Sl U8; Int] (Some [U8]));
   ("encode", "Put4uint32DeltaScalar", UCall [Sl U32; Sl U8; U32] (Some [U8]));
   ("encode", "PutUint32DeltaScalar", UCall [Sl U32; Sl U8; Int; U32] (Some [U8]))]
  [].
(** pkg/stream/writer/writer_amd64.go:1-212 *)
Definition f_writer_amd64 : file := File "writer" "writer_amd64.go" (Only "amd64")
  [("WriteAllFast", DFunc [Sl U32] [Sl U8]);
   ("WriteAllDeltaFast", DFunc [Sl U32; U32] [Sl U8])]
  [("encode", "MaxBytesPerNum", UConst);
   ("encode", "Put8uint32FastAsm", UCall [Sl U32; Sl U8; Ptr (Arr 256 (Arr 16 U8)); Ptr (Arr 256 U8)] (Some [U16]));
   ("shared", "EncodeShuffleTable", UValue (Ptr (Arr 256 (Arr 16 U8))));
   ("shared", "PerControlLenTable", UValue (Ptr (Arr 256 U8)));
   ("shared", "ControlByteToSizeTwo", UCall [U16] (Some [Int]));
   ("encode", "PutUint32Scalar", UCall [Sl U32; Sl U8; Int] (Some [U8]));
   ("shared", "ControlByteToSize", UCall [U8] (Some [Int]));
   ("encode", "Put8uint32DeltaFastAsm", UCall [Sl U32; Sl U8; U32; Ptr (Arr 256 (Arr 16 U8)); Ptr (Arr 256 U8)] (Some [U16]));
   ("encode", "PutUint32DeltaScalar", UCall [Sl U32; Sl U8; Int; U32] (Some [U8]))]
  [].
(** pkg/stream/writer/writer_base.go:1-7 *)
Definition f_writer_base : file := File "writer" "writer_base.go" (Not "amd64")
  [("WriteAllFast", DFunc [Sl U32] [Sl U8])]
  []
  [].
(** pkg/util/rand.go:15-48 *)
Definition f_util_rand : file := File "util" "rand.go" (NoTag)
  [("generator", DType (Fn [] [U32]));
   ("randUint32Range", DFunc [U32; U32] [U32]);
   ("generators", DVar (Sl (Named "util" "generator")));
   ("RandUint32", DFunc [] [U32])]
  [("util", "generator", UType);
   ("util", "generators", UValue (Sl (Named "util" "generator")));
   ("util", "randUint32Range", UCall [U32; U32] (Some [U32]))]
  [].
(** pkg/util/util.go:8-35 *)
Definition f_util_util : file := File "util" "util.go" (NoTag)
  [("SilentClose", DFunc [Named "io" "Closer"] []);
   ("GenUint32", DFunc [Int] [Sl U32]);
   ("SortUint32", DFunc [Sl U32] []);
   ("Delta", DFunc [Sl U32; Sl U32] [])]
  [("util", "RandUint32", UCall [] (Some [U32]))]
  [].
(** pkg/util/varint.go:5-51 *)
Definition f_util_varint : file := File "util" "varint.go" (NoTag)
  [("PutVarint", DFunc [Sl U32; Sl U8] [Int]);
   ("GetVarint", DFunc [Sl U8; Sl U32] [Int]);
   ("PutDeltaVarint", DFunc [Sl U32; Sl U8; U32] [Int]);
   ("GetDeltaVarint", DFunc [Sl U8; Sl U32; U32] [Int])]
  []
  [].

Definition repo : list file :=
  [f_shared_asm; f_shared_gen; f_shared_mode; f_shared_tables; f_encode_go; f_encode_amd64; f_encode_base; f_encode_s; f_encode_gen; f_decode_go; f_decode_amd64; f_decode_base; f_decode_s; f_decode_gen; f_reader_go; f_reader_amd64; f_reader_base; f_writer_go; f_writer_amd64; f_writer_base; f_util_rand; f_util_util; f_util_varint].
Definition packages : list string := ["shared"; "encode"; "decode"; "reader"; "writer"; "util"].
