# Design of the formal model of streamvbyte-simdgo

## What is modelled

The Go code of `pkg/shared`, `pkg/encode`, `pkg/decode`, `pkg/stream/{reader,writer}` and `pkg/util`, the four
amd64 assembly routines, the programs that generate the tables and the assembly, and the build constraints, as
executable Gallina in `rocq/theories`. Every definition cites the file and lines it models.

### The model

| file | models |
|------|--------|
| `GoSem.v` | memory (typed allocations), slices with offset/len/cap, bounds-check panics, faults, 64-bit `int` wrap, loops with fuel, interpreter `run` producing result, memory and the list of memory accesses |
| `Tables.v` | `pkg/shared/tables.go`, transcribed mechanically (literal data) |
| `GenTables.v` | `pkg/shared/main/gentables.go` (the numbers, not the text formatting) |
| `Shared.v` | `pkg/shared/gen.go`, `mode.go` |
| `Asm.v` | the subset of x86-64/AVX/AVX2 used, with CPU features, and Go's ABI0 argument frame |
| `AsmProgs.v` | `encode_amd64.s`, `decode_amd64.s`, instruction by instruction |
| `Encode.v`, `Decode.v` | `pkg/encode/*.go`, `pkg/decode/*.go` incl. dispatch |
| `Writer.v`, `Reader.v` | `pkg/stream/writer/*.go`, `pkg/stream/reader/*.go` |
| `Util.v` | `pkg/util/{util,varint,rand}.go` and the parts of `encoding/binary` they call |
| `Build.v` | files, build constraints, declarations and uses with their types, per target |
| `GoTypes.v` | a type checker for the parsed Go text, from the language specification (imports given by signatures) |
| `Conc.v` | interleaving semantics of several calls |
| `AvoGen.v` | the generators of the assembly, `pkg/{encode,decode}/main/asm.go`, `pkg/shared/asm.go`, on virtual registers |
| `AvoSem.v` | execution on virtual registers, assignment of physical registers, liveness |
| `SourceText.v` | the Go and assembly files themselves, line by line, byte for byte (written by `tools/embed.py`) |
| `GoSyntax.v`, `AsmText.v` | lexer and parser for the Go the repository uses; reader for the Go assembler |
| `IntOps.v`, `IntSize.v` | arithmetic on an `int` of `w` bits; the functions that compute with `int`, with `w` as a parameter (equal to the model for 64) |
| `GoInterp.v` | the meaning of the parsed Go: an interpreter into the computations of `GoSem.v`, for an `int` of `w` bits |
| `GenInterp.v` | a second interpreter, for the text of the generator programs: strings, maps of flags, closures, structs, errors; files, formatting and avo as an environment that records events |
| `GenPrint.v` | avo's register allocator and printer |
| `GoProgram.v`, `GoSource.v` | build selection, linking, package variables and `init`, calls incl. assembly routines |

### The specifications

`Spec.v` (the format; refers to nothing of the model), `UtilSpec.v` (varints), `Api.v` (vocabulary for running a
call on a memory: `returns`, `panics`, `accesses`, `same_except`, `validB`, ...). Some property files add a
type enumerating the implementations (`writer`, `reader`) so that one theorem covers all of them.

### The proofs

`Wp.v` (weakest preconditions), `SpecLemmas.v`, `TableProof.v`, `EncodeProof*.v`, `SimdProof.v`, `AsmProof.v`,
`DecodeProof*.v`, `WriterProof*.v`, `ReaderProof*.v`, `UtilProof.v`, `AvoProof.v`, `ApiLemmas.v`. `Witness.v` is
the concrete memory on which the examples beside the theorems are computed. The property theorems are in
`C_*.v`; `Assumptions.v` prints what they rest on.

### Memory and effects

A Go function is a `prog A`: a tree of primitive memory accesses (read/write a byte, read/write a uint32,
allocate) ending in a value, a Go panic, a machine fault, an instruction the CPU does not have, or fuel
exhaustion. `run p m` executes it. An access outside an allocation is a `Fault` (assembly can do it; Go code
panics first). Byte and uint32 allocations are kept apart: without `unsafe`, `[]byte` and `[]uint32` never
alias. Slices of one allocation may overlap freely. "Reads/writes only inside X" is stated on the access list of
`run`, and on the absence of `Fault` when the allocation is exactly X.

`int` is 64 bit (wraps explicitly, `i64`). uint8/16/32 wrap explicitly. Loops carry fuel; the theorems show that
the fuel given in the model is never used up (`Diverged` never happens), which is termination.

`validB`/`validW` bound allocations by 2^55 bytes and 2^52 elements: no address space holds more, and below these
sizes no `int` computation of the library wraps. The bounds are the only size limits.

### Simplifications and what is not modelled

- Memory exhaustion, the garbage collector, stack growth. `int` has 64 bits in every property but C51, which covers other widths.
- The Go scheduler, except that `Conc.v` allows every interleaving of single accesses on sequentially consistent
  memory; C32/C39 also show the absence of data races, under which Go promises that.
- Slice pointer adjustment when the new capacity is 0 (not observable).
- `x/sys/cpu` detection: assumed accurate; the CPU features are a parameter.
- `math/rand`: the numbers drawn are an argument of the model of `RandUint32`, and universally quantified in the
  execution of tests (C54); `rand.Seed` and the clock are not modelled. `sort.Slice` (`SortUint32`) is modelled in the
  execution of tests only, as sorting with stdpp's `merge_sort`. `SilentClose` is not modelled.
- `binary.Uvarint` differs between Go versions in whether it stops at ten bytes; both are modelled (`cut`).
- `avo`: parameter placement, requirement computation, instruction emission, register allocation and printing are
  modelled as far as used. The model of the allocator is read off from avo's documented method (fewest registers left
  first) and reproduces the checked-in registers; C40 does not rest on it, but on a proved liveness check.
- `go/format` is a parameter, `fmt` is modelled for the verbs used. Comments are not modelled; tests (C54) and benchmarks (C56) are.
  `tools/parse_and_write_bench.go` is modelled by hand (BenchTool.v) and executed as text (BenchInterp.v).
- AsmCheck.v checks the instruction model on concrete vectors against values computed from a separate transcription of the Intel SDM pseudo code.
- `Build.v` covers file selection, declarations, and uses with their types; not the bodies of functions. `GoTypes.v` checks the text itself, bodies included, except pkg/shared/asm.go.
- Instruction timing, flags (no routine reads them), the upper halves of the vector registers (the routines only use
  the 128-bit forms).

## Trusted base

- The Coq 8.16.1 kernel including `vm_compute`; std++ is used, it has no axioms.
- `Assumptions.v` runs `Print Assumptions` on the tuple of all property theorems listed in `MANIFEST.json`.
  Its output is `Closed under the global context`: for each of them, `Print Assumptions` lists nothing.
- Loading std++ loads Coq's `ssr` library, which declares seven constants `Coq.ssr.ssrunder.Under_rel.*` inside a
  sealed module. A listing of everything loaded shows them; no theorem uses them.
- That the model is the code. For the assembly files, the tables, and the bodies of the Go functions (C48, C49) this
  rests on the embedded text (`tools/embed.py --check` compares it with `/repo`), the parsers (`GoSyntax.v`,
  `AsmText.v`) and the interpreter (`GoInterp.v`, `GoProgram.v`), which are written from the Go specification for the
  constructs the repository uses; for the rest, on the citations, which make the transcription checkable by reading.
  The Go parser is checked against the grammar (C62), the symbolic semantics of the instructions against a semantics on
  numbers and flat memory (C63).
  The interpreter fixes two things the Go specification leaves open: operands are evaluated from left to right (an
  assignment `out[i] = f(x)` evaluates the right-hand side, then checks the index), and `_ = s[i]` checks the index
  without loading. Other orders of operands give the same results (C65). The moment of the index check matters only
  to what is in memory after a panic (C46), where it is this one.
- `tools/manifest.py` writes `MANIFEST.json` and `Assumptions.v` from the theorem names and `tools/notes.json`.

## Wrong programs

`seeded/LOG.jsonl` has one line per edit of the model that was tried, with the theorems that failed. Besides the
proofs, a set of concrete checks (one per property) was evaluated on every edited model to see which English claims
the edit breaks, so that a theorem that still proved would be noticed.

## Plan per property

- C01, C02: writer theorem (C03/C04) + reader theorem (C06/C07) + spec-level round trip.
- C03, C04, C05, C08, C09, C11: loop invariant over the four writer functions, in a weakest-precondition calculus over `prog`; one invariant: allocation = controls ++ unused ++ data ++ unused.
- C06, C07, C10, C12: loop invariant over the four reader functions. C12 as stated is false (count not a multiple of 4): refutation witness + proved bound of 4 - count mod 4 bytes.
- C13: compositional safety predicate over arbitrary arguments.
- C14: proved for scalar; refuted for fast by witness. For the fast readers: simulate on a larger memory, where they panic; a smaller memory only turns that into a fault.
- C15, C16, C17, C24, C25: symbolic execution of the assembly; masks lifted from a finite sweep of 256 rows.
- C18, C19: false as stated (16-byte stores/loads): witness + proved version with room.
- C20, C21, C22, C23: direct.
- C26: feature check in the instruction interpreter; totality theorems for all CPUs.
- C27: model of declarations per build tag; refuted; the exact list of errors.
- C28: proved for disjoint slices, refuted for aliasing.
- C29, C30: induction on numbers/bytes; termination by a measure on `out`.
- C31: refuted (256 in the 1-byte class), proved ranges; how many of the 2^32 draws give each number, by induction on the number of draws.
- C32, C39: footprint theorem for interleavings of `prog`s, instantiated; C39 is false for the fast readers.
- C33, C34, C35, C38, C41, C42: corollaries at specification level plus the function theorems.
- C36, C37: refuted with witnesses; proved parts.
- C43: the loop invariants once more, showing that the furthest load is executed (`hits`, ReaderProof7.v); on a smaller memory the run follows that on a larger one until it faults.
- C44: as C43; that the last cell is stored to follows from the value it has afterwards (`hits_changed_b`, C_Exact8.v), whatever it was before.
- C40: simulation between virtual and physical registers along a register assignment that keeps live registers apart.
- C45: a budget of accesses is carried through the program tree (`bnd`, Cost.v), independently of what is read; for the assembly, the kind of pointer in each register is computed.
- C46 (C_Panic.v, with Outcome.v, Outcome2.v, Outcome3.v): a calculus `outcome p m Q P` that also tracks the memory at the panic, and from it the exact memory left by every panic of the portable encoders, decoders and readers.
- C47 (BenchTool.v, C_Bench.v): the tool that writes benchmark results into the README; bytes.Index, strings.HasPrefix, strings.Join, bufio.ScanLines are modelled by their documented meaning.
- C48 (C_Source.v): the files as text (SourceText.v), read by a parser for Go (GoSyntax.v) and one for the assembler (AsmText.v); computation.
- C49 (C_Text.v): the bodies as text, executed by GoInterp.v, function by function (SourceEncode.v ... SourceUtil.v) equal to the model; Total.v: the loops of the model always have enough fuel.
- C50 (C_Types.v): a type checker (GoTypes.v) run on the text; computation. For an unused variable, shadowing is not considered. int is taken to have 32 bits when constants are checked.
- C51 (C_Int.v): the interpreter takes the width of int; IntSize.v restates the functions with it and SourceX.v relate text and restated function for every width from 32 on; IntAlike.v/IntSame.v: as long as no length wraps, the computations for two widths are the same tree.
- C52 (C_Gen.v): the generator programs as text, executed by GenInterp.v; computation, with GenMono.v (more fuel does not change a finished run) to make it independent of fuel; GenRegs.v: the allocator keeps registers in conflict apart.
- C53 (C_Trace.v): a relational logic (Lockstep.v) in which two programs are run side by side on related memories; every function is related to itself (LockEncode.v, LockWriter.v, LockReader.v). Accesses are those of the model's events: loads and stores of byte and uint32 allocations; the lookups in the package's own tables (shuffle and length tables) are not events.
- C54 (C_Tests.v): the test files (TestText.v, parsed in TestFiles.v) run by an interpreter for test functions (TestInterp.v) on top of the one of C49; `passes` quantifies over the numbers drawn and the places of allocations. TestRules.v has the rules for steps, random numbers, GenUint32 and SortUint32; TestCalls.v those for the library functions, from C49 and the theorems about the model. A failing or skipping subtest (t.Run) counts as failing or skipping the test.
- C55 (C_BenchText.v): the text of the benchmark tool (BenchText.v) run by an interpreter for the part of Go it uses (BenchInterp.v); `system` says what the program finds and which calls fail. Closing files, the text of messages and the environment variable that locates the README are not modelled; os.Open and os.Create act on one file. A failing write leaves a beginning of the data.
- C56 (C_Benchmarks.v): the benchmarks of the test files, run by the interpreter of C54 (TestInterp.v). `b.Run` calls its function any number of times, each time with any b.N; the number reported by SetBytes and the time are not modelled; `int(math.Pow10(i))` is 10^i for i up to 18. Memory is not exhausted.
- C57 (C_Readme.v): README.md:172-484, its steps, program and figures written down as functions on numbers and lists (by hand, not from the text) and compared with the format and with the registers of the assembly code.
- C58 (C_Damage.v): at the level of the format (inserting a byte into a list that is cut into pieces; prefix sums started a constant apart), lifted to the readers by C06/C07.
- C59 (C_Canon.v): `stream_of (decode_stream n S) = S` iff `canonical n S`, by induction on the pieces and on the control bytes; composed from the reader and writer theorems.
- C60 (ShellText.v, ShellInterp.v, C_Scripts.v): the two scripts and the Makefile, byte for byte, read and executed by a small interpreter for a part of bash (assignments of `$( )`, pipelines, `set -e`, `if [[ a != b || ... ]]`, echo, exit, splitting of unquoted expansions; anything else is `None`). Commands are a parameter. Not modelled: concurrency of the stages of a pipeline, the error output, exported variables, signals. What git and sha1sum print is a hypothesis (`sound`), with an instance (`ex_git_sound`); no SHA-1 collision between the texts at hand is a hypothesis (`apart`).
- C61 (C_Edit.v): relates two calls of writers whose inputs differ in one number, in the last number, in the starting value, in the order.
- C62 (GoGrammar.v, GoLexical.v, C_Grammar.v, C_Lexical.v, C_GoFiles.v): the lexical rules and the productions of the Go specification as relations, written without the parser; every result of the parser obeys them. Not described: comments `/* */`, raw strings, floating point literals with a point, letters outside ASCII, labels, goto, select, go, channels, maps, methods, type parameters, `switch` with an initialiser, the rule that a composite literal in the header of `if`, `for`, `switch` needs parentheses. `make` is treated as a keyword. Only one direction: the grammar may derive texts the parser refuses, and uniqueness is proved for the tokens, not for the trees.
- C63 (Flat.v, FlatVec.v, FlatProof.v, FlatSim.v, C_Flat.v): a second semantics of the instructions: numbers in the registers, one memory `Z -> option Z` of bytes, addresses modulo 2^64, a fault on unmapped or write-protected bytes, vector operations as bit fields (`DEST[i+7:i]`) after the Intel manual. The instructions of Asm.v are shown to be simulated by it under every placement of the allocations, tables, constants and argument frame; a static check (`checked`) that no vector register is read before it is set stands for the arbitrary initial registers. Then the statement is spelled out for the four routines without allocations or symbolic pointers. Not modelled: flags, upper halves of the YMM registers, instruction encoding, the stack pointer and the call itself.
- C64 (FlatExact.v, C_FlatExact.v): the routines followed instruction by instruction on the flat machine, so that every load comes before the stores it could be affected by; the values stored do not depend on addresses and are read off C63 on one sample memory.
- C65 (GoOrder.v, OrderProof.v, OrderExpr.v, OrderStmt.v, C_Order.v): a second interpreter evaluates operands in any order and interleaves their accesses. A check, computed on the text, says that the operands of every expression either only read memory or are all names and constants except one; it is proved to make all orders agree.
- C66 (C_Printed.v): printing with GenPrint.v and reading with AsmText.v is the identity on routines, for all descriptions. The two were written from different documents, so this checks one against the other.
- C67 (C_Count.v): reading with a wrong count, from C06, C07 and C14 and a comparison of stream_size for two counts.
- C68 (C_Misread.v): reading with the wrong kind of reader or the wrong starting value, from C06 and C07 and the arithmetic of sums modulo 2^32.
