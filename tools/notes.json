{
 "C01": [
  "proved",
  "Every writer/reader implementation and CPU; also for a copy of the stream placed anywhere. Sizes below 2^52 elements / 2^55 bytes (validW, validB)."
 ],
 "C02": [
  "proved",
  "As C01 with a starting value; no sortedness assumed."
 ],
 "C03": [
  "proved",
  ""
 ],
 "C04": [
  "proved",
  ""
 ],
 "C05": [
  "proved",
  "Contents, length, capacity, and also the spare bytes up to the capacity (C09_spare_capacity_is_zero)."
 ],
 "C06": [
  "proved",
  ""
 ],
 "C07": [
  "proved",
  "The room the fast readers need is min 3 bytes past the stream (exact: overread); the content of that room is irrelevant."
 ],
 "C08": [
  "proved",
  ""
 ],
 "C09": [
  "proved",
  ""
 ],
 "C10": [
  "proved",
  ""
 ],
 "C11": [
  "proved",
  ""
 ],
 "C12": [
  "partial",
  "False as stated: C12_refuted and C12_refuted_fault exhibit reads past the stream (one with a fault). Proved instead: at most 3 bytes, none if 4 divides the count, the count is at most 16, or three more bytes lie in the slice. C43 determines exactly when and how far."
 ],
 "C13": [
  "proved",
  ""
 ],
 "C14": [
  "partial",
  "Proved for the scalar readers; false as stated for the fast readers (C14_fast_refuted: a memory fault instead of a panic). Proved for the fast readers and the dispatcher: with an incomplete stream they never return normally, never diverge or execute an illegal instruction; they panic or fault, touching at most 32 bytes behind the stream, and they panic if the allocations extend that far."
 ],
 "C15": [
  "proved",
  ""
 ],
 "C16": [
  "proved",
  ""
 ],
 "C17": [
  "proved",
  ""
 ],
 "C18": [
  "partial",
  "False as stated, three witnesses: other bytes inside out, bytes outside out, fault. Proved: same result and memories equal except for the padding, given room in the allocation. Exact behaviour: C44."
 ],
 "C19": [
  "partial",
  "False as stated: fault at the end of an allocation, reads outside in. Proved: same result and memory given 16 readable bytes at each half; nothing outside in is read if it has 32 bytes. Exact behaviour: C44."
 ],
 "C20": [
  "proved",
  ""
 ],
 "C21": [
  "proved",
  ""
 ],
 "C22": [
  "proved",
  ""
 ],
 "C23": [
  "proved",
  "Tables equal the output of the model of the generator program; meaning of every shuffle mask on every register content."
 ],
 "C24": [
  "proved",
  "About the executed instruction sequence, for every register, frame and CPU state."
 ],
 "C25": [
  "proved",
  "About the executed instruction sequences."
 ],
 "C26": [
  "proved",
  "An unsupported instruction is a separate outcome (Illegal) of the machine model; never reached through the dispatching functions on any CPU; the directly callable Fast functions reach it on CPUs without the features (C26_direct_calls)."
 ],
 "C27": [
  "partial",
  "False as stated: for every GOARCH other than amd64 the decode, reader and writer packages do not compile (C27_refuted); C27_broken_partial lists the four broken uses exactly. Proved: shared, encode and util compile for every target, everything for amd64, and three repaired files suffice. The model covers file selection, declarations and uses with their types, not the bodies of functions; C50 covers those."
 ],
 "C28": [
  "partial",
  "Proved for out in another allocation, before in (overlapping allowed) or after it, including the panic for a short out and WriteAll of the result = WriteAllDelta(in, 0). The in-place part of the claim is false (C28_in_place_refuted); C28_in_place gives what is computed instead. C28_same_allocation: the exact result for every overlap; C28_overlap_wrong: where it is not the differences."
 ],
 "C29": [
  "proved",
  "Plain and differential pair together (prev : option). Both versions of binary.Uvarint (Go before and since 1.15.1)."
 ],
 "C30": [
  "proved",
  "Returns exactly on sequences of complete encodings of at most len(out) numbers, panics on everything else; all accesses inside data and out. Both versions of binary.Uvarint."
 ],
 "C31": [
  "partial",
  "False as stated: the bounds passed to randUint32Range are inclusive, so classes 1 to 3 also yield the smallest number of the next class (C31_refuted). C31_class_partial: that is the only exception. C31_uniform, C31_misses: exactly how often each number and the exception are drawn. The random source is an argument."
 ],
 "C32": [
  "proved",
  "Any number of calls, every interleaving of single byte/uint32 accesses (sequentially consistent memory). C32_no_races shows that no two calls touch the same location with one of them storing, which is what the Go memory model needs to promise sequential consistency."
 ],
 "C33": [
  "proved",
  "Injectivity holds across all lengths."
 ],
 "C34": [
  "proved",
  "Also for the last, shorter group, for two groups with Get8uint32 and for copies of the stream."
 ],
 "C35": [
  "proved",
  "A different implementation may be used for each batch; decoding is proved for arbitrary controls."
 ],
 "C36": [
  "partial",
  "False as stated: the scalar readers reslice out up to its capacity and then write past len(out) (C36_scalar_refuted); the fast readers write past the capacity before panicking (C36_fast_refuted). Proved: the scalar readers panic unless 16 divides the count and the capacity suffices, and never touch anything past the capacity; the fast readers never return normally and never touch anything past max(cap(out), len(out)+8); no reader returns normally if count > cap(out)."
 ],
 "C37": [
  "partial",
  "False for negative counts that are no multiple of 4 (C37_refuted) and for the six smallest integers, where the fast readers panic (C37_smallest_fast). Proved: what each reader does on every int count; they agree for counts >= 0 on complete arguments, and on all counts under the side conditions of C37_all_counts_partial and C37_all_counts_delta_partial."
 ],
 "C38": [
  "proved",
  ""
 ],
 "C39": [
  "partial",
  "False as stated: C39_refuted gives a race between ReadAllFast and Put8uint32Scalar on disjoint slices, because the SIMD reader reads up to 3 bytes past its stream. Proved: no race when the reader's reach is disjoint from the stored part; a gap of 3 bytes is enough, and the scalar readers need none."
 ],
 "C40": [
  "proved",
  "The generators are modelled with avo's parameter placement; avo's register allocation is not modelled, its result is validated by a proved liveness check."
 ],
 "C41": [
  "proved",
  ""
 ],
 "C42": [
  "proved",
  "Plain and differential together (prev : option)."
 ],
 "C43": [
  "proved",
  "C43_reach(_delta): both cases with all accesses; C43_returns_iff(_delta) and C43_inside_iff(_delta) are the equivalences. g is last8 in C_Exact.v."
 ],
 "C44": [
  "proved",
  "Both cases in one statement per direction, for every memory; the true counterpart of C18/C19. bytes_on/words_on are the contents from the start of a slice to the end of its allocation."
 ],
 "C45": [
  "proved",
  "No hypotheses on slices and memory (readers, Put8/Get8); writers: 0 <= len(in) <= 2^60. A 16-byte load of bytes counts as 16, of numbers as 4; table look-ups and the zeroing of the allocation are not counted."
 ],
 "C46": [
  "proved",
  "exact final memory of every panicking run of the portable functions, with the number of stored elements given by small counting functions (the minimum of the two for a reader with a truncated stream and a short out)."
 ],
 "C47": [
  "proved",
  "operating system errors are outside the model; input lines are below 64 KiB and free of carriage returns at their ends (C47_long_line covers longer ones). C47_any_readme_refuted shows that the condition on earlier code blocks is needed."
 ],
 "C48": [
  "proved",
  "the files are embedded byte for byte (SourceText.v, written by tools/embed.py); GoSyntax.v and AsmText.v read them inside Rocq."
 ],
 "C49": [
  "proved",
  "GoInterp.v gives the meaning of the parsed text; each model function is proved to have the same runs as its text (GoRefine.v: same accesses; Total.v: no loop of the model runs out of fuel). math/bits and encoding/binary are given by their models."
 ],
 "C50": [
  "proved",
  "A type checker for the parsed text, written from the language specification (GoTypes.v), is run on the files selected for each target; C50_files: the declarations and file selection of Build.v (C27) are those of the text. pkg/shared/asm.go (the code generator's helpers, which use avo) is not in the text; other modules are given by signatures."
 ],
 "C51": [
  "proved",
  "The interpreter of the Go text takes the width of int as a parameter; the text run with w bits is related to the 64-bit model. The targets concerned use the portable files, of which pkg/shared, pkg/encode and pkg/util compile as they are and the rest after the repair of C50. encoding/binary's own counters stay below 16 and are kept as modelled."
 ],
 "C52": [
  "proved",
  "The generator programs are executed as text by GenInterp.v. go/format is a parameter; its result is compared with tables.go up to blanks. avo is not part of the repository: its allocator and printer are modelled in GenPrint.v as far as used, and the model reproduces both files."
 ],
 "C53": [
  "proved",
  "A relational logic (Lockstep.v): two programs do the same accesses if the values they read are related.  For readers the stream must hold its control bytes."
 ],
 "C54": [
  "proved",
  "TestInterp.v executes the tests; calls of library functions are executed by the interpreter of C49.  C54_all_tests: the list of tests is complete."
 ],
 "C55": [
  "proved",
  "C55_failure_keeps_readme_refuted: a write that fails behind os.Create loses the README."
 ],
 "C56": [
  "proved",
  "C56_all_benchmarks: the list is all the benchmarks there are."
 ],
 "C57": [
  "proved",
  "C57_signed_4_refuted is the sentence of README.md:386; C57_signed_4 says what holds."
 ],
 "C58": [
  "proved",
  "C58_control_spreads: without the same size the damage of a control byte can reach every later number."
 ],
 "C59": [
  "proved",
  "C59_unique: a list of numbers has one canonical stream."
 ],
 "C60": [
  "proved",
  "Refuted: that the check sees every change (contents of untracked files; nothing at all outside a repository, C60_outside, or if a file is called `generate`, C60_target_exists), that a failing `go test` stops update_bench.sh, that SBYTE_HOME may contain blanks."
 ],
 "C61": [
  "proved",
  "Refuted: that the size of a delta stream does not depend on the order (C61_order_delta_refuted)."
 ],
 "C62": [
  "proved",
  "Soundness of the parser against a separately stated grammar; the converse (every derivable text is accepted) and the uniqueness of the tree are not claimed."
 ],
 "C63": [
  "proved",
  "Input and output that overlap are treated in C64 (a []uint32 and a []byte do not overlap without package unsafe). Flags, the upper halves of the vector registers and the encoding of the instructions are not modelled."
 ],
 "C64": [
  "proved",
  "For the encoders the result slot must not lie in the tables (it is stored to before they are read). Memory after a fault is not described."
 ],
 "C65": [
  "proved",
  "A choice is made at every memory access, also inside calls, which is more than the specification allows. Where left-to-right order panics, another order is not shown to panic rather than fault: the model has a fault for slices without memory and for ill-typed text, and an operand that left-to-right order does not reach may have one. The index of an assignment out[i] = f(x) is checked after f(x) in every order; package initialisation goes from left to right."
 ],
 "C66": [
  "proved",
  "The printer is the model of avo in GenPrint.v (the files of the repository are what it prints, C52), the reader that of the Go assembler in AsmText.v. Both know the instructions the repository uses. C66_means needs, as C52_registers does, that registers are written before they are read."
 ],
 "C67": [
  "proved",
  "With more bytes after the stream a count that is too large can go unnoticed (C67_example)."
 ],
 "C68": [
  "proved",
  "The call must have the room any call reading this stream needs (C43)."
 ]
}