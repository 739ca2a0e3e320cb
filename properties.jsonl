{"id": "C01", "title": "Stream round trip", "statement": "ReadAll(len(in), WriteAll(in), out) leaves out[0:len(in)] equal to in, whichever implementation (scalar or SIMD) wrote the stream and whichever reads it.", "quantifier": "every uint32 slice of every length (below the 64-bit address limits), every CPU feature combination for the writer and for the reader, every out slice with len(out) >= len(in)", "why_tests_cant": "2^(32 n) inputs for every n; the bulk/medium/tail loop boundaries depend on n and on every value's byte length.", "anchors": ["pkg/stream/writer/writer.go:WriteAll", "pkg/stream/writer/writer_amd64.go:WriteAllFast", "pkg/stream/reader/reader.go:ReadAll", "pkg/stream/reader/reader_amd64.go:ReadAllFast"]}
{"id": "C02", "title": "Delta stream round trip", "statement": "ReadAllDelta(len(in), WriteAllDelta(in, prev), out, prev) leaves out[0:len(in)] equal to in, for any starting value prev and also when in is not sorted.", "quantifier": "every uint32 slice (sorted or not), every prev, every CPU feature combination on both sides", "why_tests_cant": "tests only use sorted inputs and prev=0; unsorted inputs go through 32-bit wrap-around in four different pieces of code.", "anchors": ["pkg/stream/writer/writer.go:WriteAllDelta", "pkg/stream/writer/writer_amd64.go:WriteAllDeltaFast", "pkg/stream/reader/reader.go:ReadAllDelta", "pkg/stream/reader/reader_amd64.go:ReadAllDeltaFast"]}
{"id": "C03", "title": "Written bytes follow the Stream VByte format", "statement": "The slice returned by WriteAll(in) is exactly ceil(n/4) control bytes (2 bits per number, number i in bits 2*(i mod 4), value = byte length - 1, unused slots 0) followed by the minimal little-endian bytes of each number in order, and nothing else.", "quantifier": "every uint32 slice, both implementations", "why_tests_cant": "Interoperability with other Stream VByte readers depends on every byte for every input.", "anchors": ["pkg/stream/writer/writer.go:WriteAllScalar", "pkg/stream/writer/writer_amd64.go:WriteAllFast", "README.md"]}
{"id": "C04", "title": "Delta writing is writing the differences", "statement": "WriteAllDelta(in, prev) returns exactly the bytes WriteAll would return for the slice of successive differences (mod 2^32) starting from prev.", "quantifier": "every uint32 slice, every prev, both implementations", "why_tests_cant": "tests compare only prev=0, sorted random inputs.", "anchors": ["pkg/stream/writer/writer.go:WriteAllDeltaScalar", "pkg/stream/writer/writer_amd64.go:WriteAllDeltaFast"]}
{"id": "C05", "title": "Writers are implementation independent", "statement": "WriteAllFast and WriteAllScalar (and the delta pair) return byte-for-byte the same slice with the same length and capacity, so the CPU the data was written on is not observable.", "quantifier": "every uint32 slice and prev", "why_tests_cant": "SIMD control generation and shuffling have 2^128 inputs per step.", "anchors": ["pkg/stream/writer/writer.go:WriteAllScalar", "pkg/stream/writer/writer_amd64.go:WriteAllFast", "pkg/encode/encode_amd64.s"]}
{"id": "C06", "title": "Readers decode every well-formed stream", "statement": "For any control bytes and data bytes (including non-minimal encodings never produced by WriteAll, arbitrary unused slots in the last control byte, and trailing bytes) with enough data, ReadAllScalar/ReadAllDeltaScalar write exactly the numbers the format assigns (running sums from prev for delta).", "quantifier": "every count >= 0, every stream long enough for its control bytes, every prev", "why_tests_cant": "tests only read streams produced by this library's writer.", "anchors": ["pkg/stream/reader/reader.go:ReadAllScalar", "pkg/stream/reader/reader.go:ReadAllDeltaScalar", "pkg/decode/decode.go"]}
{"id": "C07", "title": "Fast readers agree with the format", "statement": "ReadAllFast/ReadAllDeltaFast write exactly the numbers the format assigns on every well-formed stream whose allocation extends up to 3 bytes past the end (or whose count is a multiple of 4), independently of the content of bytes outside the stream.", "quantifier": "every count >= 0, every well-formed stream, every content of the surrounding memory, every prev", "why_tests_cant": "over-read bytes could leak into results only for particular contents and lengths.", "anchors": ["pkg/stream/reader/reader_amd64.go:ReadAllFast", "pkg/stream/reader/reader_amd64.go:ReadAllDeltaFast", "pkg/decode/decode_amd64.s"]}
{"id": "C08", "title": "Size of the encoded stream", "statement": "len(WriteAll(in)) = ceil(n/4) + sum of byte lengths, which lies between ceil(n/4)+n and ceil(n/4)+4n, and never exceeds the capacity allocated.", "quantifier": "every uint32 slice, both implementations, delta and not", "why_tests_cant": "callers size buffers from this formula for all n.", "anchors": ["pkg/stream/writer/writer.go:WriteAllScalar", "pkg/stream/writer/writer_amd64.go:WriteAllFast"]}
{"id": "C09", "title": "Writers are total and do not touch the caller's memory", "statement": "WriteAll/WriteAllDelta never panic, fault or loop, for any slice including nil/empty and any length mod 4/8/16/32; they leave in and every pre-existing allocation unchanged and return a fresh slice.", "quantifier": "every uint32 slice value (any offset, length, capacity), every CPU", "why_tests_cant": "the assembly bypasses Go bounds checks, so a violation is silent.", "anchors": ["pkg/stream/writer/writer.go", "pkg/stream/writer/writer_amd64.go", "pkg/encode/encode_amd64.s"]}
{"id": "C10", "title": "Readers write only out[0:count]", "statement": "ReadAll/ReadAllDelta on a well-formed stream leave the stream, out[count:], and all other memory unchanged.", "quantifier": "every well-formed stream and sufficiently long out, every CPU", "why_tests_cant": "the SIMD path stores 8 numbers at a time; overshoot would be invisible unless the neighbouring memory is checked for all counts.", "anchors": ["pkg/stream/reader/reader.go", "pkg/stream/reader/reader_amd64.go", "pkg/decode/decode_amd64.s"]}
{"id": "C11", "title": "Fast writer memory safety", "statement": "Every byte WriteAllFast/WriteAllDeltaFast read lies in in[0:len(in)] and every byte they write lies in the freshly allocated stream, although the assembly loads and stores 16 bytes at a time.", "quantifier": "every uint32 slice and prev", "why_tests_cant": "out-of-bounds accesses by assembly are undetected by the runtime and by result comparison.", "anchors": ["pkg/stream/writer/writer_amd64.go:WriteAllFast", "pkg/encode/encode_amd64.s"]}
{"id": "C12", "title": "Fast reader never reads outside the stream", "statement": "ReadAllFast/ReadAllDeltaFast read only bytes of the stream slice they were given.", "quantifier": "every well-formed stream and count", "why_tests_cant": "reading 1-3 bytes past an allocation only crashes at a page end; tests never see it. (The comment at reader_amd64.go:22-36 claims it is prevented.)", "anchors": ["pkg/stream/reader/reader_amd64.go:ReadAllFast", "pkg/stream/reader/reader_amd64.go:ReadAllDeltaFast", "pkg/decode/decode_amd64.s"]}
{"id": "C13", "title": "Scalar functions fail only by panicking", "statement": "For arbitrary (wrong) slice sizes, counts (negative or huge included) and stream contents, the scalar encoders, decoders and stream functions either return or panic; they terminate and never access memory outside the capacity of the slices passed.", "quantifier": "every argument value", "why_tests_cant": "misuse space is unbounded.", "anchors": ["pkg/encode/encode.go", "pkg/decode/decode.go", "pkg/stream/reader/reader.go", "pkg/stream/writer/writer.go"]}
{"id": "C14", "title": "Truncated streams are detected", "statement": "Reading a stream shorter than its control bytes demand panics rather than returning numbers: holds for ReadAllScalar and ReadAllDeltaScalar; for the fast readers the same is claimed by interchangeability.", "quantifier": "every count, every truncated stream, every out", "why_tests_cant": "a truncated stream must be rejected at each of unboundedly many cut points.", "anchors": ["pkg/stream/reader/reader.go:ReadAllScalar", "pkg/stream/reader/reader_amd64.go:ReadAllFast"]}
{"id": "C15", "title": "Put8uint32 encodes eight numbers in the format", "statement": "Put8uint32(in, out) returns the 16-bit control for in[0:8] and writes their minimal little-endian bytes at the start of out; byte i of memory beyond what the documented buffer needs is untouched; same for the delta variant with prev.", "quantifier": "every 8 numbers, every prev, both implementations, every out with 32 bytes of room", "why_tests_cant": "2^256 inputs.", "anchors": ["pkg/encode/encode.go:Put8uint32", "pkg/encode/encode.go:Put8uint32Delta", "pkg/encode/encode_amd64.s"]}
{"id": "C16", "title": "Get8uint32 decodes any 16-bit control", "statement": "Get8uint32(in, out, ctrl) sets out[0:8] to the numbers the format assigns to ctrl and in, touching nothing else; the delta variant yields running sums (mod 2^32) from prev.", "quantifier": "every control value, every data bytes, every prev, both implementations", "why_tests_cant": "2^16 controls times data contents.", "anchors": ["pkg/decode/decode.go:Get8uint32", "pkg/decode/decode.go:Get8uint32Delta", "pkg/decode/decode_amd64.s"]}
{"id": "C17", "title": "Put8/Get8 round trip across implementations", "statement": "Get8uint32 after Put8uint32 (and the delta pair with equal prev) restores the eight numbers for every combination of scalar and SIMD implementation.", "quantifier": "every 8 numbers (sorted or not), every prev, every CPU pair", "why_tests_cant": "input space.", "anchors": ["pkg/encode/encode.go", "pkg/decode/decode.go"]}
{"id": "C18", "title": "Put8uint32Fast and scalar agree when the scalar succeeds", "statement": "Whenever Put8uint32Scalar(in, out) succeeds, Put8uint32Fast(in, out) has the same effect on memory and the same result (the exported dispatcher hides which one runs).", "quantifier": "every in, out", "why_tests_cant": "requires comparing memory around out for all buffer sizes.", "anchors": ["pkg/encode/encode.go:Put8uint32", "pkg/encode/encode_amd64.go:Put8uint32Fast"]}
{"id": "C19", "title": "Get8uint32Fast and scalar agree when the scalar succeeds", "statement": "Whenever Get8uint32Scalar(in, out, ctrl) succeeds, Get8uint32Fast(in, out, ctrl) succeeds with the same result and without reading outside in.", "quantifier": "every in, out, ctrl", "why_tests_cant": "over-reads are invisible to result comparison.", "anchors": ["pkg/decode/decode.go:Get8uint32", "pkg/decode/decode_amd64.go:Get8uint32Fast"]}
{"id": "C20", "title": "Partial-group encoding and decoding", "statement": "PutUint32Scalar(in,out,count) / GetUint32Scalar(in,out,ctrl,count) and their delta variants process exactly min(count,4) numbers (none for count<=0) in the format, GetUint32Scalar returns the bytes consumed, and the pair round-trips.", "quantifier": "every count (int), every number, every prev", "why_tests_cant": "all counts and values.", "anchors": ["pkg/encode/encode.go:PutUint32Scalar", "pkg/encode/encode.go:PutUint32DeltaScalar", "pkg/decode/decode.go:GetUint32Scalar", "pkg/decode/decode.go:GetUint32DeltaScalar"]}
{"id": "C21", "title": "Put4/Get4 encode and decode one group", "statement": "Put4uint32Scalar writes the format bytes of four numbers and returns their control byte, using exactly the encoded size of out; Get4uint32Scalar inverts it for any control byte; same for delta.", "quantifier": "every 4 numbers, every prev, every control byte, every data", "why_tests_cant": "2^128 inputs.", "anchors": ["pkg/encode/encode.go:Put4uint32Scalar", "pkg/encode/encode.go:Put4uint32DeltaScalar", "pkg/decode/decode.go:Get4uint32Scalar", "pkg/decode/decode.go:Get4uint32DeltaScalar"]}
{"id": "C22", "title": "Control byte sizes", "statement": "ControlByteToSize(c) is the number of data bytes of a full group with control c, and ControlByteToSizeTwo(c) the sum for the two halves, without overflow.", "quantifier": "every uint8 and every uint16", "why_tests_cant": "finite but the callers rely on it for every produced control.", "anchors": ["pkg/shared/gen.go:ControlByteToSize", "pkg/shared/gen.go:ControlByteToSizeTwo", "pkg/shared/tables.go"]}
{"id": "C23", "title": "Checked-in tables are the generated tables", "statement": "The four tables in tables.go are exactly what gentables computes, and the generator's shuffle masks compact/expand exactly the bytes the format selects for every control byte.", "quantifier": "every control byte, every 16-byte register content", "why_tests_cant": "semantic meaning of the masks quantifies over register contents.", "anchors": ["pkg/shared/tables.go", "pkg/shared/main/gentables.go"]}
{"id": "C24", "title": "SIMD control computation", "statement": "The saturating-arithmetic sequence of Put8uint32FastAsm computes, for every eight 32-bit inputs, the 16-bit control whose 2-bit fields are byte length - 1.", "quantifier": "every 8 numbers", "why_tests_cant": "2^256 inputs; the README argues it by example.", "anchors": ["pkg/encode/encode_amd64.s:Put8uint32FastAsm", "README.md"]}
{"id": "C25", "title": "SIMD delta and prefix-sum computation", "statement": "The assembly differencing (encode) and prefix summing (decode) compute in[i]-in[i-1] and running sums modulo 2^32 for all inputs.", "quantifier": "every 8 numbers and prev", "why_tests_cant": "2^288 inputs.", "anchors": ["pkg/encode/encode_amd64.s:Put8uint32DeltaFastAsm", "pkg/decode/decode_amd64.s:Get8uint32DeltaFastAsm"]}
{"id": "C26", "title": "No unsupported instruction is executed", "statement": "Through the dispatching API (WriteAll, ReadAll, Put8uint32, Get8uint32 and delta variants) no AVX/AVX2 instruction executes on a CPU lacking that feature, including CPUs with AVX but not AVX2.", "quantifier": "every CPU feature combination, every input", "why_tests_cant": "tests run on one CPU.", "anchors": ["pkg/encode/encode_amd64.go:GetMode", "pkg/decode/decode_amd64.go:GetMode", "pkg/encode/encode_amd64.s", "pkg/decode/decode_amd64.s"]}
{"id": "C27", "title": "Portability to non-x86_64", "statement": "On every architecture other than amd64 the packages compile and use the portable scalar implementation (README).", "quantifier": "every build target", "why_tests_cant": "the test suite runs on amd64 only.", "anchors": ["pkg/encode/encode_base.go", "pkg/decode/decode_base.go", "pkg/stream/reader/reader_base.go", "pkg/stream/writer/writer_base.go", "README.md"]}
{"id": "C28", "title": "util.Delta computes differences", "statement": "util.Delta(in, out) sets out[0]=in[0], out[i]=in[i]-in[i-1] (mod 2^32), leaves the rest alone, and WriteAll of its result equals WriteAllDelta(in, 0).", "quantifier": "every slice pair; claimed also for in-place use (out = in)", "why_tests_cant": "aliasing and all lengths.", "anchors": ["pkg/util/util.go:Delta"]}
{"id": "C29", "title": "Varint helpers round trip", "statement": "GetVarint(PutVarint(nums)) = nums and the delta pair likewise, and both report the same number of bytes.", "quantifier": "every uint32 slice, every prev", "why_tests_cant": "input space.", "anchors": ["pkg/util/varint.go"]}
{"id": "C30", "title": "Varint readers terminate safely", "statement": "GetVarint/GetDeltaVarint on arbitrary bytes terminate (return or panic) and never write outside out.", "quantifier": "every byte string, every out", "why_tests_cant": "malformed input space; Uvarint can return 0 or a negative size.", "anchors": ["pkg/util/varint.go:GetVarint", "pkg/util/varint.go:GetDeltaVarint"]}
{"id": "C31", "title": "RandUint32 class ranges", "statement": "Each generator behind RandUint32 yields a number whose encoded length is the class's length (1, 2, 3 or 4 bytes), for every state of the random source.", "quantifier": "every value of the random source", "why_tests_cant": "probability of boundary values is tiny.", "anchors": ["pkg/util/rand.go:RandUint32", "pkg/util/rand.go:randUint32Range"]}
{"id": "C32", "title": "Concurrent use is safe", "statement": "Concurrent ReadAll/ReadAllDelta/WriteAll calls that share inputs but have disjoint outputs give, under every interleaving of their memory accesses, the results of running each alone.", "quantifier": "every number of concurrent calls, every schedule", "why_tests_cant": "schedules cannot be enumerated.", "anchors": ["pkg/stream/reader/reader.go", "pkg/stream/writer/writer.go", "pkg/shared/tables.go"]}
{"id": "C33", "title": "Minimality and injectivity", "statement": "WriteAll(in) is the shortest well-formed stream that decodes to in, and different inputs of the same length produce different streams.", "quantifier": "every pair of slices; every well-formed stream", "why_tests_cant": "quantifies over all alternative encodings.", "anchors": ["pkg/stream/writer/writer.go:WriteAll"]}
{"id": "C34", "title": "Groups can be located from control bytes", "statement": "For every group g, the numbers 4g..4g+3 of a written stream can be decoded alone at data offset ceil(n/4) + sum of ControlByteToSize over the control bytes before g.", "quantifier": "every slice, every full group index", "why_tests_cant": "all positions of all streams.", "anchors": ["pkg/shared/gen.go:ControlByteToSize", "pkg/decode/decode.go:Get4uint32Scalar", "pkg/stream/writer/writer.go"]}
{"id": "C35", "title": "Batch-wise encoding composes", "statement": "Encoding consecutive batches of 8 with Put8uint32 (Put8uint32Delta with prev = last number of the previous batch) and concatenating yields exactly the control bytes and data bytes of WriteAll (WriteAllDelta) for whole multiples of 8; decoding batch-wise likewise.", "quantifier": "every sequence of batches, every prev", "why_tests_cant": "unbounded number of batches.", "anchors": ["pkg/encode/encode.go:Put8uint32", "pkg/encode/encode.go:Put8uint32Delta", "pkg/decode/decode.go:Get8uint32Delta"]}
{"id": "C36", "title": "A too-short out is rejected before writing outside it", "statement": "If len(out) < count the readers panic and never write an element at or beyond len(out).", "quantifier": "every count, stream, out (length and capacity)", "why_tests_cant": "depends on capacity and loop boundary interplay.", "anchors": ["pkg/stream/reader/reader.go:ReadAllScalar", "pkg/stream/reader/reader_amd64.go:ReadAllFast"]}
{"id": "C37", "title": "Count argument is interpreted alike", "statement": "For any count argument, ReadAllFast and ReadAllScalar behave alike (in particular a negative count reads nothing).", "quantifier": "every int count", "why_tests_cant": "negative and overflowing counts.", "anchors": ["pkg/stream/reader/reader.go:ReadAllScalar", "pkg/stream/reader/reader_amd64.go:ReadAllFast"]}
{"id": "C38", "title": "Reading fewer numbers of the last group", "statement": "ReadAll with a smaller count that needs the same number of control bytes yields the corresponding prefix.", "quantifier": "every stream, every such count", "why_tests_cant": "all lengths.", "anchors": ["pkg/stream/reader/reader.go", "pkg/stream/reader/reader_amd64.go"]}
{"id": "C39", "title": "Reading a stream while its neighbourhood is being written", "statement": "A ReadAll call on a stream and an encoder call that stores into a different, disjoint part of the same buffer do not race.", "quantifier": "every reader, stream, encoder and pair of disjoint parts of one buffer", "why_tests_cant": "a race between adjacent buffer parts depends on the schedule, and assembly code is invisible to the race detector.", "anchors": ["pkg/stream/reader/reader_amd64.go:ReadAllFast", "pkg/decode/decode_amd64.s", "pkg/encode/encode.go:Put8uint32Scalar"]}
{"id": "C40", "title": "Checked-in assembly does what its generators describe", "statement": "Each assembly routine in encode_amd64.s and decode_amd64.s behaves, for every input, exactly like the instruction sequence on virtual registers its avo generator program describes (same result, same memory, same accesses), and its frame offsets, frame sizes and stated CPU requirements are the ones that follow from the generator.", "quantifier": "every call: all argument values, memories and CPUs", "why_tests_cant": "a register allocation that reuses a register still needed shows only on particular values; the generator is not run by the tests.", "anchors": ["pkg/encode/main/asm.go", "pkg/decode/main/asm.go", "pkg/shared/asm.go", "pkg/encode/encode_amd64.s", "pkg/decode/decode_amd64.s"]}
{"id": "C41", "title": "Delta coding never enlarges sorted data", "statement": "If in is ascending and prev <= in[0], len(WriteAllDelta(in, prev)) <= len(WriteAll(in)).", "quantifier": "every ascending input and every prev not above its first number", "why_tests_cant": "quantifies over all sorted sequences.", "anchors": ["pkg/stream/writer/writer.go:WriteAllDelta", "pkg/stream/writer/writer.go:WriteAll"]}
{"id": "C42", "title": "Writing a concatenation", "statement": "If 4 divides len(a), the stream of a followed by b is the control bytes of WriteAll(a), the control bytes of WriteAll(b), the data bytes of WriteAll(a), the data bytes of WriteAll(b); for WriteAllDelta likewise with b written from the last number of a.", "quantifier": "every two inputs, every starting value, any mix of implementations", "why_tests_cant": "quantifies over all pairs of inputs and implementations.", "anchors": ["pkg/stream/writer/writer.go:WriteAll", "pkg/stream/writer/writer.go:WriteAllDelta"]}
{"id": "C43", "title": "Exact reach of the SIMD readers", "statement": "On a complete stream of n numbers with len(out) >= n, ReadAllFast and ReadAllDeltaFast (and ReadAll/ReadAllDelta on a CPU with AVX) return normally if and only if the memory holding the stream extends to R bytes from the start of the stream, and crash with a memory fault otherwise. R is the size of the stream if n <= 16; for n > 16 it is the maximum of that size and (position of the data of number g+4) + 16, where g = 8*((ceil(n/4)-5) div 2). If R exceeds the size of the stream, byte R-1 is read. Hence the reader stays inside the stream if and only if n <= 16 or the numbers from g+4 on take at least 16 bytes.", "quantifier": "every stream content, count, slice, capacity and memory; plain and differential", "why_tests_cant": "the fault shows only if the allocation ends at a page end; the boundary depends on the lengths of the last 5 to 16 numbers.", "anchors": ["pkg/stream/reader/reader_amd64.go:ReadAllFast", "pkg/stream/reader/reader_amd64.go:ReadAllDeltaFast", "pkg/decode/decode_amd64.s"]}
{"id": "C44", "title": "Exact behaviour of the SIMD encoders and decoders of eight numbers", "statement": "Put8uint32Fast, Put8uint32DeltaFast, Get8uint32Fast and Get8uint32DeltaFast (and the dispatchers when they select them) ignore the lengths of their slices. Put8 returns normally if and only if 8 numbers lie between the start of in and the end of its allocation, and E+16 bytes between the start of out and the end of its allocation, E being the encoded size of the first four numbers; it then returns the control, stores the encoded bytes followed by zeros up to E+16, changes nothing else, and touches only these bytes. Get8 returns normally if and only if E+16 bytes lie behind the start of in and 8 numbers fit behind the start of out, E being the size given by the low control byte; it then stores the 8 numbers and changes nothing else. Otherwise each of them crashes with a memory fault.", "quantifier": "every slice (any length and capacity, also 0), memory, control and prev; all 8 functions", "why_tests_cant": "the faults need an allocation ending at a page end, the stores behind the slice are invisible in the slice.", "anchors": ["pkg/encode/encode_amd64.s", "pkg/decode/decode_amd64.s", "pkg/encode/encode_amd64.go:Put8uint32Fast", "pkg/decode/decode_amd64.go:Get8uint32Fast"]}
{"id": "C45", "title": "Linear work on every input", "statement": "A reader called with count n >= 0 performs at most 6n (delta: 7n) loads and stores of array elements, at most 16 if n < 0, whatever the stream, the slices and the memory are. A writer of n numbers performs at most 6n+1 (delta: 7n+2), counting the allocation. Put8/Get8 perform at most 47.", "quantifier": "every int count, stream (also malformed or truncated), slice, memory; all implementations", "why_tests_cant": "a bound on the work for all, in particular malicious, streams.", "anchors": ["pkg/stream/reader/reader.go:ReadAll", "pkg/stream/reader/reader_amd64.go:ReadAllFast", "pkg/stream/writer/writer.go:WriteAll", "pkg/stream/writer/writer_amd64.go:WriteAllFast"]}
{"id": "C46", "title": "What a panic leaves behind", "statement": "When a portable function panics because a slice is too short, the caller that recovers finds exactly this: an encoder has stored the complete encodings of as many of the numbers (of the complete groups of four) as fit and nothing else; Get4uint32Scalar has stored nothing, Get8uint32Scalar nothing or the first group; the delta and the counted decoders have stored the numbers whose bytes were complete, as far as out has room. A stream reader stores nothing if the control bytes are not all there; on a stream with truncated data ReadAllScalar stores the complete groups (and, if these are all the groups, the complete numbers), ReadAllDeltaScalar all complete numbers, with the right values; with a complete stream and a too short out it stores a prefix of the numbers, whole batches of 16 also behind the length of out, never behind its capacity; when both are short, the smaller of the two counts.", "quantifier": "every slice, memory, control, count, prev; 12 functions of pkg/encode and pkg/decode, ReadAllScalar, ReadAllDeltaScalar", "why_tests_cant": "each combination of truncation point and slice length stops the code at a different store; tests check that a panic happens, not the memory after it.", "anchors": ["pkg/encode/encode.go:Put8uint32Scalar", "pkg/encode/encode.go:PutUint32Scalar", "pkg/decode/decode.go:Get4uint32DeltaScalar", "pkg/decode/decode.go:GetUint32Scalar", "pkg/stream/reader/reader.go:ReadAllScalar", "pkg/stream/reader/reader.go:ReadAllDeltaScalar"]}
{"id": "C47", "title": "Updating the benchmarks in the README", "statement": "The tool tools/parse_and_write_bench.go, given the lines a benchmark run prints and a README whose first code block is the one under the heading Benchmarks, yields the README with the contents of that block replaced by the report and everything before and behind unchanged; the report consists of the lines starting with goos, goarch, pkg, cpu or Benchmark in their order, with a line of dashes behind cpu lines, an empty line before goos lines that follow a benchmark, and the word Benchmark removed. Updates can be repeated: only the last one counts. Without the heading the tool gives up, without a closing fence it crashes, and in both cases, and without the flag -w, the README stays as it is. If a code block precedes the heading, the old block stays and the README grows with every update.", "quantifier": "every README, every sequence of input lines", "why_tests_cant": "the tool has no tests; which fence is found depends on the whole README, not on the block.", "anchors": ["tools/parse_and_write_bench.go:main", "tools/parse_and_write_bench.go:anyPrefix"]}
{"id": "C48", "title": "The text of the assembly files and tables", "statement": "Read from their text, pkg/encode/encode_amd64.s and pkg/decode/decode_amd64.s contain the four routines the other properties are about, instruction for instruction, and no others. They implement the functions the Go files beside them declare without body, and no other file declares any: the argument size on the TEXT line is the one of the Go declaration, there are no locals, every name+offset(FP) is the parameter, result or slice part of that name at the offset Go gives it, and the comment above repeats the declaration. The broadcast constants are read-only and two bytes long, as loaded. The four tables of pkg/shared/tables.go are the tables of the model on every architecture.", "quantifier": "every routine, every reference to an argument, every table entry, every architecture", "why_tests_cant": "a test runs one build; go vet checks frames but is not part of the tests, and no test compares the tables with the code that expects them.", "anchors": ["pkg/encode/encode_amd64.s", "pkg/decode/decode_amd64.s", "pkg/encode/encode_amd64.go", "pkg/decode/decode_amd64.go", "pkg/shared/tables.go"]}
{"id": "C49", "title": "The bodies written in the Go files do what the other properties say", "statement": "The Go files of pkg/shared, pkg/encode, pkg/decode, pkg/stream/writer, pkg/stream/reader and pkg/util, read from their text and executed statement by statement, behave as the functions the other properties are about: called with the same arguments on the same memory they return the same values or panic alike, leave the same memory, and make the same memory accesses in the same order, on every architecture; and they stop. This includes the selection of files by build tag and file name, the implementation chosen by func init, the dispatch on GetMode, calls into the assembly files, and arguments that are too short, overlapping, negative or too large. In particular what the text of WriteAll or WriteAllDelta writes on one machine, the text of ReadAll or ReadAllDelta reads back on any other.", "quantifier": "all arguments, all memories, every architecture and combination of AVX and AVX2", "why_tests_cant": "a test runs the code of one machine on some inputs; that a function has no other behaviour on any input, memory or architecture is not observable by running it.", "anchors": ["pkg/encode/encode.go", "pkg/encode/encode_amd64.go", "pkg/decode/decode.go", "pkg/decode/decode_amd64.go", "pkg/stream/writer/writer.go", "pkg/stream/writer/writer_amd64.go", "pkg/stream/reader/reader.go", "pkg/stream/reader/reader_amd64.go", "pkg/util/util.go", "pkg/util/varint.go", "pkg/shared/tables.go"]}
{"id": "C50", "title": "What compiles, target by target, read off the text", "statement": "The Go files of pkg/shared, pkg/encode, pkg/decode, pkg/stream/writer, pkg/stream/reader and pkg/util that the build constraints select for amd64 contain no declaration or statement that the language rejects: every name is declared, imported and exported as needed, every operand, argument, result, index and constant has a type that fits, every function with results ends in a terminating statement, no variable, import or value is unused, nothing is declared twice, and every function without a body is defined by an assembly file of its package. On every other architecture exactly three declarations are rejected: func init of package decode, WriteAllDelta and ReadAllDelta. Correcting two signatures and adding two functions in the _base files makes every target compile.", "quantifier": "every GOARCH, every declaration and statement of the files", "why_tests_cant": "compiling on one machine says nothing about other targets, and the tests are run on amd64 only.", "anchors": ["pkg/decode/decode.go:15-23", "pkg/decode/decode_base.go:13-19", "pkg/stream/writer/writer.go:28-34", "pkg/stream/writer/writer_base.go", "pkg/stream/reader/reader.go:35-41", "pkg/stream/reader/reader_base.go"]}
{"id": "C51", "title": "On a 32-bit platform the library does the same, up to stated sizes, and panics cleanly beyond", "statement": "On a target whose int has 32 bits (or any width from 32) every exported function of the portable build has the same result or panic, the same final memory and the same memory accesses in the same order as with 64-bit int: the group functions for all arguments; WriteAll and WriteAllDelta when 4 bytes per number plus the control bytes are below 2^31; ReadAll and ReadAllDelta for slices below 2^31-256 elements and every count below 2^31-3; the varint helpers for slices below 2^31-256 elements. A longer input to WriteAll or WriteAllDelta (up to 2^32 bytes of stream), and the three largest counts given to ReadAll or ReadAllDelta, panic before memory is read, written or allocated: no short buffer is allocated and no truncated stream is returned.", "quantifier": "every width w >= 32 of int, all arguments within the sizes stated, all memories", "why_tests_cant": "the arithmetic on lengths wraps differently on a 32-bit target; reaching the wrap needs inputs of gigabytes, and the tests run on amd64 only.", "anchors": ["pkg/stream/writer/writer.go", "pkg/stream/reader/reader.go", "pkg/encode/encode.go", "pkg/decode/decode.go", "pkg/util/varint.go"]}
{"id": "C52", "title": "go generate reproduces the checked-in tables and assembly", "statement": "Run as the go:generate directives say, pkg/shared/main/gentables.go writes the text of pkg/shared/tables.go (up to blanks, which gofmt decides), and for every -out and -package and every outcome of formatting, creating and writing the file it formats that text once, creates the file only if formatting succeeded, writes once, and ends with log.Fatal exactly when a step failed. pkg/encode/main/asm.go and pkg/decode/main/asm.go, each with pkg/shared/asm.go, end normally having called avo's Generate once, describe exactly the routines of the model (C40), and avo prints from these descriptions encode_amd64.s and decode_amd64.s byte for byte. Whatever the description, if avo finds registers for it the printed routine does what is described, on any CPU and memory.", "quantifier": "every flag value, every behaviour of the environment (formatting, file creation, writing), every sufficient number of steps; for the registers: every description", "why_tests_cant": "the generators are separate programs behind build tags, run by hand; a generated file edited by hand or an outdated one passes all tests, and the failure paths of the generators are never taken.", "anchors": ["pkg/shared/main/gentables.go", "pkg/shared/asm.go", "pkg/encode/main/asm.go", "pkg/decode/main/asm.go", "pkg/shared/tables.go", "pkg/encode/encode_amd64.s", "pkg/decode/decode_amd64.s"]}
{"id": "C53", "title": "Memory accesses depend on lengths only", "statement": "The sequence of memory accesses and the outcome (result, panic, fault) of an encoder or stream writer depend only on the slices and the byte lengths of the numbers (for the delta functions, of the differences), not on the numbers themselves; those of a decoder or stream reader depend only on the slices, the count and the control bytes, not on the data bytes, on prev or on the previous contents of any buffer, also when the stream is truncated or the output too short.", "quantifier": "every two memories with allocations of the same sizes, every slice, count and prev, every CPU", "why_tests_cant": "it compares two runs (a hyperproperty) and is about accesses, which tests do not observe.", "anchors": ["pkg/stream/writer/writer.go:WriteAllScalar", "pkg/stream/writer/writer_amd64.go:WriteAllFast", "pkg/stream/reader/reader.go:ReadAllScalar", "pkg/stream/reader/reader_amd64.go:ReadAllFast", "pkg/encode/encode.go:Put8uint32", "pkg/encode/encode_amd64.s", "pkg/decode/decode.go:Get8uint32", "pkg/decode/decode_amd64.s"]}
{"id": "C54", "title": "The repository's tests pass", "statement": "Every function Test* of the repository's test files, executed as Go text together with the library's text, passes: no t.Fatalf, no panic, no endless loop, whatever numbers math/rand returns and wherever slices are allocated. A test of the fast functions may skip itself only if the CPU lacks the instructions these functions need.", "quantifier": "every sequence of random draws, every placement of allocations and capacity chosen by append, every initial memory, every CPU (AMD64 with any AVX/AVX2 combination, other architectures)", "why_tests_cant": "a test run draws one sequence of random numbers on one CPU; the tests can be flaky without any single run showing it.", "anchors": ["pkg/pkg_test.go", "pkg/encode/encode_test.go", "pkg/decode/decode_test.go", "pkg/stream/writer/writer_test.go", "pkg/stream/reader/reader_test.go", "pkg/util/varint_test.go", "pkg/util/rand.go", "pkg/util/util.go"]}
{"id": "C55", "title": "The benchmark tool when the operating system fails", "statement": "tools/parse_and_write_bench.go, executed as Go text: without failures it does what C47 says. Whatever fails, the run ends in exactly one way. Without -w the README keeps its contents. If reading the input, opening, reading or creating the README fails, nothing is written. A run that returns has written everything. With -w the README then is the old one or a beginning of the new one. (That a failed run leaves the README alone is false: os.Create empties it first.)", "quantifier": "every input, every README, with and without -w, every combination of failing calls and every number of bytes written before a failure", "why_tests_cant": "the tool has no tests, and failures of the file system in the middle of a write are hard to stage.", "anchors": ["tools/parse_and_write_bench.go", "pkg/util/util.go"]}
{"id": "C56", "title": "The benchmarks run to their end", "statement": "Every Benchmark* function of the test files, executed as Go text, runs to its end: no panic, no access outside memory, no use of the fast functions without the instructions they need. It skips itself only if the CPU lacks them.", "quantifier": "every b.N up to 2^63, every sequence of random numbers, every number of calls b.Run makes and every b.N in each, every place of allocations, every CPU, every memory before", "why_tests_cant": "go test does not run the benchmarks, and a run uses one sequence of random numbers on one machine.", "anchors": ["pkg/pkg_test.go", "pkg/encode/encode_test.go", "pkg/decode/decode_test.go", "pkg/stream/writer/writer_test.go", "pkg/stream/reader/reader_test.go"]}
{"id": "C57", "title": "The README's explanation is right", "statement": "The step by step description of the control computation in the README (byte minimum, saturating pack, signed minimum, saturating addition, move mask) gives every uint32 the two bits of its length, with the effects the README ascribes to each step; the registers of the assembly routine hold exactly these steps for eight integers; a minimum or an addition of the other kind fails for exactly the integers the README names; the README's program decodes every group and panics exactly if data bytes are missing; its VByte decoding inverts the varint encoding up to 2^64; the figures are what the definitions compute. (That the signed minimum leaves both top bits on for every integer of four bytes is false: only the upper one, until the addition.)", "quantifier": "every uint32, every eight uint32, every control byte and data, every uint64 for VByte", "why_tests_cant": "prose and figures are not executed, and the intermediate registers are not observable from Go.", "anchors": ["README.md", "pkg/encode/encode_amd64.s"]}
{"id": "C58", "title": "Damage stays local", "statement": "If one byte of a stream changes: a data byte changes exactly the number it belongs to, by the change of the byte at its place (in a delta stream every number from there on, all by the same amount modulo 2^32 and none unchanged); a control byte leaves the numbers of the groups before it as they were, and, if the size of the stream stays the same, those of the groups after it; a byte after the stream changes nothing.", "quantifier": "every reader, every well-formed stream, every position and every other value of the byte, every count", "why_tests_cant": "every position of every stream.", "anchors": ["pkg/stream/reader/reader.go", "pkg/stream/reader/reader_amd64.go"]}
{"id": "C59", "title": "Reading and writing again", "statement": "Reading the numbers of a well-formed stream and writing them again gives a stream that is not longer and reads the same; it is the same stream exactly if that had no redundant zero bytes, zeros in the unused slots of its last control byte and nothing after its end. The writers produce exactly the streams of this kind.", "quantifier": "every well-formed stream, every reader, every writer", "why_tests_cant": "quantifies over all alternative encodings.", "anchors": ["pkg/stream/reader/reader.go:ReadAll", "pkg/stream/writer/writer.go:WriteAll"]}
{"id": "C60", "title": "The shell scripts", "statement": "tools/generate_and_check.sh, executed as text, ends with status 0 exactly when `make generate` and the four sums succeed and the sums after it are those before: in a git repository, exactly when no tracked file changed and no untracked file that git lists appeared or disappeared; with the generators of the repository, exactly when the generated files are those in the repository. tools/update_bench.sh leaves the README as the benchmark tool makes it from the output of `go test`, succeeds exactly when the tool does, and removes its temporary file exactly then.", "quantifier": "every world and every behaviour of the commands (git, make, sha1sum, go, mktemp, tee, cat, rm), every state of the repository, every output and status of `go test`, every failure of the tool", "why_tests_cant": "the scripts are not tested; the states of a repository and the behaviours of commands are unbounded.", "anchors": ["tools/generate_and_check.sh", "tools/update_bench.sh", "Makefile", ".github/workflows"]}
{"id": "C61", "title": "How a stream follows changes of the numbers", "statement": "Replacing one number changes one control byte, by the difference of the two sizes in its two bits, and the number's own data bytes: everything before and after stays, and the stream grows by the difference of the sizes. In a delta stream only the two numbers at and after the place change (at most two control bytes, at most 8 data bytes, at most 6 bytes of length). Another starting value changes only the first number. One more number continues the data bytes and keeps the control bytes of the full groups. The size does not depend on the order and does not fall when numbers grow.", "quantifier": "every two calls of any two writers (scalar, fast, dispatching on every architecture), every memory, input, position and value", "why_tests_cant": "relates two runs; the pairs of inputs are unbounded.", "anchors": ["pkg/stream/writer/writer.go", "pkg/encode/encode.go", "README.md"]}
{"id": "C62", "title": "The Go files are read as the Go grammar says", "statement": "Whatever text the parser accepts, its tokens are those of the lexical rules of Go (longest match, number and string literals, inserted semicolons) and its tree is derived from them by the productions of the Go grammar; a text has at most one list of tokens; a binary operation that is not in parentheses is cut at an operator of its own precedence, associating to the left. Every Go file of the repository (library, generators, tests, tool) has such a reading.", "quantifier": "every text (list of lines), every tree the parser returns; every Go file of the repository", "why_tests_cant": "a misreading of a source text by the model would be invisible to any run of the model; the texts are unbounded.", "anchors": ["pkg/encode/encode.go", "pkg/decode/decode.go", "pkg/stream/writer/writer.go", "pkg/stream/reader/reader.go", "pkg/shared/tables.go", "tools/parse_and_write_bench.go"]}
{"id": "C63", "title": "The assembly routines on a machine with one flat memory", "statement": "On a machine whose registers are numbers, whose memory is one array of bytes at 64-bit addresses and whose vector instructions are given bit field by bit field, each of the four assembly routines, called with its arguments on the stack, runs to RET without a fault. Put8uint32[Delta]FastAsm leaves the encoding of the eight numbers (zero padding after it) at the output address and the two control bytes in the result slot; Get8uint32[Delta]FastAsm leaves the eight decoded numbers at the output address. Every other byte of memory is unchanged, alignment plays no role, and the length and capacity words are not looked at. More generally every execution of checked code with symbolic pointers is an execution on the flat machine, for every placement of the allocations in memory.", "quantifier": "every address of input, output, tables, constants and stack that keeps what is written apart from what is read, every initial content of registers and memory, every eight numbers or control word and data", "why_tests_cant": "2^64 addresses for each of the regions, and all contents of registers, memory and input.", "anchors": ["pkg/encode/encode_amd64.s", "pkg/decode/decode_amd64.s", "pkg/encode/encode_amd64.go", "pkg/decode/decode_amd64.go"]}
{"id": "C64", "title": "Exactly when the assembly routines fault, and overlapping arguments", "statement": "On the flat machine of C63, Get8uint32[Delta]FastAsm returns if and only if the n+16 bytes at the input address are mapped (n: data bytes of the first control byte) and the 32 bytes at the output address are mapped and writable; otherwise it faults. Put8uint32[Delta]FastAsm returns if and only if the 32 input bytes are mapped and the result slot and the n+16 bytes at the output address (n: encoded size of the first four numbers) are mapped and writable. After a return the memory is the old one with the decoded numbers (the control bytes and the encoding, padded with zeros) written over it, and nothing else changed. This holds however input and output overlap each other, the tables, the arguments or the result slot, and also across the end of the address space: decoding and encoding in place are right.", "quantifier": "every address of input and output, every control word, every content of memory and registers, every set of mapped and writable bytes; only the tables and arguments must be in place", "why_tests_cant": "faults end the test process, and the pairs of addresses and sets of mapped bytes are unlimited.", "anchors": ["pkg/encode/encode_amd64.s", "pkg/decode/decode_amd64.s", "pkg/encode/encode_amd64.go", "pkg/decode/decode_amd64.go"]}
{"id": "C65", "title": "The order in which operands are evaluated does not matter", "statement": "The Go specification does not fix the order in which most operands of an expression are evaluated. Whatever order a compiler chooses for the operands of operators, index and slice expressions, calls and assignments, and however it interleaves their memory accesses, every function of the repository that returns in left-to-right order returns the same results and leaves the same memory; where left-to-right order panics, no order returns, and an order that panics leaves the same memory. So a stream written by code compiled with one order is read back by code compiled with another.", "quantifier": "every function of the text, all arguments and memories, every choice of the next operand at every moment (it may depend on the expression, the variables and what each operand has yet to do), every CPU and size of int", "why_tests_cant": "a test runs the order of one compiler version; the orders the specification allows are too many, and each must be tried on every input.", "anchors": ["pkg/encode/encode.go", "pkg/decode/decode.go", "pkg/stream/writer/writer.go", "pkg/stream/reader/reader.go", "pkg/util/util.go"]}
{"id": "C66", "title": "The assembly file means what the generator described", "statement": "Whatever a generator program describes -- the routines of the repository or edited ones -- the assembly file printed for it is read by the assembler as exactly the routines described: the same constants, names, argument sizes and instructions with the registers chosen. A routine read from the file does what the description says, on every CPU, for all arguments and memories. Two generators that print the same file described the same routines.", "quantifier": "all generator states: any number of routines and constants, any instructions of the model in any order, any operands, displacements, shift counts and parameter lists; names of letters, digits and underscores; numbers below 2^64", "why_tests_cant": "a test checks the files in the repository; an edited generator may print any operand and any number, and a number printed in one base or column and read in another changes what the CPU does without an error.", "anchors": ["pkg/encode/main/asm.go", "pkg/decode/main/asm.go", "pkg/shared/asm.go", "pkg/encode/encode_amd64.s", "pkg/decode/decode_amd64.s"]}
{"id": "C67", "title": "Reading with the wrong count", "statement": "The number of values is not stored in a stream. Reading a written stream with a count that is too small never fails, with any reader and on every CPU: the call returns and stays inside the allocation wherever the call with the right count does. The numbers it delivers are right if and only if the data bytes of these numbers are found again as many places earlier as control bytes are left out, in particular whenever the count still has the same number of groups of four; otherwise the lowest byte of the first number (or difference) delivered is a control byte of the stream. Reading the stream as written with a count that is too large never returns: the scalar readers panic, the SIMD readers panic or fault, and panic if the allocations extend 32 bytes further.", "quantifier": "all inputs of every length, every writer and reader, plain and delta, every count below 2^63, any bytes after the stream (too small), none (too large)", "why_tests_cant": "a count too small gives plausible numbers without an error; which streams hide it depends on all their bytes.", "anchors": ["pkg/stream/reader/reader.go", "pkg/stream/reader/reader_amd64.go", "pkg/stream/reader/reader_base.go", "pkg/stream/writer/writer.go"]}
{"id": "C68", "title": "Reading a stream as what it is not", "statement": "A stream does not say whether it holds numbers or differences, nor where the differences start. Reading a written stream with the wrong kind of reader or the wrong starting value always returns, with any reader and on every CPU, and the number with index i is off by exactly this much modulo 2^32: differences from p read as differences from q, q-p; differences read as numbers, minus the number before it (p for the first); numbers read as differences from q, q plus the sum of the numbers before it. So all numbers come out right only if p = q, respectively if the starting value and all numbers but the last are zero, or there is no number.", "quantifier": "all inputs of every length, every writer and reader, plain and delta, all starting values, any bytes after the stream", "why_tests_cant": "the round-trip tests read every stream as it was written; the mistake raises no error and its effect depends on all earlier numbers.", "anchors": ["pkg/stream/reader/reader.go", "pkg/stream/reader/reader_amd64.go", "pkg/stream/reader/reader_base.go", "pkg/stream/writer/writer.go", "pkg/stream/writer/writer_amd64.go"]}
