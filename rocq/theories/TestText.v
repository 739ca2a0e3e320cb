(** * Test files of the repository, byte for byte (written by tools/embed.py)

    A file is the list of its lines; every line, the last one too, ends with a newline. *)
From Coq Require Import String List.
Import ListNotations.
Local Open Scope string_scope.

(** pkg/pkg_test.go *)
Definition pkg_test_go : list string := [
"package pkg";
"";
"import (";
"	""math/rand""";
"	""reflect""";
"	""testing""";
"	""time""";
"";
"	""github.com/theMPatel/streamvbyte-simdgo/pkg/decode""";
"	""github.com/theMPatel/streamvbyte-simdgo/pkg/encode""";
"	""github.com/theMPatel/streamvbyte-simdgo/pkg/util""";
")";
"";
"func init() {";
"	rand.Seed(time.Now().UnixNano())";
"}";
"";
"func TestRoundTripScalar(t *testing.T) {";
"	in := []uint32{1024, 3, 2, 1, 1_073_741_824, 10, 12, 1024}";
"	expectedData := []byte{";
"		0x00, 0x04, 0x03, 0x02, 0x01, 0x00, 0x00, 0x00, 0x40,";
"		0x0a, 0x0c, 0x00, 0x04,";
"	}";
"";
"	expectedCtrl := uint16(0b01_00_00_11_00_00_00_01)";
"	out := make([]byte, 32)";
"	actualCtrl := encode.Put8uint32Scalar(in, out)";
"	if actualCtrl != expectedCtrl {";
"		t.Fatalf(""expected: %#016b, got %#016b"", expectedCtrl, actualCtrl)";
"	}";
"";
"	actualData := out[:13]";
"	if !reflect.DeepEqual(expectedData, actualData) {";
"		t.Fatalf(""expected %+v, got %+v"", expectedData, actualData)";
"	}";
"";
"	decoded := make([]uint32, 8)";
"	decode.Get8uint32Scalar(actualData, decoded, actualCtrl)";
"";
"	if !reflect.DeepEqual(in, decoded) {";
"		t.Fatalf(""expected %+v, actual %+v"", in, decoded)";
"	}";
"}";
"";
"func BenchmarkMemCopy8Uint32(b *testing.B) {";
"	count := 8";
"	nums := make([]uint32, count)";
"	for i := 0; i < count; i++ {";
"		nums[i] = util.RandUint32()";
"	}";
"";
"	out := make([]uint32, count)";
"	b.SetBytes(int64(count * encode.MaxBytesPerNum))";
"	b.ResetTimer()";
"	for i := 0; i < b.N; i++ {";
"		copy(out, nums)";
"	}";
"}"].

(** pkg/encode/encode_test.go *)
Definition encode_test_go : list string := [
"package encode";
"";
"import (";
"	""encoding/binary""";
"	""math/rand""";
"	""reflect""";
"	""testing""";
"	""time""";
"";
"	""github.com/theMPatel/streamvbyte-simdgo/pkg/shared""";
"	""github.com/theMPatel/streamvbyte-simdgo/pkg/util""";
")";
"";
"func init() {";
"	rand.Seed(time.Now().UnixNano())";
"}";
"";
"func TestPut8uint32Scalar(t *testing.T) {";
"	in := []uint32{1024, 3, 2, 1, 1_073_741_824, 10, 12, 1024}";
"	expectedData := []byte{";
"		0x00, 0x04, 0x03, 0x02, 0x01, 0x00, 0x00, 0x00, 0x40,";
"		0x0a, 0x0c, 0x00, 0x04,";
"	}";
"";
"	expectedCtrl := uint16(0b01_00_00_11_00_00_00_01)";
"	out := make([]byte, 32)";
"	actualCtrl := Put8uint32Scalar(in, out)";
"	if actualCtrl != expectedCtrl {";
"		t.Fatalf(""expected: %#016b, got %#016b, %+v"", expectedCtrl, actualCtrl, in)";
"	}";
"";
"	actualData := out[:13]";
"	if !reflect.DeepEqual(expectedData, actualData) {";
"		t.Fatalf(""expected %+v, got %+v, %+v"", expectedData, actualData, in)";
"	}";
"}";
"";
"func TestPut8uint32DeltaScalar(t *testing.T) {";
"	count := 8";
"	nums := util.GenUint32(count)";
"	util.SortUint32(nums)";
"	diffed := make([]uint32, count)";
"	util.Delta(nums, diffed)";
"";
"	expectedData := make([]byte, count*MaxBytesPerNum)";
"	expectedCtrl := Put8uint32Scalar(diffed, expectedData)";
"	expectedData = expectedData[:shared.ControlByteToSizeTwo(expectedCtrl)]";
"";
"	out := make([]byte, count*MaxBytesPerNum)";
"	actualCtrl := Put8uint32DeltaScalar(nums, out, 0)";
"	if actualCtrl != expectedCtrl {";
"		t.Fatalf(""expected: %#016b, got %#016b, %+v"", expectedCtrl, actualCtrl, nums)";
"	}";
"";
"	actualData := out[:shared.ControlByteToSizeTwo(actualCtrl)]";
"	if !reflect.DeepEqual(expectedData, actualData) {";
"		t.Fatalf(""expected %+v, got %+v, %+v"", expectedData, actualData, nums)";
"	}";
"}";
"";
"func TestPut8uint32Fast(t *testing.T) {";
"	if GetMode() == shared.Normal {";
"		t.Skipf(""Testing environment doesn't support this test"")";
"	}";
"";
"	count := 8";
"	nums := util.GenUint32(count)";
"";
"	out := make([]byte, MaxBytesPerNum*count)";
"	scalarCtrl := Put8uint32Scalar(nums, out)";
"	out = out[:shared.ControlByteToSizeTwo(scalarCtrl)]";
"";
"	fastOut := make([]byte, MaxBytesPerNum*count)";
"	fastCtrl := Put8uint32Fast(nums, fastOut)";
"	fastOut = fastOut[:shared.ControlByteToSizeTwo(fastCtrl)]";
"";
"	if scalarCtrl != fastCtrl {";
"		t.Fatalf(""expected %#04x, actual %#04x, %+v"", scalarCtrl, fastCtrl, nums)";
"	}";
"";
"	if !reflect.DeepEqual(out, fastOut) {";
"		t.Fatalf(""expected %+v, got %+v, %+v"", out, fastOut, nums)";
"	}";
"}";
"";
"func TestPut8uint32DeltaFast(t *testing.T) {";
"	if GetMode() == shared.Normal {";
"		t.Skipf(""Testing environment doesn't support this test"")";
"	}";
"";
"	count := 8";
"	nums := util.GenUint32(count)";
"	util.SortUint32(nums)";
"";
"	expectedData := make([]byte, MaxBytesPerNum*count)";
"	scalarCtrl := Put8uint32DeltaScalar(nums, expectedData, 0)";
"	expectedData = expectedData[:shared.ControlByteToSizeTwo(scalarCtrl)]";
"";
"	fastOut := make([]byte, MaxBytesPerNum*count)";
"	fastCtrl := Put8uint32DeltaFast(nums, fastOut, 0)";
"	fastOut = fastOut[:shared.ControlByteToSizeTwo(fastCtrl)]";
"";
"	if scalarCtrl != fastCtrl {";
"		t.Fatalf(""expected %#04x, actual %#04x, %+v"", scalarCtrl, fastCtrl, nums)";
"	}";
"";
"	if !reflect.DeepEqual(expectedData, fastOut) {";
"		t.Fatalf(""expected %+v, got %+v, %+v"", expectedData, fastOut, nums)";
"	}";
"}";
"";
"func TestPutUint32Scalar(t *testing.T) {";
"	count := rand.Intn(4) + 1";
"	nums := util.GenUint32(count)";
"	for i := 4 - count; i > 0; i-- {";
"		nums = append(nums, 0)";
"	}";
"";
"	expected := make([]byte, 4*MaxBytesPerNum)";
"	ctrl := Put4uint32Scalar(nums, expected)";
"	size := shared.ControlByteToSize(ctrl)";
"	size -= 4 - count";
"	expected = expected[:size]";
"";
"	out := make([]byte, count*MaxBytesPerNum)";
"	ctrl = PutUint32Scalar(nums[:count], out, count)";
"	size = shared.ControlByteToSize(ctrl)";
"	size -= 4 - count";
"	out = out[:size]";
"	if !reflect.DeepEqual(expected, out) {";
"		t.Fatalf(""expected %+v, got %+v"", expected, out)";
"	}";
"}";
"";
"func TestPutUint32DeltaScalar(t *testing.T) {";
"	count := rand.Intn(4) + 1";
"	nums := util.GenUint32(count)";
"	util.SortUint32(nums)";
"	for i := 4 - count; i > 0; i-- {";
"		nums = append(nums, nums[count-1])";
"	}";
"";
"	deltas := make([]uint32, 4)";
"	util.Delta(nums, deltas)";
"";
"	expected := make([]byte, 4*MaxBytesPerNum)";
"	ctrl := Put4uint32Scalar(deltas, expected)";
"	size := shared.ControlByteToSize(ctrl)";
"	size -= 4 - count";
"	expected = expected[:size]";
"";
"	out := make([]byte, count*MaxBytesPerNum)";
"	ctrl = PutUint32DeltaScalar(nums[:count], out, count, 0)";
"	size = shared.ControlByteToSize(ctrl)";
"	size -= 4 - count";
"	out = out[:size]";
"	if !reflect.DeepEqual(expected, out) {";
"		t.Fatalf(""expected %+v, got %+v"", expected, out)";
"	}";
"}";
"";
"var writeSinkA uint16";
"";
"func BenchmarkPut8uint32Fast(b *testing.B) {";
"	if GetMode() == shared.Normal {";
"		b.Skipf(""Testing environment doesn't support this test"")";
"	}";
"";
"	count := 8";
"	out := make([]byte, count*MaxBytesPerNum)";
"	nums := util.GenUint32(count)";
"";
"	var ctrl uint16";
"	b.SetBytes(int64(count * MaxBytesPerNum))";
"	b.ResetTimer()";
"	for i := 0; i < b.N; i++ {";
"		ctrl = Put8uint32Fast(nums, out)";
"	}";
"	writeSinkA = ctrl";
"}";
"";
"var writeSinkB uint16";
"";
"func BenchmarkPut8uint32DeltaFast(b *testing.B) {";
"	if GetMode() == shared.Normal {";
"		b.Skipf(""Testing environment doesn't support this test"")";
"	}";
"";
"	count := 8";
"	out := make([]byte, count*MaxBytesPerNum)";
"	nums := util.GenUint32(count)";
"	util.SortUint32(nums)";
"";
"	var ctrl uint16";
"	b.SetBytes(int64(count * MaxBytesPerNum))";
"	b.ResetTimer()";
"	for i := 0; i < b.N; i++ {";
"		ctrl = Put8uint32DeltaFast(nums, out, 0)";
"	}";
"	writeSinkB = ctrl";
"}";
"";
"var writeSinkC uint16";
"";
"func BenchmarkPut8uint32Scalar(b *testing.B) {";
"	count := 8";
"	out := make([]byte, count*MaxBytesPerNum)";
"	nums := util.GenUint32(count)";
"";
"	var ctrl uint16";
"	b.SetBytes(int64(count * MaxBytesPerNum))";
"	b.ResetTimer()";
"	for i := 0; i < b.N; i++ {";
"		ctrl = Put8uint32Scalar(nums, out)";
"	}";
"	writeSinkC = ctrl";
"}";
"";
"var writeSinkD uint16";
"";
"func BenchmarkPut8uint32DeltaScalar(b *testing.B) {";
"	count := 8";
"	out := make([]byte, count*MaxBytesPerNum)";
"	nums := util.GenUint32(count)";
"	util.SortUint32(nums)";
"";
"	var ctrl uint16";
"	b.SetBytes(int64(count * MaxBytesPerNum))";
"	b.ResetTimer()";
"	for i := 0; i < b.N; i++ {";
"		ctrl = Put8uint32DeltaScalar(nums, out, 0)";
"	}";
"	writeSinkD = ctrl";
"}";
"";
"var writeSinkE int";
"";
"func BenchmarkPut8uint32Varint(b *testing.B) {";
"	count := 8";
"	out := make([]byte, count*binary.MaxVarintLen32)";
"	nums := util.GenUint32(count)";
"	written := 0";
"";
"	b.SetBytes(int64(count * MaxBytesPerNum))";
"	b.ResetTimer()";
"	for i := 0; i < b.N; i++ {";
"		written = util.PutVarint(nums, out)";
"	}";
"	writeSinkE = written";
"}";
"";
"var writeSinkF int";
"";
"func BenchmarkPut8uint32DeltaVarint(b *testing.B) {";
"	count := 8";
"	out := make([]byte, count*binary.MaxVarintLen32)";
"	nums := util.GenUint32(count)";
"	util.SortUint32(nums)";
"	written := 0";
"";
"	b.SetBytes(int64(count * MaxBytesPerNum))";
"	b.ResetTimer()";
"	for i := 0; i < b.N; i++ {";
"		written = util.PutDeltaVarint(nums, out, 0)";
"	}";
"	writeSinkF = written";
"}"].

(** pkg/decode/decode_test.go *)
Definition decode_test_go : list string := [
"package decode";
"";
"import (";
"	""encoding/binary""";
"	""math/rand""";
"	""reflect""";
"	""testing""";
"	""time""";
"";
"	""github.com/theMPatel/streamvbyte-simdgo/pkg/encode""";
"	""github.com/theMPatel/streamvbyte-simdgo/pkg/shared""";
"	""github.com/theMPatel/streamvbyte-simdgo/pkg/util""";
")";
"";
"func init() {";
"	rand.Seed(time.Now().UnixNano())";
"}";
"";
"func TestGet8uint32Scalar(t *testing.T) {";
"	count := 8";
"	expected := util.GenUint32(count)";
"	in := make([]byte, count*encode.MaxBytesPerNum)";
"	ctrl := encode.Put8uint32Scalar(expected, in)";
"	out := make([]uint32, 8)";
"";
"	Get8uint32Scalar(in, out, ctrl)";
"	if !reflect.DeepEqual(expected, out) {";
"		t.Fatalf(""expected %+v, got %+v"", expected, out)";
"	}";
"}";
"";
"func TestGet8uint32DeltaScalar(t *testing.T) {";
"	count := 8";
"	expected := util.GenUint32(count)";
"	util.SortUint32(expected)";
"	in := make([]byte, count*encode.MaxBytesPerNum)";
"	ctrl := encode.Put8uint32DeltaScalar(expected, in, 0)";
"	out := make([]uint32, 8)";
"";
"	Get8uint32DeltaScalar(in, out, ctrl, 0)";
"	if !reflect.DeepEqual(expected, out) {";
"		t.Fatalf(""expected %+v, got %+v"", expected, out)";
"	}";
"}";
"";
"func TestGet8uint32Fast(t *testing.T) {";
"	if GetMode() == shared.Normal {";
"		t.Skipf(""Testing environment doesn't support this test"")";
"	}";
"";
"	count := 8";
"	expected := util.GenUint32(count)";
"	in := make([]byte, count*encode.MaxBytesPerNum)";
"	ctrl := encode.Put8uint32Scalar(expected, in)";
"	out := make([]uint32, 8)";
"";
"	Get8uint32Fast(in, out, ctrl)";
"	if !reflect.DeepEqual(expected, out) {";
"		t.Fatalf(""expected %+v, got %+v"", expected, out)";
"	}";
"}";
"";
"func TestGet8uint32DeltaFast(t *testing.T) {";
"	if GetMode() == shared.Normal {";
"		t.Skipf(""Testing environment doesn't support this test"")";
"	}";
"";
"	count := 8";
"	expected := util.GenUint32(count)";
"	util.SortUint32(expected)";
"	in := make([]byte, count*encode.MaxBytesPerNum)";
"	ctrl := encode.Put8uint32DeltaScalar(expected, in, 0)";
"	out := make([]uint32, 8)";
"";
"	Get8uint32DeltaFast(in, out, ctrl, 0)";
"	if !reflect.DeepEqual(expected, out) {";
"		t.Fatalf(""expected %+v, got %+v"", expected, out)";
"	}";
"}";
"";
"func TestGetUint32Scalar(t *testing.T) {";
"	count := rand.Intn(4) + 1";
"	expected := util.GenUint32(count)";
"	in := make([]byte, count*encode.MaxBytesPerNum)";
"	ctrl := encode.PutUint32Scalar(expected, in, count)";
"	out := make([]uint32, count)";
"";
"	GetUint32Scalar(in, out, ctrl, count)";
"	if !reflect.DeepEqual(expected, out) {";
"		t.Fatalf(""expected %+v, got %+v"", expected, out)";
"	}";
"}";
"";
"func TestGetUint32DeltaScalar(t *testing.T) {";
"	count := rand.Intn(4) + 1";
"	expected := util.GenUint32(count)";
"	util.SortUint32(expected)";
"	in := make([]byte, count*encode.MaxBytesPerNum)";
"	deltas := make([]uint32, count)";
"	util.Delta(expected, deltas)";
"	ctrl := encode.PutUint32Scalar(deltas, in, count)";
"";
"	out := make([]uint32, count)";
"	GetUint32DeltaScalar(in, out, ctrl, count, 0)";
"	if !reflect.DeepEqual(expected, out) {";
"		t.Fatalf(""expected %+v, got %+v"", expected, out)";
"	}";
"}";
"";
"var readSinkA []uint32";
"";
"func BenchmarkGet8uint32Fast(b *testing.B) {";
"	if GetMode() == shared.Normal {";
"		b.Skipf(""Testing environment doesn't support this test"")";
"	}";
"";
"	count := 8";
"	out := make([]uint32, count)";
"";
"	nums := util.GenUint32(count)";
"	in := make([]byte, count*encode.MaxBytesPerNum)";
"	ctrl := encode.Put8uint32Scalar(nums, in)";
"";
"	b.SetBytes(int64(count * encode.MaxBytesPerNum))";
"	b.ResetTimer()";
"	for i := 0; i < b.N; i++ {";
"		Get8uint32Fast(in, out, ctrl)";
"	}";
"	readSinkA = out";
"}";
"";
"var readSinkB []uint32";
"";
"func BenchmarkGet8uint32DeltaFast(b *testing.B) {";
"	if GetMode() == shared.Normal {";
"		b.Skipf(""Testing environment doesn't support this test"")";
"	}";
"";
"	count := 8";
"	out := make([]uint32, count)";
"	nums := util.GenUint32(count)";
"	util.SortUint32(nums)";
"	in := make([]byte, count*encode.MaxBytesPerNum)";
"	ctrl := encode.Put8uint32DeltaScalar(nums, in, 0)";
"";
"	b.SetBytes(int64(count * encode.MaxBytesPerNum))";
"	b.ResetTimer()";
"	for i := 0; i < b.N; i++ {";
"		Get8uint32DeltaFast(in, out, ctrl, 0)";
"	}";
"	readSinkB = out";
"}";
"";
"var readSinkC []uint32";
"";
"func BenchmarkGet8uint32Scalar(b *testing.B) {";
"	count := 8";
"	out := make([]uint32, count)";
"	nums := util.GenUint32(count)";
"	in := make([]byte, count*encode.MaxBytesPerNum)";
"	ctrl := encode.Put8uint32Scalar(nums, in)";
"";
"	b.SetBytes(int64(count * encode.MaxBytesPerNum))";
"	b.ResetTimer()";
"	for i := 0; i < b.N; i++ {";
"		Get8uint32Scalar(in, out, ctrl)";
"	}";
"	readSinkC = out";
"}";
"";
"var readSinkD []uint32";
"";
"func BenchmarkGet8uint32DeltaScalar(b *testing.B) {";
"	count := 8";
"	out := make([]uint32, count)";
"	nums := util.GenUint32(count)";
"	util.SortUint32(nums)";
"	in := make([]byte, count*encode.MaxBytesPerNum)";
"	ctrl := encode.Put8uint32DeltaScalar(nums, in, 0)";
"";
"	b.SetBytes(int64(count * encode.MaxBytesPerNum))";
"	b.ResetTimer()";
"	for i := 0; i < b.N; i++ {";
"		Get8uint32DeltaScalar(in, out, ctrl, 0)";
"	}";
"	readSinkD = out";
"}";
"";
"var readSinkE []uint32";
"";
"func BenchmarkGet8uint32Varint(b *testing.B) {";
"	count := 8";
"	out := make([]uint32, count)";
"	data := make([]byte, binary.MaxVarintLen32*count)";
"	written := util.PutVarint(util.GenUint32(count), data)";
"	data = data[:written]";
"";
"	b.SetBytes(int64(count * encode.MaxBytesPerNum))";
"	b.ResetTimer()";
"	for i := 0; i < b.N; i++ {";
"		util.GetVarint(data, out)";
"	}";
"	readSinkE = out";
"}";
"";
"var readSinkF []uint32";
"";
"func BenchmarkGet8uint32DeltaVarint(b *testing.B) {";
"	count := 8";
"	out := make([]uint32, count)";
"	data := make([]byte, binary.MaxVarintLen32*count)";
"	written := util.PutDeltaVarint(util.GenUint32(count), data, 0)";
"	data = data[:written]";
"";
"	b.SetBytes(int64(count * encode.MaxBytesPerNum))";
"	b.ResetTimer()";
"	for i := 0; i < b.N; i++ {";
"		util.GetDeltaVarint(data, out, 0)";
"	}";
"	readSinkF = out";
"}"].

(** pkg/stream/writer/writer_test.go *)
Definition writer_test_go : list string := [
"package writer";
"";
"import (";
"	""encoding/binary""";
"	""fmt""";
"	""math""";
"	""math/rand""";
"	""reflect""";
"	""testing""";
"	""time""";
"";
"	""github.com/theMPatel/streamvbyte-simdgo/pkg/encode""";
"	""github.com/theMPatel/streamvbyte-simdgo/pkg/shared""";
"	""github.com/theMPatel/streamvbyte-simdgo/pkg/stream/reader""";
"	""github.com/theMPatel/streamvbyte-simdgo/pkg/util""";
")";
"";
"func init() {";
"	rand.Seed(time.Now().UnixNano())";
"}";
"";
"func TestWriteAllScalar(t *testing.T) {";
"	for i := 0; i < 6; i++ {";
"		count := int(util.RandUint32() % 1e6)";
"		nums := util.GenUint32(count)";
"		stream := WriteAllScalar(nums)";
"		t.Run(fmt.Sprintf(""WriteAll: %d"", count), func(t *testing.T) {";
"			out := make([]uint32, count)";
"			reader.ReadAllScalar(count, stream, out)";
"			if !reflect.DeepEqual(nums, out) {";
"				t.Fatalf(""decoded wrong nums"")";
"			}";
"		})";
"	}";
"}";
"";
"func TestWriteAllDeltaScalar(t *testing.T) {";
"	for i := 0; i < 6; i++ {";
"		count := int(util.RandUint32() % 1e6)";
"		nums := util.GenUint32(count)";
"		util.SortUint32(nums)";
"		diffed := make([]uint32, count)";
"		util.Delta(nums, diffed)";
"";
"		stream := WriteAllScalar(diffed)";
"		t.Run(fmt.Sprintf(""WriteAll: %d"", count), func(t *testing.T) {";
"			actual := WriteAllDeltaScalar(nums, 0)";
"			if !reflect.DeepEqual(stream, actual) {";
"				t.Fatalf(""bad encoding"")";
"			}";
"		})";
"	}";
"}";
"";
"func TestWriteAllFast(t *testing.T) {";
"	if encode.GetMode() == shared.Normal {";
"		t.Skipf(""Testing environment doesn't support this test"")";
"	}";
"";
"	for i := 0; i < 6; i++ {";
"		count := int(util.RandUint32() % 1e6)";
"		nums := util.GenUint32(count)";
"		stream := WriteAllScalar(nums)";
"		t.Run(fmt.Sprintf(""WriteAll: %d"", count), func(t *testing.T) {";
"			actual := WriteAllFast(nums)";
"			if !reflect.DeepEqual(stream, actual) {";
"				t.Fatalf(""bad encoding"")";
"			}";
"		})";
"	}";
"}";
"";
"func TestWriteAllDeltaFast(t *testing.T) {";
"	if encode.GetMode() == shared.Normal {";
"		t.Skipf(""Testing environment doesn't support this test"")";
"	}";
"";
"	for i := 0; i < 6; i++ {";
"		count := int(util.RandUint32() % 1e6)";
"		nums := util.GenUint32(count)";
"		util.SortUint32(nums)";
"		diffed := make([]uint32, count)";
"		util.Delta(nums, diffed)";
"";
"		stream := WriteAllScalar(diffed)";
"		t.Run(fmt.Sprintf(""WriteAll: %d"", count), func(t *testing.T) {";
"			actual := WriteAllDeltaFast(nums, 0)";
"			if !reflect.DeepEqual(stream, actual) {";
"				t.Fatalf(""bad encoding"")";
"			}";
"		})";
"	}";
"}";
"";
"var readSinkA []byte";
"";
"func BenchmarkWriteAllFast(b *testing.B) {";
"	if encode.GetMode() == shared.Normal {";
"		b.Skipf(""Testing environment doesn't support this test"")";
"	}";
"";
"	for i := 0; i < 8; i++ {";
"		count := int(math.Pow10(i))";
"		nums := util.GenUint32(count)";
"		b.Run(fmt.Sprintf(""Count_1e%d"", i), func(b *testing.B) {";
"			var stream []byte";
"			b.SetBytes(int64(count * encode.MaxBytesPerNum))";
"			b.ResetTimer()";
"			for i := 0; i < b.N; i++ {";
"				stream = WriteAllFast(nums)";
"			}";
"			readSinkA = stream";
"		})";
"	}";
"}";
"";
"var readSinkB []byte";
"";
"func BenchmarkWriteAllDeltaFast(b *testing.B) {";
"	if encode.GetMode() == shared.Normal {";
"		b.Skipf(""Testing environment doesn't support this test"")";
"	}";
"";
"	for i := 0; i < 8; i++ {";
"		count := int(math.Pow10(i))";
"		nums := util.GenUint32(count)";
"		util.SortUint32(nums)";
"		b.Run(fmt.Sprintf(""Count_1e%d"", i), func(b *testing.B) {";
"			var stream []byte";
"			b.SetBytes(int64(count * encode.MaxBytesPerNum))";
"			b.ResetTimer()";
"			for i := 0; i < b.N; i++ {";
"				stream = WriteAllDeltaFast(nums, 0)";
"			}";
"			readSinkB = stream";
"		})";
"	}";
"}";
"";
"var readSinkC []byte";
"";
"func BenchmarkWriteAllScalar(b *testing.B) {";
"	for i := 0; i < 8; i++ {";
"		count := int(math.Pow10(i))";
"		nums := util.GenUint32(count)";
"		util.SortUint32(nums)";
"		b.Run(fmt.Sprintf(""Count_1e%d"", i), func(b *testing.B) {";
"			var stream []byte";
"			b.SetBytes(int64(count * encode.MaxBytesPerNum))";
"			b.ResetTimer()";
"			for i := 0; i < b.N; i++ {";
"				stream = WriteAllScalar(nums)";
"			}";
"			readSinkC = stream";
"		})";
"	}";
"}";
"";
"var readSinkD []byte";
"";
"func BenchmarkWriteAllDeltaScalar(b *testing.B) {";
"	for i := 0; i < 8; i++ {";
"		count := int(math.Pow10(i))";
"		nums := util.GenUint32(count)";
"		util.SortUint32(nums)";
"		b.Run(fmt.Sprintf(""Count_1e%d"", i), func(b *testing.B) {";
"			var stream []byte";
"			b.SetBytes(int64(count * encode.MaxBytesPerNum))";
"			b.ResetTimer()";
"			for i := 0; i < b.N; i++ {";
"				stream = WriteAllDeltaScalar(nums, 0)";
"			}";
"			readSinkD = stream";
"		})";
"	}";
"}";
"";
"var readSinkE int";
"";
"func BenchmarkWriteAllVarint(b *testing.B) {";
"	for i := 0; i < 8; i++ {";
"		count := int(math.Pow10(i))";
"		nums := util.GenUint32(count)";
"		util.SortUint32(nums)";
"		out := make([]byte, count*binary.MaxVarintLen32)";
"		written := 0";
"		b.Run(fmt.Sprintf(""Count_1e%d"", i), func(b *testing.B) {";
"			b.SetBytes(int64(count * encode.MaxBytesPerNum))";
"			b.ResetTimer()";
"			for i := 0; i < b.N; i++ {";
"				written = util.PutVarint(nums, out)";
"			}";
"			readSinkE = written";
"		})";
"	}";
"}";
"";
"var readSinkF int";
"";
"func BenchmarkWriteAllDeltaVarint(b *testing.B) {";
"	for i := 0; i < 8; i++ {";
"		count := int(math.Pow10(i))";
"		nums := util.GenUint32(count)";
"		util.SortUint32(nums)";
"		out := make([]byte, count*binary.MaxVarintLen32)";
"		written := 0";
"		b.Run(fmt.Sprintf(""Count_1e%d"", i), func(b *testing.B) {";
"			b.SetBytes(int64(count * encode.MaxBytesPerNum))";
"			b.ResetTimer()";
"			for i := 0; i < b.N; i++ {";
"				written = util.PutDeltaVarint(nums, out, 0)";
"			}";
"			readSinkE = written";
"		})";
"	}";
"}"].

(** pkg/stream/reader/reader_test.go *)
Definition reader_test_go : list string := [
"package reader";
"";
"import (";
"	""encoding/binary""";
"	""fmt""";
"	""math""";
"	""math/rand""";
"	""reflect""";
"	""testing""";
"	""time""";
"";
"	""github.com/theMPatel/streamvbyte-simdgo/pkg/decode""";
"	""github.com/theMPatel/streamvbyte-simdgo/pkg/encode""";
"	""github.com/theMPatel/streamvbyte-simdgo/pkg/shared""";
"	""github.com/theMPatel/streamvbyte-simdgo/pkg/stream/writer""";
"	""github.com/theMPatel/streamvbyte-simdgo/pkg/util""";
")";
"";
"func init() {";
"	rand.Seed(time.Now().UnixNano())";
"}";
"";
"func TestReadAllScalar(t *testing.T) {";
"	for i := 0; i < 6; i++ {";
"		count := int(util.RandUint32() % 1e6)";
"		nums := util.GenUint32(count)";
"		stream := writer.WriteAllScalar(nums)";
"		t.Run(fmt.Sprintf(""ReadAll: %d"", count), func(t *testing.T) {";
"			out := make([]uint32, count)";
"			ReadAllScalar(count, stream, out)";
"			if !reflect.DeepEqual(nums, out) {";
"				t.Fatalf(""decoded wrong nums"")";
"			}";
"		})";
"	}";
"}";
"";
"func TestReadAllDeltaScalar(t *testing.T) {";
"	for i := 0; i < 6; i++ {";
"		count := int(util.RandUint32() % 1e6)";
"		nums := util.GenUint32(count)";
"		util.SortUint32(nums)";
"		stream := writer.WriteAllDeltaScalar(nums, 0)";
"		t.Run(fmt.Sprintf(""ReadAll: %d"", count), func(t *testing.T) {";
"			out := make([]uint32, count)";
"			ReadAllDeltaScalar(count, stream, out, 0)";
"			if !reflect.DeepEqual(nums, out) {";
"				t.Fatalf(""decoded wrong nums"")";
"			}";
"		})";
"	}";
"}";
"";
"func TestReadAllFast(t *testing.T) {";
"	if decode.GetMode() == shared.Normal {";
"		t.Skipf(""Testing environment doesn't support this test"")";
"	}";
"";
"	for i := 0; i < 6; i++ {";
"		count := int(util.RandUint32() % 1e6)";
"		nums := util.GenUint32(count)";
"		stream := writer.WriteAllScalar(nums)";
"		t.Run(fmt.Sprintf(""ReadAll: %d"", count), func(t *testing.T) {";
"			out := make([]uint32, count)";
"			ReadAllFast(count, stream, out)";
"			if !reflect.DeepEqual(nums, out) {";
"				t.Fatalf(""decoded wrong nums"")";
"			}";
"		})";
"	}";
"}";
"";
"func TestReadAllDeltaFast(t *testing.T) {";
"	if decode.GetMode() == shared.Normal {";
"		t.Skipf(""Testing environment doesn't support this test"")";
"	}";
"";
"	for i := 0; i < 6; i++ {";
"		count := int(util.RandUint32() % 1e6)";
"		nums := util.GenUint32(count)";
"		util.SortUint32(nums)";
"		diffed := make([]uint32, count)";
"		util.Delta(nums, diffed)";
"";
"		stream := writer.WriteAllScalar(diffed)";
"		t.Run(fmt.Sprintf(""ReadAll: %d"", count), func(t *testing.T) {";
"			out := make([]uint32, count)";
"			ReadAllDeltaFast(count, stream, out, 0)";
"			if !reflect.DeepEqual(nums, out) {";
"				t.Fatalf(""decoded wrong nums"")";
"			}";
"		})";
"	}";
"}";
"";
"var readSinkA []uint32";
"";
"func BenchmarkReadAllFast(b *testing.B) {";
"	if decode.GetMode() == shared.Normal {";
"		b.Skipf(""Testing environment doesn't support this test"")";
"	}";
"";
"	for i := 0; i < 8; i++ {";
"		count := int(math.Pow10(i))";
"		nums := util.GenUint32(count)";
"		stream := writer.WriteAllScalar(nums)";
"		out := make([]uint32, count)";
"		b.Run(fmt.Sprintf(""Count_1e%d"", i), func(b *testing.B) {";
"			b.SetBytes(int64(count * encode.MaxBytesPerNum))";
"			b.ResetTimer()";
"			for i := 0; i < b.N; i++ {";
"				ReadAllFast(count, stream, out)";
"			}";
"			readSinkA = out";
"		})";
"	}";
"}";
"";
"var readSinkB []uint32";
"";
"func BenchmarkReadAllDeltaFast(b *testing.B) {";
"	if decode.GetMode() == shared.Normal {";
"		b.Skipf(""Testing environment doesn't support this test"")";
"	}";
"";
"	for i := 0; i < 8; i++ {";
"		count := int(math.Pow10(i))";
"		nums := util.GenUint32(count)";
"		util.SortUint32(nums)";
"		stream := writer.WriteAllDeltaScalar(nums, 0)";
"		out := make([]uint32, count)";
"		b.Run(fmt.Sprintf(""Count_1e%d"", i), func(b *testing.B) {";
"			b.SetBytes(int64(count * encode.MaxBytesPerNum))";
"			b.ResetTimer()";
"			for i := 0; i < b.N; i++ {";
"				ReadAllDeltaFast(count, stream, out, 0)";
"			}";
"			readSinkB = out";
"		})";
"	}";
"}";
"";
"var readSinkC []uint32";
"";
"func BenchmarkReadAllScalar(b *testing.B) {";
"	for i := 0; i < 8; i++ {";
"		count := int(math.Pow10(i))";
"		nums := util.GenUint32(count)";
"		util.SortUint32(nums)";
"		stream := writer.WriteAllScalar(nums)";
"		out := make([]uint32, count)";
"		b.Run(fmt.Sprintf(""Count_1e%d"", i), func(b *testing.B) {";
"			b.SetBytes(int64(count * encode.MaxBytesPerNum))";
"			b.ResetTimer()";
"			for i := 0; i < b.N; i++ {";
"				ReadAllScalar(count, stream, out)";
"			}";
"			readSinkC = out";
"		})";
"	}";
"}";
"";
"var readSinkD []uint32";
"";
"func BenchmarkReadAllDeltaScalar(b *testing.B) {";
"	for i := 0; i < 8; i++ {";
"		count := int(math.Pow10(i))";
"		nums := util.GenUint32(count)";
"		util.SortUint32(nums)";
"		stream := writer.WriteAllDeltaScalar(nums, 0)";
"		out := make([]uint32, count)";
"		b.Run(fmt.Sprintf(""Count_1e%d"", i), func(b *testing.B) {";
"			b.SetBytes(int64(count * encode.MaxBytesPerNum))";
"			b.ResetTimer()";
"			for i := 0; i < b.N; i++ {";
"				ReadAllDeltaScalar(count, stream, out, 0)";
"			}";
"			readSinkD = out";
"		})";
"	}";
"}";
"";
"var readSinkE []uint32";
"";
"func BenchmarkReadAllVarint(b *testing.B) {";
"	for i := 0; i < 8; i++ {";
"		count := int(math.Pow10(i))";
"		out := make([]uint32, count)";
"		data := make([]byte, binary.MaxVarintLen32*count)";
"		nums := util.GenUint32(count)";
"		util.SortUint32(nums)";
"		written := util.PutVarint(nums, data)";
"		data = data[:written]";
"		b.Run(fmt.Sprintf(""Count_1e%d"", i), func(b *testing.B) {";
"			b.SetBytes(int64(count * encode.MaxBytesPerNum))";
"			b.ResetTimer()";
"			for i := 0; i < b.N; i++ {";
"				util.GetVarint(data, out)";
"			}";
"			readSinkB = out";
"		})";
"	}";
"}";
"";
"var readSinkF []uint32";
"";
"func BenchmarkReadAllDeltaVarint(b *testing.B) {";
"	for i := 0; i < 8; i++ {";
"		count := int(math.Pow10(i))";
"		out := make([]uint32, count)";
"		data := make([]byte, binary.MaxVarintLen32*count)";
"		nums := util.GenUint32(count)";
"		util.SortUint32(nums)";
"		written := util.PutDeltaVarint(nums, data, 0)";
"		data = data[:written]";
"		b.Run(fmt.Sprintf(""Count_1e%d"", i), func(b *testing.B) {";
"			b.SetBytes(int64(count * encode.MaxBytesPerNum))";
"			b.ResetTimer()";
"			for i := 0; i < b.N; i++ {";
"				util.GetDeltaVarint(data, out, 0)";
"			}";
"			readSinkB = out";
"		})";
"	}";
"}"].

(** pkg/util/varint_test.go *)
Definition varint_test_go : list string := [
"package util";
"";
"import (";
"	""encoding/binary""";
"	""reflect""";
"	""testing""";
")";
"";
"func TestVarintRoundTrip(t *testing.T) {";
"	count := 8";
"	nums := GenUint32(count)";
"	out := make([]byte, count*binary.MaxVarintLen32)";
"	written := PutVarint(nums, out)";
"	out = out[:written]";
"";
"	actual := make([]uint32, count)";
"	read := GetVarint(out, actual)";
"";
"	if written != read {";
"		t.Fatalf(""expected to read %d, got %d"", written, read)";
"	}";
"";
"	if !reflect.DeepEqual(nums, actual) {";
"		t.Fatalf(""expected %+v, got %+v"", nums, actual)";
"	}";
"}";
"";
"func TestVarintDeltaRoundTrip(t *testing.T) {";
"	count := 8";
"	nums := GenUint32(count)";
"	SortUint32(nums)";
"	out := make([]byte, count*binary.MaxVarintLen32)";
"	written := PutDeltaVarint(nums, out, 0)";
"	out = out[:written]";
"";
"	actual := make([]uint32, count)";
"	read := GetDeltaVarint(out, actual, 0)";
"";
"	if written != read {";
"		t.Fatalf(""expected to read %d, got %d"", written, read)";
"	}";
"";
"	if !reflect.DeepEqual(nums, actual) {";
"		t.Fatalf(""expected %+v, got %+v"", nums, actual)";
"	}";
"}"].
