#!/usr/bin/env python3
"""Write rocq/theories/SourceText.v, TestText.v, BenchText.v and ShellText.v: files of the repository as lists of lines, byte for byte.
With --check, compare the existing files with the repository instead."""
import os, sys
check = '--check' in sys.argv
args = [x for x in sys.argv[1:] if x != '--check']
repo = args[0] if args else '/repo'
here = os.path.dirname(os.path.abspath(__file__))
files = [
    ('encode_amd64_s', 'pkg/encode/encode_amd64.s'),
    ('decode_amd64_s', 'pkg/decode/decode_amd64.s'),
    ('shared_gen_go', 'pkg/shared/gen.go'),
    ('shared_mode_go', 'pkg/shared/mode.go'),
    ('shared_tables_go', 'pkg/shared/tables.go'),
    ('encode_go', 'pkg/encode/encode.go'),
    ('encode_gen_go', 'pkg/encode/gen.go'),
    ('encode_amd64_go', 'pkg/encode/encode_amd64.go'),
    ('encode_base_go', 'pkg/encode/encode_base.go'),
    ('decode_go', 'pkg/decode/decode.go'),
    ('decode_gen_go', 'pkg/decode/gen.go'),
    ('decode_amd64_go', 'pkg/decode/decode_amd64.go'),
    ('decode_base_go', 'pkg/decode/decode_base.go'),
    ('writer_go', 'pkg/stream/writer/writer.go'),
    ('writer_amd64_go', 'pkg/stream/writer/writer_amd64.go'),
    ('writer_base_go', 'pkg/stream/writer/writer_base.go'),
    ('reader_go', 'pkg/stream/reader/reader.go'),
    ('reader_amd64_go', 'pkg/stream/reader/reader_amd64.go'),
    ('reader_base_go', 'pkg/stream/reader/reader_base.go'),
    ('util_go', 'pkg/util/util.go'),
    ('varint_go', 'pkg/util/varint.go'),
    ('rand_go', 'pkg/util/rand.go'),
]
generators = [
    ('shared_asm_go', 'pkg/shared/asm.go'),
    ('gentables_go', 'pkg/shared/main/gentables.go'),
    ('encode_asm_go', 'pkg/encode/main/asm.go'),
    ('decode_asm_go', 'pkg/decode/main/asm.go'),
]
tests = [
    ('pkg_test_go', 'pkg/pkg_test.go'),
    ('encode_test_go', 'pkg/encode/encode_test.go'),
    ('decode_test_go', 'pkg/decode/decode_test.go'),
    ('writer_test_go', 'pkg/stream/writer/writer_test.go'),
    ('reader_test_go', 'pkg/stream/reader/reader_test.go'),
    ('varint_test_go', 'pkg/util/varint_test.go'),
]
scripts = [
    ('check_sh', 'tools/generate_and_check.sh'),
    ('bench_sh', 'tools/update_bench.sh'),
    ('makefile', 'Makefile'),
]


def head(title, last='every line, the last one too, ends with a newline'):
    return [f'(** * {title}, byte for byte (written by tools/embed.py)',
            '', f'    A file is the list of its lines; {last}. *)',
            'From Coq Require Import String List.', 'Import ListNotations.', 'Local Open Scope string_scope.']


def texts(fs, cut=False):
    out = []
    for name, path in fs:
        t = open(f'{repo}/{path}', 'rb').read().decode('utf-8')
        assert '\r' not in t and t.isascii() >= cut
        t += '\n' if cut else ''
        assert t.endswith('\n')
        out += ['', f'(** {path} *)', f'Definition {name} : list string := [']
        out += [';\n'.join('"' + l.replace('"', '""') + '"' for l in t[:-1].split('\n')) + '].']
    return out


out = head('Source files of the repository') + texts(files + generators)
out += ['', '(** Every file built into the packages, with its path. *)', 'Definition sources : list (string * list string) := [']
out += [';\n'.join(f'("{path}", {name})' for name, path in files) + '].']
same = True
for name, lines in [('SourceText', out), ('TestText', head('Test files of the repository') + texts(tests)),
                    ('BenchText', head('The benchmark tool of the repository') + texts([('bench_go', 'tools/parse_and_write_bench.go')])),
                    ('ShellText', head('The shell scripts of the repository', 'every line but the last one ends with a newline') + texts(scripts, True))]:
    target, text = f'{here}/../rocq/theories/{name}.v', '\n'.join(lines) + '\n'
    if check:
        same = same and open(target, encoding='utf-8').read() == text
    else:
        open(target, 'w', encoding='utf-8').write(text)
if check:
    print('same' if same else 'different')
    sys.exit(not same)
