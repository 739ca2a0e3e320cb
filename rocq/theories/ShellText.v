(** * The shell scripts of the repository, byte for byte (written by tools/embed.py)

    A file is the list of its lines; every line but the last one ends with a newline. *)
From Coq Require Import String List.
Import ListNotations.
Local Open Scope string_scope.

(** tools/generate_and_check.sh *)
Definition check_sh : list string := [
"#!/usr/bin/env bash";
"";
"set -e";
"";
"BEFORE_DIFF=$(git diff | sha1sum )";
"BEFORE_STATUS=$(git status --porcelain | sha1sum)";
"";
"make generate";
"";
"AFTER_DIFF=$(git diff | sha1sum )";
"AFTER_STATUS=$(git status --porcelain | sha1sum)";
"";
"if [[ $BEFORE_DIFF != $AFTER_DIFF || $BEFORE_STATUS != $AFTER_STATUS ]]; then";
"  echo ""Unstable generate. Make sure to generate and check in changed files.""";
"  exit 1";
"fi"].

(** tools/update_bench.sh *)
Definition bench_sh : list string := [
"#!/usr/bin/env bash";
"";
"set -e";
"";
"TMP_FILE=$(mktemp)";
"go test -bench . ./pkg/... | tee $TMP_FILE";
"cat $TMP_FILE | go run $SBYTE_HOME/tools/parse_and_write_bench.go -w";
"rm $TMP_FILE"].

(** Makefile *)
Definition makefile : list string := [
"";
"generate:";
"	go generate ./pkg/...";
"";
"test:";
"	go test -v ./pkg/...";
"";
"update-bench:";
"	./tools/update_bench.sh";
"";
"fmtgo:";
"	find ./pkg -type f -iname ""*.go"" | xargs gofmt -w"].
