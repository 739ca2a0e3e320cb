(** * The test files, parsed *)
From Coq Require Import ZArith String.
From stdpp Require Import prelude list.
From Verif Require Import GoSyntax GoProgram TestText TestInterp.
Local Open Scope string_scope.
Local Open Scope list_scope.

Definition parsed (ls : list string) : file := match parse ls with Some f => f | None => File "" [] [] end.
Definition t_pkg : file := Eval vm_compute in parsed pkg_test_go.
Lemma parse_pkg : parse pkg_test_go = Some t_pkg.
Proof. vm_cast_no_check (eq_refl (Some t_pkg)). Qed.
Definition t_encode : file := Eval vm_compute in parsed encode_test_go.
Lemma parse_encode : parse encode_test_go = Some t_encode.
Proof. vm_cast_no_check (eq_refl (Some t_encode)). Qed.
Definition t_decode : file := Eval vm_compute in parsed decode_test_go.
Lemma parse_decode : parse decode_test_go = Some t_decode.
Proof. vm_cast_no_check (eq_refl (Some t_decode)). Qed.
Definition t_writer : file := Eval vm_compute in parsed writer_test_go.
Lemma parse_writer : parse writer_test_go = Some t_writer.
Proof. vm_cast_no_check (eq_refl (Some t_writer)). Qed.
Definition t_reader : file := Eval vm_compute in parsed reader_test_go.
Lemma parse_reader : parse reader_test_go = Some t_reader.
Proof. vm_cast_no_check (eq_refl (Some t_reader)). Qed.
Definition t_varint : file := Eval vm_compute in parsed varint_test_go.
Lemma parse_varint : parse varint_test_go = Some t_varint.
Proof. vm_cast_no_check (eq_refl (Some t_varint)). Qed.
Lemma testBody_parsed ls f x : parse ls = Some f -> testBody ls x = findTest x f.
Proof. unfold testBody. by intros ->. Qed.
