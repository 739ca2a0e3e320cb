(** * The repository's text, linked for each architecture *)
From Coq Require Import ZArith List String Bool.
From Verif Require Import GoSem Shared Asm SourceText GoSyntax GoInterp AsmText GoProgram.
Import ListNotations.

Definition amd64 : program := Eval vm_compute in match link true sources with Some p => p | None => Program [] [] end.
Definition portable : program := Eval vm_compute in match link false sources with Some p => p | None => Program [] [] end.
Lemma link_amd64 : link true sources = Some amd64.
Proof. vm_compute. reflexivity. Qed.
Lemma link_portable : link false sources = Some portable.
Proof. vm_compute. reflexivity. Qed.

(** The program a machine runs. *)
Definition source (a : arch) : program := match a with AMD64 _ _ => amd64 | OtherArch => portable end.
