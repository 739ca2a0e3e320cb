(** * Theorems: the checked-in assembly against its generators (C40) *)
From stdpp Require Import prelude list gmap strings.
From Coq Require Import ZArith Lia.
From Verif Require Import Spec GoSem Tables Shared Asm AsmProgs Encode Decode AvoGen AvoSem AvoProof Api.
Local Open Scope Z_scope.

(** [code] does what the generator program [b] describes: called with any parameters on
    any CPU and memory, it ends the same way, with the same result, the same memory and
    the same accesses in the same order as the described instructions, in which every
    virtual register keeps its value until it is written again. *)
Definition implements (g : signature) (b : build unit) (code : list instr) : Prop :=
  exists c, described g b = Some c /\ forall a ps m, run (call_described a c ps) m = run (call_asm a code ps) m.
(** [code] is the description with physical registers filled in. *)
Definition prints (g : signature) (b : build unit) (code : list instr) : Prop :=
  exists c rg rx, described g b = Some c /\ code = map (assign rg rx) c.

Definition pickg (l : list gpr) (n : nat) : gpr := nth n l AX.
Definition pickx (l : list xreg) (n : nat) : xreg := nth n l X0.
Lemma implemented g b code c lg lx :
  described g b = Some c -> code = map (assign (pickg lg) (pickx lx)) c ->
  live defg useg c = [] -> live defx usex c = [] ->
  apart defg useg gpr_eqb (pickg lg) c = true -> apart defx usex xreg_eqb (pickx lx) c = true ->
  implements g b code /\ prints g b code.
Proof.
  intros D -> L1 L2 Hg Hx. split; [exists c | exists c, (pickg lg), (pickx lx)]; split; auto.
  intros a ps m. apply assign_sound; auto.
Qed.

Theorem C40_put8 :
  implements enc_signature enc_regular Put8uint32FastAsm_code /\ prints enc_signature enc_regular Put8uint32FastAsm_code.
Proof. eapply (implemented _ _ _ _ [AX; AX; CX; DX; BX; CX; DX; BX; AX] [X0; X1; X2; X3; X4; X5]); vm_compute; reflexivity. Qed.
Theorem C40_put8_delta :
  implements enc_signatureDelta enc_differential Put8uint32DeltaFastAsm_code /\
  prints enc_signatureDelta enc_differential Put8uint32DeltaFastAsm_code.
Proof. eapply (implemented _ _ _ _ [AX; AX; CX; DX; BX; CX; DX; BX; AX] [X0; X1; X2; X2; X3; X4; X5]); vm_compute; reflexivity. Qed.
Theorem C40_get8 :
  implements dec_signature dec_regular Get8uint32FastAsm_code /\ prints dec_signature dec_regular Get8uint32FastAsm_code.
Proof. eapply (implemented _ _ _ _ [AX; CX; DX; BX; CX; SI; DI; AX; AX] [X0; X1]); vm_compute; reflexivity. Qed.
Theorem C40_get8_delta :
  implements dec_signatureDelta dec_differential Get8uint32DeltaFastAsm_code /\
  prints dec_signatureDelta dec_differential Get8uint32DeltaFastAsm_code.
Proof. eapply (implemented _ _ _ _ [AX; CX; DX; BX; CX; SI; DI; AX; AX] [X0; X1; X2; X3; X3]); vm_compute; reflexivity. Qed.

(** The offsets and frame sizes the generators derive from the signatures are the ones
    printed in encode_amd64.s:13-45, 49-86 and decode_amd64.s:7-31, 35-71: name+offset(FP)
    and TEXT ... $0-66, $0-74, $0-72, $0-72. *)
Theorem C40_frames :
  (map (fun p => (fst p, fst (snd p))) (param_env enc_signature ++ result_env enc_signature) =
     [("in", 0); ("outBytes", 24); ("shuffle", 48); ("lenTable", 56); ("r", 64)]%string /\ arg_bytes enc_signature = 66) /\
  (map (fun p => (fst p, fst (snd p))) (param_env enc_signatureDelta ++ result_env enc_signatureDelta) =
     [("in", 0); ("outBytes", 24); ("prev", 48); ("shuffle", 56); ("lenTable", 64); ("r", 72)]%string /\ arg_bytes enc_signatureDelta = 74) /\
  (map (fun p => (fst p, fst (snd p))) (param_env dec_signature) =
     [("in", 0); ("out", 24); ("ctrl", 48); ("shuffle", 56); ("lenTable", 64)]%string /\ arg_bytes dec_signature = 72) /\
  (map (fun p => (fst p, fst (snd p))) (param_env dec_signatureDelta) =
     [("in", 0); ("out", 24); ("ctrl", 48); ("prev", 52); ("shuffle", 56); ("lenTable", 64)]%string /\ arg_bytes dec_signatureDelta = 72).
Proof. vm_compute. repeat split. Qed.

(** The comments "Requires: AVX, AVX2" (encode_amd64.s:12, 48) and "Requires: AVX"
    (decode_amd64.s:6, 34) name exactly the features needed. *)
Theorem C40_requires : forall a,
  (Forall (fun i => supports a (needs i) = true) Put8uint32FastAsm_code <-> a = AMD64 true true) /\
  (Forall (fun i => supports a (needs i) = true) Put8uint32DeltaFastAsm_code <-> a = AMD64 true true) /\
  (Forall (fun i => supports a (needs i) = true) Get8uint32FastAsm_code <-> exists avx2, a = AMD64 true avx2) /\
  (Forall (fun i => supports a (needs i) = true) Get8uint32DeltaFastAsm_code <-> exists avx2, a = AMD64 true avx2).
Proof.
  assert (K : forall a c, Forall (fun i => supports a (needs i) = true) c <-> forallb (fun i => supports a (needs i)) c = true).
  { intros a c. rewrite forallb_forall, Forall_forall. setoid_rewrite <- elem_of_list_In. reflexivity. }
  intros a. rewrite !K. destruct a as [[|] [|] |]; vm_compute; repeat split; intros H; try discriminate; try (eexists; reflexivity); try reflexivity.
  all: destruct H; discriminate.
Qed.

(** A call of the described encoder and of the described decoder. *)
Example C40_example :
  let m := Mem {[5%nat := replicate 40 170]} {[0%nat := [1; 300; 70000; 4294967295; 0; 255; 256; 65536]]} in
  match described enc_signature enc_regular with
  | Some c => match run (call_described (AMD64 true true) c
                [argW (Slice 0 0 8 8); argB (Slice 5 2 38 38); PPtr (PT (concat EncodeShuffleTable) 0); PPtr (PT PerControlLenTable 0)]) m with
              | (Ok (Some ctrl), m', _) => ctrl = 228 + 256 * (0 + 0 * 4 + 1 * 16 + 2 * 64) /\
                  take 10 (drop 2 (default [] (mb m' !! 5%nat))) = [1; 44; 1; 112; 17; 1; 255; 255; 255; 255]
              | _ => False
              end
  | None => False
  end.
Proof. vm_compute. split; reflexivity. Qed.
