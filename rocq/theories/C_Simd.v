(** * Tables and vector computations: C22 - C25 *)
From stdpp Require Import prelude list.
From Coq Require Import ZArith Lia.
From Verif Require Import Spec SpecLemmas GoSem Tables GenTables Shared Asm AsmProgs Wp TableProof EncodeProof2 SimdProof Api.
Local Open Scope Z_scope.

(** ** C22: sizes from control bytes *)
Theorem C22_one : forall c, is_byte c -> ControlByteToSize c = Z.of_nat (sum_nat (ctrl_lens c)) /\ 4 <= ControlByteToSize c <= 16.
Proof. intros c Hc. rewrite ControlByteToSize_lens by done. pose proof (sum_ctrl_lens_range c). lia. Qed.
Theorem C22_two : forall c, is_u16 c -> ControlByteToSizeTwo c = Z.of_nat (sum_nat (ctrl8_lens c)) /\
  ControlByteToSizeTwo c = ControlByteToSize (c mod 256) + ControlByteToSize (c / 256) /\ 8 <= ControlByteToSizeTwo c <= 32.
Proof.
  intros c Hc. rewrite ControlByteToSizeTwo_lens by done. unfold ctrl8_lens. rewrite sum_nat_app.
  rewrite !ControlByteToSize_lens by (unfold is_byte, is_u16 in *; Z.to_euclidean_division_equations; lia).
  pose proof (sum_ctrl_lens_range (c mod 256)). pose proof (sum_ctrl_lens_range (c / 256)). lia.
Qed.
(** For a control byte made from four numbers it is the length of their encoding. *)
Theorem C22_group : forall xs, length xs = 4%nat -> ControlByteToSize (ctrl_of xs) = Z.of_nat (length (enc_data xs)).
Proof. exact ControlByteToSize_ctrl_of. Qed.
Example C22_case : ControlByteToSize 228 = 10 /\ ControlByteToSizeTwo (228 + 256 * 255) = 26 /\ ctrl_of [5; 300; 70000; 4294967295] = 228.
Proof. by vm_compute. Qed.

(** ** C23: the checked-in tables *)
Fixpoint zlists_eqb (a b : list (list Z)) : bool :=
  match a, b with
  | [], [] => true
  | x :: a', y :: b' => zlist_eqb x y && zlists_eqb a' b'
  | _, _ => false
  end.
Lemma zlists_eqb_eq a b : zlists_eqb a b = true -> a = b.
Proof.
  revert b. induction a as [|x a IH]; intros [|y b]; cbn; try done.
  rewrite andb_true_iff. intros [->%zlist_eqb_eq E]. by rewrite (IH b).
Qed.
Theorem C23_generated : PerNumLenTable = genPerNumLengthTable /\ PerControlLenTable = genPerQuadLengthTable /\
  EncodeShuffleTable = genEncodeShuffleTable /\ DecodeShuffleTable = genDecodeShuffleTable.
Proof.
  split; [apply zlists_eqb_eq; by vm_compute|]. split; [apply zlist_eqb_eq; by vm_compute|].
  split; apply zlists_eqb_eq; by vm_compute.
Qed.
Theorem C23_sizes : length PerNumLenTable = 256%nat /\ length PerControlLenTable = 256%nat /\ length EncodeShuffleTable = 256%nat /\ length DecodeShuffleTable = 256%nat /\
  Forall (fun r => length r = 4%nat /\ Forall is_byte r) PerNumLenTable /\ Forall is_byte PerControlLenTable /\
  Forall (fun r => length r = 16%nat /\ Forall is_byte r) EncodeShuffleTable /\ Forall (fun r => length r = 16%nat /\ Forall is_byte r) DecodeShuffleTable.
Proof.
  assert (B : forall l, forallb (fun x => (0 <=? x) && (x <? 256)) l = true -> Forall is_byte l).
  { intros l H. rewrite forallb_forall in H. apply List.Forall_forall. intros x Hx. apply H in Hx. unfold is_byte. lia. }
  assert (R : forall n t, forallb (fun r => (length r =? n)%nat && forallb (fun x => (0 <=? x) && (x <? 256)) r) t = true -> Forall (fun r => length r = n /\ Forall is_byte r) t).
  { intros n t H. rewrite forallb_forall in H. apply List.Forall_forall. intros x Hx. apply H in Hx. rewrite andb_true_iff, Nat.eqb_eq in Hx. split; [apply Hx|apply B, Hx]. }
  do 4 (split; [by vm_compute|]). split; [apply R; by vm_compute|]. split; [apply B; by vm_compute|]. split; apply R; by vm_compute.
Qed.
(** Byte lengths by number. *)
Theorem C23_lengths : forall c, is_byte c -> map Z.of_nat (ctrl_lens c) = nth (Z.to_nat c) PerNumLenTable [].
Proof. intros c Hc. apply zlist_eqb_eq. revert c Hc. apply byte_sweep. by vm_compute. Qed.

(** Meaning of the shuffle masks, for any register content [v]: keep the first
    bytes of each 4-byte lane / put each piece into a lane of its own. *)
Fixpoint keep (lens : list nat) (v : list Z) : list Z :=
  match lens with [] => [] | n :: r => take n v ++ keep r (drop 4 v) end.
Fixpoint spread (lens : list nat) (v : list Z) : list Z :=
  match lens with [] => [] | n :: r => take n v ++ replicate (4 - n) 0 ++ spread r (drop n v) end.
Theorem C23_encode_masks : forall c v, is_byte c -> length v = 16%nat ->
  pshufb v (nth (Z.to_nat c) EncodeShuffleTable []) = keep (ctrl_lens c) v ++ replicate (16 - sum_nat (ctrl_lens c)) 0.
Proof.
  intros c v Hc Hv. rewrite EncodeShuffleTable_rows by done. unfold enc_mask.
  pose proof (ctrl_lens_range c) as Hr. pose proof (ctrl_lens_length c) as Hn.
  destruct (ctrl_lens c) as [|l0 [|l1 [|l2 [|l3 [|]]]]]; try done.
  repeat (apply Forall_cons_1 in Hr as [? Hr]). cbn [nth keep].
  rewrite !pshufb_app, !pshufb_range, pshufb_pad by (done || lia). rewrite !drop_drop, app_nil_r, <- !app_assoc. done.
Qed.
Theorem C23_decode_masks : forall c v, is_byte c -> length v = 16%nat ->
  pshufb v (nth (Z.to_nat c) DecodeShuffleTable []) = spread (ctrl_lens c) v.
Proof.
  intros c v Hc Hv. rewrite DecodeShuffleTable_rows by done. unfold dec_mask, dec_part.
  pose proof (ctrl_lens_range c) as Hr. pose proof (sum_ctrl_lens_range c) as Hs. pose proof (ctrl_lens_length c) as Hn.
  destruct (ctrl_lens c) as [|l0 [|l1 [|l2 [|l3 [|]]]]]; try done.
  repeat (apply Forall_cons_1 in Hr as [? Hr]). cbn [nth spread sum_nat fold_right] in *.
  rewrite !pshufb_app, !pshufb_range, !pshufb_pad by (done || lia). rewrite !drop_drop, app_nil_r, <- !app_assoc, !Nat2Z.id. done.
Qed.
(** [spread] inverts [keep] on lanes that fit. *)
Theorem C23_masks_inverse : forall xs, length xs = 4%nat -> Forall is_u32 xs ->
  pshufb (pshufb (bytes32 xs) (nth (Z.to_nat (ctrl_of xs)) EncodeShuffleTable [])) (nth (Z.to_nat (ctrl_of xs)) DecodeShuffleTable []) = bytes32 xs.
Proof.
  intros xs H4 Hx. assert (Hc : is_byte (ctrl_of xs)) by (apply ctrl_of_byte; lia).
  rewrite EncodeShuffleTable_rows, DecodeShuffleTable_rows by done.
  destruct xs as [|a [|b [|c [|d [|]]]]]; try done. rewrite compact4.
  set (D := enc_data [a; b; c; d]). assert (HD : (length D <= 16)%nat) by (pose proof (enc_data_bounds [a; b; c; d]); cbn [length] in *; unfold D; lia).
  rewrite expand4; [|done| |].
  - f_equal. assert (E : ctrl_lens (ctrl_of [a; b; c; d]) = map nbytes [a; b; c; d]) by (rewrite <- ctrl_lens_of by (cbn; lia); reflexivity).
    rewrite E. unfold D. rewrite cut_enc_data. clear -Hx. induction Hx as [|x l Hx _ IH]; [done|]. cbn [map]. rewrite enc1_val by done. by rewrite IH.
  - rewrite app_length, replicate_length. lia.
  - apply Forall_app. split; [apply enc_data_bytes|]. apply Forall_replicate. unfold is_byte. lia.
Qed.
Example C23_case : nth 228 EncodeShuffleTable [] = [0; 4; 5; 8; 9; 10; 12; 13; 14; 15] ++ replicate 6 255 /\
  spread (ctrl_lens 228) (map Z.of_nat (seq 100 16)) = [100; 0; 0; 0; 101; 102; 0; 0; 103; 104; 105; 0; 106; 107; 108; 109].
Proof. by vm_compute. Qed.

(** ** C24: the control bits (encode_amd64.s:16-23 and 58-65) *)
(** The stretch of code, the same in both encoders. *)
Definition ctrl_code : list instr := take 8 (drop 3 Put8uint32FastAsm_code).
Theorem C24_same_code : take 8 (drop 8 Put8uint32DeltaFastAsm_code) = ctrl_code /\
  ctrl_code = [VPBROADCASTW 257 X2; VPBROADCASTW 32512 X3; VPMINUB X2 X0 X4; VPMINUB X2 X1 X5; VPACKUSWB X5 X4 X4;
               VPMINSW X2 X4 X4; VPADDUSW X3 X4 X4; VPMOVMSKB X4 AX].
Proof. done. Qed.
(** Started with eight numbers in X0 and X1 it leaves their control in AX, the
    numbers where they were, and touches no memory. *)
Theorem C24_control : forall f ro s xs, length xs = 8%nat -> Forall is_u32 xs ->
  xm s X0 = bytes32 (take 4 xs) -> xm s X1 = bytes32 (drop 4 xs) ->
  exists s', exec (AMD64 true true) f ro ctrl_code s = Ret s' /\ gp s' AX = VI (ctrl8_of xs) /\
    xm s' X0 = bytes32 (take 4 xs) /\ xm s' X1 = bytes32 (drop 4 xs) /\ aret s' = aret s /\
    (forall r, r <> AX -> gp s' r = gp s r).
Proof.
  intros f ro s xs H8 Hx E0 E1. destruct xs as [|a [|b [|c [|d [|e [|g [|h [|i [|]]]]]]]]]; try done.
  eexists. split; [reflexivity|]. cbn [take drop] in *.
  split; [|split; [exact E0|split; [exact E1|split; [reflexivity|intros [] Hr; try reflexivity; done]]]].
  change (gp _ AX) with (VI (simd_ctrl (xm s X0) (xm s X1))). rewrite E0, E1, simd_ctrl_eq by done. done.
Qed.
Example C24_case : exists s', exec (AMD64 true true) [] 0 ctrl_code
    (AState (fun _ => VUndef) (fun r => match r with X0 => bytes32 [0; 255; 256; 65535] | _ => bytes32 [65536; 16777215; 16777216; 4294967295] end) None) = Ret s' /\
  gp s' AX = VI (ctrl8_of [0; 255; 256; 65535; 65536; 16777215; 16777216; 4294967295]).
Proof. eexists. split; [reflexivity|]. by vm_compute. Qed.

(** ** C25: differences and prefix sums (encode_amd64.s:52-57, decode_amd64.s:55-67) *)
Definition delta_code : list instr := take 5 (drop 3 Put8uint32DeltaFastAsm_code).
Definition sums_code : list instr := take 12 (drop 20 Get8uint32DeltaFastAsm_code).
Theorem C25_code :
  delta_code = [VPALIGNR 12 X0 X1 X2; VPSUBD X2 X1 X1; VBROADCASTSS_arg 48 X2; VPALIGNR 12 X2 X0 X2; VPSUBD X2 X0 X0] /\
  sums_code = [VBROADCASTSS_arg 52 X2; VPSLLDQ 4 X0 X3; VPADDD X0 X3 X0; VPSLLDQ 8 X0 X3; VPADDD X0 X2 X0; VPADDD X0 X3 X0; VPSHUFD 255 X0 X2;
               VPSLLDQ 4 X1 X3; VPADDD X1 X3 X1; VPSLLDQ 8 X1 X3; VPADDD X1 X2 X1; VPADDD X1 X3 X1].
Proof. done. Qed.
Theorem C25_differences : forall avx2 f ro s xs prev, length xs = 8%nat -> Forall is_u32 xs -> is_u32 prev ->
  frame_get f 48 = Some (C32 prev) -> xm s X0 = bytes32 (take 4 xs) -> xm s X1 = bytes32 (drop 4 xs) ->
  exists s', exec (AMD64 true avx2) f ro delta_code s = Ret s' /\
    xm s' X0 = bytes32 (take 4 (deltas prev xs)) /\ xm s' X1 = bytes32 (drop 4 (deltas prev xs)) /\
    gp s' = gp s /\ aret s' = aret s.
Proof.
  intros avx2 f ro s xs prev H8 Hx Hp Hf E0 E1. destruct xs as [|a [|b [|c [|d [|e [|g [|h [|i [|]]]]]]]]]; try done.
  cbn [take drop] in E0, E1.
  eexists. split; [cbn -[op2 setx palignr bytes32]; rewrite Hf; reflexivity|].
  change (take 4 (deltas ?p ?l)) with (take 4 (deltas p l)).
  pose proof (simd_delta_eq a b c d e g h i prev Hx Hp) as W. pose proof (f_equal fst W) as W0. pose proof (f_equal snd W) as W1. cbv [fst snd] in W0, W1.
  split; [|split; [|done]].
  - rewrite <- W0, <- E0. reflexivity.
  - rewrite <- W1, <- E0, <- E1. reflexivity.
Qed.
Definition simd_sums (v0 v1 p : list Z) : list Z * list Z :=
  let y0 := paddd (pslldq 4 v0) v0 in
  let x0 := paddd (pslldq 8 y0) (paddd p y0) in
  let y1 := paddd (pslldq 4 v1) v1 in
  (x0, paddd (pslldq 8 y1) (paddd (pshufd 255 x0) y1)).
Lemma simd_sums_eq a b c d e f g h prev : Forall is_u32 [a; b; c; d] -> Forall is_u32 [e; f; g; h] -> is_u32 prev ->
  simd_sums (bytes32 [a; b; c; d]) (bytes32 [e; f; g; h]) (bytes32 (replicate 4 prev)) =
  (bytes32 (take 4 (running_sums prev [a; b; c; d; e; f; g; h])), bytes32 (drop 4 (running_sums prev [a; b; c; d; e; f; g; h]))).
Proof.
  intros H0 H1 Hp. unfold simd_sums. cbn [replicate]. rewrite (sum4_eq a b c d prev) by done. cbn [running_sums].
  rewrite pshufd255_lanes by split_forall. rewrite (sum4_eq e f g h) by (done || apply mod_u32). reflexivity.
Qed.
Theorem C25_prefix_sums : forall avx2 f ro s xs prev, length xs = 8%nat -> Forall is_u32 xs -> is_u32 prev ->
  frame_get f 52 = Some (C32 prev) -> xm s X0 = bytes32 (take 4 xs) -> xm s X1 = bytes32 (drop 4 xs) ->
  exists s', exec (AMD64 true avx2) f ro sums_code s = Ret s' /\
    xm s' X0 = bytes32 (take 4 (running_sums prev xs)) /\ xm s' X1 = bytes32 (drop 4 (running_sums prev xs)) /\
    gp s' = gp s /\ aret s' = aret s.
Proof.
  intros avx2 f ro s xs prev H8 Hx Hp Hf E0 E1. destruct xs as [|a [|b [|c [|d [|e [|g [|h [|i [|]]]]]]]]]; try done.
  cbn [take drop] in E0, E1.
  assert (Hx0 : Forall is_u32 [a; b; c; d]) by (by apply (Forall_take is_u32 4) in Hx). assert (Hx1 : Forall is_u32 [e; g; h; i]) by (by apply (Forall_drop is_u32 4) in Hx).
  assert (W : simd_sums (xm s X0) (xm s X1) (bytes32 (replicate 4 prev)) = (bytes32 (take 4 (running_sums prev [a; b; c; d; e; g; h; i])), bytes32 (drop 4 (running_sums prev [a; b; c; d; e; g; h; i])))) by (rewrite E0, E1; by apply simd_sums_eq).
  pose proof (f_equal fst W) as W0. pose proof (f_equal snd W) as W1. unfold fst, snd in W0, W1. clear W.
  set (A0 := bytes32 (take 4 _)) in *. set (A1 := bytes32 (drop 4 _)) in *. clearbody A0 A1.
  eexists. split; [cbn -[op2 setx pslldq bytes32 pshufd]; rewrite Hf; reflexivity|].
  split; [exact W0|split; [exact W1|split; reflexivity]].
Qed.
Example C25_case : take 4 (deltas 7 [3; 1; 4; 1; 5; 9; 2; 6]) = [4294967292; 4294967294; 3; 4294967293] /\
  running_sums 7 (deltas 7 [3; 1; 4; 1; 5; 9; 2; 6]) = [3; 1; 4; 1; 5; 9; 2; 6] /\ frame_get (fst (layout 0 [PSlice VUndef 0 0; PSlice VUndef 0 0; PU32 7])) 48 = Some (C32 7) /\
  frame_get (fst (layout 0 [PSlice VUndef 0 0; PSlice VUndef 0 0; PU16 1; PU32 7])) 52 = Some (C32 7).
Proof. by vm_compute. Qed.
