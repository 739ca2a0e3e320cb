(** * More about written streams: C41 and C42 *)
From stdpp Require Import prelude gmap list.
From Coq Require Import ZArith Lia Sorted.
From Verif Require Import Spec SpecLemmas GoSem Shared Tables Asm Wp Writer WriterProof WriterProof2 Api ApiLemmas Witness C_Writer C_Prims C_Group8 C_Compose.
Local Open Scope Z_scope.

(** ** C41: for ascending numbers the delta stream is never longer than the plain one *)
Lemma nbytes_mono x y : is_u32 y -> x <= y -> (nbytes x <= nbytes y)%nat.
Proof. intros Hy Hxy. apply nbytes_minimal; [apply nbytes_range|]. pose proof (nbytes_fits y Hy). lia. Qed.
Lemma deltas_short p xs : is_u32 p -> Forall is_u32 xs -> Sorted Z.le (p :: xs) ->
  (sum_nat (map nbytes (deltas p xs)) <= sum_nat (map nbytes xs))%nat.
Proof.
  revert p. induction xs as [|x xs IH]; intros p Hp Hx Hs; [done|]. apply Forall_cons in Hx as [Hx Hxs].
  apply Sorted_inv in Hs as [Hs Hr]. apply HdRel_inv in Hr. cbn [deltas map sum_nat fold_right].
  specialize (IH x Hx Hxs Hs). unfold sum_nat in IH.
  assert (nbytes ((x - p) mod 2 ^ 32) <= nbytes x)%nat; [|lia].
  apply nbytes_mono; [done|]. unfold is_u32 in *. rewrite Z.mod_small by lia. lia.
Qed.
Theorem C41_sorted_delta_not_longer : forall w w' B B' inp prev m, typed m -> validW m inp -> mb m !! B = None -> mb m !! B' = None -> is_u32 prev ->
  Sorted Z.le (prev :: words m inp) ->
  exists st m1 st' m1', returns (write_delta w B inp prev) m st m1 /\ returns (write w' B' inp) m st' m1' /\ s_len st <= s_len st'.
Proof.
  intros w w' B B' inp prev m Ht Hv Hf Hf' Hp Hs. do 4 eexists. split; [by apply write_delta_run|]. split; [by apply write_run|]. cbn. unfold zlen.
  rewrite !stream_of_length, deltas_length. pose proof (deltas_short prev (words m inp) Hp (typed_words m inp Ht) Hs). lia.
Qed.
(** Without the order it can be longer. *)
Example C41_example :
  (s_len <$> match result (run (WriteAllDelta (AMD64 true true) 9 (Slice 0 0 4 4) 100) (Mem ∅ {[0%nat := [300; 400; 500; 70000]]})) with Ok s => Some s | _ => None end) = Some 7 /\
  (s_len <$> match result (run (WriteAll (AMD64 true true) 9 (Slice 0 0 4 4)) (Mem ∅ {[0%nat := [300; 400; 500; 70000]]})) with Ok s => Some s | _ => None end) = Some 10 /\
  (s_len <$> match result (run (WriteAllDelta (AMD64 true true) 9 (Slice 0 0 2 2) 0) (Mem ∅ {[0%nat := [2; 1]]})) with Ok s => Some s | _ => None end) = Some 6 /\
  (s_len <$> match result (run (WriteAll (AMD64 true true) 9 (Slice 0 0 2 2)) (Mem ∅ {[0%nat := [2; 1]]})) with Ok s => Some s | _ => None end) = Some 3.
Proof. vm_compute. done. Qed.

(** ** C42: writing the concatenation of two slices, the first of a length divisible by 4 *)
Theorem C42_concatenation : forall w w1 w2 B B1 B2 a b c prev m, typed m -> validW m a -> validW m b -> validW m c ->
  mb m !! B = None -> mb m !! B1 = None -> mb m !! B2 = None -> prev_ok prev ->
  words m c = words m a ++ words m b -> s_len a mod 4 = 0 ->
  exists sa ma sb mb' sc mc,
    returns (write_prev w1 B1 a prev) m sa ma /\ returns (write_prev w2 B2 b (after prev (words m a))) m sb mb' /\ returns (write_prev w B c prev) m sc mc /\
    let SA := bytes ma sa in let SB := bytes mb' sb in
    let ca := Z.to_nat ((s_len a + 3) / 4) in let cb := Z.to_nat ((s_len b + 3) / 4) in
    bytes mc sc = take ca SA ++ take cb SB ++ drop ca SA ++ drop cb SB.
Proof.
  intros w w1 w2 B B1 B2 a b c prev m Ht Ha Hb Hc Hf Hf1 Hf2 Hp E H4.
  assert (Hp2 : prev_ok (after prev (words m a))) by (apply after_ok; [done|by apply typed_words]).
  assert (W : forall w0 B0 s p, validW m s -> mb m !! B0 = None -> prev_ok p ->
    returns (write_prev w0 B0 s p) m (wret B0 (to_code p (words m s))) (wmem m B0 (to_code p (words m s)))).
  { intros w0 B0 s [p|] Hs0 H0 Hp0; cbn; [by apply write_delta_run|by apply write_run]. }
  do 6 eexists. split; [by apply W|]. split; [by apply W|]. split; [by apply W|]. cbv zeta. rewrite !wmem_bytes, E, to_code_app.
  assert (La : length (to_code prev (words m a)) = Z.to_nat (s_len a)).
  { pose proof (contents_zlen _ _ (proj1 Ha)) as G. change (contents (mw m) a) with (words m a) in G. unfold zlen in G. destruct prev; cbn; rewrite ?deltas_length; lia. }
  assert (Lb : length (to_code (after prev (words m a)) (words m b)) = Z.to_nat (s_len b)).
  { pose proof (contents_zlen _ _ (proj1 Hb)) as G. change (contents (mw m) b) with (words m b) in G. unfold zlen in G. destruct prev; cbn; rewrite ?deltas_length; lia. }
  assert (Pa : 0 <= s_len a) by (destruct Ha as [(? & ? & ?) ?]; lia). assert (Pb : 0 <= s_len b) by (destruct Hb as [(? & ? & ?) ?]; lia).
  unfold stream_of. rewrite enc_ctrls_app by (rewrite La; apply Nat2Z.inj; rewrite Nat2Z.inj_mod, Z2Nat.id by done; exact H4).
  rewrite enc_data_app.
  assert (Na : length (enc_ctrls (to_code prev (words m a))) = Z.to_nat ((s_len a + 3) / 4)).
  { rewrite enc_ctrls_length, La. unfold nctrl. apply Nat2Z.inj. rewrite Nat2Z.inj_div, Z2Nat.id by (apply Z.div_pos; lia). f_equal; lia. }
  assert (Nb : length (enc_ctrls (to_code (after prev (words m a)) (words m b))) = Z.to_nat ((s_len b + 3) / 4)).
  { rewrite enc_ctrls_length, Lb. unfold nctrl. apply Nat2Z.inj. rewrite Nat2Z.inj_div, Z2Nat.id by (apply Z.div_pos; lia). f_equal; lia. }
  rewrite <- Na, <- Nb, !take_app, !drop_app. by rewrite <- !app_assoc.
Qed.
(** Five numbers after eight, differentially, by different implementations. *)
Example C42_example :
  let m := Mem ∅ {[0%nat := [7; 300; 299; 70000; 5; 6; 7; 8; 9; 1000; 4294967295; 0; 77]]} in
  let S p := match run p m with (Ok s, m', _) => bytes m' s | _ => [] end in
  let SA := S (WriteAllDelta (AMD64 true true) 9 (Slice 0 0 8 13) 3) in let SB := S (WriteAllDelta OtherArch 9 (Slice 0 8 5 5) 8) in
  S (WriteAllDelta (AMD64 false false) 9 (Slice 0 0 13 13) 3) = take 2 SA ++ take 2 SB ++ drop 2 SA ++ drop 2 SB /\ length SA = 19%nat /\ length SB = 11%nat.
Proof. vm_compute. done. Qed.
