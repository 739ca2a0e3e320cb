(** * The SIMD encoders and decoders of eight numbers on every memory: C44

    C18 and C19 compare them with the scalar functions given room.  Here it is determined what
    they do on all arguments: the lengths of the slices play no role; they
    return normally if and only if all they load and store lies inside the
    allocations, and otherwise fault. *)
From stdpp Require Import prelude gmap list.
From Coq Require Import ZArith Lia.
From Verif Require Import Spec SpecLemmas GoSem Shared Tables TableProof Asm AsmProgs Wp Encode EncodeProof EncodeProof2 SimdProof AsmProof Decode DecodeProof DecodeProof2 Reader ReaderProof ReaderProof2 ReaderProof3 ReaderProof4 ReaderProof5 ReaderProof6 ReaderProof7 Api ApiLemmas Witness C_Reader C_Prims C_Group8 C_ReaderFast C_Exact.
Local Open Scope Z_scope.

(** The bytes and numbers from the start of a slice to the end of its allocation. *)
Definition bytes_on (m : mem) (s : slice) : list Z := skipn (Z.to_nat (s_off s)) (default [] (mb m !! s_blk s)).
Definition words_on (m : mem) (s : slice) : list Z := skipn (Z.to_nat (s_off s)) (default [] (mw m !! s_blk s)).

(** ** Accesses missing in a smaller memory *)
Definition missing (e : event) (m : mem) : Prop :=
  match e with
  | ERdB b i | EWrB b i => hget (mb m) b i = None
  | ERdW b i | EWrW b i => hget (mw m) b i = None
  | EAlB _ => False
  end.
Lemma hput_some h b i v h' : hput h b i v = Some h' -> hget h b i <> None.
Proof.
  unfold hput, hget. destruct (0 <=? i); [|done]. destruct (h !! b) as [l|]; [|done]. destruct (Nat.ltb_spec (Z.to_nat i) (length l)) as [H|]; [|done].
  intros _ Hn. apply lookup_ge_None in Hn. lia.
Qed.
Lemma missing_b e m h b i v : hput (mb m) b i v = Some h -> missing e m -> missing e (Mem h (mw m)).
Proof. intros H. destruct e; cbn; try done; by apply (hput_none _ _ _ _ _ _ _ H). Qed.
Lemma missing_w e m h b i v : hput (mw m) b i v = Some h -> missing e m -> missing e (Mem (mb m) h).
Proof. intros H. destruct e; cbn; try done; by apply (hput_none _ _ _ _ _ _ _ H). Qed.
Lemma hits_missing {A} F (p : prog A) m m' Q e : extm m m' -> (forall b, ~ F (EAlB b)) -> wp F False p m' Q ->
  hits e p m' -> missing e m -> result (run p m) = Faulted.
Proof.
  intros He HF. revert m m' He. unfold hits. induction p as [a| | | | |b' i' k IH|b' i' v k IH|b' i' k IH|b' i' v k IH|b' n k IH]; intros m m' He Hw Hh Hn; cbn in Hw, Hh |- *; try done.
  - destruct Hw as (Hf & v & Hv & Hw). rewrite Hv in Hh. destruct (hget (mb m) b' i') as [v'|] eqn:E; [|done].
    assert (v' = v) as -> by (apply (ext_hget _ _ _ _ _ (proj1 He)) in E; congruence).
    specialize (IH v m m' He Hw). destruct (run (k v) m) as [[r mf] t], (run (k v) m') as [[r' mf'] t']. cbn in *.
    destruct Hh as [<-|Hh]; [cbn in Hn; congruence|by apply IH].
  - destruct Hw as (Hf & h' & Hh' & Hw). rewrite Hh' in Hh. destruct (hput (mb m) b' i' v) as [h|] eqn:E; [|done].
    assert (He' : extm (Mem h (mw m)) (Mem h' (mw m'))) by (split; [exact (ext_hput _ _ _ _ _ _ _ (proj1 He) E Hh')|apply He]).
    specialize (IH _ _ He' Hw). pose proof (missing_b _ _ _ _ _ _ E Hn) as Hn'.
    destruct (run k (Mem h (mw m))) as [[r mf] t], (run k (Mem h' (mw m'))) as [[r' mf'] t']. cbn in *.
    destruct Hh as [<-|Hh]; [by apply hput_some in E|by apply IH].
  - destruct Hw as (Hf & v & Hv & Hw). rewrite Hv in Hh. destruct (hget (mw m) b' i') as [v'|] eqn:E; [|done].
    assert (v' = v) as -> by (apply (ext_hget _ _ _ _ _ (proj2 He)) in E; congruence).
    specialize (IH v m m' He Hw). destruct (run (k v) m) as [[r mf] t], (run (k v) m') as [[r' mf'] t']. cbn in *.
    destruct Hh as [<-|Hh]; [cbn in Hn; congruence|by apply IH].
  - destruct Hw as (Hf & h' & Hh' & Hw). rewrite Hh' in Hh. destruct (hput (mw m) b' i' v) as [h|] eqn:E; [|done].
    assert (He' : extm (Mem (mb m) h) (Mem (mb m') h')) by (split; [apply He|exact (ext_hput _ _ _ _ _ _ _ (proj2 He) E Hh')]).
    specialize (IH _ _ He' Hw). pose proof (missing_w _ _ _ _ _ _ E Hn) as Hn'.
    destruct (run k (Mem (mb m) h)) as [[r mf] t], (run k (Mem (mb m') h')) as [[r' mf'] t']. cbn in *.
    destruct Hh as [<-|Hh]; [by apply hput_some in E|by apply IH].
  - destruct Hw as [Hf _]. by apply HF in Hf.
Qed.
(** A cell that has changed has been written. *)
Lemma hput_other h b i v h' b' i' : hput h b i v = Some h' -> (b', i') <> (b, i) -> hget h' b' i' = hget h b' i'.
Proof.
  unfold hput, hget. destruct (Z.leb_spec 0 i); [|done]. destruct (h !! b) as [l|] eqn:E; [|done]. destruct (Nat.ltb_spec (Z.to_nat i) (length l)); [|done].
  intros [= <-] Hne. destruct (Z.leb_spec 0 i'); [|done]. destruct (decide (b' = b)) as [->|].
  - rewrite lookup_insert, E. apply list_lookup_insert_ne. intros Hi. apply Hne. f_equal. lia.
  - by rewrite lookup_insert_ne.
Qed.
Lemma unhit_b {A} (p : prog A) m b i : Forall (fun e => forall b, e <> EAlB b) (trace (run p m)) ->
  ~ In (EWrB b i) (trace (run p m)) -> hget (mb (final (run p m))) b i = hget (mb m) b i.
Proof.
  revert m. induction p as [a| | | | |b' i' k IH|b' i' v k IH|b' i' k IH|b' i' v k IH|b' n k IH]; intros m Ha Hn; cbn in *; try done.
  - destruct (hget (mb m) b' i') as [v|]; [|done]. specialize (IH v m). destruct (run (k v) m) as [[r mf] t]. cbn in *.
    apply IH; [by inversion Ha|]. intros Hx. apply Hn. by right.
  - destruct (hput (mb m) b' i' v) as [h|] eqn:E; [|done]. specialize (IH (Mem h (mw m))). destruct (run k (Mem h (mw m))) as [[r mf] t]. cbn in *.
    rewrite IH; [|by inversion Ha|intros Hx; apply Hn; by right]. apply (hput_other _ _ _ _ _ _ _ E). intros [= -> ->]. apply Hn. by left.
  - destruct (hget (mw m) b' i') as [v|]; [|done]. specialize (IH v m). destruct (run (k v) m) as [[r mf] t]. cbn in *.
    apply IH; [by inversion Ha|]. intros Hx. apply Hn. by right.
  - destruct (hput (mw m) b' i' v) as [h|] eqn:E; [|done]. specialize (IH (Mem (mb m) h)). destruct (run k (Mem (mb m) h)) as [[r mf] t]. cbn in *.
    rewrite IH; [done|by inversion Ha|intros Hx; apply Hn; by right].
  - exfalso. destruct (mb m !! b'); [|destruct (run k _) as [[r mf] t]]; cbn in Ha; apply Forall_inv in Ha; by apply (Ha b').
Qed.
Lemma unhit_w {A} (p : prog A) m b i : ~ In (EWrW b i) (trace (run p m)) -> hget (mw (final (run p m))) b i = hget (mw m) b i.
Proof.
  revert m. induction p as [a| | | | |b' i' k IH|b' i' v k IH|b' i' k IH|b' i' v k IH|b' n k IH]; intros m Hn; cbn in *; try done.
  - destruct (hget (mb m) b' i') as [v|]; [|done]. specialize (IH v m). destruct (run (k v) m) as [[r mf] t]. cbn in *.
    apply IH. intros Hx. apply Hn. by right.
  - destruct (hput (mb m) b' i' v) as [h|] eqn:E; [|done]. specialize (IH (Mem h (mw m))). destruct (run k (Mem h (mw m))) as [[r mf] t]. cbn in *.
    rewrite IH; [done|intros Hx; apply Hn; by right].
  - destruct (hget (mw m) b' i') as [v|]; [|done]. specialize (IH v m). destruct (run (k v) m) as [[r mf] t]. cbn in *.
    apply IH. intros Hx. apply Hn. by right.
  - destruct (hput (mw m) b' i' v) as [h|] eqn:E; [|done]. specialize (IH (Mem (mb m) h)). destruct (run k (Mem (mb m) h)) as [[r mf] t]. cbn in *.
    rewrite IH; [|intros Hx; apply Hn; by right]. apply (hput_other _ _ _ _ _ _ _ E). intros [= -> ->]. apply Hn. by left.
  - destruct (mb m !! b'); [done|]. specialize (IH (Mem (<[b' := replicate (Z.to_nat n) 0]> (mb m)) (mw m))).
    destruct (run k _) as [[r mf] t]. cbn in *. rewrite IH; [done|intros Hx; apply Hn; by right].
Qed.

(** ** Room *)
Definition growv (v : Z) (k : nat) (b : nat) (h : gmap nat (list Z)) : gmap nat (list Z) := <[b := blk h b ++ replicate k v]> h.
Lemma growv_ext v k b h : ext h (growv v k b h).
Proof.
  intros b' l Hl. unfold growv. destruct (decide (b' = b)) as [->|].
  - rewrite lookup_insert. unfold blk. rewrite Hl. by eexists.
  - rewrite lookup_insert_ne by done. exists []. by rewrite app_nil_r.
Qed.
Lemma growv_blk v k b h : blk (growv v k b h) b = blk h b ++ replicate k v.
Proof. unfold growv, blk at 1. by rewrite lookup_insert. Qed.
Lemma growv_typed (P : Z -> Prop) v k b h : P v -> (forall b l, h !! b = Some l -> Forall P l) -> forall b' l', growv v k b h !! b' = Some l' -> Forall P l'.
Proof.
  intros H0 H b' l'. unfold growv. destruct (decide (b' = b)) as [->|].
  - rewrite lookup_insert. intros [= <-]. apply Forall_app. split; [|by apply Forall_replicate].
    unfold blk. destruct (h !! b) eqn:E; [by eapply H|constructor].
  - rewrite lookup_insert_ne by done. apply H.
Qed.
Lemma blk_on m s : bytes_on m s = drop (Z.to_nat (s_off s)) (blk (mb m) (s_blk s)) /\ words_on m s = drop (Z.to_nat (s_off s)) (blk (mw m) (s_blk s)).
Proof. done. Qed.

(** ** Encoders *)
Lemma hits_readWs n b i j m : (forall k, i <= k < i + j -> hget (mw m) b k <> None) -> 0 <= j < Z.of_nat n -> hits (ERdW b (i + j)) (readWs n b i) m.
Proof.
  revert i j. induction n as [|n IH]; intros i j Hr Hj; [lia|]. unfold hits. cbn [readWs run].
  destruct (decide (j = 0)) as [->|Hj0].
  - rewrite Z.add_0_r. destruct (hget (mw m) b i); [|by left]. destruct (run _ m) as [[? ?] ?]. by left.
  - destruct (hget (mw m) b i) as [v|] eqn:Ev; [|exfalso; by apply (Hr i ltac:(lia))].
    specialize (IH (i + 1) (j - 1) ltac:(intros; apply Hr; lia) ltac:(lia)). replace (i + 1 + (j - 1)) with (i + j) in IH by lia.
    apply (hits_l _ _ (fun l => Ret (v :: l))) in IH. unfold hits in IH. destruct (run _ m) as [[? ?] ?]. by right.
Qed.
Lemma hits_put8_load prev inp out m : 0 <= s_off inp -> s_off inp + 8 <= zlen (blk (mw m) (s_blk inp)) ->
  hits (ERdW (s_blk inp) (s_off inp + 7)) (put8 Simd prev inp out) m.
Proof.
  intros Hi1 Hi2.
  assert (L : forall f ro rest s, gp s AX = PW (s_blk inp) (4 * s_off inp) ->
    hits (ERdW (s_blk inp) (s_off inp + 7)) (exec (AMD64 true true) f ro (VLDDQU 16 AX X1 :: rest) s) m).
  { intros f ro rest s HAX. cbn [exec]. change (supports (AMD64 true true) (needs (VLDDQU 16 AX X1))) with true. cbv iota.
    apply hits_l. cbn [exec1]. apply hits_l. rewrite HAX. cbn [load128].
    replace (4 * s_off inp + 16) with ((s_off inp + 4) * 4) by lia. rewrite Z.mod_mul, Z.div_mul by lia. cbn [Z.eqb].
    apply hits_l. replace (s_off inp + 7) with (s_off inp + 4 + 3) by lia. apply hits_readWs; [|lia]. intros k Hk. rewrite Wp.hget_blk by lia. done. }
  destruct prev as [p|]; cbn [put8].
  - unfold Put8uint32DeltaFast, Put8uint32DeltaFastAsm, with_result, call_asm.
    change (layout 0 _) with ([(0, C64 (PW (s_blk inp) (4 * s_off inp))); (8, C64 (VI (s_len inp))); (16, C64 (VI (s_cap inp)));
      (24, C64 (PB (s_blk out) (s_off out))); (32, C64 (VI (s_len out))); (40, C64 (VI (s_cap out))); (48, C32 p);
      (56, C64 (PT (concat EncodeShuffleTable) 0)); (64, C64 (PT PerControlLenTable 0))], 72).
    cbv beta iota. apply hits_l, hits_l.
    change Put8uint32DeltaFastAsm_code with ([MOVQ_arg 0 AX; VLDDQU 0 AX X0] ++ VLDDQU 16 AX X1 :: drop 3 Put8uint32DeltaFastAsm_code).
    apply (hits_exec_app _ (fun _ => True)). unfold astate0. astart. astep.
    astep. apply wp_load128_W with (k := s_off inp); [lia|lia|lia|done|]. anext. cbn [exec wp]. apply L. exact HAX.
  - unfold Put8uint32Fast, Put8uint32FastAsm, with_result, call_asm.
    change (layout 0 _) with ([(0, C64 (PW (s_blk inp) (4 * s_off inp))); (8, C64 (VI (s_len inp))); (16, C64 (VI (s_cap inp)));
      (24, C64 (PB (s_blk out) (s_off out))); (32, C64 (VI (s_len out))); (40, C64 (VI (s_cap out)));
      (48, C64 (PT (concat EncodeShuffleTable) 0)); (56, C64 (PT PerControlLenTable 0))], 64).
    cbv beta iota. apply hits_l, hits_l.
    change Put8uint32FastAsm_code with ([MOVQ_arg 0 AX; VLDDQU 0 AX X0] ++ VLDDQU 16 AX X1 :: drop 3 Put8uint32FastAsm_code).
    apply (hits_exec_app _ (fun _ => True)). unfold astate0. astart. astep.
    astep. apply wp_load128_W with (k := s_off inp); [lia|lia|lia|done|]. anext. cbn [exec wp]. apply L. exact HAX.
Qed.

(** [D] was stored from the start of [s] on, regardless of the length of [s]; nothing else changed. *)
Definition stores_bytes_on (m m' : mem) (s : slice) (D : list Z) : Prop :=
  mw m' = mw m /\ same_except (mb m) (mb m') (s_blk s) (s_off s) (Z.of_nat (length D)) /\ firstn (length D) (bytes_on m' s) = D.
Definition stores_words_on (m m' : mem) (s : slice) (D : list Z) : Prop :=
  mb m' = mb m /\ same_except (mw m) (mw m') (s_blk s) (s_off s) (Z.of_nat (length D)) /\ firstn (length D) (words_on m' s) = D.
Lemma splice_here o D l : 0 <= o -> o + zlen D <= zlen l -> take (length D) (drop (Z.to_nat o) (splice o D l)) = D.
Proof. intros. unfold splice, zlen in *. rewrite drop_app_alt by (rewrite take_length; lia). apply take_app. Qed.
Lemma put_blk h b l : length l = length (blk h b) -> blk (put h b l) b = l.
Proof. intros. by apply blk_put_eq. Qed.
Lemma bmem_on m out D : 0 <= s_off out -> s_off out + zlen D <= zlen (blk (mb m) (s_blk out)) -> stores_bytes_on m (bmem m out D) out D.
Proof.
  intros H1 H2. split; [done|]. split; [by apply put_same_except|]. destruct (blk_on (bmem m out D) out) as [-> _].
  unfold bmem, setb. cbn [mb]. rewrite put_blk by (apply splice_length; done). by apply splice_here.
Qed.
Lemma rmem_on m out D : 0 <= s_off out -> s_off out + zlen D <= zlen (blk (mw m) (s_blk out)) -> stores_words_on m (rmem m out D) out D.
Proof.
  intros H1 H2. split; [done|]. split; [by apply put_same_except|]. destruct (blk_on (rmem m out D) out) as [_ ->].
  unfold rmem, setw. cbn [mw]. rewrite put_blk by (apply splice_length; done). by apply splice_here.
Qed.

Section put8.
Context (prev : option Z) (inp out : slice) (m : mem) (Ht : typed m) (Hp : prev_ok prev) (Hi : 0 <= s_off inp) (Ho : 0 <= s_off out).
Let ys := to_code prev (sub (s_off inp) 8 (blk (mw m) (s_blk inp))).
Lemma wp_put8_simd (F : event -> Prop) (Q : Z -> mem -> Prop) : s_off inp + 8 <= zlen (blk (mw m) (s_blk inp)) ->
  s_off out + zlen (enc_data (take 4 ys)) + 16 <= zlen (blk (mb m) (s_blk out)) ->
  (forall e, encoder_may inp 8 out (zlen (enc_data (take 4 ys)) + 16) e -> F e) ->
  Q (ctrl8_of ys) (bmem m out (put8_bytes ys)) -> wp F False (put8 Simd prev inp out) m Q.
Proof.
  intros H1 H2 HF HQ. destruct prev as [p|]; cbn [put8].
  - apply wp_Put8uint32DeltaFastAsm; try done; [by apply typed_blk_w|..]; intros; apply HF; cbn; unfold within; (split; [done|]); change (deltas p _) with ys in *; lia.
  - apply wp_Put8uint32FastAsm; try done; [by apply typed_blk_w|..]; intros; apply HF; cbn; unfold within; (split; [done|]); lia.
Qed.
End put8.

Lemma event_dec (e e' : event) : {e = e'} + {e <> e'}.
Proof. decide equality; (apply Z.eq_dec || apply Nat.eq_dec). Defined.
Lemma hget_end h b i : 0 <= i -> zlen (blk h b) <= i -> hget h b i = None.
Proof.
  intros H0 H. unfold hget, blk, zlen in *. destruct (Z.leb_spec 0 i); [|done]. destruct (h !! b); [|done]. cbn in *. apply lookup_ge_None. lia.
Qed.
Lemma hits_changed_b {A} F (p : prog A) m b i a m1 : wp F False p m (fun x y => x = a /\ y = m1) -> (forall b, ~ F (EAlB b)) ->
  hget (mb m1) b i <> hget (mb m) b i -> hits (EWrB b i) p m.
Proof.
  intros Hw HF Hne. apply wp_run in Hw as [G1 G2]. destruct (in_dec event_dec (EWrB b i) (trace (run p m))) as [|Hn]; [done|exfalso].
  destruct (result (run p m)); try done. destruct G2 as [_ G2]. apply Hne. rewrite <- G2. apply unhit_b; [|done].
  eapply Forall_impl; [exact G1|]. intros e He b' ->. by apply (HF b').
Qed.
Lemma hits_changed_w {A} F (p : prog A) m b i a m1 : wp F False p m (fun x y => x = a /\ y = m1) ->
  hget (mw m1) b i <> hget (mw m) b i -> hits (EWrW b i) p m.
Proof.
  intros Hw Hne. apply wp_run in Hw as [G1 G2]. destruct (in_dec event_dec (EWrW b i) (trace (run p m))) as [|Hn]; [done|exfalso].
  destruct (result (run p m)); try done. destruct G2 as [_ G2]. apply Hne. rewrite <- G2. by apply unhit_w.
Qed.
(** ** C44 *)
Theorem C44_put8 : forall e prev inp out m, put_simd e = true -> typed m -> validW m inp -> validB m out -> prev_ok prev ->
  let xs := firstn 8 (words_on m inp) in let ys := to_code prev xs in
  let n := (length (enc_data (firstn 4 ys)) + 16)%nat in
  if decide (length xs = 8 /\ n <= length (bytes_on m out))%nat
  then (exists m', returns (put8 e prev inp out) m (ctrl8_of ys) m' /\
         stores_bytes_on m m' out (enc_data ys ++ replicate (n - length (enc_data ys)) 0)) /\
       accesses (put8 e prev inp out) m (encoder_may inp 8 out (Z.of_nat n))
  else result (run (put8 e prev inp out) m) = Faulted.
Proof.
  intros e prev inp out m He Ht Hi Ho Hp xs ys n. rewrite put8_dispatch, He.
  destruct Hi as [(A1 & A2 & A3) _]. destruct Ho as [(B1 & B2 & B3) _]. fold (blk (mw m) (s_blk inp)) in A3. fold (blk (mb m) (s_blk out)) in B3.
  assert (Ex : xs = sub (s_off inp) 8 (blk (mw m) (s_blk inp))) by done.
  assert (Lx : length xs = Nat.min 8 (length (blk (mw m) (s_blk inp)) - Z.to_nat (s_off inp))) by (unfold xs, words_on; by rewrite firstn_length, skipn_length).
  assert (Lb : length (bytes_on m out) = (length (blk (mb m) (s_blk out)) - Z.to_nat (s_off out))%nat) by (unfold bytes_on; by rewrite skipn_length).
  pose proof (enc_data_bounds (take 4 ys)) as Hb4. rewrite take_length in Hb4.
  case_decide as Hd.
  - assert (L8 : length ys = 8%nat) by (unfold ys; rewrite to_code_length; lia).
    assert (En : (length (put8_bytes ys) = n)%nat) by (pose proof (put8_bytes_zlen ys L8) as Hz; unfold zlen in Hz; unfold n; change (firstn 4 ys) with (take 4 ys); lia).
    assert (Ep : put8_bytes ys = enc_data ys ++ replicate (n - length (enc_data ys)) 0).
    { pose proof En as En'. unfold put8_bytes in En' |- *. rewrite app_length, replicate_length in En'. f_equal. f_equal. lia. }
    assert (W : wp (encoder_may inp 8 out (Z.of_nat n)) False (put8 Simd prev inp out) m (fun a m1 => a = ctrl8_of ys /\ m1 = bmem m out (put8_bytes ys))).
    { apply wp_put8_simd; try done; rewrite <- ?Ex; fold ys.
      - unfold zlen. lia.
      - unfold zlen, n in *. change (firstn 4 ys) with (take 4 ys) in *. lia.
      - intros ev. unfold n, zlen. change (firstn 4 ys) with (take 4 ys). by rewrite Nat2Z.inj_add. }
    apply wp_returns in W as [W1 W2]. split; [|done]. eexists. split; [exact W1|]. rewrite <- Ep. apply bmem_on; [done|]. unfold zlen. lia.
  - destruct (decide (length xs = 8%nat)) as [H8|H8].
    + assert (L8 : length ys = 8%nat) by (unfold ys; rewrite to_code_length; lia).
      pose proof (put8_bytes_zlen ys L8) as Hz. unfold zlen in Hz.
      destruct (lookup_lt_is_Some_2 (put8_bytes ys) (length (enc_data (take 4 ys)) + 15)) as [w Hw]; [lia|].
      set (v := if decide (w = 0) then 1 else 0).
      assert (Hv : is_byte v /\ v <> w) by (unfold v, is_byte; case_decide; lia).
      set (m' := Mem (growv v 32 (s_blk out) (mb m)) (mw m)).
      assert (Em : blk (mb m') (s_blk out) = blk (mb m) (s_blk out) ++ replicate 32 v) by apply growv_blk.
      assert (Hl' : length (blk (mb m') (s_blk out)) = (length (blk (mb m) (s_blk out)) + 32)%nat) by (by rewrite Em, app_length, replicate_length).
      assert (W : wp (encoder_may inp 8 out (Z.of_nat n)) False (put8 Simd prev inp out) m' (fun a m1 => a = ctrl8_of ys /\ m1 = bmem m' out (put8_bytes ys))).
      { apply wp_put8_simd; try done; change (mw m') with (mw m); rewrite <- ?Ex; fold ys.
        - split; [|apply Ht]. apply growv_typed; [apply Hv|apply Ht].
        - unfold zlen. lia.
        - unfold zlen. unfold n in *. change (firstn 4 ys) with (take 4 ys) in *. lia.
        - intros ev. unfold n, zlen. change (firstn 4 ys) with (take 4 ys). by rewrite Nat2Z.inj_add. }
      set (i := s_off out + Z.of_nat (length (enc_data (take 4 ys))) + 15).
      assert (Hi : Z.of_nat (length (blk (mb m) (s_blk out))) <= i) by (unfold i, n in *; change (firstn 4 ys) with (take 4 ys) in *; lia).
      eapply (hits_missing _ _ m m' _ (EWrB (s_blk out) i)); [| |exact W| |].
      * split; [apply growv_ext|]. intros b l Hl. exists []. by rewrite app_nil_r.
      * intros b Hx. exact Hx.
      * eapply hits_changed_b; [exact W|intros b Hx; exact Hx|].
        rewrite !ApiLemmas.hget_blk. rewrite (proj2 (Z.leb_le 0 i)) by lia. unfold bmem, setb. cbn [mb].
        rewrite put_blk by (apply splice_length; unfold zlen; lia). rewrite splice_lookup by (unfold zlen; lia). rewrite !decide_False, decide_True by (unfold zlen; lia).
        replace (Z.to_nat i - Z.to_nat (s_off out))%nat with (length (enc_data (take 4 ys)) + 15)%nat by lia. rewrite Hw, Em.
        rewrite lookup_app_r, lookup_replicate_2 by lia. intros [= E]. by apply Hv.
      * cbn [missing]. apply hget_end; [lia|done].
    + set (m' := Mem (growv 0 32 (s_blk out) (mb m)) (growv 0 8 (s_blk inp) (mw m))).
      set (zs := to_code prev (sub (s_off inp) 8 (blk (mw m') (s_blk inp)))).
      assert (Em : blk (mb m') (s_blk out) = blk (mb m) (s_blk out) ++ replicate 32 0) by apply growv_blk.
      assert (Ew : blk (mw m') (s_blk inp) = blk (mw m) (s_blk inp) ++ replicate 8 0) by apply growv_blk.
      assert (Hl' : length (blk (mb m') (s_blk out)) = (length (blk (mb m) (s_blk out)) + 32)%nat) by (by rewrite Em, app_length, replicate_length).
      assert (Hw' : length (blk (mw m') (s_blk inp)) = (length (blk (mw m) (s_blk inp)) + 8)%nat) by (by rewrite Ew, app_length, replicate_length).
      assert (Hz : length zs = 8%nat) by (unfold zs; rewrite to_code_length, sub_length_exact; unfold zlen; lia).
      pose proof (enc_data_bounds (take 4 zs)) as Hz4. rewrite take_length in Hz4.
      assert (W : wp (encoder_may inp 8 out (zlen (enc_data (take 4 zs)) + 16)) False (put8 Simd prev inp out) m' (fun _ _ => True)).
      { apply wp_put8_simd; try done; fold zs.
        - split; apply growv_typed; try apply Ht; [unfold is_byte|unfold is_u32]; lia.
        - unfold zlen. lia.
        - unfold zlen. lia. }
      eapply (hits_missing _ _ m m' _ (ERdW (s_blk inp) (s_off inp + 7))); [| |exact W| |].
      * split; apply growv_ext.
      * intros b Hx. exact Hx.
      * apply hits_put8_load; [done|]. unfold zlen. lia.
      * cbn [missing]. apply hget_end; [lia|]. unfold zlen. lia.
Qed.

Section get8.
Context (avx2 : bool) (prev : option Z) (inp out : slice) (c : Z) (m : mem) (Ht : typed m) (Hp : prev_ok prev) (Hc : is_u16 c) (Hi : 0 <= s_off inp) (Ho : 0 <= s_off out).
Definition get8_fast : prog unit :=
  match prev with
  | None => Get8uint32Fast (AMD64 true avx2) inp out c
  | Some p => Get8uint32DeltaFast (AMD64 true avx2) inp out c p
  end.
Let n := Z.of_nat (sum_nat (ctrl_lens (c mod 256))) + 16.
Lemma wp_get8_fast (F : event -> Prop) (Q : unit -> mem -> Prop) : s_off inp + n <= zlen (blk (mb m) (s_blk inp)) -> s_off out + 8 <= zlen (blk (mw m) (s_blk out)) ->
  (forall e, reader_may inp n out 8 e -> F e) ->
  Q tt (rmem m out (of_code prev (numbers (ctrl8_lens c) (bytes_on m inp)))) -> wp F False get8_fast m Q.
Proof.
  intros H1 H2 HF HQ. destruct (u16_parts c Hc) as (C0 & C1 & Ec). pose proof (ControlByteToSize_lens _ C0) as ES. unfold get8_fast.
  destruct prev as [p|].
  - pose proof (wp_Get8uint32DeltaFastAsm F False avx2 inp out _ _ p m Q C0 C1) as W. rewrite <- Ec in W. rewrite ES in W. apply W; clear W; try done; try lia.
    + by apply typed_blk_b.
    + intros. apply HF. cbn. unfold within. split; [done|]. lia.
    + intros. apply HF. cbn. unfold within. split; [done|]. lia.
  - pose proof (wp_Get8uint32FastAsm F False avx2 inp out _ _ m Q C0 C1) as W. rewrite <- Ec in W. rewrite ES in W. apply W; clear W; try done; try lia.
    + by apply typed_blk_b.
    + intros. apply HF. cbn. unfold within. split; [done|]. lia.
    + intros. apply HF. cbn. unfold within. split; [done|]. lia.
Qed.
Lemma hits_get8_load : s_off inp + n <= zlen (blk (mb m) (s_blk inp)) -> hits (ERdB (s_blk inp) (s_off inp + n - 1)) get8_fast m.
Proof.
  intros H1. destruct (u16_parts c Hc) as (C0 & C1 & Ec). pose proof (ControlByteToSize_lens _ C0) as ES. unfold get8_fast.
  replace (s_off inp + n - 1) with (s_off inp + ControlByteToSize (c mod 256) + 15) by lia. destruct prev as [p|].
  - pose proof (hits_Get8uint32DeltaFastAsm avx2 inp out _ _ m C0 C1 Hi ltac:(lia) p) as W. rewrite <- Ec in W. exact W.
  - pose proof (hits_Get8uint32FastAsm avx2 inp out _ _ m C0 C1 Hi ltac:(lia)) as W. rewrite <- Ec in W. exact W.
Qed.
End get8.
Lemma get8_fast_eq e prev inp out c : get_simd e = true -> exists avx2, get8 e prev inp out c = get8_fast avx2 prev inp out c.
Proof.
  destruct e as [| |[[] b|]]; intros E; [discriminate E| | |discriminate E|discriminate E].
  - exists true. unfold get8, get8_fast. destruct prev; reflexivity.
  - exists b. unfold get8, get8_fast. destruct prev; reflexivity.
Qed.

Theorem C44_get8 : forall e prev inp out m c, get_simd e = true -> typed m -> validB m inp -> validW m out -> prev_ok prev -> is_u16 c ->
  let n := (sum_nat (ctrl_lens (c mod 256)) + 16)%nat in
  if decide (n <= length (bytes_on m inp) /\ 8 <= length (words_on m out))%nat
  then (exists m', returns (get8 e prev inp out c) m tt m' /\
         stores_words_on m m' out (of_code prev (numbers (ctrl8_lens c) (bytes_on m inp)))) /\
       accesses (get8 e prev inp out c) m (reader_may inp (Z.of_nat n) out 8)
  else result (run (get8 e prev inp out c) m) = Faulted.
Proof.
  intros e prev inp out m c He Ht Hi Ho Hp Hc n. destruct (get8_fast_eq e prev inp out c He) as [avx2 ->].
  destruct Hi as [(A1 & A2 & A3) _]. destruct Ho as [(B1 & B2 & B3) _]. fold (blk (mb m) (s_blk inp)) in A3. fold (blk (mw m) (s_blk out)) in B3.
  assert (Lb : length (bytes_on m inp) = (length (blk (mb m) (s_blk inp)) - Z.to_nat (s_off inp))%nat) by (unfold bytes_on; by rewrite skipn_length).
  assert (Lw : length (words_on m out) = (length (blk (mw m) (s_blk out)) - Z.to_nat (s_off out))%nat) by (unfold words_on; by rewrite skipn_length).
  assert (En : Z.of_nat n = Z.of_nat (sum_nat (ctrl_lens (c mod 256))) + 16) by (unfold n; lia). pose proof (sum_ctrl_lens_range (c mod 256)) as Hr.
  assert (L8 : forall l, length (of_code prev (numbers (ctrl8_lens c) l)) = 8%nat) by (intros; rewrite of_code_length; by rewrite numbers_length).
  case_decide as Hd.
  - assert (W : wp (reader_may inp (Z.of_nat n) out 8) False (get8_fast avx2 prev inp out c) m
      (fun a m1 => a = tt /\ m1 = rmem m out (of_code prev (numbers (ctrl8_lens c) (bytes_on m inp))))).
    { apply wp_get8_fast; try done; rewrite <- ?En; try done; unfold zlen; lia. }
    apply wp_returns in W as [W1 W2]. split; [|done]. eexists. split; [exact W1|]. apply rmem_on; [done|]. unfold zlen. rewrite L8. lia.
  - set (m' v := Mem (growv 0 32 (s_blk inp) (mb m)) (growv v 8 (s_blk out) (mw m))).
    assert (Hty : forall v, is_u32 v -> typed (m' v)).
    { intros v Hv. split; apply growv_typed; try apply Ht; [unfold is_byte; lia|done]. }
    assert (Em : forall v, blk (mb (m' v)) (s_blk inp) = blk (mb m) (s_blk inp) ++ replicate 32 0) by (intros; apply growv_blk).
    assert (Ew : forall v, blk (mw (m' v)) (s_blk out) = blk (mw m) (s_blk out) ++ replicate 8 v) by (intros; apply growv_blk).
    assert (Lb' : forall v, length (blk (mb (m' v)) (s_blk inp)) = (length (blk (mb m) (s_blk inp)) + 32)%nat) by (intros; by rewrite Em, app_length, replicate_length).
    assert (Lw' : forall v, length (blk (mw (m' v)) (s_blk out)) = (length (blk (mw m) (s_blk out)) + 8)%nat) by (intros; by rewrite Ew, app_length, replicate_length).
    assert (Eon : forall v, bytes_on (m' v) inp = bytes_on (m' 0) inp) by done.
    set (R := of_code prev (numbers (ctrl8_lens c) (bytes_on (m' 0) inp))).
    assert (W : forall v, is_u32 v -> wp (reader_may inp (Z.of_nat n) out 8) False (get8_fast avx2 prev inp out c) (m' v) (fun a m1 => a = tt /\ m1 = rmem (m' v) out R)).
    { intros v Hv. apply wp_get8_fast; try done; [by apply Hty|..]; rewrite <- ?En; try done; unfold zlen; rewrite ?Lb', ?Lw'; lia. }
    assert (Hex : forall v, extm m (m' v)) by (intros v; split; apply growv_ext).
    assert (Hal : forall b, ~ reader_may inp (Z.of_nat n) out 8 (EAlB b)) by (intros b Hx; exact Hx).
    destruct (decide (n <= length (bytes_on m inp))%nat) as [Hn|Hn].
    + assert (HR : length R = 8%nat) by apply L8. destruct (lookup_lt_is_Some_2 R 7) as [w Hw]; [lia|].
      set (v := if decide (w = 0) then 1 else 0).
      assert (Hv : is_u32 v /\ v <> w) by (unfold v, is_u32; case_decide; lia).
      eapply (hits_missing _ _ m (m' v) _ (EWrW (s_blk out) (s_off out + 7))); [apply Hex|exact Hal|apply W, Hv| |].
      * eapply hits_changed_w; [apply W, Hv|]. rewrite !ApiLemmas.hget_blk. rewrite (proj2 (Z.leb_le 0 (s_off out + 7))) by lia. unfold rmem, setw. cbn [mw].
        change (growv v 8 (s_blk out) (mw m)) with (mw (m' v)).
        rewrite put_blk by (apply splice_length; unfold zlen; rewrite ?Lw'; lia). rewrite splice_lookup by (unfold zlen; rewrite ?Lw'; lia).
        rewrite !decide_False, decide_True by (unfold zlen; lia).
        replace (Z.to_nat (s_off out + 7) - Z.to_nat (s_off out))%nat with 7%nat by lia. rewrite Hw, Ew.
        rewrite lookup_app_r, lookup_replicate_2 by lia. intros [= E]. by apply Hv.
      * cbn [missing]. apply hget_end; [lia|]. unfold zlen. lia.
    + assert (is_u32 0) by (unfold is_u32; lia).
      eapply (hits_missing _ _ m (m' 0) _ (ERdB (s_blk inp) (s_off inp + Z.of_nat n - 1))); [apply Hex|exact Hal|by apply W| |].
      * rewrite En. apply hits_get8_load; try done. unfold zlen. rewrite Lb'. lia.
      * cbn [missing]. apply hget_end; [lia|]. unfold zlen. lia.
Qed.

(** Slices of length 0 do as well; one byte less behind them, and the code faults. *)
Definition c44_mem (k : nat) : mem := Mem {[ 3%nat := replicate k 5 ]} {[ 0%nat := [1; 2; 3; 4; 5; 6; 7; 300000] ]}.
Example C44_example :
  typed (c44_mem 20) /\ validW (c44_mem 20) (Slice 0 0 0 8) /\ validB (c44_mem 20) (Slice 3 0 0 0) /\
  length (enc_data (take 4 (words_on (c44_mem 20) (Slice 0 0 0 8)))) = 4%nat /\
  map (fun k => result (run (put8 Simd None (Slice 0 0 0 8) (Slice 3 0 0 0)) (c44_mem k))) [19; 20]%nat = [Faulted; Ok 32768] /\
  map (fun k => result (run (put8 Simd (Some 1) (Slice 0 0 0 8) (Slice 3 0 0 0)) (c44_mem k))) [19; 20]%nat = [Faulted; Ok 32768] /\
  result (run (put8 Simd None (Slice 0 1 0 7) (Slice 3 0 0 0)) (c44_mem 40)) = Faulted /\
  map (fun k => result (run (get8 Simd None (Slice 3 0 0 0) (Slice 0 0 0 0) 256) (c44_mem k))) [19; 20]%nat = [Faulted; Ok tt] /\
  result (run (get8 Simd (Some 7) (Slice 3 0 0 0) (Slice 0 1 0 0) 0) (c44_mem 40)) = Faulted.
Proof.
  split; [split; intros b l; unfold c44_mem; cbn [mb mw]; rewrite lookup_singleton_Some; intros [_ <-]|].
  - apply Forall_replicate. unfold is_byte. lia.
  - repeat constructor; lia.
  - split; [fits|]. split; [fits|]. vm_compute. done.
Qed.
