(** * The fast readers on streams that are too short and outputs that are too small

    Part 1: a program run on a smaller memory either does what it does on a larger one
    or faults.  Part 2: with 32 bytes of room behind the stream and 8 elements behind the
    output the fast readers panic on every incomplete argument. *)
From stdpp Require Import prelude gmap list.
From Coq Require Import ZArith Lia.
From Verif Require Import Spec SpecLemmas GoSem Tables Shared Asm Wp Encode Decode TableProof EncodeProof EncodeProof2 SimdProof AsmProof DecodeProof DecodeProof2 WriterProof WriterProof2 Reader ReaderProof ReaderProof2 ReaderProof3.
Local Open Scope Z_scope.
Implicit Types (F : event -> Prop) (pn : Prop).

(** ** Larger memories *)
Definition ext (h h' : gmap nat (list Z)) : Prop := forall b l, h !! b = Some l -> exists e, h' !! b = Some (l ++ e).
Definition extm (m m' : mem) : Prop := ext (mb m) (mb m') /\ ext (mw m) (mw m').
Lemma ext_hget h h' b i v : ext h h' -> hget h b i = Some v -> hget h' b i = Some v.
Proof.
  intros H. unfold hget. destruct (0 <=? i); [|done]. destruct (h !! b) as [l|] eqn:E; [|done]. destruct (H b l E) as [e ->].
  intros Hl. by apply lookup_app_l_Some.
Qed.
Lemma ext_hput h h' b i v k k' : ext h h' -> hput h b i v = Some k -> hput h' b i v = Some k' -> ext k k'.
Proof.
  intros H. unfold hput. destruct (0 <=? i); [|done]. destruct (h !! b) as [l|] eqn:E; [|done]. destruct (H b l E) as [e ->].
  destruct (Nat.ltb_spec (Z.to_nat i) (length l)) as [Hi|]; [|done]. destruct (Nat.ltb_spec (Z.to_nat i) (length (l ++ e))); [|done].
  intros [= <-] [= <-] b' l'. destruct (decide (b' = b)) as [->|Hb].
  - rewrite !lookup_insert. intros [= <-]. exists e. by rewrite insert_app_l.
  - rewrite !lookup_insert_ne by done. apply H.
Qed.

Lemma wp_ext {A} F pn (p : prog A) m m' Q : extm m m' -> (forall b, ~ F (EAlB b)) -> wp F pn p m' Q ->
  Forall F (trace (run p m)) /\
  match result (run p m) with
  | Ok a => exists mf, Q a mf /\ extm (final (run p m)) mf
  | Panicked => pn
  | Faulted => True
  | _ => False
  end.
Proof.
  intros He HF. revert m m' He. induction p as [a| | | | |b i k IH|b i v k IH|b i k IH|b i v k IH|b n k IH]; intros m m' He Hw; cbn in Hw |- *.
  - split; [constructor|]. by exists m'.
  - by split; [constructor|].
  - done.
  - done.
  - done.
  - destruct Hw as (Hf & v & Hv & Hw). destruct (hget (mb m) b i) as [v'|] eqn:E; [|by split; [constructor; [done|constructor]|]].
    assert (v' = v) as -> by (apply (ext_hget _ _ _ _ _ (proj1 He)) in E; congruence).
    specialize (IH v m m' He Hw). destruct (run (k v) m) as [[r mf] t]. cbn in *. destruct IH as [I1 I2]. split; [by constructor|done].
  - destruct Hw as (Hf & h' & Hh & Hw). destruct (hput (mb m) b i v) as [h|] eqn:E; [|by split; [constructor; [done|constructor]|]].
    assert (He' : extm (Mem h (mw m)) (Mem h' (mw m'))) by (split; [exact (ext_hput _ _ _ _ _ _ _ (proj1 He) E Hh)|apply He]).
    specialize (IH _ _ He' Hw). destruct (run k (Mem h (mw m))) as [[r mf] t]. cbn in *. destruct IH as [I1 I2]. split; [by constructor|done].
  - destruct Hw as (Hf & v & Hv & Hw). destruct (hget (mw m) b i) as [v'|] eqn:E; [|by split; [constructor; [done|constructor]|]].
    assert (v' = v) as -> by (apply (ext_hget _ _ _ _ _ (proj2 He)) in E; congruence).
    specialize (IH v m m' He Hw). destruct (run (k v) m) as [[r mf] t]. cbn in *. destruct IH as [I1 I2]. split; [by constructor|done].
  - destruct Hw as (Hf & h' & Hh & Hw). destruct (hput (mw m) b i v) as [h|] eqn:E; [|by split; [constructor; [done|constructor]|]].
    assert (He' : extm (Mem (mb m) h) (Mem (mb m') h')) by (split; [apply He|exact (ext_hput _ _ _ _ _ _ _ (proj2 He) E Hh)]).
    specialize (IH _ _ He' Hw). destruct (run k (Mem (mb m) h)) as [[r mf] t]. cbn in *. destruct IH as [I1 I2]. split; [by constructor|done].
  - destruct Hw as [Hf _]. by apply HF in Hf.
Qed.

(** [k] more zeroes at the end of one block. *)
Definition grow (k : nat) (b : nat) (h : gmap nat (list Z)) : gmap nat (list Z) := <[b := blk h b ++ replicate k 0]> h.
Lemma grow_ext k b h : ext h (grow k b h).
Proof.
  intros b' l Hl. unfold grow. destruct (decide (b' = b)) as [->|].
  - rewrite lookup_insert. unfold blk. rewrite Hl. by eexists.
  - rewrite lookup_insert_ne by done. exists []. by rewrite app_nil_r.
Qed.
Lemma grow_blk k b h : blk (grow k b h) b = blk h b ++ replicate k 0.
Proof. unfold grow, blk at 1. by rewrite lookup_insert. Qed.

(** ** The readers with room *)
Definition like (out : slice) (m m' : mem) : Prop :=
  mb m' = mb m /\ length (blk (mw m') (s_blk out)) = length (blk (mw m) (s_blk out)) /\ Forall is_u32 (blk (mw m') (s_blk out)).
(** The number of elements behind the start of [out] that may be stored. *)
Definition wroom (out : slice) : Z := Z.max (s_cap out) (s_len out + 8).
Record rany (F : event -> Prop) (m : mem) (st out : slice) (n : Z) (S : list Z) : Prop := {
  y_st : inb (mb m) st;
  y_out : inb (mw m) out;
  y_by : Forall is_byte (blk (mb m) (s_blk st));
  y_u32 : Forall is_u32 (blk (mw m) (s_blk out));
  y_S : S = sub (s_off st) (s_len st) (blk (mb m) (s_blk st));
  y_n : 0 <= n;
  y_cl : rcl n <= s_len st <= 2 ^ 60;
  y_rb : s_off st + s_len st + 32 <= zlen (blk (mb m) (s_blk st));
  y_rw : s_off out + wroom out <= zlen (blk (mw m) (s_blk out));
  y_rd : forall j, s_off st <= j < s_off st + s_len st + 32 -> F (ERdB (s_blk st) j);
  y_wr : forall j, s_off out <= j < s_off out + wroom out -> F (EWrW (s_blk out) j) }.
Lemma rany_zlen F m st out n S : rany F m st out n S -> zlen S = s_len st.
Proof. intros H. rewrite (y_S _ _ _ _ _ _ H). destruct (y_st _ _ _ _ _ _ H) as (? & ? & ?). apply sub_zlen; lia. Qed.

Lemma Forall_splice' (P : Z -> Prop) p vs l : Forall P vs -> Forall P l -> Forall P (splice p vs l).
Proof. intros H1 H2. unfold splice. rewrite !Forall_app. split; [by apply Forall_take|]. split; [done|by apply Forall_drop]. Qed.
Lemma like_set out m m' o vs : like out m m' -> Forall is_u32 vs -> 0 <= o -> o + zlen vs <= zlen (blk (mw m) (s_blk out)) ->
  like out m (setw m' (s_blk out) (splice o vs (blk (mw m') (s_blk out)))).
Proof.
  intros (L1 & L2 & L3) Hv Ho Hl. assert (E : length (splice o vs (blk (mw m') (s_blk out))) = length (blk (mw m') (s_blk out))) by (apply splice_length; unfold zlen in *; lia).
  split; [done|]. rewrite blk_setw by done. split; [by rewrite E|]. by apply Forall_splice'.
Qed.
Lemma nums8_facts c0 c1 d : is_byte c0 -> Forall is_byte d -> Forall is_u32 (nums8 c0 c1 d) /\ zlen (nums8 c0 c1 d) = 8.
Proof.
  intros B0 Hd. rewrite nums8_nums4. unfold nums4. split.
  - apply Forall_app. split; [by apply le_val_cut_u32|]. apply le_val_cut_u32. by apply Forall_drop.
  - destruct (cut4 c0 d) as (a & b & e & f & ->). destruct (cut4 c1 (drop (sum_nat (ctrl_lens c0)) d)) as (a' & b' & e' & f' & ->). done.
Qed.
Lemma cut_take_lens j lens d : cut (take j lens) d = take j (cut lens d).
Proof. revert j d. induction lens as [|n r IH]; intros [|j] d; cbn; [done..|]. f_equal. apply IH. Qed.
Lemma numsk_u32 c j d : Forall is_byte d -> Forall is_u32 (numsk c j d).
Proof. intros Hd. unfold numsk. rewrite cut_take_lens, <- firstn_map. apply Forall_take. by apply le_val_cut_u32. Qed.

Section steps.
Context {A : Type} (F : event -> Prop) (pn : Prop) (m : mem) (st out : slice) (n : Z) (S : list Z) (avx2 : bool).
Context (H : rany F m st out n S).

Lemma wp_yctrl m' s i q (rest : Z -> prog A) Q :
  like out m m' -> s_blk s = s_blk st -> s_off s + i = s_off st + q -> 0 <= q < rcl n -> 0 <= s_off s -> s_len s <= s_cap s ->
  s_off s + s_cap s <= s_off st + s_cap st -> 0 <= i < s_len s ->
  (is_byte (at_ S q) -> wp F pn (rest (at_ S q)) m' Q) ->
  wp F pn (let! c := getB s i in rest c) m' Q.
Proof.
  intros (L1 & L2 & L3) E1 E2 Hq C3 C4 C5 Hi HQ. destruct H as [(I1 & I2 & I3) Hout Hby Hu HSe Hn Hcl Hrb Hrw Hrd Hwr].
  assert (Ec : at_ (blk (mb m) (s_blk st)) (s_off st + q) = at_ S q) by (rewrite HSe; rewrite at_sub by lia; done).
  apply wp_bind, wp_getB.
  - rewrite L1. split; [lia|]. split; [lia|]. rewrite E1. lia.
  - intros _. rewrite L1, E1, E2. split; [apply Hrd; lia|]. rewrite Ec. apply HQ. rewrite <- Ec. apply Forall_at; [done|lia].
  - lia.
Qed.

Lemma wp_y8 m' r q data nums c0 c1 (rest : prog A) Q :
  like out m m' -> is_byte c0 -> is_byte c1 ->
  s_blk data = s_blk st -> s_off data = s_off st + r -> 0 <= r <= s_len st ->
  s_blk nums = s_blk out -> s_off nums = s_off out + q -> 0 <= q -> q + 8 <= wroom out ->
  (forall m'', like out m m'' -> wp F pn rest m'' Q) ->
  wp F pn (Get8uint32FastAsm (AMD64 true avx2) data nums (ctrl16 c0 c1) DecodeShuffleTable PerControlLenTable ;;; rest) m' Q.
Proof.
  intros L B0 B1 D1 D2 Hr N1 N2 Hq Hq8 HQ. assert (L' := L). destruct L' as (L1 & L2 & L3).
  destruct H as [(I1 & I2 & I3) (O1 & O2 & O3) Hby Hu HSe Hn Hcl Hrb Hrw Hrd Hwr].
  pose proof (ControlByteToSize_lens c0 B0) as HS0. pose proof (sum_ctrl_lens_range c0) as HS0'.
  destruct (nums8_facts c0 c1 (drop (Z.to_nat (s_off st + r)) (blk (mb m) (s_blk st))) B0 ltac:(by apply Forall_drop)) as [F1 F2].
  rewrite ctrl16_eq by done. apply wp_bind, wp_Get8uint32FastAsm; rewrite ?L1, ?D1, ?D2, ?N1, ?N2; try done; try lia.
  - unfold zlen in *. rewrite L2. lia.
  - intros. apply Hrd. lia.
  - intros. apply Hwr. lia.
  - apply HQ. apply like_set; [done|done|lia|lia].
Qed.
Lemma wp_y8d m' r q data nums c0 c1 p (rest : prog A) Q :
  like out m m' -> is_byte c0 -> is_byte c1 -> is_u32 p ->
  s_blk data = s_blk st -> s_off data = s_off st + r -> 0 <= r <= s_len st ->
  s_blk nums = s_blk out -> s_off nums = s_off out + q -> 0 <= q -> q + 8 <= wroom out ->
  (forall m'', like out m m'' -> wp F pn rest m'' Q) ->
  wp F pn (Get8uint32DeltaFastAsm (AMD64 true avx2) data nums (ctrl16 c0 c1) p DecodeShuffleTable PerControlLenTable ;;; rest) m' Q.
Proof.
  intros L B0 B1 Hp D1 D2 Hr N1 N2 Hq Hq8 HQ. assert (L' := L). destruct L' as (L1 & L2 & L3).
  destruct H as [(I1 & I2 & I3) (O1 & O2 & O3) Hby Hu HSe Hn Hcl Hrb Hrw Hrd Hwr].
  pose proof (ControlByteToSize_lens c0 B0) as HS0. pose proof (sum_ctrl_lens_range c0) as HS0'.
  destruct (nums8_facts c0 c1 (drop (Z.to_nat (s_off st + r)) (blk (mb m) (s_blk st))) B0 ltac:(by apply Forall_drop)) as [F1 F2].
  rewrite ctrl16_eq by done. apply wp_bind, wp_Get8uint32DeltaFastAsm; rewrite ?L1, ?D1, ?D2, ?N1, ?N2; try done; try lia.
  - unfold zlen in *. rewrite L2. lia.
  - intros. apply Hrd. lia.
  - intros. apply Hwr. lia.
  - apply HQ. apply like_set; [done|apply running_sums_u32|lia|rewrite zlen_running_sums; lia].
Qed.

(** Reading back a number; the panic for a short output. *)
Lemma wp_ylast m' s i q (rest : Z -> prog A) Q :
  (forall j, s_off out <= j < s_off out + wroom out -> F (ERdW (s_blk out) j)) ->
  like out m m' -> s_blk s = s_blk out -> s_off s = s_off out + q -> 0 <= q -> 0 <= i -> s_len s <= s_cap s -> q + s_cap s <= s_cap out ->
  (i < s_len s -> forall v, is_u32 v -> wp F pn (rest v) m' Q) -> (s_len s <= i -> pn) ->
  wp F pn (let! x := getW s i in rest x) m' Q.
Proof.
  intros Hro (L1 & L2 & L3) N1 N2 Hq Hi Hsc Hsc' HQ Hp.
  destruct H as [(I1 & I2 & I3) (O1 & O2 & O3) Hby Hu HSe Hn Hcl Hrb Hrw Hrd Hwr].
  destruct (decide (s_len s <= i)) as [Hs|Hs].
  { apply wp_bind. unfold getW. apply wp_bind, wp_check_idx; [lia|]. intros; by apply Hp. }
  apply wp_bind, wp_getW.
  - repeat split; try lia. rewrite N1. unfold zlen in *. rewrite L2. lia.
  - intros _. rewrite N1, N2. split; [apply Hro; unfold wroom; lia|]. apply HQ; [lia|]. apply Forall_at; [done|]. unfold zlen in *. rewrite L2. lia.
  - lia.
Qed.

Lemma wp_yj m' r q j data nums c (rest : Z -> prog A) Q :
  like out m m' -> is_byte c -> 1 <= j <= 4 ->
  s_blk data = s_blk st -> s_off data = s_off st + r -> s_len data = s_len st - r -> s_cap data = s_cap st - r -> 0 <= r <= s_len st ->
  s_blk nums = s_blk out -> s_off nums = s_off out + q -> s_len nums = s_len out - q -> s_cap nums = s_cap out - q -> 0 <= q <= s_len out ->
  (r + sizek c (Z.to_nat j) <= s_len st -> q + j <= s_len out -> forall m'', like out m m'' -> wp F pn (rest (sizek c (Z.to_nat j))) m'' Q) ->
  (s_len st < r + sizek c (Z.to_nat j) \/ s_len out < q + j -> pn) ->
  wp F pn (let! x := GetUint32Scalar data nums c j in rest x) m' Q.
Proof.
  intros L B0 Hj D1 D2 D3 D4 Hr N1 N2 N3 N4 Hq HQ Hp. assert (L' := L). destruct L' as (L1 & L2 & L3).
  destruct H as [(I1 & I2 & I3) (O1 & O2 & O3) Hby Hu HSe Hn Hcl Hrb Hrw Hrd Hwr].
  assert (Hcj : clip j = j) by (unfold clip; lia). pose proof (sizek_bounds c (Z.to_nat j) ltac:(lia)) as Hsz.
  apply wp_bind, wp_GetUint32Scalar; rewrite ?L1, ?Hcj; rewrite ?D1, ?D2, ?D3, ?D4, ?N1, ?N2, ?N3, ?N4.
  - done.
  - repeat split; try lia. rewrite D1. lia.
  - repeat split; try lia. rewrite N1. unfold zlen in *. rewrite L2. lia.
  - done.
  - intros. apply Hrd. lia.
  - intros. apply Hwr. unfold wroom. lia.
  - intros G1 G2. apply HQ; [lia|lia|]. apply like_set; [done|apply numsk_u32; by apply Forall_drop|lia|]. rewrite numsk_length by lia. lia.
  - intros. apply Hp. lia.
Qed.
Lemma wp_yjd m' r q j data nums c p (rest : Z -> prog A) Q :
  like out m m' -> is_byte c -> 1 <= j <= 4 ->
  s_blk data = s_blk st -> s_off data = s_off st + r -> s_len data = s_len st - r -> s_cap data = s_cap st - r -> 0 <= r <= s_len st ->
  s_blk nums = s_blk out -> s_off nums = s_off out + q -> s_len nums = s_len out - q -> s_cap nums = s_cap out - q -> 0 <= q <= s_len out ->
  (r + sizek c (Z.to_nat j) <= s_len st -> q + j <= s_len out -> forall m'', like out m m'' -> wp F pn (rest (sizek c (Z.to_nat j))) m'' Q) ->
  (s_len st < r + sizek c (Z.to_nat j) \/ s_len out < q + j -> pn) ->
  wp F pn (let! x := GetUint32DeltaScalar data nums c j p in rest x) m' Q.
Proof.
  intros L B0 Hj D1 D2 D3 D4 Hr N1 N2 N3 N4 Hq HQ Hp. assert (L' := L). destruct L' as (L1 & L2 & L3).
  destruct H as [(I1 & I2 & I3) (O1 & O2 & O3) Hby Hu HSe Hn Hcl Hrb Hrw Hrd Hwr].
  assert (Hcj : clip j = j) by (unfold clip; lia). pose proof (sizek_bounds c (Z.to_nat j) ltac:(lia)) as Hsz.
  apply wp_bind, wp_GetUint32DeltaScalar; rewrite ?L1, ?Hcj; rewrite ?D1, ?D2, ?D3, ?D4, ?N1, ?N2, ?N3, ?N4.
  - done.
  - repeat split; try lia. rewrite D1. lia.
  - repeat split; try lia. rewrite N1. unfold zlen in *. rewrite L2. lia.
  - done.
  - intros. apply Hrd. lia.
  - intros. apply Hwr. unfold wroom. lia.
  - intros G1 G2. apply HQ; [lia|lia|]. apply like_set; [done|apply running_sums_u32|lia|]. rewrite zlen_running_sums, numsk_length by lia. lia.
  - intros. apply Hp. lia.
Qed.

(** The announced size of a group of four. *)
Lemma y_size k : 0 <= k -> k mod 4 = 0 -> k + 4 <= n -> is_byte (at_ S (k / 4)) -> ControlByteToSize (at_ S (k / 4)) = rdp S n (k + 4) - rdp S n k.
Proof.
  intros Hk Hm Hn B. rewrite ControlByteToSize_lens by done. pose proof (rany_zlen _ _ _ _ _ _ H) as HS. pose proof (y_cl _ _ _ _ _ _ H).
  pose proof (rdp_step S n k 4 ltac:(lia) Hm ltac:(lia) ltac:(lia) ltac:(lia)) as Hs. change (Z.to_nat 4) with 4%nat in Hs. rewrite sizek_4 in Hs. lia.
Qed.
End steps.

Ltac yc q := apply (wp_yctrl _ _ _ _ _ _ _ ltac:(eassumption) _ _ _ q); [assumption|rsolve..|intros ?].
Ltac ysl := rsl; [|done].
Ltac y8 r q := apply (wp_y8 _ _ _ _ _ _ _ _ ltac:(eassumption) _ r q); [assumption|assumption|assumption|rsolve..|unfold wroom; lia|].
Ltac y8d r q := apply (wp_y8d _ _ _ _ _ _ _ _ ltac:(eassumption) _ r q); [assumption|assumption|assumption|assumption|rsolve..|unfold wroom; lia|].

Lemma wp_ReadAllFast_bad F avx2 n st out m S :
  rany F m st out n S -> s_len st < rdp S n n \/ s_len out < n ->
  wp F True (ReadAllFast (AMD64 true avx2) n st out) m (fun _ _ => False).
Proof.
  intros Hy Hbad. assert (Hy' := Hy). destruct Hy' as [(I1 & I2 & I3) (O1 & O2 & O3) Hby Hu HSe Hn0 Hcls Hrb Hrw Hrd Hwr].
  pose proof (rany_zlen _ _ _ _ _ _ Hy) as HS. pose proof (rcl_bounds n Hn0) as Hc.
  assert (HGE : forall k, rcl n <= rdp S n k) by (intros; apply rdp_ge).
  assert (Hn1 : 0 < n).
  { destruct (decide (n = 0)) as [->|]; [|lia]. rewrite rdp_0 in Hbad. change (rcl 0) with 0 in *. lia. }
  unfold ReadAllFast. cbv zeta.
  rewrite (iadd_small n 3) by lia. rewrite idiv_pos by lia.
  assert (Hcl : (n + 3) / 4 = rcl n) by (by rewrite rcl_eq). rewrite !Hcl.
  rewrite (isub_small (rcl n) 3), (imul_small (rcl n - 3) 4) by lia.
  change (iandnot ((rcl n - 3) * 4) 31) with (iandnot ((rcl n - 3) * 4) (2 ^ 5 - 1)). rewrite !iandnot_pow2 by lia.
  change (2 ^ 5) with 32. rewrite (isub_small (rcl n) 4) by lia.
  set (l32 := (rcl n - 3) * 4 / 32 * 32).
  assert (Hl32 : l32 mod 32 = 0 /\ l32 <= 4 * rcl n - 12 /\ l32 <= n - 9) by (subst l32; split; [apply Z.mod_mul; lia|Z.to_euclidean_division_equations; lia]).
  assert (Hlike : like out m m) by done.
  apply wp_bind, (wp_while _ _ (fun '(dp, cp, k) m' =>
      0 <= k /\ k mod 32 = 0 /\ (k = 0 \/ k + 12 <= 4 * rcl n) /\ cp = k / 4 /\ dp = rdp S n k /\ dp <= s_len st + 128 /\ like out m m')
    (fun '(_, cp, _) => rcl n - cp)).
  - split; [lia|]. split; [done|]. split; [lia|]. split; [done|]. split; [by rewrite rdp_0|]. split; [lia|done].
  - lia.
  - unfold rfuel. lia.
  - intros [[dp cp] k] m' (Hk & Hk32 & Hk12 & -> & -> & Hdp & Hl) Hcond _. apply Z.ltb_lt in Hcond.
    assert (k + 32 <= l32) by (Z.to_euclidean_division_equations; lia).
    assert (Hk4 : (k + 4) / 4 = k / 4 + 1 /\ (k + 8) / 4 = k / 4 + 2 /\ (k + 12) / 4 = k / 4 + 3 /\ (k + 16) / 4 = k / 4 + 4 /\ (k + 20) / 4 = k / 4 + 5 /\ (k + 24) / 4 = k / 4 + 6 /\ (k + 28) / 4 = k / 4 + 7 /\ (k + 32) / 4 = k / 4 + 8) by (Z.to_euclidean_division_equations; lia).
    assert (Hm4 : k mod 4 = 0 /\ (k + 4) mod 4 = 0 /\ (k + 8) mod 4 = 0 /\ (k + 12) mod 4 = 0 /\ (k + 16) mod 4 = 0 /\ (k + 20) mod 4 = 0 /\ (k + 24) mod 4 = 0 /\ (k + 28) mod 4 = 0 /\ (k + 32) mod 32 = 0) by (Z.to_euclidean_division_equations; lia).
    destruct Hk4 as (D1 & D2 & D3 & D4 & D5 & D6 & D7 & D8). destruct Hm4 as (M0 & M1 & M2 & M3 & M4 & M5 & M6 & M7 & M8).
    assert (0 <= k / 4 /\ k / 4 + 8 <= rcl n) by (Z.to_euclidean_division_equations; lia).
    pose proof (HGE k).
    pose proof (rdp_diff S n k (k + 4) ltac:(lia) ltac:(lia) ltac:(lia)). pose proof (rdp_diff S n (k + 4) (k + 8) ltac:(lia) ltac:(lia) ltac:(lia)).
    pose proof (rdp_diff S n (k + 8) (k + 12) ltac:(lia) ltac:(lia) ltac:(lia)). pose proof (rdp_diff S n (k + 12) (k + 16) ltac:(lia) ltac:(lia) ltac:(lia)).
    pose proof (rdp_diff S n (k + 16) (k + 20) ltac:(lia) ltac:(lia) ltac:(lia)). pose proof (rdp_diff S n (k + 20) (k + 24) ltac:(lia) ltac:(lia) ltac:(lia)).
    pose proof (rdp_diff S n (k + 24) (k + 28) ltac:(lia) ltac:(lia) ltac:(lia)). pose proof (rdp_diff S n (k + 28) (k + 32) ltac:(lia) ltac:(lia) ltac:(lia)).
    pose proof (y_size _ _ _ _ _ _ Hy k ltac:(lia) M0 ltac:(lia)) as E0.
    pose proof (y_size _ _ _ _ _ _ Hy (k + 4) ltac:(lia) M1 ltac:(lia)) as E1. rewrite D1 in E1.
    pose proof (y_size _ _ _ _ _ _ Hy (k + 8) ltac:(lia) M2 ltac:(lia)) as E2. rewrite D2 in E2.
    pose proof (y_size _ _ _ _ _ _ Hy (k + 12) ltac:(lia) M3 ltac:(lia)) as E3. rewrite D3 in E3.
    pose proof (y_size _ _ _ _ _ _ Hy (k + 16) ltac:(lia) M4 ltac:(lia)) as E4. rewrite D4 in E4.
    pose proof (y_size _ _ _ _ _ _ Hy (k + 20) ltac:(lia) M5 ltac:(lia)) as E5. rewrite D5 in E5.
    pose proof (y_size _ _ _ _ _ _ Hy (k + 24) ltac:(lia) M6 ltac:(lia)) as E6. rewrite D6 in E6.
    pose proof (y_size _ _ _ _ _ _ Hy (k + 28) ltac:(lia) M7 ltac:(lia)) as E7. rewrite D7 in E7.
    replace (k + 4 + 4) with (k + 8) in E1 by lia. replace (k + 8 + 4) with (k + 12) in E2 by lia. replace (k + 12 + 4) with (k + 16) in E3 by lia.
    replace (k + 16 + 4) with (k + 20) in E4 by lia. replace (k + 20 + 4) with (k + 24) in E5 by lia. replace (k + 24 + 4) with (k + 28) in E6 by lia. replace (k + 28 + 4) with (k + 32) in E7 by lia.
    ints. ysl. ysl. ysl.
    replace (k / 4 + 8 - k / 4) with 8 by lia. replace (k + 32 - k) with 32 by lia.
    yc (k / 4). yc (k / 4 + 1).
    y8 (rdp S n k) k. clear m' Hl. intros m' Hl.
    yc (k / 4). yc (k / 4 + 1). rewrite E0, E1 by done. clear E0 E1.
    yc (k / 4 + 2). yc (k / 4 + 3). ints. ysl. ysl.
    y8 (rdp S n (k + 8)) (k + 8). clear m' Hl. intros m' Hl.
    yc (k / 4 + 2). yc (k / 4 + 3). rewrite E2, E3 by done. clear E2 E3.
    yc (k / 4 + 4). yc (k / 4 + 5). ints. ysl. ysl.
    y8 (rdp S n (k + 16)) (k + 16). clear m' Hl. intros m' Hl.
    yc (k / 4 + 4). yc (k / 4 + 5). rewrite E4, E5 by done. clear E4 E5.
    yc (k / 4 + 6). yc (k / 4 + 7). ints. ysl. ysl.
    y8 (rdp S n (k + 24)) (k + 24). clear m' Hl. intros m' Hl.
    yc (k / 4 + 6). yc (k / 4 + 7). rewrite E6, E7 by done. clear E6 E7.
    ints. cbn [wp]. split; [|lia]. split; [lia|]. split; [lia|]. split; [lia|]. split; [lia|]. split; [lia|]. split; [lia|done].
  - clear Hlike. intros [[dp cp] k0] m' (Hk & Hk32 & Hk12 & -> & -> & Hdp & Hl) Hcond. clear Hcond.
    apply wp_bind, (wp_while _ _ (fun '(dp, cp, k) m' =>
      0 <= k /\ k mod 8 = 0 /\ (k = 0 \/ k + 12 <= 4 * rcl n) /\ cp = k / 4 /\ dp = rdp S n k /\ dp <= s_len st + 128 /\ like out m m')
      (fun '(_, cp, _) => rcl n - cp)).
    + split; [lia|]. split; [Z.to_euclidean_division_equations; lia|]. split; [lia|]. split; [done|]. split; [done|]. split; [lia|done].
    + Z.to_euclidean_division_equations; lia.
    + unfold rfuel. assert (0 <= k0 / 4) by (apply Z.div_pos; lia). lia.
    + clear k0 Hk Hk32 Hk12 m' Hl Hdp. intros [[dp cp] k] m' (Hk & Hk4 & Hk12 & -> & -> & Hdp & Hl) Hcond _. apply Z.ltb_lt in Hcond.
      assert (k + 20 <= 4 * rcl n) by (clear -Hcond Hk4; Z.to_euclidean_division_equations; lia).
      assert (0 <= k / 4 /\ k / 4 + 2 <= rcl n /\ (k + 8) / 4 = k / 4 + 2 /\ (k + 8) mod 8 = 0) by (clear -Hcond Hk4 Hk; Z.to_euclidean_division_equations; lia).
      assert (M : k mod 4 = 0 /\ (k + 4) mod 4 = 0 /\ (k + 4) / 4 = k / 4 + 1) by (clear -Hk4; Z.to_euclidean_division_equations; lia).
      destruct M as (M0 & M1 & D1). pose proof (HGE k).
      pose proof (rdp_diff S n k (k + 4) ltac:(lia) ltac:(lia) ltac:(lia)). pose proof (rdp_diff S n (k + 4) (k + 8) ltac:(lia) ltac:(lia) ltac:(lia)).
      pose proof (y_size _ _ _ _ _ _ Hy k ltac:(lia) M0 ltac:(lia)) as E0.
      pose proof (y_size _ _ _ _ _ _ Hy (k + 4) ltac:(lia) M1 ltac:(lia)) as E1. rewrite D1 in E1. replace (k + 4 + 4) with (k + 8) in E1 by lia.
      yc (k / 4). ints. yc (k / 4 + 1). ysl. ysl.
      y8 (rdp S n k) k. clear m' Hl. intros m' Hl.
      yc (k / 4). yc (k / 4 + 1). rewrite E0, E1 by done.
      ints. cbn [wp]. split; [|lia]. split; [lia|]. split; [lia|]. split; [lia|]. split; [lia|]. split; [lia|]. split; [lia|done].
    + clear k0 Hk Hk32 Hk12 m' Hl Hdp. intros [[dp cp] k0] m' (Hk & Hk4 & Hk12 & -> & -> & Hdp & Hl) Hcond. clear Hcond.
      apply wp_bind, (wp_while _ _ (fun '(dp, cp, k) m' =>
        0 <= k /\ (k mod 4 = 0 \/ k = n) /\ (k < n \/ (k = n /\ rdp S n n <= s_len st /\ n <= s_len out)) /\ cp = (k + 3) / 4 /\ dp = rdp S n k /\ dp <= s_len st + 128 /\ like out m m')
        (fun '(_, cp, _) => rcl n - cp)).
      * split; [lia|]. split; [left; Z.to_euclidean_division_equations; lia|]. split; [lia|]. split; [Z.to_euclidean_division_equations; lia|]. done.
      * Z.to_euclidean_division_equations; lia.
      * unfold rfuel. assert (0 <= k0 / 4) by (apply Z.div_pos; lia). lia.
      * clear k0 Hk Hk4 Hk12 m' Hl Hdp. intros [[dp cp] k] m' (Hk & Hk4 & Hkn' & -> & -> & Hdp & Hl) Hcond _. apply Z.ltb_lt in Hcond.
        assert (Hkn : k < n) by (rewrite <- Hcl in Hcond; Z.to_euclidean_division_equations; lia).
        destruct Hk4 as [Hk4|]; [|lia].
        assert (Hcp : (k + 3) / 4 = k / 4) by (Z.to_euclidean_division_equations; lia). rewrite Hcp.
        rewrite (isub_small n k) by lia.
        replace (if 4 <? n - k then 4 else n - k) with (Z.min 4 (n - k)) by (destruct (Z.ltb_spec 4 (n - k)); lia).
        set (j := Z.min 4 (n - k)).
        assert (Hj : 1 <= j <= 4 /\ k + j <= n /\ (j = 4 \/ k + j = n)) by lia.
        assert (Hd : 0 <= k / 4 /\ k / 4 + 1 <= rcl n /\ (k + j + 3) / 4 = k / 4 + 1 /\ ((k + j) mod 4 = 0 \/ k + j = n)) by (clearbody j; clear -Hj Hk Hk4 Hkn Hc; Z.to_euclidean_division_equations; lia).
        clearbody j. pose proof (HGE k).
        pose proof (rdp_diff S n k (k + j) ltac:(lia) ltac:(lia) ltac:(lia)).
        pose proof (rdp_step S n k j ltac:(lia) Hk4 ltac:(lia) ltac:(lia) ltac:(lia)) as Hst.
        ysl. ysl. yc (k / 4).
        apply (wp_yj F True m st out n S Hy m' (rdp S n k) k j); [assumption|assumption|rsolve..| |done].
        clear m' Hl. intros G1 G2 m' Hl.
        ints. cbn [wp]. split; [|lia]. split; [lia|]. split; [lia|]. split; [|split; [lia|split; [lia|split; [lia|done]]]].
        destruct (decide (k + j < n)); [by left|right]. assert (k + j = n) as E by lia. rewrite E in *. lia.
      * clear k0 Hk Hk4 Hk12 m' Hl Hdp. intros [[dp cp] k] m' (Hk & Hk4 & Hkn' & -> & -> & Hdp & Hl) Hcond. apply Z.ltb_ge in Hcond.
        destruct Hkn' as [Hkn|(-> & G1 & G2)]; [|cbn [wp]; lia].
        exfalso. rewrite <- Hcl in Hcond. Z.to_euclidean_division_equations; lia.
Qed.

Ltac yl q := eapply (wp_ylast _ _ _ _ _ _ _ ltac:(eassumption) _ _ _ q); [assumption|assumption|rsolve..|intros _|done].

Lemma wp_ReadAllDeltaFast_bad F avx2 n st out prev m S :
  rany F m st out n S -> (forall j, s_off out <= j < s_off out + wroom out -> F (ERdW (s_blk out) j)) -> is_u32 prev -> s_len st < rdp S n n \/ s_len out < n ->
  wp F True (ReadAllDeltaFast (AMD64 true avx2) n st out prev) m (fun _ _ => False).
Proof.
  intros Hy Hro Hprev Hbad. assert (Hy' := Hy). destruct Hy' as [(I1 & I2 & I3) (O1 & O2 & O3) Hby Hu HSe Hn0 Hcls Hrb Hrw Hrd Hwr].
  pose proof (rany_zlen _ _ _ _ _ _ Hy) as HS. pose proof (rcl_bounds n Hn0) as Hc.
  assert (HGE : forall k, rcl n <= rdp S n k) by (intros; apply rdp_ge).
  assert (Hn1 : 0 < n).
  { destruct (decide (n = 0)) as [->|]; [|lia]. rewrite rdp_0 in Hbad. change (rcl 0) with 0 in *. lia. }
  unfold ReadAllDeltaFast. cbv zeta.
  rewrite (iadd_small n 3) by lia. rewrite idiv_pos by lia.
  assert (Hcl : (n + 3) / 4 = rcl n) by (by rewrite rcl_eq). rewrite !Hcl.
  rewrite (isub_small (rcl n) 3), (imul_small (rcl n - 3) 4) by lia.
  change (iandnot ((rcl n - 3) * 4) 31) with (iandnot ((rcl n - 3) * 4) (2 ^ 5 - 1)). rewrite !iandnot_pow2 by lia.
  change (2 ^ 5) with 32. rewrite (isub_small (rcl n) 4) by lia.
  set (l32 := (rcl n - 3) * 4 / 32 * 32).
  assert (Hl32 : l32 mod 32 = 0 /\ l32 <= 4 * rcl n - 12 /\ l32 <= n - 9) by (subst l32; split; [apply Z.mod_mul; lia|Z.to_euclidean_division_equations; lia]).
  assert (Hlike : like out m m) by done.
  apply wp_bind, (wp_while _ _ (fun '(dp, cp, k, p) m' => is_u32 p /\
      0 <= k /\ k mod 32 = 0 /\ (k = 0 \/ k + 12 <= 4 * rcl n) /\ cp = k / 4 /\ dp = rdp S n k /\ dp <= s_len st + 128 /\ like out m m')
    (fun '(_, cp, _, _) => rcl n - cp)).
  - split; [done|]. split; [lia|]. split; [done|]. split; [lia|]. split; [done|]. split; [by rewrite rdp_0|]. split; [lia|done].
  - lia.
  - unfold rfuel. lia.
  - intros [[[dp cp] k] p] m' (Hp & Hk & Hk32 & Hk12 & -> & -> & Hdp & Hl) Hcond _. apply Z.ltb_lt in Hcond.
    assert (k + 32 <= l32) by (Z.to_euclidean_division_equations; lia).
    assert (Hk4 : (k + 4) / 4 = k / 4 + 1 /\ (k + 8) / 4 = k / 4 + 2 /\ (k + 12) / 4 = k / 4 + 3 /\ (k + 16) / 4 = k / 4 + 4 /\ (k + 20) / 4 = k / 4 + 5 /\ (k + 24) / 4 = k / 4 + 6 /\ (k + 28) / 4 = k / 4 + 7 /\ (k + 32) / 4 = k / 4 + 8) by (Z.to_euclidean_division_equations; lia).
    assert (Hm4 : k mod 4 = 0 /\ (k + 4) mod 4 = 0 /\ (k + 8) mod 4 = 0 /\ (k + 12) mod 4 = 0 /\ (k + 16) mod 4 = 0 /\ (k + 20) mod 4 = 0 /\ (k + 24) mod 4 = 0 /\ (k + 28) mod 4 = 0 /\ (k + 32) mod 32 = 0) by (Z.to_euclidean_division_equations; lia).
    destruct Hk4 as (D1 & D2 & D3 & D4 & D5 & D6 & D7 & D8). destruct Hm4 as (M0 & M1 & M2 & M3 & M4 & M5 & M6 & M7 & M8).
    assert (0 <= k / 4 /\ k / 4 + 8 <= rcl n) by (Z.to_euclidean_division_equations; lia).
    pose proof (HGE k).
    pose proof (rdp_diff S n k (k + 4) ltac:(lia) ltac:(lia) ltac:(lia)). pose proof (rdp_diff S n (k + 4) (k + 8) ltac:(lia) ltac:(lia) ltac:(lia)).
    pose proof (rdp_diff S n (k + 8) (k + 12) ltac:(lia) ltac:(lia) ltac:(lia)). pose proof (rdp_diff S n (k + 12) (k + 16) ltac:(lia) ltac:(lia) ltac:(lia)).
    pose proof (rdp_diff S n (k + 16) (k + 20) ltac:(lia) ltac:(lia) ltac:(lia)). pose proof (rdp_diff S n (k + 20) (k + 24) ltac:(lia) ltac:(lia) ltac:(lia)).
    pose proof (rdp_diff S n (k + 24) (k + 28) ltac:(lia) ltac:(lia) ltac:(lia)). pose proof (rdp_diff S n (k + 28) (k + 32) ltac:(lia) ltac:(lia) ltac:(lia)).
    pose proof (y_size _ _ _ _ _ _ Hy k ltac:(lia) M0 ltac:(lia)) as E0.
    pose proof (y_size _ _ _ _ _ _ Hy (k + 4) ltac:(lia) M1 ltac:(lia)) as E1. rewrite D1 in E1.
    pose proof (y_size _ _ _ _ _ _ Hy (k + 8) ltac:(lia) M2 ltac:(lia)) as E2. rewrite D2 in E2.
    pose proof (y_size _ _ _ _ _ _ Hy (k + 12) ltac:(lia) M3 ltac:(lia)) as E3. rewrite D3 in E3.
    pose proof (y_size _ _ _ _ _ _ Hy (k + 16) ltac:(lia) M4 ltac:(lia)) as E4. rewrite D4 in E4.
    pose proof (y_size _ _ _ _ _ _ Hy (k + 20) ltac:(lia) M5 ltac:(lia)) as E5. rewrite D5 in E5.
    pose proof (y_size _ _ _ _ _ _ Hy (k + 24) ltac:(lia) M6 ltac:(lia)) as E6. rewrite D6 in E6.
    pose proof (y_size _ _ _ _ _ _ Hy (k + 28) ltac:(lia) M7 ltac:(lia)) as E7. rewrite D7 in E7.
    replace (k + 4 + 4) with (k + 8) in E1 by lia. replace (k + 8 + 4) with (k + 12) in E2 by lia. replace (k + 12 + 4) with (k + 16) in E3 by lia.
    replace (k + 16 + 4) with (k + 20) in E4 by lia. replace (k + 20 + 4) with (k + 24) in E5 by lia. replace (k + 24 + 4) with (k + 28) in E6 by lia. replace (k + 28 + 4) with (k + 32) in E7 by lia.
    ints. ysl. ysl. ysl.
    replace (k / 4 + 8 - k / 4) with 8 by lia. replace (k + 32 - k) with 32 by lia.
    yc (k / 4). yc (k / 4 + 1).
    y8d (rdp S n k) k. clear m' Hl. intros m' Hl.
    yc (k / 4). yc (k / 4 + 1). rewrite E0, E1 by done. clear E0 E1.
    yc (k / 4 + 2). yc (k / 4 + 3). ints. ysl. ysl.
    yl k. clear p Hp. intros p Hp.
    y8d (rdp S n (k + 8)) (k + 8). clear m' Hl. intros m' Hl.
    yc (k / 4 + 2). yc (k / 4 + 3). rewrite E2, E3 by done. clear E2 E3.
    yc (k / 4 + 4). yc (k / 4 + 5). ints. ysl. ysl.
    yl k. clear p Hp. intros p Hp.
    y8d (rdp S n (k + 16)) (k + 16). clear m' Hl. intros m' Hl.
    yc (k / 4 + 4). yc (k / 4 + 5). rewrite E4, E5 by done. clear E4 E5.
    yc (k / 4 + 6). yc (k / 4 + 7). ints. ysl. ysl.
    yl k. clear p Hp. intros p Hp.
    y8d (rdp S n (k + 24)) (k + 24). clear m' Hl. intros m' Hl.
    yc (k / 4 + 6). yc (k / 4 + 7). rewrite E6, E7 by done. clear E6 E7.
    yl k. clear p Hp. intros p Hp.
    ints. cbn [wp]. split; [|lia]. split; [done|]. split; [lia|]. split; [lia|]. split; [lia|]. split; [lia|]. split; [lia|]. split; [lia|done].
  - clear Hlike. intros [[[dp cp] k0] p] m' (Hp & Hk & Hk32 & Hk12 & -> & -> & Hdp & Hl) Hcond. clear Hcond.
    apply wp_bind, (wp_while _ _ (fun '(dp, cp, k, p) m' => is_u32 p /\
      0 <= k /\ k mod 8 = 0 /\ (k = 0 \/ k + 12 <= 4 * rcl n) /\ cp = k / 4 /\ dp = rdp S n k /\ dp <= s_len st + 128 /\ like out m m')
      (fun '(_, cp, _, _) => rcl n - cp)).
    + split; [done|]. split; [lia|]. split; [Z.to_euclidean_division_equations; lia|]. split; [lia|]. split; [done|]. split; [done|]. split; [lia|done].
    + Z.to_euclidean_division_equations; lia.
    + unfold rfuel. assert (0 <= k0 / 4) by (apply Z.div_pos; lia). lia.
    + clear k0 Hk Hk32 Hk12 m' Hl Hdp p Hp. intros [[[dp cp] k] p] m' (Hp & Hk & Hk4 & Hk12 & -> & -> & Hdp & Hl) Hcond _. apply Z.ltb_lt in Hcond.
      assert (k + 20 <= 4 * rcl n) by (clear -Hcond Hk4; Z.to_euclidean_division_equations; lia).
      assert (0 <= k / 4 /\ k / 4 + 2 <= rcl n /\ (k + 8) / 4 = k / 4 + 2 /\ (k + 8) mod 8 = 0) by (clear -Hcond Hk4 Hk; Z.to_euclidean_division_equations; lia).
      assert (M : k mod 4 = 0 /\ (k + 4) mod 4 = 0 /\ (k + 4) / 4 = k / 4 + 1) by (clear -Hk4; Z.to_euclidean_division_equations; lia).
      destruct M as (M0 & M1 & D1). pose proof (HGE k).
      pose proof (rdp_diff S n k (k + 4) ltac:(lia) ltac:(lia) ltac:(lia)). pose proof (rdp_diff S n (k + 4) (k + 8) ltac:(lia) ltac:(lia) ltac:(lia)).
      pose proof (y_size _ _ _ _ _ _ Hy k ltac:(lia) M0 ltac:(lia)) as E0.
      pose proof (y_size _ _ _ _ _ _ Hy (k + 4) ltac:(lia) M1 ltac:(lia)) as E1. rewrite D1 in E1. replace (k + 4 + 4) with (k + 8) in E1 by lia.
      yc (k / 4). ints. yc (k / 4 + 1). ysl. ysl.
      y8d (rdp S n k) k. clear m' Hl. intros m' Hl.
      yc (k / 4). yc (k / 4 + 1). rewrite E0, E1 by done.
      ints. yl 0. clear p Hp. intros p Hp.
      ints. cbn [wp]. split; [|lia]. split; [done|]. split; [lia|]. split; [lia|]. split; [lia|]. split; [lia|]. split; [lia|]. split; [lia|done].
    + clear k0 Hk Hk32 Hk12 m' Hl Hdp p Hp. intros [[[dp cp] k0] p] m' (Hp & Hk & Hk4 & Hk12 & -> & -> & Hdp & Hl) Hcond. clear Hcond.
      apply wp_bind, (wp_while _ _ (fun '(dp, cp, k, p) m' => is_u32 p /\
        0 <= k /\ (k mod 4 = 0 \/ k = n) /\ (k < n \/ (k = n /\ rdp S n n <= s_len st /\ n <= s_len out)) /\ cp = (k + 3) / 4 /\ dp = rdp S n k /\ dp <= s_len st + 128 /\ like out m m')
        (fun '(_, cp, _, _) => rcl n - cp)).
      * split; [done|]. split; [lia|]. split; [left; Z.to_euclidean_division_equations; lia|]. split; [lia|]. split; [Z.to_euclidean_division_equations; lia|]. done.
      * Z.to_euclidean_division_equations; lia.
      * unfold rfuel. assert (0 <= k0 / 4) by (apply Z.div_pos; lia). lia.
      * clear k0 Hk Hk4 Hk12 m' Hl Hdp p Hp. intros [[[dp cp] k] p] m' (Hp & Hk & Hk4 & Hkn' & -> & -> & Hdp & Hl) Hcond _. apply Z.ltb_lt in Hcond.
        assert (Hkn : k < n) by (rewrite <- Hcl in Hcond; Z.to_euclidean_division_equations; lia).
        destruct Hk4 as [Hk4|]; [|lia].
        assert (Hcp : (k + 3) / 4 = k / 4) by (Z.to_euclidean_division_equations; lia). rewrite Hcp.
        rewrite (isub_small n k) by lia.
        replace (if 4 <? n - k then 4 else n - k) with (Z.min 4 (n - k)) by (destruct (Z.ltb_spec 4 (n - k)); lia).
        set (j := Z.min 4 (n - k)).
        assert (Hj : 1 <= j <= 4 /\ k + j <= n /\ (j = 4 \/ k + j = n)) by lia.
        assert (Hd : 0 <= k / 4 /\ k / 4 + 1 <= rcl n /\ (k + j + 3) / 4 = k / 4 + 1 /\ ((k + j) mod 4 = 0 \/ k + j = n)) by (clearbody j; clear -Hj Hk Hk4 Hkn Hc; Z.to_euclidean_division_equations; lia).
        clearbody j. pose proof (HGE k).
        pose proof (rdp_diff S n k (k + j) ltac:(lia) ltac:(lia) ltac:(lia)).
        pose proof (rdp_step S n k j ltac:(lia) Hk4 ltac:(lia) ltac:(lia) ltac:(lia)) as Hst.
        ysl. ysl. yc (k / 4).
        apply (wp_yjd F True m st out n S Hy m' (rdp S n k) k j); [assumption|assumption|rsolve..| |done].
        clear m' Hl. intros G1 G2 m' Hl.
        ints. yl 0. clear p Hp. intros p Hp.
        ints. cbn [wp]. split; [|lia]. split; [done|]. split; [lia|]. split; [lia|]. split; [|split; [lia|split; [lia|split; [lia|done]]]].
        destruct (decide (k + j < n)); [by left|right]. assert (k + j = n) as E by lia. rewrite E in *. lia.
      * clear k0 Hk Hk4 Hk12 m' Hl Hdp p Hp. intros [[[dp cp] k] p] m' (Hp & Hk & Hk4 & Hkn' & -> & -> & Hdp & Hl) Hcond. apply Z.ltb_ge in Hcond.
        destruct Hkn' as [Hkn|(-> & G1 & G2)]; [|cbn [wp]; lia].
        exfalso. rewrite <- Hcl in Hcond. Z.to_euclidean_division_equations; lia.
Qed.
