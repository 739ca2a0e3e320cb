(** * Rules for the stream writers *)
From stdpp Require Import prelude gmap list.
From Coq Require Import ZArith Lia.
From Verif Require Import Spec SpecLemmas GoSem Tables Shared Asm Wp Encode TableProof EncodeProof EncodeProof2 SimdProof AsmProof DecodeProof DecodeProof2 Writer.
Local Open Scope Z_scope.
Implicit Types (F : event -> Prop) (pn : Prop).

(** ** State of the stream after [k] numbers of [X] have been written *)
Definition pre (X : list Z) (k : Z) : list Z := take (Z.to_nat k) X.
Definition wcl (X : list Z) : Z := Z.of_nat (nctrl (length X)).
Definition wN (X : list Z) : Z := wcl X + 4 * zlen X.
Definition wdp (X : list Z) (k : Z) : Z := wcl X + zlen (enc_data (pre X k)).
Definition wst (X : list Z) (k : Z) : list Z :=
  splice 0 (enc_ctrls (pre X k)) (splice (wcl X) (enc_data (pre X k)) (replicate (Z.to_nat (wN X)) 0)).

Lemma nctrl_div n : Z.of_nat (nctrl n) = (Z.of_nat n + 3) / 4.
Proof. unfold nctrl. rewrite Nat2Z.inj_div, Nat2Z.inj_add. done. Qed.
Lemma wcl_eq X : wcl X = (zlen X + 3) / 4.
Proof. apply nctrl_div. Qed.
Lemma zlen_enc_ctrls X : zlen (enc_ctrls X) = (zlen X + 3) / 4.
Proof. unfold zlen. rewrite enc_ctrls_length. apply nctrl_div. Qed.
Lemma zlen_pre X k : 0 <= k <= zlen X -> zlen (pre X k) = k.
Proof. apply zlen_take. Qed.
Lemma pre_app X k j : 0 <= k -> 0 <= j -> pre X (k + j) = pre X k ++ sub k j X.
Proof.
  intros. unfold pre, sub. rewrite Z2Nat.inj_add by lia. by rewrite take_take_drop.
Qed.
Lemma wdp_bounds X k : 0 <= k <= zlen X -> wcl X + k <= wdp X k <= wcl X + 4 * k.
Proof. intros H. unfold wdp. pose proof (enc_data_zlen_bounds (pre X k)). rewrite zlen_pre in * by done. lia. Qed.
Lemma wdp_step X k j : 0 <= k -> 0 <= j -> wdp X (k + j) = wdp X k + zlen (enc_data (sub k j X)).
Proof. intros. unfold wdp. rewrite pre_app by done. rewrite zlen_enc_data_app. lia. Qed.
Lemma wdp_step_bounds X k j : 0 <= k -> 0 <= j -> k + j <= zlen X -> wdp X k + j <= wdp X (k + j) <= wdp X k + 4 * j.
Proof.
  intros. rewrite wdp_step by done. pose proof (enc_data_zlen_bounds (sub k j X)). rewrite sub_zlen in * by lia. lia.
Qed.
Lemma wcl_bounds X : zlen X <= 4 * wcl X <= zlen X + 3.
Proof. rewrite wcl_eq. pose proof (zlen_nonneg X). Z.to_euclidean_division_equations; lia. Qed.
Lemma wN_nonneg X : 0 <= wcl X <= wN X.
Proof. unfold wN. pose proof (zlen_nonneg X). pose proof (wcl_bounds X). lia. Qed.

Lemma wst_zlen X k : 0 <= k <= zlen X -> zlen (wst X k) = wN X.
Proof.
  intros H. unfold wst. pose proof (wdp_bounds X k H) as Hb. unfold wdp in Hb.
  pose proof (wcl_bounds X). pose proof (wN_nonneg X). pose proof (zlen_nonneg (enc_data (pre X k))).
  assert (zlen (replicate (Z.to_nat (wN X)) 0) = wN X) as E by (rewrite zlen_replicate; lia).
  assert (zlen (enc_ctrls (pre X k)) <= wcl X).
  { rewrite zlen_enc_ctrls, zlen_pre, wcl_eq by done. apply Z.div_le_mono; lia. }
  rewrite !splice_zlen; rewrite ?splice_zlen; rewrite ?E; unfold wN in *; lia.
Qed.
Lemma wst_0 X : wst X 0 = replicate (Z.to_nat (wN X)) 0.
Proof. unfold wst. change (pre X 0) with (@nil Z). cbn [enc_data enc_ctrls groups4 map]. by rewrite !splice_nil. Qed.

Lemma splice_zeros p n d z : 0 <= p -> p + zlen d + Z.of_nat z <= Z.of_nat n ->
  splice p (d ++ replicate z 0) (replicate n 0) = splice p d (replicate n 0).
Proof.
  intros Hp H. pose proof (zlen_nonneg d). apply list_eq. intros i.
  rewrite !splice_lookup by (rewrite ?zlen_app, ?zlen_replicate; lia).
  rewrite zlen_app, zlen_replicate. unfold zlen in *.
  repeat case_decide; try lia; try done.
  - by rewrite lookup_app_l by lia.
  - rewrite lookup_app_r by lia. rewrite !lookup_replicate_2 by lia. done.
Qed.

Lemma wst_step X k j z : 0 <= k -> k mod 4 = 0 -> 0 <= j -> k + j <= zlen X -> wdp X (k + j) + Z.of_nat z <= wN X ->
  splice (k / 4) (enc_ctrls (sub k j X)) (splice (wdp X k) (enc_data (sub k j X) ++ replicate z 0) (wst X k)) = wst X (k + j).
Proof.
  intros Hk Hm Hj Hn Hz. rewrite wdp_step in Hz by done. unfold wdp in *. unfold wst. rewrite pre_app by done.
  set (P := pre X k) in *. set (g := sub k j X) in *.
  assert (HP : zlen P = k) by (apply zlen_pre; lia).
  assert (Hg : zlen g = j) by (apply sub_zlen; lia).
  rewrite enc_ctrls_app by (apply Nat2Z.inj; rewrite Nat2Z.inj_mod; fold (zlen P); rewrite HP; exact Hm).
  rewrite enc_data_app.
  pose proof (zlen_nonneg (enc_data P)). pose proof (zlen_nonneg (enc_data g)). pose proof (wN_nonneg X).
  set (Z0 := replicate (Z.to_nat (wN X)) 0).
  assert (HZ : zlen Z0 = wN X) by (unfold Z0; rewrite zlen_replicate; lia).
  assert (C1 : zlen (enc_ctrls P) = k / 4) by (rewrite zlen_enc_ctrls, HP; Z.to_euclidean_division_equations; lia).
  assert (C2 : zlen (enc_ctrls P) + zlen (enc_ctrls g) <= wcl X).
  { rewrite !zlen_enc_ctrls, HP, Hg, wcl_eq. Z.to_euclidean_division_equations; lia. }
  pose proof (zlen_nonneg (enc_ctrls g)). pose proof (zlen_nonneg (enc_ctrls P)).
  rewrite <- (splice_comm 0 (wcl X + zlen (enc_data P)) (enc_ctrls P)) by (rewrite ?zlen_app, ?zlen_replicate, ?splice_zlen; lia).
  rewrite splice_app_l by (rewrite ?zlen_app, ?zlen_replicate; lia).
  rewrite app_assoc. unfold Z0 at 1. rewrite splice_zeros by (rewrite ?zlen_app; lia). fold Z0.
  rewrite <- C1. change (zlen (enc_ctrls P)) with (0 + zlen (enc_ctrls P)).
  rewrite splice_app_l; [done|lia|]. rewrite splice_zlen; rewrite ?zlen_app; lia.
Qed.

(** The part of the stream from the current data position. *)
Definition dslice (B : nat) (X : list Z) (k : Z) : slice := Slice B (wdp X k) (wN X - wdp X k) (wN X - wdp X k).

(** [p] encodes [g] at the start of [data], returns [c], and may write [z] zero bytes behind. *)
Definition puts F pn (p : prog Z) (data : slice) (m : mem) (g : list Z) (c : Z) (z : nat) : Prop :=
  forall Q : Z -> mem -> Prop,
  Q c (setb m (s_blk data) (splice (s_off data) (enc_data g ++ replicate z 0) (blk (mb m) (s_blk data)))) -> wp F pn p m Q.

Lemma enc_ctrls_short g : (1 <= length g <= 4)%nat -> enc_ctrls g = [ctrl_of g].
Proof. destruct g as [|a [|b [|c [|d [|e g]]]]]; cbn; intros; try lia; done. Qed.
Lemma enc_ctrls_8 g : length g = 8%nat -> enc_ctrls g = [ctrl_of (take 4 g); ctrl_of (drop 4 g)].
Proof. intros H. do 9 (destruct g as [|? g]; [try discriminate H|]); [done|]. cbn in H. lia. Qed.

Lemma blk_wst m B X k : blk (mb m) B = replicate (Z.to_nat (wN X)) 0 -> 0 <= k <= zlen X ->
  blk (mb (setb m B (wst X k))) B = wst X k /\ length (wst X k) = length (blk (mb m) B).
Proof.
  intros E Hk. pose proof (wst_zlen X k Hk) as Hz. pose proof (wN_nonneg X).
  assert (length (wst X k) = length (blk (mb m) B)) by (rewrite E, replicate_length; unfold zlen in Hz; lia).
  split; [by apply blk_setb|done].
Qed.

Section step.
Context {A : Type} (F : event -> Prop) (pn : Prop) (m : mem) (B : nat) (X : list Z) (k : Z).

Lemma wp_wstep1 (p : prog Z) ctrls i j z (rest : Z -> prog A) Q :
  blk (mb m) B = replicate (Z.to_nat (wN X)) 0 -> (forall j, 0 <= j < wN X -> F (EWrB B j)) ->
  0 <= k -> k mod 4 = 0 -> 1 <= j <= 4 -> k + j <= zlen X -> wdp X (k + j) + Z.of_nat z <= wN X ->
  s_blk ctrls = B -> s_off ctrls + i = k / 4 -> 0 <= i < s_len ctrls -> inb (mb m) ctrls ->
  puts F pn p (dslice B X k) (setb m B (wst X k)) (sub k j X) (ctrl_of (sub k j X)) z ->
  wp F pn (rest (ctrl_of (sub k j X))) (setb m B (wst X (k + j))) Q ->
  wp F pn (let! ctrl := p in setB ctrls i ctrl ;;; rest ctrl) (setb m B (wst X k)) Q.
Proof.
  intros E HF Hk Hm Hj Hn Hz EB Ei Hi Hin Hp HQ.
  destruct (blk_wst m B X k E ltac:(lia)) as [E1 E2].
  apply wp_bind, Hp. cbn [s_blk s_off dslice]. rewrite E1, setb_setb.
  pose proof (wdp_bounds X k ltac:(lia)) as Hb. pose proof (wdp_step X k j ltac:(lia) ltac:(lia)) as Hs.
  pose proof (wcl_bounds X). pose proof (wN_nonneg X).
  set (d := enc_data (sub k j X) ++ replicate z 0).
  assert (Hd : zlen d = zlen (enc_data (sub k j X)) + Z.of_nat z) by (unfold d; rewrite zlen_app, zlen_replicate; lia).
  assert (Hlen : length (splice (wdp X k) d (wst X k)) = length (blk (mb m) B)).
  { rewrite splice_length; [done|lia|]. rewrite wst_zlen by lia. lia. }
  apply wp_bind, wp_setB; [subst B; by apply inb_setb| |lia].
  intros _. rewrite EB, Ei.
  assert (k / 4 < wN X) by (unfold wN; Z.to_euclidean_division_equations; lia).
  split; [apply HF; split; [apply Z.div_pos; lia|lia]|].
  rewrite blk_setb by done. rewrite setb_setb.
  rewrite <- (enc_ctrls_short (sub k j X)).
  - unfold d. rewrite wst_step by lia. done.
  - pose proof (sub_zlen k j X ltac:(lia) ltac:(lia) ltac:(lia)) as Hl. unfold zlen in Hl. lia.
Qed.

Lemma ctrl16_parts g : length g = 8%nat -> is_byte (ctrl_of (take 4 g)) /\ is_byte (ctrl_of (drop 4 g)).
Proof. intros. split; apply ctrl_of_byte; rewrite ?take_length, ?drop_length; lia. Qed.

Lemma wp_wstep2 (p : prog Z) ctrls i i' z (rest : Z -> prog A) Q :
  blk (mb m) B = replicate (Z.to_nat (wN X)) 0 -> (forall j, 0 <= j < wN X -> F (EWrB B j)) ->
  0 <= k -> k mod 4 = 0 -> k + 8 <= zlen X -> wdp X (k + 8) + Z.of_nat z <= wN X ->
  s_blk ctrls = B -> s_off ctrls + i = k / 4 -> 0 <= i -> i' = i + 1 -> i + 1 < s_len ctrls -> inb (mb m) ctrls ->
  puts F pn p (dslice B X k) (setb m B (wst X k)) (sub k 8 X) (ctrl16_of (sub k 8 X)) z ->
  wp F pn (rest (ctrl16_of (sub k 8 X))) (setb m B (wst X (k + 8))) Q ->
  wp F pn (let! ctrl := p in setB ctrls i (u8 (Z.land ctrl 255)) ;;; setB ctrls i' (u8 (Z.shiftr ctrl 8)) ;;; rest ctrl)
    (setb m B (wst X k)) Q.
Proof.
  intros E HF Hk Hm Hn Hz EB Ei Hi -> Hi2 Hin Hp HQ.
  destruct (blk_wst m B X k E ltac:(lia)) as [E1 E2].
  apply wp_bind, Hp. cbn [s_blk s_off dslice]. rewrite E1, setb_setb.
  pose proof (wdp_bounds X k ltac:(lia)) as Hb. pose proof (wdp_step X k 8 ltac:(lia) ltac:(lia)) as Hs.
  pose proof (wcl_bounds X). pose proof (wN_nonneg X).
  assert (Hg : length (sub k 8 X) = 8%nat).
  { pose proof (sub_zlen k 8 X ltac:(lia) ltac:(lia) ltac:(lia)) as Hl. unfold zlen in Hl. lia. }
  destruct (ctrl16_parts _ Hg) as [B0 B1].
  unfold ctrl16_of. destruct (u8_parts _ _ B0 B1) as [-> ->]. fold (ctrl16_of (sub k 8 X)).
  set (d := enc_data (sub k 8 X) ++ replicate z 0).
  assert (Hd : zlen d = zlen (enc_data (sub k 8 X)) + Z.of_nat z) by (unfold d; rewrite zlen_app, zlen_replicate; lia).
  assert (Hlen : length (splice (wdp X k) d (wst X k)) = length (blk (mb m) B)).
  { rewrite splice_length; [done|lia|]. rewrite wst_zlen by lia. lia. }
  assert (Hlz : zlen (splice (wdp X k) d (wst X k)) = wN X).
  { rewrite splice_zlen; [by apply wst_zlen; lia|lia|]. rewrite wst_zlen by lia. lia. }
  assert (k / 4 + 1 < wN X) by (unfold wN; Z.to_euclidean_division_equations; lia).
  assert (0 <= k / 4) by (apply Z.div_pos; lia).
  apply wp_bind, wp_setB; [subst B; by apply inb_setb| |lia].
  intros _. rewrite EB, Ei. split; [apply HF; lia|].
  rewrite blk_setb by done. rewrite setb_setb.
  assert (Hlen2 : length (splice (k / 4) [ctrl_of (take 4 (sub k 8 X))] (splice (wdp X k) d (wst X k))) = length (blk (mb m) B)).
  { rewrite splice_length; [done|lia|]. rewrite zlen_cons, zlen_nil. lia. }
  apply wp_bind, wp_setB; [subst B; by apply inb_setb| |lia].
  intros _. rewrite EB. replace (s_off ctrls + (i + 1)) with (k / 4 + 1) by lia. split; [apply HF; lia|].
  rewrite blk_setb by done. rewrite setb_setb.
  change (k / 4 + 1) with (k / 4 + zlen [ctrl_of (take 4 (sub k 8 X))]).
  rewrite splice_app_l; [|lia|rewrite !zlen_cons, !zlen_nil; lia].
  cbn [app]. rewrite <- enc_ctrls_8 by done. unfold d. rewrite wst_step by lia. done.
Qed.
End step.

(** ** The numbers to encode *)
Lemma sub_sub o n k j l : 0 <= o -> 0 <= k -> 0 <= j -> k + j <= n -> sub k j (sub o n l) = sub (o + k) j l.
Proof.
  intros. unfold sub. rewrite skipn_firstn_comm, take_take, drop_drop. f_equal; [lia|]. f_equal. lia.
Qed.
Definition pv (prev : Z) (xs : list Z) (k : Z) : Z := default prev (last (pre xs k)).
Lemma pv_0 prev xs : pv prev xs 0 = prev.
Proof. done. Qed.
Lemma pre_snoc xs k : 0 < k <= zlen xs -> pre xs k = pre xs (k - 1) ++ [at_ xs (k - 1)].
Proof.
  intros. replace k with (k - 1 + 1) at 1 by lia. rewrite pre_app by lia. f_equal.
  rewrite (sub_S (k - 1)) by lia. change (1 - 1) with 0. by rewrite sub_0.
Qed.
Lemma pv_at prev xs k : 0 < k <= zlen xs -> pv prev xs k = at_ xs (k - 1).
Proof. intros. unfold pv. rewrite pre_snoc by lia. by rewrite last_snoc. Qed.
Lemma at_sub o n l i : 0 <= o -> 0 <= i < n -> o + n <= zlen l -> at_ (sub o n l) i = at_ l (o + i).
Proof.
  intros. assert (E : Some (at_ (sub o n l) i) = Some (at_ l (o + i))); [|by injection E].
  rewrite <- (lookup_at (sub o n l)) by (rewrite sub_zlen; lia).
  rewrite sub_lookup by lia. rewrite <- (lookup_at l) by lia. f_equal. lia.
Qed.
Lemma pv_u32 prev xs k : is_u32 prev -> Forall is_u32 xs -> 0 <= k <= zlen xs -> is_u32 (pv prev xs k).
Proof.
  intros Hp Hx Hk. destruct (decide (k = 0)) as [->|]; [done|]. rewrite pv_at by lia. apply Forall_at; [done|lia].
Qed.
Lemma pre_deltas p xs k : pre (deltas p xs) k = deltas p (pre xs k).
Proof.
  unfold pre. generalize (Z.to_nat k) as i. intros i. revert p xs. induction i as [|i IH]; intros p xs; [done|].
  destruct xs as [|x xs]; [done|]. cbn [deltas take]. by rewrite IH.
Qed.
Lemma sub_deltas p xs k j : 0 <= k -> 0 <= j -> sub k j (deltas p xs) = deltas (pv p xs k) (sub k j xs).
Proof.
  intros. apply (app_inv_head (pre (deltas p xs) k)). rewrite <- pre_app by done.
  rewrite !pre_deltas, pre_app by done. by rewrite deltas_app.
Qed.
Lemma zlen_deltas p xs : zlen (deltas p xs) = zlen xs.
Proof. unfold zlen. by rewrite deltas_length. Qed.

(** Situation of a writer after its allocation. *)
Record wok (F : event -> Prop) (m : mem) (B : nat) (inp : slice) (n : Z) (X : list Z) : Prop := {
  w_zero : blk (mb m) B = replicate (Z.to_nat (wN X)) 0;
  w_wr : forall j, 0 <= j < wN X -> F (EWrB B j);
  w_rd : forall j, s_off inp <= j < s_off inp + s_len inp -> F (ERdW (s_blk inp) j);
  w_inb : inb (mw m) inp;
  w_u32 : Forall is_u32 (blk (mw m) (s_blk inp));
  w_n : n = s_len inp;
  w_len : zlen X = n }.

Definition nums_of (inp : slice) (m : mem) : list Z := sub (s_off inp) (s_len inp) (blk (mw m) (s_blk inp)).

(** A window of the input starting at number [k]. *)
Definition nslice (inp : slice) (m : mem) (k j : Z) (nums : slice) : Prop :=
  s_blk nums = s_blk inp /\ s_off nums = s_off inp + k /\ j <= s_len nums <= s_cap nums /\
  s_off nums + s_cap nums <= zlen (blk (mw m) (s_blk inp)).
Definition cslice (B : nat) (X : list Z) (ctrls : slice) (i l k : Z) : Prop :=
  s_blk ctrls = B /\ 0 <= s_off ctrls /\ s_off ctrls + i = k / 4 /\ 0 <= i /\ i + l <= s_len ctrls <= s_cap ctrls /\
  s_off ctrls + s_cap ctrls <= wN X.

Lemma dslice_inb m B X k : blk (mb m) B = replicate (Z.to_nat (wN X)) 0 -> 0 <= k <= zlen X ->
  inb (mb (setb m B (wst X k))) (dslice B X k).
Proof.
  intros E Hk. destruct (blk_wst m B X k E Hk) as [E1 E2]. pose proof (wdp_bounds X k Hk). pose proof (wN_nonneg X).
  repeat split; cbn [s_blk s_off s_len s_cap dslice]; try lia; [unfold wN; lia|]. rewrite E1, wst_zlen by done. lia.
Qed.
Lemma cslice_inb m B X ctrls i l k : blk (mb m) B = replicate (Z.to_nat (wN X)) 0 -> 0 <= l ->
  cslice B X ctrls i l k -> inb (mb m) ctrls.
Proof.
  intros E Hl (EB & H1 & H2 & H3 & H4 & H5). repeat split; try lia. rewrite EB, E, zlen_replicate. lia.
Qed.

Lemma csize4 X k : 0 <= k -> k + 4 <= zlen X -> ControlByteToSize (ctrl_of (sub k 4 X)) = wdp X (k + 4) - wdp X k.
Proof.
  intros. rewrite ControlByteToSize_ctrl_of by (pose proof (sub_zlen k 4 X); unfold zlen in *; lia).
  rewrite wdp_step by lia. lia.
Qed.
Lemma csizej X k j : 0 <= k -> 0 <= j <= 4 -> k + j <= zlen X -> ControlByteToSize (ctrl_of (sub k j X)) = wdp X (k + j) - wdp X k + (4 - j).
Proof.
  intros. pose proof (sub_zlen k j X ltac:(lia) ltac:(lia) ltac:(lia)) as Hl.
  rewrite ControlByteToSize_short by (unfold zlen in *; lia). rewrite Hl, wdp_step by lia. lia.
Qed.
Lemma ctrl16_size g : length g = 8%nat -> ControlByteToSizeTwo (ctrl16_of g) = zlen (enc_data g).
Proof.
  intros Hg. destruct (ctrl16_parts g Hg) as [B0 B1]. unfold is_byte in *.
  rewrite ControlByteToSizeTwo_lens by (unfold ctrl16_of, is_u16; lia). unfold ctrl16_of.
  replace ((_ + 256 * _) mod 256) with (ctrl_of (take 4 g)) by (Z.to_euclidean_division_equations; lia).
  replace ((_ + 256 * _) / 256) with (ctrl_of (drop 4 g)) by (Z.to_euclidean_division_equations; lia).
  rewrite Nat2Z.inj_add. rewrite <- !ControlByteToSize_lens by done.
  rewrite !ControlByteToSize_ctrl_of by (rewrite ?take_length, ?drop_length; lia).
  rewrite <- zlen_enc_data_app, take_drop. done.
Qed.
Lemma csize8 X k : 0 <= k -> k + 8 <= zlen X -> ControlByteToSizeTwo (ctrl16_of (sub k 8 X)) = wdp X (k + 8) - wdp X k.
Proof.
  intros. rewrite ctrl16_size by (pose proof (sub_zlen k 8 X); unfold zlen in *; lia).
  rewrite wdp_step by lia. lia.
Qed.

Section puts.
Context {A : Type} (F : event -> Prop) (pn : Prop) (m : mem) (B : nat) (inp : slice) (n : Z).

Lemma wp_w4 X k k' nums data ctrls i (rest : Z -> prog A) Q :
  wok F m B inp n X -> X = nums_of inp m ->
  0 <= k -> k mod 4 = 0 -> k' = k + 4 -> k' <= n -> nslice inp m k 4 nums -> data = dslice B X k -> cslice B X ctrls i 1 k ->
  (ControlByteToSize (ctrl_of (sub k 4 X)) = wdp X k' - wdp X k ->
     wp F pn (rest (ctrl_of (sub k 4 X))) (setb m B (wst X k')) Q) ->
  wp F pn (let! ctrl := Put4uint32Scalar nums data in setB ctrls i ctrl ;;; rest ctrl) (setb m B (wst X k)) Q.
Proof.
  intros [W1 W2 W3 W4 W5 W6 W7] EX Hk Hm -> Hn (N1 & N2 & N3 & N4) -> HC HQ.
  assert (HCin := cslice_inb m B X ctrls i 1 k W1 ltac:(lia) HC). destruct HC as (C1 & C2 & C3 & C4 & C5 & C6). destruct W4 as (I1 & I2 & I3).
  assert (ES : sub (s_off nums) 4 (blk (mw m) (s_blk nums)) = sub k 4 X).
  { rewrite EX. unfold nums_of. rewrite sub_sub by lia. by rewrite N1, N2. }
  pose proof (wdp_bounds X (k + 4) ltac:(lia)) as Hb. pose proof (wdp_step X k 4 ltac:(lia) ltac:(lia)) as Hst. pose proof (wN_nonneg X).
  assert (HwN : wdp X (k + 4) <= wN X) by (unfold wN; lia).
  pose proof (wdp_bounds X k ltac:(lia)).
  apply wp_wstep1 with (j := 4) (z := 0%nat); try done; try lia.
  - intros Q' HQ'. apply wp_Put4uint32Scalar; change (mw (setb m ?b ?l)) with (mw m); rewrite ?ES.
    + repeat split; try lia. rewrite N1. lia.
    + apply dslice_inb; [done|lia].
    + by rewrite N1.
    + intros _. split; [intros; rewrite N1; apply W3; lia|]. cbn [s_blk s_off s_len dslice]. intros; apply W2; lia.
    + intros _ _. cbn [replicate] in HQ'. rewrite app_nil_r in HQ'. done.
    + cbn [s_len dslice]. lia.
  - apply HQ. apply csize4; lia.
Qed.

Lemma wp_w4d prev X k k' nums data ctrls i p (rest : Z -> prog A) Q :
  wok F m B inp n X -> X = deltas prev (nums_of inp m) ->
  0 <= k -> k mod 4 = 0 -> k' = k + 4 -> k' <= n -> nslice inp m k 4 nums -> data = dslice B X k -> cslice B X ctrls i 1 k ->
  p = pv prev (nums_of inp m) k ->
  (ControlByteToSize (ctrl_of (sub k 4 X)) = wdp X k' - wdp X k ->
     wp F pn (rest (ctrl_of (sub k 4 X))) (setb m B (wst X k')) Q) ->
  wp F pn (let! ctrl := Put4uint32DeltaScalar nums data p in setB ctrls i ctrl ;;; rest ctrl) (setb m B (wst X k)) Q.
Proof.
  intros [W1 W2 W3 W4 W5 W6 W7] EX Hk Hm -> Hn (N1 & N2 & N3 & N4) -> HC -> HQ.
  assert (HCin := cslice_inb m B X ctrls i 1 k W1 ltac:(lia) HC). destruct HC as (C1 & C2 & C3 & C4 & C5 & C6). destruct W4 as (I1 & I2 & I3).
  assert (ES : deltas (pv prev (nums_of inp m) k) (sub (s_off nums) 4 (blk (mw m) (s_blk nums))) = sub k 4 X).
  { rewrite EX. rewrite sub_deltas by lia. f_equal. unfold nums_of. rewrite sub_sub by lia. by rewrite N1, N2. }
  pose proof (wdp_bounds X (k + 4) ltac:(lia)) as Hb. pose proof (wdp_step X k 4 ltac:(lia) ltac:(lia)) as Hst. pose proof (wN_nonneg X).
  assert (HwN : wdp X (k + 4) <= wN X) by (unfold wN; lia).
  pose proof (wdp_bounds X k ltac:(lia)).
  apply wp_wstep1 with (j := 4) (z := 0%nat); try done; try lia.
  - intros Q' HQ'. apply wp_Put4uint32DeltaScalar; change (mw (setb m ?b ?l)) with (mw m); rewrite ?ES.
    + repeat split; try lia. rewrite N1. lia.
    + apply dslice_inb; [done|lia].
    + intros _. split; [intros; rewrite N1; apply W3; lia|]. cbn [s_blk s_off s_len dslice]. intros; apply W2; lia.
    + intros _ _. cbn [replicate] in HQ'. rewrite app_nil_r in HQ'. done.
    + cbn [s_len dslice]. lia.
  - apply HQ. apply csize4; lia.
Qed.

Lemma wp_wj X k k' j nums data ctrls i (rest : Z -> prog A) Q :
  wok F m B inp n X -> X = nums_of inp m ->
  0 <= k -> k mod 4 = 0 -> 1 <= j <= 4 -> k' = k + j -> k' <= n -> nslice inp m k j nums -> data = dslice B X k -> cslice B X ctrls i 1 k ->
  (ControlByteToSize (ctrl_of (sub k j X)) = wdp X k' - wdp X k + (4 - j) ->
     wp F pn (rest (ctrl_of (sub k j X))) (setb m B (wst X k')) Q) ->
  wp F pn (let! ctrl := PutUint32Scalar nums data j in setB ctrls i ctrl ;;; rest ctrl) (setb m B (wst X k)) Q.
Proof.
  intros [W1 W2 W3 W4 W5 W6 W7] EX Hk Hm Hj -> Hn (N1 & N2 & N3 & N4) -> HC HQ.
  assert (HCin := cslice_inb m B X ctrls i 1 k W1 ltac:(lia) HC). destruct HC as (C1 & C2 & C3 & C4 & C5 & C6). destruct W4 as (I1 & I2 & I3).
  assert (ES : sub (s_off nums) j (blk (mw m) (s_blk nums)) = sub k j X).
  { rewrite EX. unfold nums_of. rewrite sub_sub by lia. by rewrite N1, N2. }
  pose proof (wdp_bounds X (k + j) ltac:(lia)) as Hb. pose proof (wdp_step X k j ltac:(lia) ltac:(lia)) as Hst. pose proof (wN_nonneg X).
  assert (HwN : wdp X (k + j) <= wN X) by (unfold wN; lia).
  pose proof (wdp_bounds X k ltac:(lia)).
  assert (Hcl : clip j = j) by (unfold clip; lia).
  apply wp_wstep1 with (j := j) (z := 0%nat); try done; try lia.
  - intros Q' HQ'. apply wp_PutUint32Scalar; change (mw (setb m ?b ?l)) with (mw m); rewrite ?Hcl, ?ES.
    + repeat split; try lia. rewrite N1. lia.
    + apply dslice_inb; [done|lia].
    + by rewrite N1.
    + intros; rewrite N1; apply W3; lia.
    + cbn [s_blk s_off s_len dslice]. intros; apply W2; lia.
    + intros _ _. cbn [replicate] in HQ'. rewrite app_nil_r in HQ'. done.
    + cbn [s_len dslice]. lia.
  - apply HQ. apply csizej; lia.
Qed.

Lemma wp_wjd prev X k k' j nums data ctrls i p (rest : Z -> prog A) Q :
  wok F m B inp n X -> X = deltas prev (nums_of inp m) ->
  0 <= k -> k mod 4 = 0 -> 1 <= j <= 4 -> k' = k + j -> k' <= n -> nslice inp m k j nums -> data = dslice B X k -> cslice B X ctrls i 1 k ->
  p = pv prev (nums_of inp m) k ->
  (ControlByteToSize (ctrl_of (sub k j X)) = wdp X k' - wdp X k + (4 - j) ->
     wp F pn (rest (ctrl_of (sub k j X))) (setb m B (wst X k')) Q) ->
  wp F pn (let! ctrl := PutUint32DeltaScalar nums data j p in setB ctrls i ctrl ;;; rest ctrl) (setb m B (wst X k)) Q.
Proof.
  intros [W1 W2 W3 W4 W5 W6 W7] EX Hk Hm Hj -> Hn (N1 & N2 & N3 & N4) -> HC -> HQ.
  assert (HCin := cslice_inb m B X ctrls i 1 k W1 ltac:(lia) HC). destruct HC as (C1 & C2 & C3 & C4 & C5 & C6). destruct W4 as (I1 & I2 & I3).
  assert (ES : deltas (pv prev (nums_of inp m) k) (sub (s_off nums) j (blk (mw m) (s_blk nums))) = sub k j X).
  { rewrite EX. rewrite sub_deltas by lia. f_equal. unfold nums_of. rewrite sub_sub by lia. by rewrite N1, N2. }
  pose proof (wdp_bounds X (k + j) ltac:(lia)) as Hb. pose proof (wdp_step X k j ltac:(lia) ltac:(lia)) as Hst. pose proof (wN_nonneg X).
  assert (HwN : wdp X (k + j) <= wN X) by (unfold wN; lia).
  pose proof (wdp_bounds X k ltac:(lia)).
  assert (Hcl : clip j = j) by (unfold clip; lia).
  apply wp_wstep1 with (j := j) (z := 0%nat); try done; try lia.
  - intros Q' HQ'. apply wp_PutUint32DeltaScalar; change (mw (setb m ?b ?l)) with (mw m); rewrite ?Hcl, ?ES.
    + repeat split; try lia. rewrite N1. lia.
    + apply dslice_inb; [done|lia].
    + intros; rewrite N1; apply W3; lia.
    + cbn [s_blk s_off s_len dslice]. intros; apply W2; lia.
    + intros _ _. cbn [replicate] in HQ'. rewrite app_nil_r in HQ'. done.
    + cbn [s_len dslice]. lia.
  - apply HQ. apply csizej; lia.
Qed.

Lemma wp_w8 X k k' nums data ctrls i i' (rest : Z -> prog A) Q :
  wok F m B inp n X -> X = nums_of inp m ->
  0 <= k -> k mod 4 = 0 -> k' = k + 8 -> k' <= n -> nslice inp m k 8 nums -> data = dslice B X k ->
  i' = i + 1 -> cslice B X ctrls i 2 k ->
  (ControlByteToSizeTwo (ctrl16_of (sub k 8 X)) = wdp X k' - wdp X k ->
     wp F pn (rest (ctrl16_of (sub k 8 X))) (setb m B (wst X k')) Q) ->
  wp F pn (let! ctrl := Put8uint32FastAsm (AMD64 true true) nums data EncodeShuffleTable PerControlLenTable in
           setB ctrls i (u8 (Z.land ctrl 255)) ;;; setB ctrls i' (u8 (Z.shiftr ctrl 8)) ;;; rest ctrl) (setb m B (wst X k)) Q.
Proof.
  intros [W1 W2 W3 W4 W5 W6 W7] EX Hk Hm -> Hn (N1 & N2 & N3 & N4) -> -> HC HQ.
  assert (HCin := cslice_inb m B X ctrls i 2 k W1 ltac:(lia) HC). destruct HC as (C1 & C2 & C3 & C4 & C5 & C6). destruct W4 as (I1 & I2 & I3).
  assert (ES : sub (s_off nums) 8 (blk (mw m) (s_blk nums)) = sub k 8 X).
  { rewrite EX. unfold nums_of. rewrite sub_sub by lia. by rewrite N1, N2. }
  pose proof (wdp_bounds X (k + 8) ltac:(lia)) as Hb. pose proof (wdp_step X k 8 ltac:(lia) ltac:(lia)) as Hst. pose proof (wN_nonneg X).
  pose proof (wdp_bounds X k ltac:(lia)) as Hbk.
  assert (Hg : length (sub k 8 X) = 8%nat) by (pose proof (sub_zlen k 8 X); unfold zlen in *; lia).
  set (g := sub k 8 X) in *.
  assert (Hd : zlen (enc_data g) = zlen (enc_data (take 4 g)) + zlen (enc_data (drop 4 g))) by (by rewrite <- zlen_enc_data_app, take_drop).
  pose proof (enc_data_bounds (drop 4 g)) as Hdb. rewrite drop_length in Hdb.
  pose proof (enc_data_bounds (take 4 g)) as Hdt. rewrite take_length in Hdt.
  assert (Hroom : wdp X k + zlen (enc_data (take 4 g)) + 16 <= wN X) by (unfold wN, zlen in *; lia).
  destruct (blk_wst m B X k W1 ltac:(lia)) as [E1 E2].
  apply wp_wstep2 with (z := (16 - length (enc_data (drop 4 g)))%nat); try done; try lia.
  - fold g in Hst. unfold zlen in *. lia.
  - intros Q' HQ'. cbn [s_blk s_off dslice] in HQ'. apply wp_Put8uint32FastAsm; change (mw (setb m ?b ?l)) with (mw m); rewrite ?ES; cbn [s_blk s_off s_len dslice]; fold g.
    + lia.
    + rewrite N1. lia.
    + by rewrite N1.
    + lia.
    + rewrite E1, wst_zlen by lia. lia.
    + intros; rewrite N1; apply W3; lia.
    + intros; apply W2; lia.
    + done.
  - apply HQ. apply csize8; lia.
Qed.

Lemma wp_w8d prev X k k' nums data ctrls i i' p (rest : Z -> prog A) Q :
  wok F m B inp n X -> X = deltas prev (nums_of inp m) -> is_u32 prev ->
  0 <= k -> k mod 4 = 0 -> k' = k + 8 -> k' <= n -> nslice inp m k 8 nums -> data = dslice B X k ->
  i' = i + 1 -> cslice B X ctrls i 2 k ->
  p = pv prev (nums_of inp m) k ->
  (ControlByteToSizeTwo (ctrl16_of (sub k 8 X)) = wdp X k' - wdp X k ->
     wp F pn (rest (ctrl16_of (sub k 8 X))) (setb m B (wst X k')) Q) ->
  wp F pn (let! ctrl := Put8uint32DeltaFastAsm (AMD64 true true) nums data p EncodeShuffleTable PerControlLenTable in
           setB ctrls i (u8 (Z.land ctrl 255)) ;;; setB ctrls i' (u8 (Z.shiftr ctrl 8)) ;;; rest ctrl) (setb m B (wst X k)) Q.
Proof.
  intros [W1 W2 W3 W4 W5 W6 W7] EX Hpv Hk Hm -> Hn (N1 & N2 & N3 & N4) -> -> HC -> HQ.
  assert (HCin := cslice_inb m B X ctrls i 2 k W1 ltac:(lia) HC). destruct HC as (C1 & C2 & C3 & C4 & C5 & C6). destruct W4 as (I1 & I2 & I3).
  assert (ES : deltas (pv prev (nums_of inp m) k) (sub (s_off nums) 8 (blk (mw m) (s_blk nums))) = sub k 8 X).
  { rewrite EX. rewrite sub_deltas by lia. f_equal. unfold nums_of. rewrite sub_sub by lia. by rewrite N1, N2. }
  pose proof (wdp_bounds X (k + 8) ltac:(lia)) as Hb. pose proof (wdp_step X k 8 ltac:(lia) ltac:(lia)) as Hst. pose proof (wN_nonneg X).
  pose proof (wdp_bounds X k ltac:(lia)) as Hbk.
  assert (Hg : length (sub k 8 X) = 8%nat) by (pose proof (sub_zlen k 8 X); unfold zlen in *; lia).
  set (g := sub k 8 X) in *.
  assert (Hd : zlen (enc_data g) = zlen (enc_data (take 4 g)) + zlen (enc_data (drop 4 g))) by (by rewrite <- zlen_enc_data_app, take_drop).
  pose proof (enc_data_bounds (drop 4 g)) as Hdb. rewrite drop_length in Hdb.
  pose proof (enc_data_bounds (take 4 g)) as Hdt. rewrite take_length in Hdt.
  assert (Hroom : wdp X k + zlen (enc_data (take 4 g)) + 16 <= wN X) by (unfold wN, zlen in *; lia).
  destruct (blk_wst m B X k W1 ltac:(lia)) as [E1 E2].
  apply wp_wstep2 with (z := (16 - length (enc_data (drop 4 g)))%nat); try done; try lia.
  - fold g in Hst. unfold zlen in *. lia.
  - intros Q' HQ'. cbn [s_blk s_off dslice] in HQ'. apply wp_Put8uint32DeltaFastAsm; change (mw (setb m ?b ?l)) with (mw m); rewrite ?ES; cbn [s_blk s_off s_len dslice]; fold g.
    + apply pv_u32; [done| |]; unfold nums_of; [by apply Forall_sub|rewrite sub_zlen; lia].
    + lia.
    + rewrite N1. lia.
    + by rewrite N1.
    + lia.
    + rewrite E1, wst_zlen by lia. lia.
    + intros; rewrite N1; apply W3; lia.
    + intros; apply W2; lia.
    + done.
  - apply HQ. apply csize8; lia.
Qed.
End puts.
