(** * Step rules for the stream readers *)
From stdpp Require Import prelude gmap list.
From Coq Require Import ZArith Lia.
From Verif Require Import Spec SpecLemmas GoSem Tables Shared Asm Wp Encode Decode TableProof EncodeProof EncodeProof2 SimdProof AsmProof DecodeProof DecodeProof2 WriterProof Reader.
Local Open Scope Z_scope.
Implicit Types (F : event -> Prop) (pn : Prop).

(** ** Positions in a stream *)
Definition rcl (n : Z) : Z := Z.of_nat (nctrl (Z.to_nat n)).
(** Position of the data of number [k]. *)
Definition rdp (S : list Z) (n k : Z) : Z := rcl n + Z.of_nat (sum_nat (take (Z.to_nat k) (stream_lens (Z.to_nat n) S))).

Lemma rcl_eq n : 0 <= n -> rcl n = (n + 3) / 4.
Proof. intros. unfold rcl. rewrite nctrl_div, Z2Nat.id by lia. done. Qed.
Lemma rcl_bounds n : 0 <= n -> n <= 4 * rcl n <= n + 3.
Proof. intros. rewrite rcl_eq by done. Z.to_euclidean_division_equations; lia. Qed.
Lemma rdp_0 S n : rdp S n 0 = rcl n.
Proof. unfold rdp. change (Z.of_nat (sum_nat (take (Z.to_nat 0) _))) with 0. lia. Qed.
Lemma rdp_ge S n k : rcl n <= rdp S n k.
Proof. unfold rdp. lia. Qed.

Lemma stream_lens_all S n : 0 <= n -> rcl n <= zlen S -> length (stream_lens (Z.to_nat n) S) = Z.to_nat n.
Proof.
  intros Hn Hc. unfold stream_lens. rewrite firstn_length.
  assert (L : forall cs, length (concat (map ctrl_lens cs)) = (4 * length cs)%nat).
  { induction cs as [|c cs IH]; [done|]. cbn [map concat]. rewrite app_length, IH, ctrl_lens_length. cbn [length]. lia. }
  rewrite L, firstn_length. unfold rcl, zlen in *. pose proof (rcl_bounds n Hn). unfold rcl in *. lia.
Qed.
Lemma stream_lens_range S n : Forall (fun l => (1 <= l <= 4)%nat) (stream_lens n S).
Proof.
  unfold stream_lens. apply Forall_take. generalize (firstn (nctrl n) S) as cs.
  induction cs as [|c cs IH]; [constructor|]. cbn [map concat]. apply Forall_app. split; [apply ctrl_lens_range|done].
Qed.

Lemma drop_concat cs i : drop (4 * i) (concat (map ctrl_lens cs)) = concat (map ctrl_lens (drop i cs)).
Proof.
  revert cs. induction i as [|i IH]; intros cs; [done|].
  destruct cs as [|c cs]; [by rewrite drop_nil|]. cbn [map concat drop]. rewrite <- IH.
  rewrite drop_app_ge by (rewrite ctrl_lens_length; lia). rewrite ctrl_lens_length. f_equal. lia.
Qed.
(** Lengths of (the beginning of) group [k / 4]. *)
Lemma lens_group S n k j : 0 <= k -> k mod 4 = 0 -> 0 <= j <= 4 -> k + j <= n -> rcl n <= zlen S ->
  take (Z.to_nat j) (drop (Z.to_nat k) (stream_lens (Z.to_nat n) S)) = take (Z.to_nat j) (ctrl_lens (at_ S (k / 4))).
Proof.
  intros Hk Hm Hj Hn Hc. destruct (decide (j = 0)) as [->|Hj0]; [done|].
  pose proof (rcl_bounds n ltac:(lia)).
  assert (Hi : k / 4 < rcl n) by (rewrite rcl_eq by lia; Z.to_euclidean_division_equations; lia).
  assert (0 <= k / 4) by (apply Z.div_pos; lia).
  unfold stream_lens. change (firstn ?a ?b) with (take a b). rewrite skipn_firstn_comm, take_take.
  replace (Z.to_nat j `min` (Z.to_nat n - Z.to_nat k))%nat with (Z.to_nat j) by lia.
  replace (Z.to_nat k) with (4 * Z.to_nat (k / 4))%nat by (Z.to_euclidean_division_equations; lia).
  rewrite drop_concat.
  assert (L : take (nctrl (Z.to_nat n)) S !! Z.to_nat (k / 4) = Some (at_ S (k / 4))).
  { rewrite lookup_take by (unfold rcl in *; lia). apply lookup_at. lia. }
  rewrite (drop_S _ _ _ L). cbn [map concat]. rewrite take_app_le by (rewrite ctrl_lens_length; lia). done.
Qed.
Lemma rdp_step S n k j : 0 <= k -> k mod 4 = 0 -> 0 <= j <= 4 -> k + j <= n -> rcl n <= zlen S ->
  rdp S n (k + j) = rdp S n k + sizek (at_ S (k / 4)) (Z.to_nat j).
Proof.
  intros. unfold rdp, sizek. rewrite Z2Nat.inj_add by lia.
  rewrite <- take_take_drop, sum_nat_app, lens_group by done. lia.
Qed.
Lemma sum_nat_take_mono (l : list nat) i j : (i <= j)%nat -> (sum_nat (take i l) <= sum_nat (take j l))%nat.
Proof.
  intros. replace j with (i + (j - i))%nat at 1 by lia. rewrite <- take_take_drop, sum_nat_app. lia.
Qed.
Lemma rdp_mono S n k k' : 0 <= k <= k' -> rdp S n k <= rdp S n k'.
Proof. intros. unfold rdp. pose proof (sum_nat_take_mono (stream_lens (Z.to_nat n) S) (Z.to_nat k) (Z.to_nat k') ltac:(lia)). lia. Qed.
Lemma rdp_end S n : 0 <= n -> rdp S n n = Z.of_nat (stream_size (Z.to_nat n) S).
Proof.
  intros. unfold rdp, stream_size, rcl. rewrite take_ge; [lia|]. unfold stream_lens. rewrite firstn_length. lia.
Qed.
Lemma sum_nat_bounds (l : list nat) : Forall (fun l => (1 <= l <= 4)%nat) l -> (length l <= sum_nat l <= 4 * length l)%nat.
Proof. induction 1 as [|x l Hx _ IH]; [done|]. rewrite sum_nat_cons. cbn [length]. lia. Qed.
Lemma rdp_bounds S n k : 0 <= k <= n -> rdp S n k <= rcl n + 4 * k.
Proof.
  intros. unfold rdp. pose proof (sum_nat_bounds (take (Z.to_nat k) (stream_lens (Z.to_nat n) S)) (Forall_take _ _ _ (stream_lens_range _ _))) as Hb.
  rewrite take_length in Hb. lia.
Qed.
Lemma rdp_diff S n k k' : 0 <= k <= k' -> k' <= n -> rcl n <= zlen S -> rdp S n k + (k' - k) <= rdp S n k' <= rdp S n k + 4 * (k' - k).
Proof.
  intros. unfold rdp. set (l := stream_lens (Z.to_nat n) S).
  assert (Hl : length l = Z.to_nat n) by (apply stream_lens_all; lia).
  replace (Z.to_nat k') with (Z.to_nat k + (Z.to_nat k' - Z.to_nat k))%nat by lia.
  rewrite <- take_take_drop, sum_nat_app.
  pose proof (sum_nat_bounds (take (Z.to_nat k' - Z.to_nat k) (drop (Z.to_nat k) l))) as Hb.
  rewrite take_length, drop_length, Hl in Hb.
  assert (Hf : Forall (λ l, (1 <= l <= 4)%nat) (take (Z.to_nat k' - Z.to_nat k) (drop (Z.to_nat k) l))).
  { apply Forall_take, Forall_drop, stream_lens_range. }
  specialize (Hb Hf). lia.
Qed.

(** ** The numbers *)
Definition rD (S : list Z) (n : Z) : list Z := decode_stream (Z.to_nat n) S.
Lemma rD_zlen S n : 0 <= n -> rcl n <= zlen S -> zlen (rD S n) = n.
Proof. intros. unfold rD, decode_stream, zlen. rewrite map_length, cut_length, stream_lens_all by done. lia. Qed.
Lemma rD_group S n k j : 0 <= k -> k mod 4 = 0 -> 0 <= j <= 4 -> k + j <= n -> rcl n <= zlen S ->
  sub k j (rD S n) = numsk (at_ S (k / 4)) (Z.to_nat j) (drop (Z.to_nat (rdp S n k)) S).
Proof.
  intros Hk Hm Hj Hn Hc. pose proof (stream_lens_all S n ltac:(lia) Hc) as Hl.
  unfold sub, rD, decode_stream, numsk. rewrite <- (lens_group S n k j) by done.
  set (l := stream_lens (Z.to_nat n) S) in *. set (d := skipn (nctrl (Z.to_nat n)) S).
  rewrite <- (take_drop (Z.to_nat k) l) at 1. rewrite <- (take_drop (Z.to_nat j) (drop (Z.to_nat k) l)) at 1.
  rewrite !cut_app, !map_app.
  rewrite drop_app_ge by (rewrite map_length, cut_length, take_length; lia).
  rewrite map_length, cut_length, take_length, Hl. replace (Z.to_nat k - _)%nat with 0%nat by lia. rewrite drop_0.
  rewrite take_app_alt.
  - f_equal. f_equal. subst d. change (skipn ?a ?b) with (drop a b). rewrite drop_drop. f_equal.
    unfold rdp, rcl. fold l. lia.
  - rewrite map_length, cut_length, take_length, drop_length, Hl. lia.
Qed.

Lemma numsk_sub c j r o n l : 0 <= o -> 0 <= r -> (j <= 4)%nat -> r + sizek c j <= n ->
  numsk c j (drop (Z.to_nat r) (sub o n l)) = numsk c j (drop (Z.to_nat (o + r)) l).
Proof.
  intros. pose proof (sizek_nonneg c j). unfold sub. rewrite skipn_firstn_comm, drop_drop. unfold numsk.
  rewrite cut_take.
  - do 4 f_equal. lia.
  - unfold sizek in *. lia.
Qed.

(** ** Situation of a reader *)
Record rok (F : event -> Prop) (m : mem) (st out : slice) (n : Z) (S : list Z) : Prop := {
  r_st : inb (mb m) st;
  r_out : inb (mw m) out;
  r_by : Forall is_byte (blk (mb m) (s_blk st));
  r_S : S = sub (s_off st) (s_len st) (blk (mb m) (s_blk st));
  r_n : 0 <= n;
  r_rd : forall j, s_off st <= j < s_off st + s_len st -> j < s_off st + rdp S n n -> F (ERdB (s_blk st) j);
  r_wr : forall j, s_off out <= j < s_off out + n -> j < s_off out + s_cap out -> F (EWrW (s_blk out) j) }.

Definition rmem (m : mem) (out : slice) (R : list Z) : mem :=
  setw m (s_blk out) (splice (s_off out) R (blk (mw m) (s_blk out))).

Lemma rmem_nil m out : rmem m out [] = m.
Proof. unfold rmem. rewrite splice_nil. apply setw_id. Qed.
Lemma rmem_blk m out R : inb (mw m) out -> zlen R <= s_cap out ->
  blk (mw (rmem m out R)) (s_blk out) = splice (s_off out) R (blk (mw m) (s_blk out)) /\
  length (splice (s_off out) R (blk (mw m) (s_blk out))) = length (blk (mw m) (s_blk out)).
Proof.
  intros (H1 & H2 & H3) HR. unfold rmem.
  assert (E : length (splice (s_off out) R (blk (mw m) (s_blk out))) = length (blk (mw m) (s_blk out))) by (apply splice_length; lia).
  split; [by apply blk_setw|done].
Qed.
Lemma rmem_inb m out R s : inb (mw m) out -> zlen R <= s_cap out -> inb (mw m) s -> inb (mw (rmem m out R)) s.
Proof. intros H HR Hs. destruct (rmem_blk m out R H HR) as [_ E]. by apply inb_setw. Qed.
Lemma rmem_step m out R k j vals : inb (mw m) out -> 0 <= k -> 0 <= j -> k + j <= zlen R -> k + j <= s_cap out -> vals = sub k j R ->
  setw (rmem m out (pre R k)) (s_blk out) (splice (s_off out + k) vals (blk (mw (rmem m out (pre R k))) (s_blk out))) =
  rmem m out (pre R (k + j)).
Proof.
  intros Hin Hk Hj HR Hc ->. assert (Hp : zlen (pre R k) = k) by (apply zlen_pre; lia).
  destruct (rmem_blk m out (pre R k) Hin ltac:(lia)) as [E1 E2]. rewrite E1. unfold rmem at 1. rewrite setw_setw.
  rewrite <- Hp at 1. destruct Hin as (H1 & H2 & H3). rewrite splice_app_l; [|lia|rewrite Hp, sub_zlen; lia].
  rewrite <- pre_app by lia. done.
Qed.

(** Windows on the stream and on the output. *)
Definition rdata (st : slice) (S : list Z) (n k : Z) (data : slice) : Prop :=
  s_blk data = s_blk st /\ s_off data = s_off st + rdp S n k /\ s_len data = s_len st - rdp S n k /\ s_cap data = s_cap st - rdp S n k.
Definition rnums (out : slice) (k : Z) (nums : slice) : Prop :=
  s_blk nums = s_blk out /\ s_off nums = s_off out + k /\ 0 <= s_len nums <= s_cap nums /\ s_off nums + s_cap nums <= s_off out + s_cap out.

Lemma rok_zlen F m st out n S : rok F m st out n S -> zlen S = s_len st.
Proof. intros [(H1 & H2 & H3) _ _ -> _ _ _]. apply sub_zlen; lia. Qed.
Lemma rok_ctrl F m st out n S i : rok F m st out n S -> 0 <= i < s_len st ->
  at_ (blk (mb m) (s_blk st)) (s_off st + i) = at_ S i /\ is_byte (at_ S i).
Proof.
  intros [(H1 & H2 & H3) _ Hb -> _ _ _] Hi. rewrite at_sub by lia. split; [done|].
  apply Forall_at; [done|]. lia.
Qed.

Lemma rok_group F m st out n S k j : rok F m st out n S -> 0 <= k -> k mod 4 = 0 -> 0 <= j <= 4 -> k + j <= n ->
  rcl n <= s_len st -> rdp S n k + sizek (at_ S (k / 4)) (Z.to_nat j) <= s_len st ->
  numsk (at_ S (k / 4)) (Z.to_nat j) (drop (Z.to_nat (s_off st + rdp S n k)) (blk (mb m) (s_blk st))) = sub k j (rD S n).
Proof.
  intros Hok Hk Hm Hj Hn Hc Hs. pose proof (rok_zlen _ _ _ _ _ _ Hok) as HS. pose proof (rcl_bounds n (r_n _ _ _ _ _ _ Hok)).
  rewrite rD_group by (done || lia). pose proof (rdp_ge S n k). destruct Hok as [(I1 & I2 & I3) Hout Hby HSe _ Hrd Hwr].
  set (c := at_ S (k / 4)) in *. set (r := rdp S n k) in *. rewrite HSe. symmetry. apply numsk_sub; lia.
Qed.

Section steps.
Context {A : Type} (F : event -> Prop) (pn : Prop) (m : mem) (st out : slice) (n : Z) (S : list Z).

Lemma wp_r4 k k' data nums (rest : prog A) Q :
  let R := rD S n in
  rok F m st out n S -> 0 <= k -> k mod 4 = 0 -> k' = k + 4 -> k' <= n -> rdp S n k <= s_len st ->
  rdata st S n k data -> rnums out k nums ->
  (rdp S n k' <= s_len st -> 4 <= s_len nums -> ControlByteToSize (at_ S (k / 4)) = rdp S n k' - rdp S n k ->
     wp F pn rest (rmem m out (pre R k')) Q) ->
  (s_len st < rdp S n k' \/ s_len nums < 4 -> pn) ->
  wp F pn (Get4uint32Scalar data nums (at_ S (k / 4)) ;;; rest) (rmem m out (pre R k)) Q.
Proof.
  intros R Hok Hk Hm -> Hn Hd (D1 & D2 & D3 & D4) (N1 & N2 & N3 & N4) HQ Hp.
  pose proof (rok_zlen _ _ _ _ _ _ Hok) as HS. pose proof (rdp_ge S n k) as Hge. pose proof (rcl_bounds n (r_n _ _ _ _ _ _ Hok)) as Hcl.
  assert (Hdiv : 0 <= k / 4 < rcl n) by (rewrite rcl_eq by lia; Z.to_euclidean_division_equations; lia).
  destruct (rok_ctrl _ _ _ _ _ _ (k / 4) Hok ltac:(lia)) as [_ Hc].
  pose proof (rdp_step S n k 4 ltac:(lia) Hm ltac:(lia) ltac:(lia) ltac:(lia)) as Hst. change (Z.to_nat 4) with 4%nat in Hst. rewrite sizek_4 in Hst.
  pose proof (rD_zlen S n ltac:(lia) ltac:(lia)) as HR. fold R in HR. pose proof Hok as Hok'.
  destruct Hok as [(I1 & I2 & I3) Hout Hby HSe _ Hrd Hwr]. assert (Hout' := Hout). destruct Hout as (O1 & O2 & O3).
  assert (Hpk : zlen (pre R k) = k) by (apply zlen_pre; lia).
  pose proof (rdp_mono S n (k + 4) n ltac:(lia)) as Hmon.
  set (c := at_ S (k / 4)) in *.
  apply wp_bind, wp_Get4uint32Scalar; change (mb (rmem m out ?r)) with (mb m).
  - done.
  - repeat split; try lia. rewrite D1. lia.
  - apply rmem_inb; [done|lia|]. repeat split; try lia. rewrite N1. lia.
  - by rewrite D1.
  - intros. rewrite D1. apply Hrd; lia.
  - intros. rewrite N1. apply Hwr; lia.
  - intros G1 G2. rewrite D1, D2, N1, N2.
    rewrite (rmem_step m out R k 4); [apply HQ; [lia|lia|]|done|lia|lia|lia|lia|].
    + rewrite ControlByteToSize_lens by done. lia.
    + unfold R. rewrite <- (rok_group _ _ _ _ _ _ k 4 Hok') by (done || lia || (change (Z.to_nat 4) with 4%nat; fold c; rewrite ?sizek_4; lia)).
      fold c. change (Z.to_nat 4) with 4%nat. by rewrite numsk_4.
  - intros. apply Hp. lia.
Qed.

Lemma wp_rj k k' j data nums (rest : Z -> prog A) Q :
  let R := rD S n in
  rok F m st out n S -> 0 <= k -> k mod 4 = 0 -> 0 <= j <= 4 -> k' = k + j -> k < n -> k' <= n -> rdp S n k <= s_len st ->
  rdata st S n k data -> rnums out k nums ->
  (rdp S n k' <= s_len st -> j <= s_len nums -> 
     wp F pn (rest (rdp S n k' - rdp S n k)) (rmem m out (pre R k')) Q) ->
  (s_len st < rdp S n k' \/ s_len nums < j -> pn) ->
  wp F pn (let! x := GetUint32Scalar data nums (at_ S (k / 4)) j in rest x) (rmem m out (pre R k)) Q.
Proof.
  intros R Hok Hk Hm Hj -> Hkn Hn Hd (D1 & D2 & D3 & D4) (N1 & N2 & N3 & N4) HQ Hp.
  pose proof (rok_zlen _ _ _ _ _ _ Hok) as HS. pose proof (rdp_ge S n k) as Hge. pose proof (rcl_bounds n (r_n _ _ _ _ _ _ Hok)) as Hcl.
  assert (Hdiv : 0 <= k / 4 < rcl n) by (rewrite rcl_eq by lia; Z.to_euclidean_division_equations; lia).
  destruct (rok_ctrl _ _ _ _ _ _ (k / 4) Hok ltac:(lia)) as [_ Hc].
  pose proof (rdp_step S n k j ltac:(lia) Hm ltac:(lia) ltac:(lia) ltac:(lia)) as Hst.
  pose proof (rD_zlen S n ltac:(lia) ltac:(lia)) as HR. fold R in HR. pose proof Hok as Hok'.
  destruct Hok as [(I1 & I2 & I3) Hout Hby HSe _ Hrd Hwr]. assert (Hout' := Hout). destruct Hout as (O1 & O2 & O3).
  assert (Hpk : zlen (pre R k) = k) by (apply zlen_pre; lia).
  pose proof (rdp_mono S n (k + j) n ltac:(lia)) as Hmon.
  assert (Hcj : clip j = j) by (unfold clip; lia).
  set (c := at_ S (k / 4)) in *.
  apply wp_bind, wp_GetUint32Scalar; change (mb (rmem m out ?r)) with (mb m); rewrite ?Hcj.
  - done.
  - repeat split; try lia. rewrite D1. lia.
  - apply rmem_inb; [done|lia|]. repeat split; try lia. rewrite N1. lia.
  - by rewrite D1.
  - intros. rewrite D1. apply Hrd; lia.
  - intros. rewrite N1. apply Hwr; lia.
  - intros G1 G2. rewrite D1, D2, N1, N2. replace (sizek c (Z.to_nat j)) with (rdp S n (k + j) - rdp S n k) by lia.
    rewrite (rmem_step m out R k j); [apply HQ; lia|done|lia|lia|lia|lia|].
    unfold R. rewrite <- (rok_group _ _ _ _ _ _ k j Hok') by (done || (fold c; lia)). done.
  - intros. apply Hp. lia.
Qed.

(** Differences: the output is the running sums of the decoded numbers. *)
Lemma pre_running_sums p xs k : pre (running_sums p xs) k = running_sums p (pre xs k).
Proof.
  unfold pre. generalize (Z.to_nat k) as i. intros i. revert p xs. induction i as [|i IH]; intros p xs; [done|].
  destruct xs as [|x xs]; [done|]. cbn [running_sums take]. by rewrite IH.
Qed.
Lemma sub_running_sums p xs k j : 0 <= k -> 0 <= j ->
  sub k j (running_sums p xs) = running_sums (pv p (running_sums p xs) k) (sub k j xs).
Proof.
  intros. apply (app_inv_head (pre (running_sums p xs) k)). rewrite <- pre_app by done. unfold pv.
  rewrite !pre_running_sums, pre_app by done. by rewrite running_sums_app.
Qed.

Lemma wp_r4d prev k k' p data nums (rest : prog A) Q :
  let R := running_sums prev (rD S n) in
  rok F m st out n S -> (forall j, s_off out <= j < s_off out + n -> j < s_off out + s_cap out -> F (ERdW (s_blk out) j)) ->
  0 <= k -> k mod 4 = 0 -> k' = k + 4 -> k' <= n -> rdp S n k <= s_len st ->
  rdata st S n k data -> rnums out k nums -> p = pv prev R k ->
  (rdp S n k' <= s_len st -> 4 <= s_len nums -> ControlByteToSize (at_ S (k / 4)) = rdp S n k' - rdp S n k ->
     wp F pn rest (rmem m out (pre R k')) Q) ->
  (s_len st < rdp S n k' \/ s_len nums < 4 -> pn) ->
  wp F pn (Get4uint32DeltaScalar data nums (at_ S (k / 4)) p ;;; rest) (rmem m out (pre R k)) Q.
Proof.
  intros R Hok Hro Hk Hm -> Hn Hd (D1 & D2 & D3 & D4) (N1 & N2 & N3 & N4) -> HQ Hp.
  pose proof (rok_zlen _ _ _ _ _ _ Hok) as HS. pose proof (rdp_ge S n k) as Hge. pose proof (rcl_bounds n (r_n _ _ _ _ _ _ Hok)) as Hcl.
  assert (Hdiv : 0 <= k / 4 < rcl n) by (rewrite rcl_eq by lia; Z.to_euclidean_division_equations; lia).
  destruct (rok_ctrl _ _ _ _ _ _ (k / 4) Hok ltac:(lia)) as [_ Hc].
  pose proof (rdp_step S n k 4 ltac:(lia) Hm ltac:(lia) ltac:(lia) ltac:(lia)) as Hst. change (Z.to_nat 4) with 4%nat in Hst. rewrite sizek_4 in Hst.
  assert (HR : zlen R = n) by (unfold R; rewrite zlen_running_sums; apply rD_zlen; lia). pose proof Hok as Hok'.
  destruct Hok as [(I1 & I2 & I3) Hout Hby HSe _ Hrd Hwr]. assert (Hout' := Hout). destruct Hout as (O1 & O2 & O3).
  assert (Hpk : zlen (pre R k) = k) by (apply zlen_pre; lia).
  pose proof (rdp_mono S n (k + 4) n ltac:(lia)) as Hmon.
  set (c := at_ S (k / 4)) in *.
  apply wp_bind, wp_Get4uint32DeltaScalar; change (mb (rmem m out ?r)) with (mb m).
  - done.
  - repeat split; try lia. rewrite D1. lia.
  - apply rmem_inb; [done|lia|]. repeat split; try lia. rewrite N1. lia.
  - by rewrite D1.
  - intros. rewrite D1. apply Hrd; lia.
  - intros. rewrite N1. split; [apply Hwr; lia|apply Hro; lia].
  - intros G1 G2. rewrite D1, D2, N1, N2.
    rewrite (rmem_step m out R k 4); [apply HQ; [lia|lia|]|done|lia|lia|lia|lia|].
    + rewrite ControlByteToSize_lens by done. lia.
    + unfold R at 2. rewrite sub_running_sums by lia. fold R. f_equal. rewrite <- (rok_group _ _ _ _ _ _ k 4 Hok') by (done || lia || (change (Z.to_nat 4) with 4%nat; fold c; rewrite ?sizek_4; lia)).
      fold c. change (Z.to_nat 4) with 4%nat. by rewrite numsk_4.
  - intros. apply Hp. lia.
Qed.

Lemma wp_rjd prev k k' j p data nums (rest : Z -> prog A) Q :
  let R := running_sums prev (rD S n) in
  rok F m st out n S -> 0 <= k -> k mod 4 = 0 -> 0 <= j <= 4 -> k' = k + j -> k < n -> k' <= n -> rdp S n k <= s_len st ->
  rdata st S n k data -> rnums out k nums -> p = pv prev R k ->
  (rdp S n k' <= s_len st -> j <= s_len nums -> 
     wp F pn (rest (rdp S n k' - rdp S n k)) (rmem m out (pre R k')) Q) ->
  (s_len st < rdp S n k' \/ s_len nums < j -> pn) ->
  wp F pn (let! x := GetUint32DeltaScalar data nums (at_ S (k / 4)) j p in rest x) (rmem m out (pre R k)) Q.
Proof.
  intros R Hok Hk Hm Hj -> Hkn Hn Hd (D1 & D2 & D3 & D4) (N1 & N2 & N3 & N4) -> HQ Hp.
  pose proof (rok_zlen _ _ _ _ _ _ Hok) as HS. pose proof (rdp_ge S n k) as Hge. pose proof (rcl_bounds n (r_n _ _ _ _ _ _ Hok)) as Hcl.
  assert (Hdiv : 0 <= k / 4 < rcl n) by (rewrite rcl_eq by lia; Z.to_euclidean_division_equations; lia).
  destruct (rok_ctrl _ _ _ _ _ _ (k / 4) Hok ltac:(lia)) as [_ Hc].
  pose proof (rdp_step S n k j ltac:(lia) Hm ltac:(lia) ltac:(lia) ltac:(lia)) as Hst.
  assert (HR : zlen R = n) by (unfold R; rewrite zlen_running_sums; apply rD_zlen; lia). pose proof Hok as Hok'.
  destruct Hok as [(I1 & I2 & I3) Hout Hby HSe _ Hrd Hwr]. assert (Hout' := Hout). destruct Hout as (O1 & O2 & O3).
  assert (Hpk : zlen (pre R k) = k) by (apply zlen_pre; lia).
  pose proof (rdp_mono S n (k + j) n ltac:(lia)) as Hmon.
  assert (Hcj : clip j = j) by (unfold clip; lia).
  set (c := at_ S (k / 4)) in *.
  apply wp_bind, wp_GetUint32DeltaScalar; change (mb (rmem m out ?r)) with (mb m); rewrite ?Hcj.
  - done.
  - repeat split; try lia. rewrite D1. lia.
  - apply rmem_inb; [done|lia|]. repeat split; try lia. rewrite N1. lia.
  - by rewrite D1.
  - intros. rewrite D1. apply Hrd; lia.
  - intros. rewrite N1. apply Hwr; lia.
  - intros G1 G2. rewrite D1, D2, N1, N2. replace (sizek c (Z.to_nat j)) with (rdp S n (k + j) - rdp S n k) by lia.
    rewrite (rmem_step m out R k j); [apply HQ; lia|done|lia|lia|lia|lia|].
    unfold R at 2. rewrite sub_running_sums by lia. fold R. f_equal. rewrite <- (rok_group _ _ _ _ _ _ k j Hok') by (done || (fold c; lia)). done.
  - intros. apply Hp. lia.
Qed.

(** Reading a control byte. *)
Lemma wp_rctrl R ctrls i q (rest : Z -> prog A) Q :
  rok F m st out n S -> s_blk ctrls = s_blk st -> s_off ctrls + i = s_off st + q -> 0 <= q < rcl n -> q < s_len st ->
  0 <= s_off ctrls -> s_len ctrls <= s_cap ctrls -> 
  s_off ctrls + s_cap ctrls <= s_off st + s_cap st -> 0 <= i < s_len ctrls ->
  wp F pn (rest (at_ S q)) (rmem m out R) Q ->
  wp F pn (let! c := getB ctrls i in rest c) (rmem m out R) Q.
Proof.
  intros Hok C1 C2 Hq Hqs C3 C4 C5 Hi HQ.
  destruct (rok_ctrl _ _ _ _ _ _ q Hok ltac:(lia)) as [Hc _]. pose proof (rdp_ge S n n) as Hge.
  destruct Hok as [(I1 & I2 & I3) Hout Hby HSe _ Hrd Hwr].
  apply wp_bind, wp_getB; change (mb (rmem m out ?r)) with (mb m).
  - repeat split; try lia. rewrite C1. lia.
  - intros _. rewrite C1, C2. split; [apply Hrd; lia|]. by rewrite Hc.
  - lia.
Qed.

(** Reading back the last number written. *)
Lemma wp_rlast prev R k' nums i q (rest : Z -> prog A) Q :
  rok F m st out n S -> (forall j, s_off out <= j < s_off out + n -> j < s_off out + s_cap out -> F (ERdW (s_blk out) j)) ->
  zlen R = n -> rnums out q nums -> 0 <= q -> 0 <= i -> k' = q + i + 1 -> k' <= n ->
  (0 <= i < s_len nums -> wp F pn (rest (pv prev R k')) (rmem m out (pre R k')) Q) ->
  (s_len nums <= i -> pn) ->
  wp F pn (let! x := getW nums i in rest x) (rmem m out (pre R k')) Q.
Proof.
  intros Hok Hro HR (N1 & N2 & N3 & N4) Hq Hi -> Hn HQ Hp.
  destruct Hok as [(I1 & I2 & I3) Hout Hby HSe _ Hrd Hwr]. assert (Hout' := Hout). destruct Hout as (O1 & O2 & O3).
  destruct (decide (s_len nums <= i)) as [Hs|Hs].
  { apply wp_bind. unfold getW. apply wp_bind, wp_check_idx; [lia|]. intros; by apply Hp. }
  assert (Hpk : zlen (pre R (q + i + 1)) = q + i + 1) by (apply zlen_pre; lia).
  destruct (rmem_blk m out (pre R (q + i + 1)) Hout' ltac:(lia)) as [E1 E2].
  apply wp_bind, wp_getW.
  - apply rmem_inb; [done|lia|]. repeat split; try lia. rewrite N1. lia.
  - intros _. rewrite N1, N2. split; [apply Hro; lia|]. rewrite E1. rewrite at_splice by lia.
    unfold pv in HQ. rewrite last_at in HQ by (intros E; rewrite E in Hpk; unfold zlen in Hpk; cbn in Hpk; lia).
    rewrite Hpk in HQ. replace (s_off out + q + i - s_off out) with (q + i + 1 - 1) by lia. apply HQ. lia.
  - lia.
Qed.
End steps.
