(** * Rules for the functions of pkg/util *)
From stdpp Require Import prelude gmap list.
From Coq Require Import ZArith Lia.
From Verif Require Import Spec SpecLemmas GoSem Wp TableProof EncodeProof EncodeProof2 DecodeProof DecodeProof2 ReaderProof Api ApiLemmas Util UtilSpec.
Local Open Scope Z_scope.
Implicit Types (F : event -> Prop) (pn : Prop).

(** ** Storing element after element *)
Lemma bmem_nil m out : bmem m out [] = m.
Proof. unfold bmem. rewrite splice_nil. apply setb_id. Qed.
Lemma rmem_snoc m out R v : fits (mw m) out -> zlen R < s_len out ->
  setw (rmem m out R) (s_blk out) (splice (s_off out + zlen R) [v] (blk (mw (rmem m out R)) (s_blk out))) = rmem m out (R ++ [v]).
Proof.
  intros Hf HR. pose proof Hf as (H1 & H2 & H3). destruct (rmem_blk m out R Hf ltac:(lia)) as [E _]. rewrite E. unfold rmem. rewrite setw_setw. f_equal.
  apply splice_app_l; [done|]. rewrite zlen_cons, zlen_nil. unfold zlen, blk in *. lia.
Qed.
Lemma bmem_app m out D k v o : fits (mb m) out -> zlen D + zlen v <= s_len out -> k = zlen D -> o = s_off out + k ->
  setb (bmem m out D) (s_blk out) (splice o v (blk (mb (bmem m out D)) (s_blk out))) = bmem m out (D ++ v).
Proof.
  intros Hf HR -> ->. pose proof Hf as (H1 & H2 & H3). pose proof (zlen_nonneg v). rewrite bmem_blk by (done || lia). unfold bmem. rewrite setb_setb. f_equal.
  apply splice_app_l; [done|]. unfold zlen, blk in *. lia.
Qed.
Lemma bmem_inb m out D s : fits (mb m) out -> zlen D <= s_cap out -> inb (mb m) s -> inb (mb (bmem m out D)) s.
Proof.
  intros (H1 & H2 & H3) HD Hs. unfold bmem. apply inb_setb; [|done]. apply splice_length; unfold zlen, blk in *; lia.
Qed.

(** ** Delta *)
Section Delta.
Variables (inp out : slice) (m : mem) (R : list Z) (F : event -> Prop) (pn : Prop) (Q : unit -> mem -> Prop).
Hypotheses (Hi : fits (mw m) inp) (Ho : fits (mw m) out) (Hsz : s_len inp <= 2 ^ 52).
Hypothesis HR : zlen R = s_len inp.
Hypothesis HF1 : forall i, 0 <= i < s_len inp -> F (ERdW (s_blk inp) (s_off inp + i)).
Hypothesis HF2 : forall i, 0 <= i < s_len inp -> i < s_len out -> F (EWrW (s_blk out) (s_off out + i)).
(** [R] is what the loop computes, element by element, from the memory of the moment. *)
Hypothesis Hstep : forall i, 0 <= i < s_len inp -> i < s_len out ->
  let L := blk (mw (rmem m out (take (Z.to_nat i) R))) (s_blk inp) in
  at_ R i = if 0 <? i then u32 (at_ L (s_off inp + i) - at_ L (s_off inp + (i - 1))) else at_ L (s_off inp + i).
Lemma wp_Delta : (s_len inp <= s_len out -> Q tt (rmem m out R)) -> (~ s_len inp <= s_len out -> pn) -> wp F pn (Delta inp out) m Q.
Proof.
  intros HQ Hpn. unfold Delta. apply wp_bind.
  pose proof Hi as (I1 & I2 & I3). pose proof Ho as (O1 & O2 & O3).
  eapply (wp_while F pn (fun i m' => 0 <= i <= s_len inp /\ i <= s_len out /\ m' = rmem m out (take (Z.to_nat i) R)) (fun i => s_len inp - i)).
  - split; [lia|]. split; [lia|]. cbn [Z.to_nat]. change (take 0 R) with (@nil Z). by rewrite rmem_nil.
  - lia.
  - lia.
  - intros i m' (A1 & A2 & ->) Hc _. apply Z.ltb_lt in Hc. set (m' := rmem m out (take (Z.to_nat i) R)).
    assert (Ht : zlen (take (Z.to_nat i) R) = i) by (apply zlen_take; lia).
    assert (Hi' : inb (mw m') inp) by (apply rmem_inb; [done|lia|done]). assert (Ho' : inb (mw m') out) by (apply rmem_inb; [done|lia|done]).
    assert (Hw : forall v, (i < s_len out -> at_ R i = v) ->
      wp F pn (setW out i v) m' (fun _ m1 => wp F pn (Ret (iadd i 1)) m1 (fun i' m2 => (0 <= i' <= s_len inp /\ i' <= s_len out /\ m2 = rmem m out (take (Z.to_nat i') R)) /\ 0 <= s_len inp - i' < s_len inp - i))).
    { intros v Hv. apply wp_setW; [done| |intros Hn; apply Hpn; lia]. intros Hlt. split; [apply HF2; lia|]. cbn [wp]. rewrite iadd_small by lia.
      split; [|lia]. split; [lia|]. split; [lia|]. unfold m'. rewrite <- Ht at 2. rewrite rmem_snoc by (done || lia). f_equal.
      replace (Z.to_nat (i + 1)) with (S (Z.to_nat i)) by lia. rewrite (take_S_r R (Z.to_nat i) v); [done|]. rewrite <- Hv by lia. apply lookup_at. lia. }
    apply wp_bind. specialize (Hstep i ltac:(lia)). cbn in Hstep. fold m' in Hstep. destruct (Z.ltb_spec 0 i).
    + apply wp_bind. apply wp_getW; [done| |lia]. intros _. split; [apply HF1; lia|]. apply wp_bind. rewrite isub_small by lia.
      apply wp_getW; [done| |lia]. intros _. split; [apply HF1; lia|]. by apply Hw.
    + apply wp_bind. apply wp_getW; [done| |lia]. intros _. split; [apply HF1; lia|]. by apply Hw.
  - intros i m' (A1 & A2 & ->) Hc. apply Z.ltb_ge in Hc. cbn [wp]. replace i with (s_len inp) by lia.
    rewrite take_ge by (unfold zlen in HR; lia). apply HQ. lia.
Qed.
End Delta.

(** ** Varints: facts about the format *)
Lemma uv_val_app p q : uv_val (p ++ q) = uv_val p + 128 ^ zlen p * uv_val q.
Proof.
  induction p as [|b p IH]; [cbn [app uv_val]; change (128 ^ zlen []) with 1; lia|]. cbn [app uv_val]. rewrite IH, zlen_cons, Z.pow_add_r by (done || apply zlen_nonneg).
  change (128 ^ 1) with 128. lia.
Qed.
Lemma uv_val_range p : 0 <= uv_val p < 128 ^ zlen p.
Proof.
  induction p as [|b p IH]; [done|]. cbn [uv_val]. rewrite zlen_cons, Z.pow_add_r by (done || apply zlen_nonneg). change (128 ^ 1) with 128.
  pose proof (Z.mod_pos_bound b 128 ltac:(lia)). lia.
Qed.
Lemma uv_terminated n x : 0 <= x < 128 * 128 ^ Z.of_nat n -> terminated (uv n x) /\ uv_val (uv n x) = x /\ (length (uv n x) <= S n)%nat /\ Forall is_byte (uv n x).
Proof.
  revert x. induction n as [|n IH]; intros x Hx; cbn [uv].
  - change (128 * 128 ^ Z.of_nat 0) with 128 in Hx. split; [exists [], x; split; [done|]; split; [done|lia]|].
    split; [cbn [uv_val]; rewrite Z.mod_small; lia|]. split; [done|]. constructor; [unfold is_byte; lia|done].
  - destruct (Z.ltb_spec x 128).
    + split; [exists [], x; split; [done|]; split; [done|lia]|].
      split; [cbn [uv_val]; rewrite Z.mod_small; lia|]. split; [cbn; lia|]. constructor; [unfold is_byte; lia|done].
    + assert (Hd : 0 <= x / 128 < 128 * 128 ^ Z.of_nat n).
      { rewrite Nat2Z.inj_succ, Z.pow_succ_r in Hx by lia. split; [apply Z.div_pos; lia|apply Z.div_lt_upper_bound; lia]. }
      destruct (IH _ Hd) as ((q & b & E & Hq & Hb) & IV & IL & IB). pose proof (Z.mod_pos_bound x 128 ltac:(lia)).
      split; [|split; [|split]].
      * exists (x mod 128 + 128 :: q), b. rewrite E. split; [done|]. split; [constructor; [lia|done]|done].
      * cbn [uv_val]. rewrite IV. replace (x mod 128 + 128) with (x mod 128 + 1 * 128) by lia. rewrite Z.mod_add, Z.mod_mod by lia.
        pose proof (Z.div_mod x 128). lia.
      * cbn [length]. lia.
      * constructor; [unfold is_byte; lia|done].
Qed.
Lemma varint_ok x : 0 <= x < 2 ^ 64 -> uv_ok (varint x) /\ uv_val (varint x) = x.
Proof.
  intros Hx. destruct (uv_terminated 9 x) as (H1 & H2 & H3 & _). { change (128 * 128 ^ Z.of_nat 9) with (2 ^ 70). assert (2 ^ 64 < 2 ^ 70) by done. lia. }
  split; [|done]. split; [done|]. split; [done|]. unfold varint in *. lia.
Qed.
Lemma varints_enc xs : Forall is_u32 xs -> varints (concat (map varint xs)) xs.
Proof.
  induction 1 as [|x xs Hx _ IH]; [constructor|]. cbn [map concat].
  destruct (varint_ok x) as [H1 H2]; [unfold is_u32 in Hx; assert (2 ^ 32 < 2 ^ 64) by done; lia|]. rewrite <- H2 at 2. by constructor.
Qed.
(** Where a terminated piece ends. *)
Lemma terminated_past P Rs p r : Forall (fun c => 128 <= c) P -> P ++ Rs = p ++ r -> terminated p -> (length P < length p)%nat.
Proof.
  intros HP E (q & b & -> & Hq & Hb). rewrite app_length. cbn [length]. destruct (decide (length q < length P)%nat) as [H|H]; [|lia]. exfalso.
  assert (G : (P ++ Rs) !! length q = Some b) by (rewrite E, <- app_assoc, lookup_app_r, Nat.sub_diag by lia; done).
  rewrite lookup_app_l in G by done. eapply Forall_lookup in HP; [|exact G]. cbn in HP. lia.
Qed.
Lemma terminated_unique p r p' r' : p ++ r = p' ++ r' -> terminated p -> terminated p' -> p = p' /\ r = r'.
Proof.
  intros E H H'. assert (L : length p = length p').
  { assert (G : forall a ra b rb, a ++ ra = b ++ rb -> terminated a -> terminated b -> (length a <= length b)%nat).
    { intros a ra b rb Eab (q & t & -> & Hq & _) Hb. rewrite <- app_assoc in Eab. pose proof (terminated_past _ _ _ _ Hq Eab Hb). rewrite app_length. cbn. lia. }
    apply Nat.le_antisymm; [by eapply (G p r p' r')|by eapply (G p' r' p r)]. }
  by apply app_inj_1.
Qed.
Lemma varints_last G gv : varints G gv -> G = [] \/ exists G' b, G = G' ++ [b] /\ b < 128.
Proof.
  induction 1 as [|p r vs ((q & b & -> & _ & Hb) & _) _ IH]; [by left|]. right. destruct IH as [->|(G' & b' & -> & Hb')].
  - rewrite app_nil_r. by exists q, b.
  - exists ((q ++ [b]) ++ G'), b'. split; [by rewrite app_assoc|done].
Qed.
Lemma varints_app a b va vb : varints a va -> varints b vb -> varints (a ++ b) (va ++ vb).
Proof. induction 1 as [|p r vs Hp _ IH]; intros Hb; [done|]. rewrite <- app_assoc. cbn [app]. constructor; [done|by apply IH]. Qed.
Lemma varints_det S vs vs' : varints S vs -> varints S vs' -> vs = vs'.
Proof.
  intros H. revert vs'. induction H as [|p r vs Hp _ IH]; intros vs' H'.
  - inversion H' as [|p r vs Hp _ E]; [done|]. apply app_eq_nil in E as [-> _]. destruct Hp as ((q & b & E & _) & _). by destruct q.
  - inversion H' as [E|p' r' vs2 Hp' Hr' E].
    + symmetry in E. apply app_eq_nil in E as [-> _]. destruct Hp as ((q & b & E & _) & _). by destruct q.
    + destruct (terminated_unique _ _ _ _ E (proj1 Hp') (proj1 Hp)) as [-> ->]. f_equal. by apply IH.
Qed.
(** Every byte string is a sequence of encodings, or has one up to a place where no encoding starts. *)
Lemma first_term S : (exists p r, S = p ++ r /\ terminated p) \/ Forall (fun c => 128 <= c) S.
Proof.
  induction S as [|b S IH]; [by right|]. destruct (decide (b < 128)) as [Hb|Hb].
  - left. exists [b], S. split; [done|]. by exists [], b.
  - destruct IH as [(p & r & -> & q & t & -> & Hq & Ht)|IH].
    + left. exists (b :: q ++ [t]), r. split; [done|]. exists (b :: q), t. split; [done|]. split; [constructor; [lia|done]|done].
    + right. constructor; [lia|done].
Qed.
Lemma term_nonempty p : terminated p -> (0 < length p)%nat.
Proof. intros (q & b & -> & _). rewrite app_length. cbn. lia. Qed.
Lemma no_term_all S : Forall (fun c => 128 <= c) S -> forall p r, S = p ++ r -> ~ terminated p.
Proof.
  intros HS p r E Hp. pose proof (terminated_past S [] p r HS) as G. rewrite app_nil_r in G. specialize (G E Hp). apply (f_equal length) in E. rewrite app_length in E. lia.
Qed.
Lemma ok_prefix_dec S : (exists p r, S = p ++ r /\ uv_ok p) \/ (forall p r, S = p ++ r -> ~ uv_ok p).
Proof.
  destruct (first_term S) as [(p & r & E & Hp)|HS].
  - destruct (decide (length p <= 10)%nat) as [H1|H1]; [destruct (decide (uv_val p < 2 ^ 64)) as [H2|H2]|].
    + left. exists p, r. split; [done|]. by split.
    + right. intros p' r' E' (Hp' & _ & H3). rewrite E in E'. destruct (terminated_unique _ _ _ _ E' Hp Hp') as [-> _]. lia.
    + right. intros p' r' E' (Hp' & H3 & _). rewrite E in E'. destruct (terminated_unique _ _ _ _ E' Hp Hp') as [-> _]. lia.
  - right. intros p r E (Hp & _). by eapply no_term_all.
Qed.
Lemma varints_dec S : (exists vs, varints S vs) \/
  exists G gv B, S = G ++ B /\ varints G gv /\ B <> [] /\ forall p r, B = p ++ r -> ~ uv_ok p.
Proof.
  remember (length S) as n eqn:En. revert S En. induction (lt_wf n) as [n _ IH]. intros S En.
  destruct (decide (S = [])) as [->|HS]; [left; exists []; constructor|].
  destruct (ok_prefix_dec S) as [(p & r & -> & Hp)|Hno].
  - pose proof (term_nonempty p (proj1 Hp)). destruct (IH (length r)) with (S := r) as [[vs Hv]|(G & gv & B & -> & HG & HB & Hb)].
    + rewrite En, app_length. lia.
    + done.
    + left. exists (uv_val p :: vs). by constructor.
    + right. exists (p ++ G), (uv_val p :: gv), B. split; [by rewrite app_assoc|]. split; [by constructor|done].
  - right. exists [], [], S. split; [done|]. split; [constructor|done].
Qed.

(** ** PutUvarint *)
Lemma lor128 b : is_byte b -> Z.lor b 128 = b mod 128 + 128.
Proof. intros Hb. apply Z.eqb_eq. revert b Hb. apply byte_sweep. by vm_compute. Qed.
Section PutUvarint.
Variables (buf : slice) (m : mem) (F : event -> Prop) (pn : Prop) (Q : Z -> mem -> Prop).
Hypotheses (Hb : fits (mb m) buf) (Hc : s_len buf <= 2 ^ 55).
Hypothesis HF : forall i, 0 <= i < s_len buf -> i < 10 -> F (EWrB (s_blk buf) (s_off buf + i)).
Lemma PutUvarint_loop n : forall fuel P x, (n < fuel)%nat -> (n + length P <= 9)%nat -> zlen P <= s_len buf -> 0 <= x < 128 * 128 ^ Z.of_nat n ->
  (zlen (P ++ uv n x) <= s_len buf -> Q (zlen (P ++ uv n x)) (bmem m buf (P ++ uv n x))) ->
  (~ zlen (P ++ uv n x) <= s_len buf -> pn) ->
  wp F pn (while fuel (fun '(i, x) => 128 <=? x)
    (fun '(i, x) => setB buf i (Z.lor (u8 x) 128) ;;; Ret (iadd i 1, Z.shiftr x 7)) (zlen P, x)) (bmem m buf P)
    (fun st m' => wp F pn (let '(i, x) := st in setB buf i (u8 x) ;;; Ret (iadd i 1)) m' Q).
Proof.
  pose proof Hb as (B1 & B2 & B3).
  assert (Last : forall P x, (length P <= 9)%nat -> zlen P <= s_len buf -> 0 <= x < 128 -> (zlen (P ++ [x]) <= s_len buf -> Q (zlen (P ++ [x])) (bmem m buf (P ++ [x]))) ->
    (~ zlen (P ++ [x]) <= s_len buf -> pn) -> wp F pn (setB buf (zlen P) (u8 x) ;;; Ret (iadd (zlen P) 1)) (bmem m buf P) Q).
  { intros P x LP HP Hx HQ Hpn. rewrite zlen_app, zlen_cons, zlen_nil in *. apply wp_bind. apply wp_setB; [by apply bmem_inb; [..|lia|]| |intros; apply Hpn; pose proof (zlen_nonneg P); lia].
    intros Hlt. split; [apply HF; unfold zlen in *; lia|]. cbn [wp]. rewrite (bmem_app m buf P (zlen P)); [|done|rewrite zlen_cons, zlen_nil; lia|done|done].
    rewrite iadd_small by lia. replace (u8 x) with x by (unfold u8; rewrite Z.mod_small; lia). replace (zlen P + 1) with (zlen P + (1 + 0)) by lia. apply HQ. lia. }
  induction n as [|n IH]; intros fuel P x Hf HL HP Hx HQ Hpn; (destruct fuel as [|fuel]; [lia|]); cbn [while].
  - cbn [uv] in *. change (128 * 128 ^ Z.of_nat 0) with 128 in Hx. destruct (Z.leb_spec 128 x); [lia|]. cbn [wp]. apply Last; [lia|done|lia|done|done].
  - cbn [uv] in *. destruct (Z.leb_spec 128 x) as [Hge|Hlt].
    + destruct (Z.ltb_spec x 128) as [?|_]; [lia|].
      set (b := x mod 128 + 128) in *.
      assert (Eb : Z.lor (u8 x) 128 = b).
      { unfold u8, b. rewrite lor128 by (unfold is_byte; apply Z.mod_pos_bound; lia). f_equal. rewrite <- Znumtheory.Zmod_div_mod; [done|lia|lia|]. by exists 2. }
      apply wp_bind. apply wp_bind. rewrite Eb.
      rewrite !zlen_app, zlen_cons in *. pose proof (zlen_nonneg (uv n (x / 128))).
      apply wp_setB; [by apply bmem_inb; [..|lia|]| |intros; apply Hpn; pose proof (zlen_nonneg P); lia].
      intros Hlt. split; [apply HF; unfold zlen in *; lia|]. cbn [wp]. rewrite (bmem_app m buf P (zlen P)); [|done|rewrite zlen_cons, zlen_nil; lia|done|done].
      rewrite iadd_small, Z.shiftr_div_pow2 by lia. change (2 ^ 7) with 128.
      assert (EP : zlen P + 1 = zlen (P ++ [b])) by (rewrite zlen_app, zlen_cons, zlen_nil; lia). rewrite EP.
      assert (EA : P ++ b :: uv n (x / 128) = (P ++ [b]) ++ uv n (x / 128)) by (by rewrite <- app_assoc).
      rewrite EA in HQ. assert (EL : zlen P + (1 + zlen (uv n (x / 128))) = zlen ((P ++ [b]) ++ uv n (x / 128))) by (rewrite !zlen_app, zlen_cons, zlen_nil; lia).
      rewrite EL in HQ, Hpn. apply IH; [lia|rewrite app_length; cbn [length]; lia|lia| |done|done].
      rewrite Nat2Z.inj_succ, Z.pow_succ_r in Hx by lia. split; [apply Z.div_pos; lia|apply Z.div_lt_upper_bound; lia].
    + destruct (Z.ltb_spec x 128) as [_|?]; [|lia]. cbn [wp]. apply Last; [lia|done|lia|done|done].
Qed.
Lemma wp_PutUvarint x : 0 <= x < 2 ^ 64 -> (zlen (varint x) <= s_len buf -> Q (zlen (varint x)) (bmem m buf (varint x))) ->
  (~ zlen (varint x) <= s_len buf -> pn) -> wp F pn (PutUvarint buf x) m Q.
Proof.
  intros Hx HQ Hpn. unfold PutUvarint. apply wp_bind. rewrite <- (bmem_nil m buf) at 1. change 0 with (zlen (@nil Z)).
  apply (PutUvarint_loop 9); [lia|cbn; lia|rewrite zlen_nil; apply Hb| |exact HQ|exact Hpn].
  change (128 * 128 ^ Z.of_nat 9) with (2 ^ 70). assert (2 ^ 64 < 2 ^ 70) by done. lia.
Qed.
End PutUvarint.

(** ** Uvarint *)
Section Uvarint.
Variables (cut : bool) (buf : slice) (m : mem) (F : event -> Prop) (pn : Prop) (Q : Z * Z -> mem -> Prop).
Hypotheses (Hb : fits (mb m) buf) (Hc : s_len buf <= 2 ^ 55) (HB : Forall is_byte (bytes m buf)).
Hypothesis HF : forall i, 0 <= i < s_len buf -> F (ERdB (s_blk buf) (s_off buf + i)).
Let S := bytes m buf.
Hypothesis Hok : forall p r, S = p ++ r -> uv_ok p -> Q (uv_val p, zlen p) m.
Hypothesis Hbad : (forall p r, S = p ++ r -> ~ uv_ok p) -> forall n, - 2 ^ 56 <= n <= 0 -> Q (0, n) m.
Lemma S_zlen : zlen S = s_len buf.
Proof. apply contents_zlen, Hb. Qed.
Lemma getB_S i b : S !! Z.to_nat i = Some b -> 0 <= i -> at_ (blk (mb m) (s_blk buf)) (s_off buf + i) = b /\ 0 <= i < s_len buf.
Proof.
  intros HS Hi. pose proof (lookup_lt_Some _ _ _ HS) as HL. pose proof S_zlen. unfold zlen in *. split; [|lia].
  unfold S, bytes, contents in HS. rewrite lookup_take in HS by lia. rewrite lookup_drop in HS. unfold at_, blk. apply nth_lookup_Some.
  rewrite <- HS. f_equal. destruct Hb as (? & ? & ?). lia.
Qed.
Lemma Uvarint_loop Rs : forall P x s, S = P ++ Rs -> Forall (fun c => 128 <= c) P -> (zlen P <= 9 -> x = uv_val P /\ s = 7 * zlen P) ->
  wp F pn (Uvarint_from cut buf (length Rs) (zlen P) x s) m Q.
Proof.
  pose proof S_zlen as LS.
  induction Rs as [|b Rs IH]; intros P x s ES HP Hx; cbn [length Uvarint_from].
  - apply Hbad; [|lia]. rewrite app_nil_r in ES. intros p r E (Hp & _). rewrite ES in E. by eapply no_term_all in E.
  - assert (Lb : S !! Z.to_nat (zlen P) = Some b). { unfold zlen. rewrite Nat2Z.id, ES, lookup_app_r, Nat.sub_diag by lia. done. }
    destruct (getB_S _ _ Lb (zlen_nonneg P)) as [Eb Hi].
    assert (Hbb : is_byte b) by (eapply Forall_lookup in HB; [|exact Lb]; done).
    apply wp_bind. apply wp_getB; [done| |lia]. intros _. split; [by apply HF|]. rewrite Eb.
    assert (LSn : zlen P <= 2 ^ 55) by lia.
    destruct (cut && (zlen P =? MaxVarintLen64)) eqn:Ecut.
    { apply andb_true_iff in Ecut as [_ Ec]. apply Z.eqb_eq in Ec. apply Hbad; [|unfold MaxVarintLen64 in Ec; lia].
      intros p r E (Hp & Hl & _). rewrite ES in E. pose proof (terminated_past _ _ _ _ HP E Hp). unfold zlen, MaxVarintLen64 in Ec. lia. }
    assert (Ep : S = (P ++ [b]) ++ Rs) by (by rewrite <- app_assoc).
    destruct (Z.ltb_spec b 128) as [Hlt|Hge].
    + assert (Ht : terminated (P ++ [b])) by (by exists P, b).
      assert (Hv : uv_val (P ++ [b]) = uv_val P + 128 ^ zlen P * b) by (rewrite uv_val_app; cbn [uv_val]; rewrite Z.mod_small by (unfold is_byte in Hbb; lia); lia).
      pose proof (uv_val_range P) as HrP.
      assert (Only : ~ uv_ok (P ++ [b]) -> forall p r, S = p ++ r -> ~ uv_ok p).
      { intros Hn p r E Hp. rewrite Ep in E. destruct (terminated_unique _ _ _ _ E Ht (proj1 Hp)) as [<- _]. done. }
      destruct ((9 <? zlen P) || ((zlen P =? 9) && (1 <? b))) eqn:Eo.
      * apply Hbad; [|lia]. apply Only. intros (_ & Hl & Hv64). rewrite app_length in Hl. cbn [length] in Hl. unfold zlen in Eo.
        apply orb_true_iff in Eo as [Eo|Eo]; [apply Z.ltb_lt in Eo; lia|]. apply andb_true_iff in Eo as [E1 E2]. apply Z.eqb_eq in E1. apply Z.ltb_lt in E2.
        rewrite Hv in Hv64. unfold zlen in *. rewrite E1 in *. change (128 ^ 9) with (2 ^ 63) in *. assert (2 ^ 63 * 2 = 2 ^ 64) by done. nia.
      * assert (H9 : zlen P <= 9 /\ (zlen P = 9 -> b <= 1)).
        { apply orb_false_iff in Eo as [E1 E2]. apply Z.ltb_ge in E1. split; [done|]. intros E. rewrite E in E2. cbn in E2. apply Z.ltb_ge in E2. done. }
        destruct (Hx (proj1 H9)) as [-> ->].
        assert (E128 : 128 ^ zlen P = 2 ^ (7 * zlen P)) by (change 128 with (2 ^ 7); rewrite <- Z.pow_mul_r by (done || apply zlen_nonneg); done).
        assert (Hb64 : 0 <= b * 2 ^ (7 * zlen P) < 2 ^ 64 - 2 ^ (7 * zlen P) + 1).
        { unfold is_byte in Hbb. destruct (decide (zlen P = 9)) as [E9|E9].
          - rewrite E9 in *. destruct H9 as [_ H9]. specialize (H9 eq_refl). change (7 * 9) with 63. assert (2 ^ 63 * 2 = 2 ^ 64) by done. nia.
          - assert (2 ^ (7 * zlen P) <= 2 ^ 56) by (apply Z.pow_le_mono_r; pose proof (zlen_nonneg P); lia). assert (0 < 2 ^ (7 * zlen P)) by (apply Z.pow_pos_nonneg; pose proof (zlen_nonneg P); lia).
            assert (2 ^ 56 * 256 = 2 ^ 64) by done. nia. }
        assert (0 < 2 ^ (7 * zlen P)) by (apply Z.pow_pos_nonneg; pose proof (zlen_nonneg P); lia).
        rewrite Z.shiftl_mul_pow2 by (pose proof (zlen_nonneg P); lia). unfold u64. rewrite (Z.mod_small (b * _)) by lia.
        rewrite Z.lor_comm, DecodeProof.lor_hi by (pose proof (zlen_nonneg P); rewrite <- ?E128; lia).
        replace (b * 2 ^ (7 * zlen P) + uv_val P) with (uv_val (P ++ [b])) by (rewrite Hv, E128; lia).
        replace (zlen P + 1) with (zlen (P ++ [b])) by (rewrite zlen_app, zlen_cons, zlen_nil; lia).
        eapply Hok; [exact Ep|]. split; [done|]. rewrite app_length. cbn [length]. unfold zlen in H9. split; [lia|]. rewrite Hv, E128. lia.
    + rewrite iadd_small by lia. replace (zlen P + 1) with (zlen (P ++ [b])) by (rewrite zlen_app, zlen_cons, zlen_nil; lia).
      apply IH; [done|apply Forall_app; split; [done|by constructor]|]. rewrite zlen_app, zlen_cons, zlen_nil. intros H8. destruct (Hx ltac:(lia)) as [-> ->].
      pose proof (uv_val_range P) as HrP. pose proof (zlen_nonneg P) as HP0.
      assert (E128 : 128 ^ zlen P = 2 ^ (7 * zlen P)) by (change 128 with (2 ^ 7); rewrite <- Z.pow_mul_r by done; done).
      assert (EL : Z.land b 127 = b mod 128) by (change 127 with (Z.ones 7); by rewrite Z.land_ones). rewrite EL.
      pose proof (Z.mod_pos_bound b 128 ltac:(lia)) as Hm.
      assert (2 ^ (7 * zlen P) <= 2 ^ 56) by (apply Z.pow_le_mono_r; lia). assert (0 < 2 ^ (7 * zlen P)) by (apply Z.pow_pos_nonneg; lia).
      assert (2 ^ 56 * 256 = 2 ^ 64) by done.
      rewrite Z.shiftl_mul_pow2 by lia. unfold u64. rewrite (Z.mod_small (b mod 128 * _)) by nia. rewrite (Z.mod_small (7 * zlen P + 7)) by lia.
      rewrite Z.lor_comm, DecodeProof.lor_hi by (rewrite <- ?E128; lia). split; [|lia].
      rewrite uv_val_app. cbn [uv_val]. rewrite E128. lia.
Qed.
Lemma wp_Uvarint : wp F pn (Uvarint cut buf) m Q.
Proof.
  unfold Uvarint. pose proof S_zlen as LS. replace (Z.to_nat (s_len buf)) with (length S) by (unfold zlen in LS; lia).
  change 0 with (zlen (@nil Z)) at 1. apply Uvarint_loop; [done|done|]. intros _. done.
Qed.
End Uvarint.

(** ** PutVarint, PutDeltaVarint *)
Section Put.
Variables (nums out : slice) (m : mem) (F : event -> Prop) (pn : Prop).
Hypotheses (Hi : fits (mw m) nums) (Ho : fits (mb m) out) (Hsi : s_len nums <= 2 ^ 52) (Hso : s_len out <= 2 ^ 55).
Hypothesis HX : Forall is_u32 (words m nums).
Hypothesis HF1 : forall i, 0 <= i < s_len nums -> F (ERdW (s_blk nums) (s_off nums + i)).
Hypothesis HF2 : forall i, 0 <= i < s_len out -> F (EWrB (s_blk out) (s_off out + i)).
Lemma getW_X pre x rest : words m nums = pre ++ x :: rest -> at_ (blk (mw m) (s_blk nums)) (s_off nums + zlen pre) = x /\ zlen pre + 1 + zlen rest = s_len nums.
Proof.
  intros E. pose proof (contents_zlen _ _ Hi) as L. change (contents (mw m) nums) with (words m nums) in L. rewrite E, zlen_app, zlen_cons in L. split; [|lia].
  assert (HS : words m nums !! length pre = Some x) by (rewrite E, lookup_app_r, Nat.sub_diag by lia; done).
  pose proof (zlen_nonneg rest). unfold words, contents in HS. rewrite lookup_take in HS by (unfold zlen in *; lia). rewrite lookup_drop in HS. unfold at_, blk. apply nth_lookup_Some.
  rewrite <- HS. f_equal. destruct Hi as (? & ? & ?). unfold zlen. lia.
Qed.
Lemma wp_put_one D x (Q : Z -> mem -> Prop) : 0 <= x < 2 ^ 64 -> zlen D <= s_len out ->
  (zlen (D ++ varint x) <= s_len out -> Q (zlen (varint x)) (bmem m out (D ++ varint x))) -> (~ zlen (D ++ varint x) <= s_len out -> pn) ->
  wp F pn (PutUvarint (Slice (s_blk out) (s_off out + zlen D) (s_len out - zlen D) (s_cap out - zlen D)) x) (bmem m out D) Q.
Proof.
  intros Hx HD HQ Hpn. pose proof (zlen_nonneg D). pose proof Ho as (O1 & O2 & O3). rewrite zlen_app in *. apply wp_PutUvarint; cbn [s_len s_off s_blk s_cap]; [|lia| |done| |].
  - assert (G : inb (mb (bmem m out D)) out) by (apply bmem_inb; [done|lia|done]). destruct G as (G1 & G2 & G3). split; [cbn; lia|]. cbn [s_len s_off s_blk s_cap]. unfold zlen, blk in *. lia.
  - intros i I1 I2. rewrite <- Z.add_assoc. apply HF2. lia.
  - intros Hf. unfold bmem at 1. cbn [s_len s_off s_blk s_cap].
    rewrite (bmem_app m out D (zlen D)); [|done|lia|done|done]. apply HQ. lia.
  - intros Hn. apply Hpn. lia.
Qed.

Lemma PutVarint_loop rest : forall fuel pre D (Q : Z -> mem -> Prop), (length rest < fuel)%nat -> words m nums = pre ++ rest -> zlen D <= s_len out ->
  let E := D ++ concat (map varint (rest)) in
  (zlen E <= s_len out -> Q (zlen E) (bmem m out E)) -> (~ zlen E <= s_len out -> pn) ->
  wp F pn (while fuel (fun '(i, pos) => i <? s_len nums)
    (fun '(i, pos) =>
       let! o := slice_from out pos in
       let! x := getW nums i in
       let! size := PutUvarint o (u64 x) in
       Ret (iadd i 1, iadd pos size)) (zlen pre, zlen D)) (bmem m out D) (fun st m' => Q (snd st) m').
Proof.
  pose proof Hi as (I1 & I2 & I3). pose proof Ho as (O1 & O2 & O3).
  pose proof (contents_zlen _ _ Hi) as L. change (contents (mw m) nums) with (words m nums) in L.
  induction rest as [|x rest IH]; intros fuel pre D Q Hf EX HD E HQ Hpn; (destruct fuel as [|fuel]; [cbn in Hf; lia|]); cbn [while].
  - rewrite app_nil_r in EX. rewrite EX in L. rewrite L. rewrite Z.ltb_irrefl. cbn [wp fst snd]. unfold E in HQ. cbn [map concat deltas] in HQ. rewrite app_nil_r in HQ. by apply HQ.
  - destruct (getW_X _ _ _ EX) as [Ex Hl]. pose proof (zlen_nonneg rest). pose proof (zlen_nonneg pre). pose proof (zlen_nonneg D).
    assert (Hx : is_u32 x). { rewrite EX in HX. apply Forall_app in HX as [_ HX']. by apply Forall_inv in HX'. } unfold is_u32 in Hx.
    destruct (Z.ltb_spec (zlen pre) (s_len nums)); [|lia]. assert (2 ^ 32 < 2 ^ 64) by done.
    set (c := x) in *. assert (EE : E = (D ++ varint c) ++ concat (map varint (rest))) by (unfold E; cbn [deltas map concat]; by rewrite <- app_assoc).
    clearbody E. subst E. set (rc := concat (map varint (rest))) in *. rewrite zlen_app in HQ, Hpn. pose proof (zlen_nonneg rc).
    assert (Hc : 0 <= c < 2 ^ 64) by (unfold c; lia).
    apply wp_bind. apply wp_bind. apply wp_slice_from; [|lia]. intros _. apply wp_bind. apply wp_getW; [done| |lia]. intros _. split; [apply HF1; lia|]. change (mw (bmem m out D)) with (mw m). rewrite Ex.
    apply wp_bind. fold c. unfold u64 at 1. rewrite (Z.mod_small c) by done. apply wp_put_one; [done|done| |intros Hn; apply Hpn; lia]. intros Hok. cbn [wp]. rewrite zlen_app in Hok. pose proof (zlen_nonneg (varint c)).
    rewrite !iadd_small by lia. replace (zlen pre + 1) with (zlen (pre ++ [x])) by (rewrite zlen_app, zlen_cons, zlen_nil; lia). rewrite <- zlen_app.
    apply (IH fuel (pre ++ [x]) (D ++ varint c) Q); [cbn in Hf; lia|rewrite <- app_assoc; exact EX|rewrite zlen_app; lia| |]; fold rc; rewrite zlen_app; done.
Qed.

Lemma PutDeltaVarint_loop rest : forall fuel pre D prev (Q : Z -> mem -> Prop), (length rest < fuel)%nat -> words m nums = pre ++ rest -> zlen D <= s_len out ->
  let E := D ++ concat (map varint (deltas prev rest)) in
  (zlen E <= s_len out -> Q (zlen E) (bmem m out E)) -> (~ zlen E <= s_len out -> pn) ->
  wp F pn (while fuel (fun '(i, pos, prev) => i <? s_len nums)
    (fun '(i, pos, prev) =>
       let! o := slice_from out pos in
       let! x := getW nums i in
       let! size := PutUvarint o (u64 (u32 (x - prev))) in
       let! prev := getW nums i in
       Ret (iadd i 1, iadd pos size, prev)) (zlen pre, zlen D, prev)) (bmem m out D) (fun st m' => Q (snd (fst st)) m').
Proof.
  pose proof Hi as (I1 & I2 & I3). pose proof Ho as (O1 & O2 & O3).
  pose proof (contents_zlen _ _ Hi) as L. change (contents (mw m) nums) with (words m nums) in L.
  induction rest as [|x rest IH]; intros fuel pre D prev Q Hf EX HD E HQ Hpn; (destruct fuel as [|fuel]; [cbn in Hf; lia|]); cbn [while].
  - rewrite app_nil_r in EX. rewrite EX in L. rewrite L. rewrite Z.ltb_irrefl. cbn [wp fst snd]. unfold E in HQ. cbn [map concat deltas] in HQ. rewrite app_nil_r in HQ. by apply HQ.
  - destruct (getW_X _ _ _ EX) as [Ex Hl]. pose proof (zlen_nonneg rest). pose proof (zlen_nonneg pre). pose proof (zlen_nonneg D).
    assert (Hx : is_u32 x). { rewrite EX in HX. apply Forall_app in HX as [_ HX']. by apply Forall_inv in HX'. } unfold is_u32 in Hx.
    destruct (Z.ltb_spec (zlen pre) (s_len nums)); [|lia]. assert (2 ^ 32 < 2 ^ 64) by done.
    set (c := u32 (x - prev)) in *. assert (EE : E = (D ++ varint c) ++ concat (map varint (deltas x rest))) by (unfold E; cbn [deltas map concat]; by rewrite <- app_assoc).
    clearbody E. subst E. set (rc := concat (map varint (deltas x rest))) in *. rewrite zlen_app in HQ, Hpn. pose proof (zlen_nonneg rc).
    assert (Hc : 0 <= c < 2 ^ 64) by (unfold c, u32; pose proof (Z.mod_pos_bound (x - prev) (2 ^ 32) ltac:(lia)); lia).
    apply wp_bind. apply wp_bind. apply wp_slice_from; [|lia]. intros _. apply wp_bind. apply wp_getW; [done| |lia]. intros _. split; [apply HF1; lia|]. change (mw (bmem m out D)) with (mw m). rewrite Ex.
    apply wp_bind. fold c. unfold u64 at 1. rewrite (Z.mod_small c) by done. apply wp_put_one; [done|done| |intros Hn; apply Hpn; lia]. intros Hok. apply wp_bind. apply wp_getW; [done| |lia]. intros _. split; [apply HF1; lia|]. change (mw (bmem m out (D ++ varint c))) with (mw m). rewrite Ex. cbn [wp]. rewrite zlen_app in Hok. pose proof (zlen_nonneg (varint c)).
    rewrite !iadd_small by lia. replace (zlen pre + 1) with (zlen (pre ++ [x])) by (rewrite zlen_app, zlen_cons, zlen_nil; lia). rewrite <- zlen_app.
    apply (IH fuel (pre ++ [x]) (D ++ varint c) x Q); [cbn in Hf; lia|rewrite <- app_assoc; exact EX|rewrite zlen_app; lia| |]; fold rc; rewrite zlen_app; done.
Qed.

Lemma wp_PutVarint (Q : Z -> mem -> Prop) : let E := concat (map varint (words m nums)) in
  (zlen E <= s_len out -> Q (zlen E) (bmem m out E)) -> (~ zlen E <= s_len out -> pn) -> wp F pn (PutVarint nums out) m Q.
Proof.
  intros E HQ Hpn. unfold PutVarint. apply wp_bind. rewrite <- (bmem_nil m out). change (0, 0) with (zlen (@nil Z), zlen (@nil Z)).
  pose proof (contents_length _ _ Hi) as L. apply (PutVarint_loop (words m nums) _ [] [] Q); [unfold words; lia|done|rewrite zlen_nil; apply Ho|exact HQ|exact Hpn].
Qed.
Lemma wp_PutDeltaVarint prev (Q : Z -> mem -> Prop) : let E := concat (map varint (deltas prev (words m nums))) in
  (zlen E <= s_len out -> Q (zlen E) (bmem m out E)) -> (~ zlen E <= s_len out -> pn) -> wp F pn (PutDeltaVarint nums out prev) m Q.
Proof.
  intros E HQ Hpn. unfold PutDeltaVarint. apply wp_bind. rewrite <- (bmem_nil m out). change (0, 0) with (zlen (@nil Z), zlen (@nil Z)).
  pose proof (contents_length _ _ Hi) as L. apply (PutDeltaVarint_loop (words m nums) _ [] [] prev Q); [unfold words; lia|done|rewrite zlen_nil; apply Ho|exact HQ|exact Hpn].
Qed.
End Put.

(** ** GetVarint, GetDeltaVarint *)
(** No encoding that starts before the end of a sequence of encodings reaches past it. *)
Lemma no_crossing G gv B (k : nat) p r : varints G gv -> (k <= length G)%nat -> (forall p r, B = p ++ r -> ~ uv_ok p) ->
  drop k (G ++ B) = p ++ r -> uv_ok p -> (k + length p <= length G)%nat.
Proof.
  intros HG Hk HB E Hp. destruct (decide (k = length G)) as [->|Hk'].
  { rewrite drop_app in E. exfalso. by eapply HB. }
  destruct (varints_last _ _ HG) as [->|(G' & b & -> & Hb)]; [cbn in *; lia|].
  rewrite app_length in *. cbn [length] in *. rewrite drop_app_le in E by (rewrite app_length; cbn; lia). rewrite drop_app_le in E by lia.
  destruct Hp as [(q & t & -> & Hq & Ht) _]. rewrite app_length. cbn [length]. destruct (decide (length q <= length (drop k G'))%nat) as [H|H]; [rewrite drop_length in H; lia|exfalso].
  assert (Hl : ((drop k G' ++ [b]) ++ B) !! length (drop k G') = Some b) by (rewrite <- app_assoc, lookup_app_r, Nat.sub_diag by lia; done).
  rewrite E, <- app_assoc, lookup_app_l in Hl by lia. eapply Forall_lookup in Hq; [|exact Hl]. cbn in Hq. lia.
Qed.
Lemma varints_rest G gv B vs : varints G gv -> varints (G ++ B) vs -> exists vb, varints B vb.
Proof.
  intros HG. revert vs. induction HG as [|p r gv Hp _ IH]; intros vs Hv; [by exists vs|]. rewrite <- app_assoc in Hv.
  inversion Hv as [E|p' r' vs' Hp' Hr' E].
  - symmetry in E. apply app_eq_nil in E as [-> _]. pose proof (term_nonempty _ (proj1 Hp)) as L. cbn in L. lia.
  - destruct (terminated_unique _ _ _ _ E (proj1 Hp') (proj1 Hp)) as [-> ->]. by eapply IH.
Qed.
Section Get.
Variables (cut : bool) (data out : slice) (m : mem) (F : event -> Prop) (pn : Prop).
Hypotheses (Hi : fits (mb m) data) (Ho : fits (mw m) out) (Hsi : s_len data <= 2 ^ 55) (Hso : s_len out <= 2 ^ 52).
Hypothesis HB : Forall is_byte (bytes m data).
Hypothesis HF1 : forall i, 0 <= i < s_len data -> F (ERdB (s_blk data) (s_off data + i)).
Hypothesis HF2 : forall i, 0 <= i < s_len out -> F (EWrW (s_blk out) (s_off out + i)).
Let S := bytes m data.
Lemma wp_get_one k R (Q : Z * Z -> mem -> Prop) : 0 <= k <= s_len data ->
  (forall p r, drop (Z.to_nat k) S = p ++ r -> uv_ok p -> Q (uv_val p, zlen p) (rmem m out R)) ->
  ((forall p r, drop (Z.to_nat k) S = p ++ r -> ~ uv_ok p) -> forall n, - 2 ^ 56 <= n <= 0 -> Q (0, n) (rmem m out R)) ->
  wp F pn (Uvarint cut (Slice (s_blk data) (s_off data + k) (s_len data - k) (s_cap data - k))) (rmem m out R) Q.
Proof.
  intros Hk H1 H2. pose proof Hi as (I1 & I2 & I3).
  assert (ED : bytes (rmem m out R) (Slice (s_blk data) (s_off data + k) (s_len data - k) (s_cap data - k)) = drop (Z.to_nat k) S).
  { unfold S, bytes, contents. change (mb (rmem m out R)) with (mb m). cbn [s_len s_off s_blk s_cap]. rewrite skipn_firstn_comm, drop_drop. f_equal; [lia|]. f_equal. lia. }
  apply wp_Uvarint; [|cbn [s_len]; lia|rewrite ED; by apply Forall_drop| |rewrite ED; exact H1|rewrite ED; exact H2].
  - split; [cbn; lia|]. cbn [s_len s_off s_blk s_cap]. change (mb (rmem m out R)) with (mb m). lia.
  - cbn [s_len s_off s_blk s_cap]. intros i Hii. rewrite <- Z.add_assoc. apply HF1. lia.
Qed.

Lemma GetVarint_good rest vs : varints rest vs -> forall fuel G R (Q : Z -> mem -> Prop), (s_len out - zlen R + 1 < Z.of_nat fuel) -> S = G ++ rest -> zlen R <= s_len out ->
  let RR := R ++ map u32 vs in
  (zlen RR <= s_len out -> Q (zlen S) (rmem m out RR)) -> (~ zlen RR <= s_len out -> pn) ->
  wp F pn (while fuel (fun '(pos, i) => pos <? s_len data)
    (fun '(pos, i) =>
       let! d := slice_from data pos in
       let! nr := Uvarint cut d in
       let pos := iadd pos (snd nr) in
       setW out i (u32 (fst nr)) ;;;
       Ret (pos, iadd i 1)) (zlen G, zlen R)) (rmem m out R) (fun st m' => Q (fst st) m').
Proof.
  pose proof Hi as (I1 & I2 & I3). pose proof Ho as (O1 & O2 & O3).
  pose proof (contents_zlen _ _ Hi) as L. change (contents (mb m) data) with S in L.
  induction 1 as [|p rest vs Hp Hr IH]; intros fuel G R Q Hf ES HR RR HQ Hpn; (destruct fuel as [|fuel]; [lia|]); cbn [while].
  - rewrite app_nil_r in ES. rewrite ES in L, HQ. rewrite L. rewrite Z.ltb_irrefl. cbn [wp fst snd]. unfold RR in HQ. cbn [map running_sums] in HQ. rewrite app_nil_r in HQ. rewrite <- L. by apply HQ.
  - pose proof (zlen_nonneg G). pose proof (zlen_nonneg R). pose proof (zlen_nonneg rest). pose proof (term_nonempty p (proj1 Hp)) as Lp. assert (LS := L). rewrite ES, !zlen_app in LS.
    assert (0 < zlen p) by (unfold zlen; lia). destruct (Z.ltb_spec (zlen G) (s_len data)); [|lia].
    assert (ED : drop (Z.to_nat (zlen G)) S = p ++ rest) by (unfold zlen; rewrite Nat2Z.id, ES; apply drop_app).
    set (v := u32 (uv_val p)) in *.
    assert (ER : RR = (R ++ [v]) ++ map u32 vs) by (unfold v, RR; cbn [map]; by rewrite <- app_assoc).
    clearbody RR. subst RR. set (rr := map u32 vs) in *. rewrite zlen_app in HQ, Hpn. pose proof (zlen_nonneg rr). assert (EV : zlen (R ++ [v]) = zlen R + 1) by (rewrite zlen_app, zlen_cons, zlen_nil; lia). rewrite EV in *.
    apply wp_bind. apply wp_bind. apply wp_slice_from; [|lia]. intros _. apply wp_bind. apply wp_get_one; [lia| |].
    2: { intros Hno. exfalso. by eapply Hno. }
    intros p' r' E' Hp'. rewrite ED in E'. destruct (terminated_unique _ _ _ _ E' (proj1 Hp) (proj1 Hp')) as [<- <-].
    cbn [fst snd]. rewrite (iadd_small (zlen G)) by lia. fold v. apply wp_bind. apply wp_setW; [apply rmem_inb; [done|lia|done]| |intros; apply Hpn; lia].
    intros Hlt. split; [apply HF2; lia|]. rewrite rmem_snoc by (done || lia). cbn [wp]. rewrite iadd_small by lia. rewrite <- EV, <- zlen_app.
    apply (IH fuel (G ++ p) (R ++ [v]) Q); [lia|rewrite <- app_assoc; exact ES|lia| |]; fold rr; rewrite zlen_app, EV; done.
Qed.
Lemma GetVarint_bad G gv B : S = G ++ B -> varints G gv -> B <> [] -> (forall p r, B = p ++ r -> ~ uv_ok p) -> pn ->
  forall fuel pos R Q, (s_len out - zlen R < Z.of_nat fuel) -> - 2 ^ 57 <= pos <= zlen G -> zlen R <= s_len out ->
  wp F pn (while fuel (fun '(pos, i) => pos <? s_len data)
    (fun '(pos, i) =>
       let! d := slice_from data pos in
       let! nr := Uvarint cut d in
       let pos := iadd pos (snd nr) in
       setW out i (u32 (fst nr)) ;;;
       Ret (pos, iadd i 1)) (pos, zlen R)) (rmem m out R) Q.
Proof.
  intros ES HG HBn Hno Hpn. pose proof Hi as (I1 & I2 & I3). pose proof Ho as (O1 & O2 & O3).
  pose proof (contents_zlen _ _ Hi) as L. change (contents (mb m) data) with S in L. assert (LS := L). rewrite ES, zlen_app in LS.
  assert (0 < zlen B) by (destruct B; [done|rewrite zlen_cons; pose proof (zlen_nonneg B); lia]). pose proof (zlen_nonneg G).
  induction fuel as [|fuel IH]; intros pos R Q Hf Hpos HR; [lia|]. cbn [while]. pose proof (zlen_nonneg R).
  destruct (Z.ltb_spec pos (s_len data)); [|lia].
  assert (Next : forall v n, - 2 ^ 56 <= n -> 0 <= pos -> pos + n <= zlen G -> wp F pn (setW out (zlen R) v ;;; Ret (iadd pos n, iadd (zlen R) 1)) (rmem m out R)
    (fun s m' => wp F pn (while fuel (fun '(pos, i) => pos <? s_len data)
    (fun '(pos, i) =>
       let! d := slice_from data pos in
       let! nr := Uvarint cut d in
       let pos := iadd pos (snd nr) in
       setW out i (u32 (fst nr)) ;;;
       Ret (pos, iadd i 1)) s) m' Q)).
  { intros v n Hn Hp0 Hpn'. apply wp_bind. apply wp_setW; [apply rmem_inb; [done|lia|done]| |intros; exact Hpn].
    intros Hlt. split; [apply HF2; lia|]. rewrite rmem_snoc by (done || lia). cbn [wp]. rewrite !iadd_small by lia.
    assert (EV : zlen (R ++ [v]) = zlen R + 1) by (rewrite zlen_app, zlen_cons, zlen_nil; lia). rewrite <- EV. apply IH; lia. }
  apply wp_bind. apply wp_bind. apply wp_slice_from; [|intros; exact Hpn]. intros Hr. apply wp_bind. apply wp_get_one; [lia| |].
  - intros p r E Hp. cbn [fst snd]. apply Next; [pose proof (zlen_nonneg p); lia|lia|].
    rewrite ES in E. pose proof (no_crossing _ _ _ (Z.to_nat pos) p r HG ltac:(unfold zlen in *; lia) Hno E Hp). unfold zlen in *. lia.
  - intros _ n Hn. cbn [fst snd]. apply Next; lia.
Qed.

Lemma GetDeltaVarint_good rest vs : varints rest vs -> forall fuel G R prev (Q : Z -> mem -> Prop), (s_len out - zlen R + 1 < Z.of_nat fuel) -> S = G ++ rest -> zlen R <= s_len out ->
  let RR := R ++ running_sums prev (map u32 vs) in
  (zlen RR <= s_len out -> Q (zlen S) (rmem m out RR)) -> (~ zlen RR <= s_len out -> pn) ->
  wp F pn (while fuel (fun '(pos, i, prev) => pos <? s_len data)
    (fun '(pos, i, prev) =>
       let! d := slice_from data pos in
       let! ns := Uvarint cut d in
       let pos := iadd pos (snd ns) in
       let res := u32 (u32 (fst ns) + prev) in
       setW out i res ;;;
       Ret (pos, iadd i 1, res)) (zlen G, zlen R, prev)) (rmem m out R) (fun st m' => Q (fst (fst st)) m').
Proof.
  pose proof Hi as (I1 & I2 & I3). pose proof Ho as (O1 & O2 & O3).
  pose proof (contents_zlen _ _ Hi) as L. change (contents (mb m) data) with S in L.
  induction 1 as [|p rest vs Hp Hr IH]; intros fuel G R prev Q Hf ES HR RR HQ Hpn; (destruct fuel as [|fuel]; [lia|]); cbn [while].
  - rewrite app_nil_r in ES. rewrite ES in L, HQ. rewrite L. rewrite Z.ltb_irrefl. cbn [wp fst snd]. unfold RR in HQ. cbn [map running_sums] in HQ. rewrite app_nil_r in HQ. rewrite <- L. by apply HQ.
  - pose proof (zlen_nonneg G). pose proof (zlen_nonneg R). pose proof (zlen_nonneg rest). pose proof (term_nonempty p (proj1 Hp)) as Lp. assert (LS := L). rewrite ES, !zlen_app in LS.
    assert (0 < zlen p) by (unfold zlen; lia). destruct (Z.ltb_spec (zlen G) (s_len data)); [|lia].
    assert (ED : drop (Z.to_nat (zlen G)) S = p ++ rest) by (unfold zlen; rewrite Nat2Z.id, ES; apply drop_app).
    set (v := u32 (u32 (uv_val p) + prev)) in *.
    assert (ER : RR = (R ++ [v]) ++ running_sums v (map u32 vs)) by (assert (Ev : v = (prev + u32 (uv_val p)) mod 2 ^ 32) by (unfold v; rewrite Z.add_comm; done); clearbody v; unfold RR; cbn [map running_sums]; rewrite <- Ev; by rewrite <- app_assoc).
    clearbody RR. subst RR. set (rr := running_sums v (map u32 vs)) in *. rewrite zlen_app in HQ, Hpn. pose proof (zlen_nonneg rr). assert (EV : zlen (R ++ [v]) = zlen R + 1) by (rewrite zlen_app, zlen_cons, zlen_nil; lia). rewrite EV in *.
    apply wp_bind. apply wp_bind. apply wp_slice_from; [|lia]. intros _. apply wp_bind. apply wp_get_one; [lia| |].
    2: { intros Hno. exfalso. by eapply Hno. }
    intros p' r' E' Hp'. rewrite ED in E'. destruct (terminated_unique _ _ _ _ E' (proj1 Hp) (proj1 Hp')) as [<- <-].
    cbn [fst snd]. rewrite (iadd_small (zlen G)) by lia. fold v. apply wp_bind. apply wp_setW; [apply rmem_inb; [done|lia|done]| |intros; apply Hpn; lia].
    intros Hlt. split; [apply HF2; lia|]. rewrite rmem_snoc by (done || lia). cbn [wp]. rewrite iadd_small by lia. rewrite <- EV, <- zlen_app.
    apply (IH fuel (G ++ p) (R ++ [v]) v Q); [lia|rewrite <- app_assoc; exact ES|lia| |]; fold rr; rewrite zlen_app, EV; done.
Qed.
Lemma GetDeltaVarint_bad G gv B : S = G ++ B -> varints G gv -> B <> [] -> (forall p r, B = p ++ r -> ~ uv_ok p) -> pn ->
  forall fuel pos R prev Q, (s_len out - zlen R < Z.of_nat fuel) -> - 2 ^ 57 <= pos <= zlen G -> zlen R <= s_len out ->
  wp F pn (while fuel (fun '(pos, i, prev) => pos <? s_len data)
    (fun '(pos, i, prev) =>
       let! d := slice_from data pos in
       let! ns := Uvarint cut d in
       let pos := iadd pos (snd ns) in
       let res := u32 (u32 (fst ns) + prev) in
       setW out i res ;;;
       Ret (pos, iadd i 1, res)) (pos, zlen R, prev)) (rmem m out R) Q.
Proof.
  intros ES HG HBn Hno Hpn. pose proof Hi as (I1 & I2 & I3). pose proof Ho as (O1 & O2 & O3).
  pose proof (contents_zlen _ _ Hi) as L. change (contents (mb m) data) with S in L. assert (LS := L). rewrite ES, zlen_app in LS.
  assert (0 < zlen B) by (destruct B; [done|rewrite zlen_cons; pose proof (zlen_nonneg B); lia]). pose proof (zlen_nonneg G).
  induction fuel as [|fuel IH]; intros pos R prev Q Hf Hpos HR; [lia|]. cbn [while]. pose proof (zlen_nonneg R).
  destruct (Z.ltb_spec pos (s_len data)); [|lia].
  assert (Next : forall v n, - 2 ^ 56 <= n -> 0 <= pos -> pos + n <= zlen G -> wp F pn (setW out (zlen R) v ;;; Ret (iadd pos n, iadd (zlen R) 1, v)) (rmem m out R)
    (fun s m' => wp F pn (while fuel (fun '(pos, i, prev) => pos <? s_len data)
    (fun '(pos, i, prev) =>
       let! d := slice_from data pos in
       let! ns := Uvarint cut d in
       let pos := iadd pos (snd ns) in
       let res := u32 (u32 (fst ns) + prev) in
       setW out i res ;;;
       Ret (pos, iadd i 1, res)) s) m' Q)).
  { intros v n Hn Hp0 Hpn'. apply wp_bind. apply wp_setW; [apply rmem_inb; [done|lia|done]| |intros; exact Hpn].
    intros Hlt. split; [apply HF2; lia|]. rewrite rmem_snoc by (done || lia). cbn [wp]. rewrite !iadd_small by lia.
    assert (EV : zlen (R ++ [v]) = zlen R + 1) by (rewrite zlen_app, zlen_cons, zlen_nil; lia). rewrite <- EV. apply IH; lia. }
  apply wp_bind. apply wp_bind. apply wp_slice_from; [|intros; exact Hpn]. intros Hr. apply wp_bind. apply wp_get_one; [lia| |].
  - intros p r E Hp. cbn [fst snd]. apply Next; [pose proof (zlen_nonneg p); lia|lia|].
    rewrite ES in E. pose proof (no_crossing _ _ _ (Z.to_nat pos) p r HG ltac:(unfold zlen in *; lia) Hno E Hp). unfold zlen in *. lia.
  - intros _ n Hn. cbn [fst snd]. apply Next; lia.
Qed.

Lemma wp_GetVarint (Q : Z -> mem -> Prop) : (forall vs, varints S vs -> zlen vs <= s_len out -> Q (zlen S) (rmem m out (map u32 vs))) ->
  (~ (exists vs, varints S vs /\ zlen vs <= s_len out) -> pn) -> wp F pn (GetVarint cut data out) m Q.
Proof.
  intros HQ Hpn. unfold GetVarint. apply wp_bind. rewrite <- (rmem_nil m out). pose proof Ho as (O1 & O2 & O3).
  destruct (varints_dec S) as [[vs Hv]|(G & gv & B & ES & HG & HBn & Hno)].
  - change (0, 0) with (zlen (@nil Z), zlen (@nil Z)). apply (GetVarint_good S vs Hv _ [] [] Q); [rewrite zlen_nil; lia|done|rewrite zlen_nil; lia| |]; rewrite app_nil_l; unfold zlen at 1; rewrite ?running_sums_length, map_length.
    + intros Hl. by apply HQ.
    + intros Hl. apply Hpn. intros (vs' & Hv' & Hl'). rewrite (varints_det _ _ _ Hv' Hv) in Hl'. done.
  - change (0, 0) with (0, zlen (@nil Z)). eapply (GetVarint_bad G gv B ES HG HBn Hno); [|rewrite zlen_nil; lia|pose proof (zlen_nonneg G); lia|rewrite zlen_nil; lia].
    apply Hpn. intros (vs' & Hv' & _). rewrite ES in Hv'. destruct (varints_rest _ _ _ _ HG Hv') as [vb Hvb]. inversion Hvb as [E|p r vs2 Hp _ E]; [by symmetry in E|by eapply Hno].
Qed.

Lemma wp_GetDeltaVarint prev (Q : Z -> mem -> Prop) : (forall vs, varints S vs -> zlen vs <= s_len out -> Q (zlen S) (rmem m out (running_sums prev (map u32 vs)))) ->
  (~ (exists vs, varints S vs /\ zlen vs <= s_len out) -> pn) -> wp F pn (GetDeltaVarint cut data out prev) m Q.
Proof.
  intros HQ Hpn. unfold GetDeltaVarint. apply wp_bind. rewrite <- (rmem_nil m out). pose proof Ho as (O1 & O2 & O3).
  destruct (varints_dec S) as [[vs Hv]|(G & gv & B & ES & HG & HBn & Hno)].
  - change (0, 0) with (zlen (@nil Z), zlen (@nil Z)). apply (GetDeltaVarint_good S vs Hv _ [] [] prev Q); [rewrite zlen_nil; lia|done|rewrite zlen_nil; lia| |]; rewrite app_nil_l; unfold zlen at 1; rewrite ?running_sums_length, map_length.
    + intros Hl. by apply HQ.
    + intros Hl. apply Hpn. intros (vs' & Hv' & Hl'). rewrite (varints_det _ _ _ Hv' Hv) in Hl'. done.
  - change (0, 0) with (0, zlen (@nil Z)). eapply (GetDeltaVarint_bad G gv B ES HG HBn Hno); [|rewrite zlen_nil; lia|pose proof (zlen_nonneg G); lia|rewrite zlen_nil; lia].
    apply Hpn. intros (vs' & Hv' & _). rewrite ES in Hv'. destruct (varints_rest _ _ _ _ HG Hv') as [vb Hvb]. inversion Hvb as [E|p r vs2 Hp _ E]; [by symmetry in E|by eapply Hno].
Qed.
End Get.
