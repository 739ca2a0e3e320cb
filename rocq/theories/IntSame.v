(** * Functions with int of [w] and of [w'] bits, both at least 32 *)
From stdpp Require Import prelude gmap list.
From Coq Require Import ZArith Lia.
From Verif Require Import Spec GoSem Tables Shared Asm Encode Decode Writer Reader Util IntOps IntSize GoRefine Wp IntAlike.
Local Open Scope Z_scope.

(** One step on both sides. *)
Ltac known := fail.
Ltac same1 :=
  lazymatch goal with
  | |- alike _ _ (bind (bind _ _) _) _ => apply al_assoc_l, al_assoc_r
  | |- alike _ _ (bind (Ret ?x) ?f) (bind (Ret ?y) ?g) => change (alike _ _ (f x) (g y)); cbv beta
  | |- alike _ _ (bind (slice_from _ _) _) _ => apply al_slice_from; intros ?
  | |- alike _ _ (bind (slice_range _ _ _) _) _ => apply al_slice_range; intros ?
  | |- alike _ _ (bind (check_idx _ _) _) _ => apply al_check_idx; intros ?
  | |- alike _ _ (bind (getB _ _) _) _ => apply al_getB; intros ? ?
  | |- alike _ _ (bind (getW _ _) _) _ => apply al_getW; intros ? ? ?
  | |- alike _ _ (bind (setB _ _ _) _) _ => apply al_setB; intros ?
  | |- alike _ _ (bind (setW _ _ _) _) _ => apply al_setW; [try exact I | intros ?]
  | |- alike _ _ (bind (makeB _ _) _) _ => apply al_makeB; intros ?
  | |- alike _ _ (bind (if _ then _ else _) _) _ => eapply al_bind
  | |- alike _ _ (bind _ _) (bind _ _) => eapply al_bind; [solve [known] | let H := fresh "H" in intros ? H; cbv beta in H]
  | |- alike _ _ (if ?c then _ else _) (if ?c then _ else _) => destruct c eqn:?
  | |- alike _ _ (match ?x with (_, _) => _ end) (match ?x with (_, _) => _ end) => destruct x
  | |- alike _ _ (Ret _) _ => constructor
  | |- alike _ _ GoPanic _ => constructor
  | |- alike _ _ (slice_range _ _ _) _ => apply bind_Ret
  | |- alike _ _ (slice_to _ _) _ => unfold slice_to
  | |- alike _ _ (setB _ _ _) _ => apply bind_Ret
  | |- alike _ _ (setW _ _ _) _ => apply bind_Ret
  end; cbv zeta; cbn [s_len s_cap fst snd].
Ltac same := cbv zeta; cbn [s_len s_cap fst snd]; repeat (sizes; small; same1); sizes; small.

Section widths.
Variables (w w' : Z) (Hw : 32 <= w) (Hw' : 32 <= w').

Lemma lz32 x : is_u32 x -> 0 <= LeadingZeros32 x <= 32.
Proof.
  intros [H0 H]. unfold LeadingZeros32. destruct (x =? 0) eqn:E; [lia|].
  assert (Z.log2 x < 32) by (apply Z.log2_lt_pow2; lia). pose proof (Z.log2_nonneg x). lia.
Qed.
Lemma al_encodeOne x o : is_u32 x -> alike is_u32 (fun n => 1 <= n <= 4) (encodeOneN w x o) (encodeOneN w' x o).
Proof.
  intros H. apply lz32 in H. unfold encodeOneN. pose proof (quot8 (LeadingZeros32 x) ltac:(lia)) as Q.
  rewrite !divN by lia. small.
  assert (K : 1 <= max 1 (4 - Z.quot (LeadingZeros32 x) 8) <= 4) by (unfold max; destruct (_ <? _) eqn:?; lia).
  set (size := max _ _) in *. clearbody size. cbv zeta.
  apply (al_bind _ (fun _ => True)); [| intros ? _; constructor; exact K].
  same; exact I.
Qed.
Lemma u8_byte x : 0 <= u8 x < 256.
Proof. unfold u8. apply Z.mod_pos_bound. lia. Qed.
Lemma u32_is x : is_u32 (u32 x).
Proof. unfold u32, is_u32. apply Z.mod_pos_bound. lia. Qed.
Ltac known ::= (apply al_encodeOne; first [assumption | apply u32_is]).
Ltac shifts := rewrite !iN_small by (rewrite ?Z.shiftl_mul_pow2 by lia; lia).
Lemma al_Put4uint32Scalar inp out : alike is_u32 (fun c => 0 <= c < 256) (Put4uint32ScalarN w inp out) (Put4uint32ScalarN w' inp out).
Proof. unfold Put4uint32ScalarN. same. shifts. constructor. apply u8_byte. Qed.
Lemma al_Put4uint32DeltaScalar inp out p : alike is_u32 (fun c => 0 <= c < 256) (Put4uint32DeltaScalarN w inp out p) (Put4uint32DeltaScalarN w' inp out p).
Proof. unfold Put4uint32DeltaScalarN. same. shifts. constructor. apply u8_byte. Qed.
(** The control byte of [n] numbers has 2n bits. *)
Lemma ctrl_bits c d s : 0 <= s <= 6 -> 0 <= c < 2 ^ s -> 0 <= d <= 3 -> 0 <= Z.lor c (u8 (Z.shiftl (u8 d) s)) < 2 ^ (s + 2).
Proof.
  intros Hs Hc Hd. rewrite (u8_small d) by lia. rewrite Z.shiftl_mul_pow2 by lia.
  assert (2 ^ s <= 2 ^ 6) by (apply Z.pow_le_mono_r; lia). change (2 ^ 6) with 64 in *.
  assert (Hp : 0 <= d * 2 ^ s <= 3 * 2 ^ s) by nia.
  rewrite u8_small by lia. rewrite Z.pow_add_r by lia. change (2 ^ 2) with 4.
  assert (0 <= Z.lor c (d * 2 ^ s)) by (apply Z.lor_nonneg; lia). split; [assumption|].
  assert (E : Z.land c (d * 2 ^ s) = 0).
  { destruct (Z.eq_dec c 0) as [->|N]; [apply Z.land_0_l|]. apply Z.bits_inj'. intros k Hk. rewrite Z.land_spec, Z.bits_0.
    destruct (Z.lt_ge_cases k s).
    - rewrite Z.mul_pow2_bits_low by lia. apply andb_false_r.
    - rewrite (Z.bits_above_log2 c k); [reflexivity | lia |].
      apply Z.log2_lt_pow2; [lia|]. apply Z.lt_le_trans with (2 ^ s); [lia|]. apply Z.pow_le_mono_r; lia. }
  rewrite <- (Z.lxor_lor _ _ E), <- (Z.add_nocarry_lxor _ _ E). lia.
Qed.
(** so the bytes of the data are at most 4n, besides one for each number which is not there. *)
Lemma size_bits c n : 0 <= n <= 4 -> 0 <= c < 2 ^ (2 * n) -> ControlByteToSize c <= 4 * n + (4 - n).
Proof.
  intros Hn Hc.
  assert (K : forallb (fun n => forallb (fun c => ControlByteToSize (Z.of_nat c) <=? 4 * Z.of_nat n + (4 - Z.of_nat n)) (seq 0 (4 ^ n))) (seq 0 5) = true)
    by (vm_compute; reflexivity).
  rewrite forallb_forall in K. specialize (K (Z.to_nat n)). rewrite forallb_forall in K.
  assert (E : 2 ^ (2 * n) = Z.of_nat (4 ^ Z.to_nat n)) by (rewrite Nat2Z.inj_pow, Z2Nat.id by lia; rewrite Z.pow_mul_r by lia; reflexivity).
  specialize (K ltac:(apply in_seq; lia) (Z.to_nat c) ltac:(apply in_seq; lia)). rewrite !Z2Nat.id in K by lia. lia.
Qed.
Definition below (n c : Z) : Prop := 0 < n -> 0 <= c < 2 ^ (2 * Z.min n 4).
Lemma al_PutUint32Scalar inp out c : alike is_u32 (below c) (PutUint32ScalarN w inp out c) (PutUint32ScalarN w' inp out c).
Proof.
  unfold PutUint32ScalarN. destruct (c =? 0) eqn:E0; [constructor; intros ?; lia|]. cbv zeta. set (n := if 4 <? c then 4 else c).
  assert (Hn : n <= 4 /\ n = Z.min c 4) by (subst n; destruct (4 <? c) eqn:?; lia). clearbody n.
  eapply al_bind.
  - apply (al_while _ (fun '(i, ctrl, shift, total) => 0 <= i /\ i <= Z.max 0 n /\ shift = 2 * i /\ 0 <= total <= 4 * i /\ 0 <= ctrl < 2 ^ shift)).
    + intros [[[i ctrl] shift] total] _. reflexivity.
    + intros [[[i ctrl] shift] total] (Hi0 & Hi1 & -> & Ht & Hc) Hi. same. pose proof (ctrl_bits ctrl (a - 1) (2 * i) ltac:(lia) Hc ltac:(lia)) as K.
      split; [lia|]. split; [lia|]. split; [lia|]. split; [lia|]. exact K.
    + rewrite Z.pow_0_r. lia.
  - intros [[[i ctrl] shift] total] [(Hi0 & Hi1 & -> & Ht & Hc) Hi]. constructor. intros ?. replace (Z.min c 4) with i by lia. exact Hc.
Qed.
Lemma al_PutUint32DeltaScalar inp out c p : alike is_u32 (below c) (PutUint32DeltaScalarN w inp out c p) (PutUint32DeltaScalarN w' inp out c p).
Proof.
  unfold PutUint32DeltaScalarN. destruct (c =? 0) eqn:E0; [constructor; intros ?; lia|]. cbv zeta. set (n := if 4 <? c then 4 else c).
  assert (Hn : n <= 4 /\ n = Z.min c 4) by (subst n; destruct (4 <? c) eqn:?; lia). clearbody n.
  eapply al_bind.
  - apply (al_while _ (fun '(i, ctrl, shift, total, _) => 0 <= i /\ i <= Z.max 0 n /\ shift = 2 * i /\ 0 <= total <= 4 * i /\ 0 <= ctrl < 2 ^ shift)).
    + intros [[[[i ctrl] shift] total] q] _. reflexivity.
    + intros [[[[i ctrl] shift] total] q] (Hi0 & Hi1 & -> & Ht & Hc) Hi. same. pose proof (ctrl_bits ctrl (a - 1) (2 * i) ltac:(lia) Hc ltac:(lia)) as K.
      split; [lia|]. split; [lia|]. split; [lia|]. split; [lia|]. exact K.
    + rewrite Z.pow_0_r. lia.
  - intros [[[[i ctrl] shift] total] q] [(Hi0 & Hi1 & -> & Ht & Hc) Hi]. constructor. intros ?. replace (Z.min c 4) with i by lia. exact Hc.
Qed.
Lemma al_GetUint32Scalar inp out ctrl c : alike anything (fun _ => True) (GetUint32ScalarN w inp out ctrl c) (GetUint32ScalarN w' inp out ctrl c).
Proof.
  unfold GetUint32ScalarN. destruct (c =? 0); [constructor; exact I|]. cbv zeta. set (n := if 4 <? c then 4 else c).
  assert (n <= 4) by (subst n; destruct (4 <? c) eqn:?; lia). clearbody n.
  eapply al_bind.
  - apply (al_while _ (fun '(i, shift, total) => 0 <= i <= 4 /\ shift = 2 * i /\ 0 <= total <= 255 * i)).
    + intros [[i shift] total] _. reflexivity.
    + intros [[i shift] total] HI Hi. pose proof (u8_byte (Z.land (Z.shiftr ctrl shift) 3 + 1)).
      apply al_slice_from. intros ?. eapply al_bind; [apply al_refl|]. intros v _. same. lia.
    + lia.
  - intros [[i shift] total] _. constructor. exact I.
Qed.
Lemma al_GetUint32DeltaScalar inp out ctrl c p :
  alike anything (fun _ => True) (GetUint32DeltaScalarN w inp out ctrl c p) (GetUint32DeltaScalarN w' inp out ctrl c p).
Proof.
  unfold GetUint32DeltaScalarN. destruct (c =? 0); [constructor; exact I|]. cbv zeta. set (n := if 4 <? c then 4 else c).
  assert (n <= 4) by (subst n; destruct (4 <? c) eqn:?; lia). clearbody n.
  eapply al_bind.
  - apply (al_while _ (fun '(i, shift, total, _) => 0 <= i <= 4 /\ shift = 2 * i /\ 0 <= total <= 255 * i)).
    + intros [[[i shift] total] q] _. reflexivity.
    + intros [[[i shift] total] q] HI Hi. pose proof (u8_byte (Z.land (Z.shiftr ctrl shift) 3 + 1)).
      apply al_slice_from. intros ?. eapply al_bind; [apply al_refl|]. intros v _. same. lia.
    + lia.
  - intros [[[i shift] total] q] _. constructor. exact I.
Qed.
Ltac known ::= lazymatch goal with
  | |- alike _ _ (Put4uint32ScalarN _ _ _) _ => apply al_Put4uint32Scalar
  | |- alike _ _ (Put4uint32DeltaScalarN _ _ _ _) _ => apply al_Put4uint32DeltaScalar
  | |- alike _ _ (PutUint32ScalarN _ _ _ _) _ => apply al_PutUint32Scalar
  | |- alike _ _ (PutUint32DeltaScalarN _ _ _ _ _) _ => apply al_PutUint32DeltaScalar
  | |- alike _ _ (GetUint32ScalarN _ _ _ _ _) _ => apply al_GetUint32Scalar
  | |- alike _ _ (GetUint32DeltaScalarN _ _ _ _ _ _) _ => apply al_GetUint32DeltaScalar
  | |- alike _ _ (Get4uint32Scalar _ _ _) _ => apply al_refl
  | |- alike _ _ (Get4uint32DeltaScalar _ _ _ _) _ => apply al_refl
  end.
Lemma al_Put8uint32Scalar inp out : alike is_u32 (fun _ => True) (Put8uint32ScalarN w inp out) (Put8uint32ScalarN w' inp out).
Proof. unfold Put8uint32ScalarN. same. exact I. Qed.
Lemma al_Put8uint32DeltaScalar inp out p : alike is_u32 (fun _ => True) (Put8uint32DeltaScalarN w inp out p) (Put8uint32DeltaScalarN w' inp out p).
Proof. unfold Put8uint32DeltaScalarN. same. exact I. Qed.

(** ** Writers *)
Lemma andnot15 a : iandnot a 15 = 16 * (a / 16).
Proof. change 15 with (2 ^ 4 - 1). rewrite iandnot_pow2 by lia. change (2 ^ 4) with 16. lia. Qed.
Lemma andnot3 a : iandnot a 3 = 4 * (a / 4).
Proof. change 3 with (2 ^ 2 - 1). rewrite iandnot_pow2 by lia. change (2 ^ 2) with 4. lia. Qed.
(** The stream make has to allocate is below 2 GiB. *)
Definition writable (n : Z) : Prop := 0 <= n /\ 4 * n + (n + 3) / 4 < 2 ^ 31.
Lemma al_WriteAllScalar blk inp : writable (s_len inp) -> alike is_u32 (fun _ => True) (WriteAllScalarN w blk inp) (WriteAllScalarN w' blk inp).
Proof.
  intros [H0 H]. unfold WriteAllScalarN. cbv zeta. unfold Writer.jump, MaxBytesPerNum. change Writer.jumpCtrl with 4.
  set (n := s_len inp) in *. assert (Hq : Z.quot (n + 3) 4 = (n + 3) / 4) by (apply Z.quot_div_nonneg; lia).
  assert (Hc : 0 <= (n + 3) / 4 <= n + 3) by (split; [apply Z.div_pos; lia | apply Z.div_le_upper_bound; lia]).
  rewrite (addN w n 3), (addN w' n 3), !divN, !Hq by lia. set (cl := (n + 3) / 4) in *.
  rewrite (mulN w 4 n), (mulN w' 4 n), (addN w cl), (addN w' cl), (subN w 16 1), (subN w' 16 1) by lia. change (16 - 1) with 15.
  rewrite andnot15, andnot3. apply al_makeB. intros Ht.
  assert (H16 : 0 <= 16 * (n / 16) <= n) by (pose proof (Z.div_mod n 16); pose proof (Z.mod_pos_bound n 16); lia).
  assert (H4 : 0 <= 4 * (n / 4) <= n /\ n <= 4 * (n / 4) + 3) by (pose proof (Z.div_mod n 4); pose proof (Z.mod_pos_bound n 4); lia).
  clearbody cl n.
  eapply al_bind.
  { apply (al_while _ (fun '(d, c, e) => exists k, e = 16 * k /\ 0 <= k <= n / 16 /\ 0 <= d <= cl + 4 * e /\ 0 <= c <= e)).
    - intros [[d c] e] _. reflexivity.
    - intros [[d c] e] (k & -> & Hk & Hd & Hc') Hi. same. exists (k + 1). lia.
    - exists 0. lia. }
  intros [[d c] e] [(k & -> & Hk & Hd & Hc') _].
  eapply al_bind.
  { apply (al_while _ (fun '(d, c, e) => exists k, e = 4 * k /\ 0 <= e <= n /\ 0 <= d <= cl + 4 * e /\ 0 <= c <= e)).
    - intros [[d' c'] e] _. reflexivity.
    - intros [[d' c'] e] (k' & -> & Hk' & Hd' & Hc'') Hi. same. exists (k' + 1). lia.
    - exists (4 * k). lia. }
  intros [[d' c'] e] [(k' & -> & Hk' & Hd' & Hc'') _].
  eapply (al_bind _ (fun _ => True)); [| intros; same; exact I].
  destruct (negb _) eqn:En; [|constructor; exact I].
  rewrite (subN w n), (subN w' n) by lia. apply al_slice_from. intros ?. apply al_slice_from. intros ?.
  eapply al_bind; [known|]. intros ctrl Hb. pose proof (size16 ctrl) as S16. pose proof (size_bits ctrl (n - 4 * (n / 4)) ltac:(lia)) as Sb.
  unfold below in Hb. rewrite Z.min_l in Hb by lia. specialize (Sb (Hb ltac:(lia))).
  same. exact I.
Qed.
Lemma al_WriteAllDeltaScalar blk inp p : writable (s_len inp) -> alike is_u32 (fun _ => True) (WriteAllDeltaScalarN w blk inp p) (WriteAllDeltaScalarN w' blk inp p).
Proof.
  intros [H0 H]. unfold WriteAllDeltaScalarN. cbv zeta. unfold Writer.jump, MaxBytesPerNum. change Writer.jumpCtrl with 4.
  set (n := s_len inp) in *. assert (Hq : Z.quot (n + 3) 4 = (n + 3) / 4) by (apply Z.quot_div_nonneg; lia).
  assert (Hc : 0 <= (n + 3) / 4 <= n + 3) by (split; [apply Z.div_pos; lia | apply Z.div_le_upper_bound; lia]).
  rewrite (addN w n 3), (addN w' n 3), !divN, !Hq by lia. set (cl := (n + 3) / 4) in *.
  rewrite (mulN w 4 n), (mulN w' 4 n), (addN w cl), (addN w' cl), (subN w 16 1), (subN w' 16 1) by lia. change (16 - 1) with 15.
  rewrite andnot15, andnot3. apply al_makeB. intros Ht.
  assert (H16 : 0 <= 16 * (n / 16) <= n) by (pose proof (Z.div_mod n 16); pose proof (Z.mod_pos_bound n 16); lia).
  assert (H4 : 0 <= 4 * (n / 4) <= n /\ n <= 4 * (n / 4) + 3) by (pose proof (Z.div_mod n 4); pose proof (Z.mod_pos_bound n 4); lia).
  clearbody cl n.
  eapply al_bind.
  { apply (al_while _ (fun '(d, c, e, _) => exists k, e = 16 * k /\ 0 <= k <= n / 16 /\ 0 <= d <= cl + 4 * e /\ 0 <= c <= e)).
    - intros [[[d c] e] q] _. reflexivity.
    - intros [[[d c] e] q] (k & -> & Hk & Hd & Hc') Hi. same. exists (k + 1). lia.
    - exists 0. lia. }
  intros [[[d c] e] q] [(k & -> & Hk & Hd & Hc') _].
  eapply al_bind.
  { apply (al_while _ (fun '(d, c, e, _) => exists k, e = 4 * k /\ 0 <= e <= n /\ 0 <= d <= cl + 4 * e /\ 0 <= c <= e)).
    - intros [[[d' c'] e] q'] _. reflexivity.
    - intros [[[d' c'] e] q'] (k' & -> & Hk' & Hd' & Hc'') Hi. same. exists (k' + 1). lia.
    - exists (4 * k). lia. }
  intros [[[d' c'] e] q'] [(k' & -> & Hk' & Hd' & Hc'') _].
  eapply (al_bind _ (fun _ => True)); [| intros; same; exact I].
  destruct (negb _) eqn:En; [|constructor; exact I].
  rewrite (subN w n), (subN w' n) by lia. apply al_slice_from. intros ?. apply al_slice_from. intros ?.
  eapply al_bind; [known|]. intros ctrl Hb. pose proof (size16 ctrl) as S16. pose proof (size_bits ctrl (n - 4 * (n / 4)) ltac:(lia)) as Sb.
  unfold below in Hb. rewrite Z.min_l in Hb by lia. specialize (Sb (Hb ltac:(lia))).
  same. exact I.
Qed.

(** ** Readers *)
(** Lengths and capacities up to 2 GiB less 256 bytes *)
Definition addressable (s : slice) : Prop := 0 <= s_len s <= s_cap s /\ s_cap s + 256 < 2 ^ 31.
Lemma al_ReadAllScalar n stream out : - 2 ^ 31 <= n < 2 ^ 31 - 3 -> addressable stream -> addressable out ->
  alike anything (fun _ => True) (ReadAllScalarN w n stream out) (ReadAllScalarN w' n stream out).
Proof.
  intros Hn [Hs Hs'] [Ho Ho']. unfold ReadAllScalarN. cbv zeta. unfold Reader.jump. change Reader.jumpCtrl with 4.
  pose proof (quot4 (n + 3)) as Hq. assert (Hc : - 2 ^ 29 <= Z.quot (n + 3) 4 < 2 ^ 29) by lia.
  rewrite (addN w n 3), (addN w' n 3), !divN by lia. set (cl := Z.quot (n + 3) 4) in *.
  rewrite (subN w 16 1), (subN w' 16 1) by lia. change (16 - 1) with 15. rewrite andnot15, andnot3.
  assert (H4 : n - 3 <= 4 * (n / 4) <= n) by (pose proof (Z.div_mod n 4); pose proof (Z.mod_pos_bound n 4); lia).
  clearbody cl. clear Hq.
  eapply al_bind.
  { apply (al_while _ (fun '(d, c, e) => - 2 ^ 29 <= d < 2 ^ 31 /\ 0 <= c < 2 ^ 31 - 250 /\ 0 <= e < 2 ^ 31 - 250)).
    - intros [[d c] e] _. reflexivity.
    - intros [[d c] e] (Hd & Hc' & He) Hi. same. lia.
    - lia. }
  intros [[d c] e] [(Hd & Hc' & He) _].
  eapply al_bind.
  { apply (al_while _ (fun '(d, c, e) => - 2 ^ 29 <= d < 2 ^ 31 /\ 0 <= c < 2 ^ 31 - 240 /\ 0 <= e < 2 ^ 31 - 240)).
    - intros [[d' c'] e'] _. reflexivity.
    - intros [[d' c'] e'] (Hd' & Hc'' & He') Hi. same. lia.
    - lia. }
  intros [[d' c'] e'] [(Hd' & Hc'' & He') _].
  same; try exact I.
Qed.
Lemma al_ReadAllDeltaScalar n stream out p : - 2 ^ 31 <= n < 2 ^ 31 - 3 -> addressable stream -> addressable out ->
  alike anything (fun _ => True) (ReadAllDeltaScalarN w n stream out p) (ReadAllDeltaScalarN w' n stream out p).
Proof.
  intros Hn [Hs Hs'] [Ho Ho']. unfold ReadAllDeltaScalarN. cbv zeta. unfold Reader.jump. change Reader.jumpCtrl with 4.
  pose proof (quot4 (n + 3)) as Hq. assert (Hc : - 2 ^ 29 <= Z.quot (n + 3) 4 < 2 ^ 29) by lia.
  rewrite (addN w n 3), (addN w' n 3), !divN by lia. set (cl := Z.quot (n + 3) 4) in *.
  rewrite (subN w 16 1), (subN w' 16 1) by lia. change (16 - 1) with 15. rewrite andnot15, andnot3.
  assert (H4 : n - 3 <= 4 * (n / 4) <= n) by (pose proof (Z.div_mod n 4); pose proof (Z.mod_pos_bound n 4); lia).
  clearbody cl. clear Hq.
  eapply al_bind.
  { apply (al_while _ (fun '(d, c, e, _) => - 2 ^ 29 <= d < 2 ^ 31 /\ 0 <= c < 2 ^ 31 - 250 /\ 0 <= e < 2 ^ 31 - 250)).
    - intros [[[d c] e] q] _. reflexivity.
    - intros [[[d c] e] q] (Hd & Hc' & He) Hi. same. lia.
    - lia. }
  intros [[[d c] e] q] [(Hd & Hc' & He) _].
  eapply al_bind.
  { apply (al_while _ (fun '(d, c, e, _) => - 2 ^ 29 <= d < 2 ^ 31 /\ 0 <= c < 2 ^ 31 - 240 /\ 0 <= e < 2 ^ 31 - 240)).
    - intros [[[d' c'] e'] q'] _. reflexivity.
    - intros [[[d' c'] e'] q'] (Hd' & Hc'' & He') Hi. same. lia.
    - lia. }
  intros [[[d' c'] e'] q'] [(Hd' & Hc'' & He') _].
  same; try exact I.
Qed.

(** ** pkg/util *)
Lemma al_Delta inp out : addressable inp -> alike anything (fun _ => True) (DeltaN w inp out) (DeltaN w' inp out).
Proof.
  intros [Hi Hi']. unfold DeltaN. eapply al_bind; [| intros; constructor; exact I].
  apply (al_while _ (fun i => 0 <= i <= s_len inp)); [reflexivity | | lia].
  intros i H Hl. small. apply (al_bind _ (fun _ => True)); [| intros; constructor; lia].
  same; exact I.
Qed.
(** encoding/binary: at most eleven bytes *)
Lemma post_setB {B} (P : B -> Prop) s i v f : post P (f tt) -> post P (bind (setB s i v) f).
Proof. intros H. unfold setB, check_idx. destruct (_ && _); simpl; repeat constructor. exact H. Qed.
Lemma post_PutUvarint b x : post (fun n => 1 <= n <= 12) (PutUvarint b x).
Proof.
  unfold PutUvarint. apply (post_seq (fun '(i, _) => 0 <= i <= 11)).
  - assert (K : forall f i x, 0 <= i <= 11 - Z.of_nat f -> post (fun '(i, _) => 0 <= i <= 11) (while f (fun '(i, x) => 128 <=? x)
      (fun '(i, x) => setB b i (Z.lor (u8 x) 128) ;;; Ret (iadd i 1, Z.shiftr x 7)) (i, x))).
    { clear x. induction f as [|f IH]; intros i x Hi; [constructor|]. cbn [while]. destruct (128 <=? x); [|constructor; lia].
      eapply post_seq with (Q := fun '(j, _) => j = iadd i 1).
      - apply post_setB. constructor. reflexivity.
      - intros [j y] ->. apply IH. rewrite iadd_small by lia. lia. }
    apply K. lia.
  - intros [i y] Hi. apply post_setB. constructor. rewrite iadd_small by lia. lia.
Qed.
Lemma post_Uvarint b : post (fun r => - 11 <= snd r <= 10) (Uvarint true b).
Proof.
  unfold Uvarint. generalize (Z.to_nat (s_len b)) as n.
  assert (K : forall n i x s, 0 <= i <= 10 -> post (fun r => - 11 <= snd r <= 10) (Uvarint_from true b n i x s)).
  { induction n as [|n IH]; intros i x s Hi; cbn [Uvarint_from]; [constructor; simpl; lia|].
    unfold getB, check_idx. destruct (_ && _); cbn [bind]; [|constructor]. constructor. intros v. cbn [andb]. unfold MaxVarintLen64.
    destruct (i =? 10) eqn:E10; [constructor; simpl; lia|].
    destruct (v <? 128).
    - destruct (_ || _) eqn:E; constructor; simpl; lia.
    - apply IH. rewrite iadd_small by lia. lia. }
  intros n. apply K. lia.
Qed.
Ltac known ::= apply al_post; first [apply post_PutUvarint | apply post_Uvarint].
Lemma al_PutVarint nums out : addressable nums -> addressable out -> alike anything (fun _ => True) (PutVarintN w nums out) (PutVarintN w' nums out).
Proof.
  intros [Hn Hn'] [Ho Ho']. unfold PutVarintN. eapply al_bind; [| intros; constructor; exact I].
  apply (al_while _ (fun '(i, p) => 0 <= i <= s_len nums /\ 0 <= p < 2 ^ 31 - 200)); [intros [i p] _; reflexivity | | lia].
  intros [i p] [Hi Hp] Hl. same. lia.
Qed.
Lemma al_PutDeltaVarint nums out q : addressable nums -> addressable out ->
  alike anything (fun _ => True) (PutDeltaVarintN w nums out q) (PutDeltaVarintN w' nums out q).
Proof.
  intros [Hn Hn'] [Ho Ho']. unfold PutDeltaVarintN. eapply al_bind; [| intros; constructor; exact I].
  apply (al_while _ (fun '(i, p, _) => 0 <= i <= s_len nums /\ 0 <= p < 2 ^ 31 - 200)); [intros [[i p] r] _; reflexivity | | lia].
  intros [[i p] r] [Hi Hp] Hl. same. lia.
Qed.
Lemma al_GetVarint data out : addressable data -> addressable out -> alike anything (fun _ => True) (GetVarintN w true data out) (GetVarintN w' true data out).
Proof.
  intros [Hn Hn'] [Ho Ho']. unfold GetVarintN. eapply al_bind; [| intros; constructor; exact I].
  apply (al_while _ (fun '(p, i) => - 11 <= p < 2 ^ 31 - 200 /\ 0 <= i <= s_len out)); [intros [p i] _; reflexivity | | lia].
  intros [p i] [Hp Hi] Hl. same. lia.
Qed.
Lemma al_GetDeltaVarint data out q : addressable data -> addressable out ->
  alike anything (fun _ => True) (GetDeltaVarintN w true data out q) (GetDeltaVarintN w' true data out q).
Proof.
  intros [Hn Hn'] [Ho Ho']. unfold GetDeltaVarintN. eapply al_bind; [| intros; constructor; exact I].
  apply (al_while _ (fun '(p, i, _) => - 11 <= p < 2 ^ 31 - 200 /\ 0 <= i <= s_len out)); [intros [[p i] r] _; reflexivity | | lia].
  intros [[p i] r] [Hp Hi] Hl. same. lia.
Qed.
End widths.
