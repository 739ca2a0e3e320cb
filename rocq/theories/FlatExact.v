(** * The flat machine: what the routines load and store, whatever overlaps (for C64) *)
From stdpp Require Import prelude gmap list.
From Coq Require Import ZArith Lia.
From Verif Require Import Spec SpecLemmas GoSem Shared Tables Asm AsmProgs Flat FlatVec FlatProof C_Flat.
Local Open Scope Z_scope.

(** How far [b] lies behind [a], going round at 2^64. *)
Definition off (a b : Z) : Z := (b - a) mod 2 ^ 64.
Definition is_addr (b : Z) : bool := (0 <=? b) && (b <? 2 ^ 64).
Lemma off_range a b : 0 <= off a b < 2 ^ 64. Proof. apply Z.mod_pos_bound. lia. Qed.
Lemma wrap_range a : 0 <= wrap a < 2 ^ 64. Proof. apply Z.mod_pos_bound. lia. Qed.
Lemma off_zero a b : is_addr b = true -> off a b = 0 <-> b = wrap a.
Proof.
  unfold is_addr, off, wrap. rewrite andb_true_iff, Z.leb_le, Z.ltb_lt. intros H. split.
  - intros E. rewrite <- (Z.mod_small b (2 ^ 64)) by lia. replace b with (a + (b - a)) at 1 by lia. rewrite <- Zplus_mod_idemp_r, E. by rewrite Z.add_0_r.
  - intros ->. rewrite Zminus_mod_idemp_l. by rewrite Z.sub_diag.
Qed.
Lemma off_next a b : off a b <> 0 -> off (a + 1) b = off a b - 1.
Proof.
  unfold off. intros H. replace (b - (a + 1)) with (b - a - 1) by lia. rewrite <- Zminus_mod_idemp_l. apply Z.mod_small. pose proof (Z.mod_pos_bound (b - a) (2 ^ 64)). lia.
Qed.
Lemma off_last a b : off a b = 0 -> off (a + 1) b = 2 ^ 64 - 1.
Proof. unfold off. intros H. replace (b - (a + 1)) with (b - a - 1) by lia. rewrite <- Zminus_mod_idemp_l, H. done. Qed.
Lemma byte_next x j : 0 < j -> byte_of (x / 2 ^ 8) (j - 1) = byte_of x j.
Proof. intros H. unfold byte_of. change (2 ^ 8) with 256. rewrite Z.div_div by lia. do 2 f_equal. rewrite <- Z.pow_succ_r by lia. f_equal. lia. Qed.

Definition open_at (w : Z -> bool) (g : fmem) (a : Z) : Prop := g a <> None /\ w a = true.
Lemma fstore_spec w n : forall g a x, Z.of_nat n < 2 ^ 64 ->
  match fstore n w g a x with
  | Some g' => (forall j, 0 <= j < Z.of_nat n -> open_at w g (wrap (a + j))) /\ forall b, g' b = if is_addr b && (off a b <? Z.of_nat n) then Some (byte_of x (off a b)) else g b
  | None => exists j, 0 <= j < Z.of_nat n /\ ~ open_at w g (wrap (a + j))
  end.
Proof.
  induction n as [|n IH]; intros g a x Hn.
  - cbn [fstore]. split; [lia|]. intros b. pose proof (off_range a b). destruct (Z.ltb_spec (off a b) (Z.of_nat 0)); [lia|]. by rewrite andb_false_r.
  - cbn [fstore]. destruct (g (wrap a)) as [v|] eqn:Ev.
    2:{ exists 0. split; [lia|]. rewrite Z.add_0_r. intros [H _]. done. }
    destruct (w (wrap a)) eqn:Ew.
    2:{ exists 0. split; [lia|]. rewrite Z.add_0_r. intros [_ H]. congruence. }
    specialize (IH (upd g (wrap a) (bits x 7 0)) (a + 1) (x / 2 ^ 8) ltac:(lia)).
    assert (U : forall b, open_at w (upd g (wrap a) (bits x 7 0)) b <-> open_at w g b).
    { intros b. unfold open_at, upd. destruct (Z.eqb_spec b (wrap a)) as [->|]; [|done]. rewrite Ev. naive_solver. }
    destruct (fstore n w _ (a + 1) _) as [g'|].
    + destruct IH as [I1 I2]. split.
      * intros j Hj. destruct (decide (j = 0)) as [->|N]; [rewrite Z.add_0_r; split; congruence|]. apply U. replace (a + j) with (a + 1 + (j - 1)) by lia. apply I1. lia.
      * intros b. rewrite I2. pose proof (off_range a b). destruct (is_addr b) eqn:Eb; cbn [andb].
        -- destruct (decide (off a b = 0)) as [E0|N0].
           ++ rewrite off_last by done. destruct (Z.ltb_spec (2 ^ 64 - 1) (Z.of_nat n)); [lia|]. rewrite E0. destruct (Z.ltb_spec 0 (Z.of_nat (Datatypes.S n))); [|lia]. unfold upd. apply off_zero in E0; [|done]. rewrite <- E0, Z.eqb_refl. rewrite bits8. unfold byte_of. by rewrite Z.pow_0_r, Z.div_1_r.
           ++ rewrite off_next by done. destruct (Z.ltb_spec (off a b - 1) (Z.of_nat n)), (Z.ltb_spec (off a b) (Z.of_nat (Datatypes.S n))); try lia; [by rewrite byte_next by lia|].
              unfold upd. destruct (Z.eqb_spec b (wrap a)) as [E|]; [|done]. exfalso. apply N0. by apply off_zero.
        -- unfold upd. destruct (Z.eqb_spec b (wrap a)) as [->|]; [|done]. exfalso. pose proof (wrap_range a). unfold is_addr in Eb. apply andb_false_iff in Eb. destruct Eb as [Eb|Eb]; [apply Z.leb_gt in Eb|apply Z.ltb_ge in Eb]; lia.
    + destruct IH as (j & Hj & N). exists (j + 1). split; [lia|]. replace (a + (j + 1)) with (a + 1 + j) by lia. intros H. apply N. by apply U.
Qed.
Lemma fload_none n g : forall a, fload n g a = None <-> exists j, 0 <= j < Z.of_nat n /\ g (wrap (a + j)) = None.
Proof.
  induction n as [|n IH]; intros a; cbn [fload].
  - split; [done|]. intros (j & Hj & _). lia.
  - destruct (g (wrap a)) as [v|] eqn:Ev.
    + specialize (IH (a + 1)). split.
      * intros H. assert (fload n g (a + 1) = None) as H0 by (by destruct (fload n g (a + 1))). apply IH in H0 as (j & Hj & E). exists (j + 1). split; [lia|]. by replace (a + (j + 1)) with (a + 1 + j) by lia.
      * intros (j & Hj & E). destruct (decide (j = 0)) as [->|N]; [rewrite Z.add_0_r in E; congruence|]. assert (fload n g (a + 1) = None) as ->; [|done]. apply IH. exists (j - 1). split; [lia|]. by replace (a + 1 + (j - 1)) with (a + j) by lia.
    + split; [|done]. intros _. exists 0. split; [lia|]. by rewrite Z.add_0_r.
Qed.

(** ** Registers as a tuple

    The same machine with one field for each register, to follow a run without functions. *)
Record regs := Regs { rA : Z; rB : Z; rC : Z; rD : Z; rS : Z; rI : Z; x_0 : Z; x_1 : Z; x_2 : Z; x_3 : Z; x_4 : Z; x_5 : Z; rM : fmem }.
Definition gget (v : regs) (r : gpr) : Z := match r with AX => rA v | BX => rB v | CX => rC v | DX => rD v | SI => rS v | DI => rI v end.
Definition gset (v : regs) (r : gpr) (z : Z) : regs :=
  match v with Regs a b c d s i x0 x1 x2 x3 x4 x5 g =>
  match r with AX => Regs z b c d s i x0 x1 x2 x3 x4 x5 g | BX => Regs a z c d s i x0 x1 x2 x3 x4 x5 g | CX => Regs a b z d s i x0 x1 x2 x3 x4 x5 g
  | DX => Regs a b c z s i x0 x1 x2 x3 x4 x5 g | SI => Regs a b c d z i x0 x1 x2 x3 x4 x5 g | DI => Regs a b c d s z x0 x1 x2 x3 x4 x5 g end end.
Definition xget (v : regs) (r : xreg) : Z := match r with X0 => x_0 v | X1 => x_1 v | X2 => x_2 v | X3 => x_3 v | X4 => x_4 v | X5 => x_5 v end.
Definition xset (v : regs) (r : xreg) (z : Z) : regs :=
  match v with Regs a b c d s i x0 x1 x2 x3 x4 x5 g =>
  match r with X0 => Regs a b c d s i z x1 x2 x3 x4 x5 g | X1 => Regs a b c d s i x0 z x2 x3 x4 x5 g | X2 => Regs a b c d s i x0 x1 z x3 x4 x5 g
  | X3 => Regs a b c d s i x0 x1 x2 z x4 x5 g | X4 => Regs a b c d s i x0 x1 x2 x3 z x5 g | X5 => Regs a b c d s i x0 x1 x2 x3 x4 z g end end.
Definition mset (v : regs) (g : fmem) : regs := match v with Regs a b c d s i x0 x1 x2 x3 x4 x5 _ => Regs a b c d s i x0 x1 x2 x3 x4 x5 g end.
Definition sstep (k : machine) (i : instr) (s : regs) : option regs :=
  match i with
  | MOVQ_arg o d => andthen (fload 8 (rM s) (FP k + o)) (fun v => Some (gset s d v))
  | MOVQ a d => Some (gset s d (gget s a))
  | MOVWQZX_arg o d => andthen (fload 2 (rM s) (FP k + o)) (fun v => Some (gset s d v))
  | MOVWQZX a d => Some (gset s d (bits (gget s a) 15 0))
  | MOVBQZX a d => Some (gset s d (bits (gget s a) 7 0))
  | MOVBQZX_ld a d => andthen (fload 1 (rM s) (gget s a)) (fun v => Some (gset s d v))
  | SHLQ n d => Some (gset s d (bits (gget s d * 2 ^ count64 n) 63 0))
  | SHRQ n d => Some (gset s d (gget s d / 2 ^ count64 n))
  | ADDQ a d => Some (gset s d (bits (gget s d + gget s a) 63 0))
  | MOVW_ret a o => andthen (fstore 2 (writable k) (rM s) (FP k + o) (bits (gget s a) 15 0)) (fun g => Some (mset s g))
  | VLDDQU disp a d => andthen (fload 16 (rM s) (gget s a + disp)) (fun v => Some (xset s d v))
  | VMOVDQU x disp a => andthen (fstore 16 (writable k) (rM s) (gget s a + disp) (xget s x)) (fun g => Some (mset s g))
  | VPBROADCASTW c d => andthen (fload 2 (rM s) (constant k c)) (fun v => Some (xset s d (BROADCASTW v)))
  | VBROADCASTSS_arg o d => andthen (fload 4 (rM s) (FP k + o)) (fun v => Some (xset s d (BROADCASTSS v)))
  | VPMINUB s2 s1 d => Some (xset s d (PMINUB (xget s s1) (xget s s2)))
  | VPACKUSWB s2 s1 d => Some (xset s d (PACKUSWB (xget s s1) (xget s s2)))
  | VPMINSW s2 s1 d => Some (xset s d (PMINSW (xget s s1) (xget s s2)))
  | VPADDUSW s2 s1 d => Some (xset s d (PADDUSW (xget s s1) (xget s s2)))
  | VPMOVMSKB x d => Some (gset s d (PMOVMSKB (xget s x)))
  | VPSHUFB_ld a x d => andthen (fload 16 (rM s) (gget s a)) (fun v => Some (xset s d (PSHUFB (xget s x) v)))
  | VPALIGNR n s2 s1 d => Some (xset s d (PALIGNR (xget s s1) (xget s s2) n))
  | VPSUBD s2 s1 d => Some (xset s d (PSUBD (xget s s1) (xget s s2)))
  | VPADDD s2 s1 d => Some (xset s d (PADDD (xget s s1) (xget s s2)))
  | VPSLLDQ n x d => Some (xset s d (PSLLDQ (xget s x) n))
  | VPSHUFD n x d => Some (xset s d (PSHUFD (xget s x) n))
  end.
Fixpoint sexec (k : machine) (c : list instr) (s : regs) : option regs := match c with [] => Some s | i :: r => andthen (sstep k i s) (sexec k r) end.
Record agree (s : fstate) (v : regs) : Prop := Agree { ag_g : forall r, fg s r = gget v r; ag_x : forall r, fx s r = xget v r; ag_m : fm s = rM v }.
Lemma agree_g s v d z : agree s v -> agree (fsetg s d z) (gset v d z).
Proof. intros [G X M]. destruct v; split; [|destruct d; exact X|destruct d; exact M]. intros r. specialize (G r). by destruct d, r. Qed.
Lemma agree_x s v d z : agree s v -> agree (fsetx s d z) (xset v d z).
Proof. intros [G X M]. destruct v; split; [destruct d; exact G| |destruct d; exact M]. intros r. specialize (X r). by destruct d, r. Qed.
Lemma agree_m s v g : agree s v -> agree (setm s g) (mset v g).
Proof. intros [G X M]. destruct v; split; [exact G|exact X|reflexivity]. Qed.
Definition alike (o : option fstate) (p : option regs) : Prop := match o, p with Some s, Some v => agree s v | None, None => True | _, _ => False end.
Lemma alike_load n g a F G : (forall v, alike (F v) (G v)) -> alike (andthen (fload n g a) F) (andthen (fload n g a) G).
Proof. intros H. by destruct (fload n g a); [apply H|]. Qed.
Lemma alike_store n w g a x F G : (forall v, alike (F v) (G v)) -> alike (andthen (fstore n w g a x) F) (andthen (fstore n w g a x) G).
Proof. intros H. by destruct (fstore n w g a x); [apply H|]. Qed.
Lemma alike_step k i s v : agree s v -> alike (fstep k i s) (sstep k i v).
Proof.
  intros A. pose proof A as [G X M].
  destruct i; cbn [fstep sstep]; rewrite ?G, ?X, ?M; first [apply alike_load; intros|apply alike_store; intros|idtac]; cbn [alike]; first [by apply agree_g|by apply agree_x|by apply agree_m].
Qed.
Lemma alike_exec k c : forall s v, agree s v -> alike (fexec k c s) (sexec k c v).
Proof.
  induction c as [|i c IH]; intros s v A; [exact A|]. cbn [fexec sexec]. pose proof (alike_step k i s v A) as H. destruct (fstep k i s), (sstep k i v); try done. by apply IH.
Qed.
Definition regs_of (s : fstate) : regs := Regs (fg s AX) (fg s BX) (fg s CX) (fg s DX) (fg s SI) (fg s DI) (fx s X0) (fx s X1) (fx s X2) (fx s X3) (fx s X4) (fx s X5) (fm s).
Lemma agree_of s : agree s (regs_of s). Proof. split; [by intros []|by intros []|done]. Qed.
Lemma sexec_memory k c s : option_map fm (fexec k c s) = option_map rM (sexec k c (regs_of s)).
Proof. pose proof (alike_exec k c s _ (agree_of s)) as H. destruct (fexec k c s), (sexec k c _); try done. cbn. f_equal. apply (ag_m _ _ H). Qed.

(** ** The routines, instruction by instruction *)
Lemma sexec_cons k i c s : sexec k (i :: c) s = andthen (sstep k i s) (sexec k c). Proof. done. Qed.
Ltac clean := cbn [sstep gget gset xget xset mset rA rB rC rD rS rI x_0 x_1 x_2 x_3 x_4 x_5 rM].
Ltac go := repeat (rewrite sexec_cons; clean;
  match goal with
  | H : fload ?n ?g ?a = ?r |- context [andthen (fload ?n ?g ?a) _] => rewrite H
  | H : fstore ?n ?w ?g ?a ?x = _ |- context [andthen (fstore ?n ?w ?g ?a ?x) _] => rewrite H
  | _ => idtac end; match goal with |- context [andthen (Some _) (sexec _ _)] => idtac | |- context [andthen (andthen (Some _) _) _] => idtac end; cbn [andthen]).
Ltac fault := rewrite sexec_cons; clean; match goal with H : fload ?n ?g ?a = None |- context [andthen (fload ?n ?g ?a) _] => rewrite H | H : fstore ?n ?w ?g ?a ?x = None |- context [andthen (fstore ?n ?w ?g ?a ?x) _] => rewrite H end; reflexivity.
Ltac stores := rewrite sexec_cons; clean; match goal with |- option_map rM (andthen (andthen (fstore _ _ _ _ ?T) _) _) = andthen (fstore _ _ _ _ ?Y) _ => unify Y T; destruct (fstore 16 _ _ _ T) as [g2|]; [|reflexivity] end;
  cbn [andthen]; rewrite sexec_cons; clean; match goal with |- option_map rM (andthen (andthen (fstore _ _ _ _ ?T) _) _) = fstore _ _ _ _ ?Y => unify Y T; destruct (fstore 16 _ _ _ T) as [g3|]; reflexivity end.
Definition row_at (S c : Z) : Z := bits (bits (bits c 7 0 * 2 ^ count64 4) 63 0 + S) 63 0.
Definition row_at2 (S c : Z) : Z := bits (bits (bits c 15 0 / 2 ^ count64 8 * 2 ^ count64 4) 63 0 + S) 63 0.
Definition len_at (L c : Z) : Z := bits (bits c 7 0 + L) 63 0.
Lemma get_run prev : exists Y0 Y1 : Z -> Z -> Z -> Z -> Z -> Z, forall k t c P Q S L d n1 r0 r1,
  fload 2 (fm t) (FP k + 48) = Some c -> fload 8 (fm t) (FP k + 56) = Some S -> fload 8 (fm t) (FP k + 0) = Some P -> fload 8 (fm t) (FP k + 64) = Some L -> fload 8 (fm t) (FP k + 24) = Some Q ->
  match prev with None => True | Some _ => fload 4 (fm t) (FP k + 52) = Some d end ->
  fload 1 (fm t) (len_at L c) = Some n1 -> fload 16 (fm t) (row_at S c) = Some r0 -> fload 16 (fm t) (row_at2 S c) = Some r1 ->
  (forall x0 x1, fload 16 (fm t) (P + 0) = Some x0 -> fload 16 (fm t) (bits (P + n1) 63 0 + 0) = Some x1 ->
    option_map fm (fexec k (get_code prev) t) = andthen (fstore 16 (writable k) (fm t) (Q + 0) (Y0 d x0 x1 r0 r1)) (fun g2 => fstore 16 (writable k) g2 (Q + 16) (Y1 d x0 x1 r0 r1))) /\
  (fload 16 (fm t) (P + 0) = None \/ fload 16 (fm t) (bits (P + n1) 63 0 + 0) = None -> option_map fm (fexec k (get_code prev) t) = None).
Proof.
  destruct prev as [?|]; do 2 eexists; intros k t c P Q S L d n1 r0 r1 H1 H2 H3 H4 H5 H6 H7 H8 H9; unfold row_at, row_at2, len_at in *;
  rewrite sexec_memory; unfold regs_of, get_code, Get8uint32FastAsm_code, Get8uint32DeltaFastAsm_code.
  all: split; [intros x0 x1 E0 E1; go; stores|].
  all: intros E; destruct (fload 16 (fm t) (P + 0)) eqn:E0; [destruct E as [E|E]; [discriminate E|]|clear E]; go; fault.
Qed.
Lemma put_run prev : exists (C : Z -> Z -> Z -> Z) (Y0 Y1 : Z -> Z -> Z -> Z -> Z), forall k t P d,
  fload 8 (fm t) (FP k + 0) = Some P -> fload 2 (fm t) (constant k mask0101) = Some mask0101 -> fload 2 (fm t) (constant k mask7F00) = Some mask7F00 ->
  match prev with None => True | Some _ => fload 4 (fm t) (FP k + 48) = Some d end ->
  (forall x0 x1, fload 16 (fm t) (P + 0) = Some x0 -> fload 16 (fm t) (P + 16) = Some x1 ->
    (fstore 2 (writable k) (fm t) (FP k + put_ret prev) (bits (C d x0 x1) 15 0) = None -> option_map fm (fexec k (put_code prev) t) = None) /\
    forall g1 Q S L n1 r0 r1, fstore 2 (writable k) (fm t) (FP k + put_ret prev) (bits (C d x0 x1) 15 0) = Some g1 ->
      fload 8 g1 (FP k + (put_ret prev - 16)) = Some S -> fload 8 g1 (FP k + 24) = Some Q -> fload 8 g1 (FP k + (put_ret prev - 8)) = Some L ->
      fload 1 g1 (len_at L (C d x0 x1)) = Some n1 -> fload 16 g1 (row_at S (C d x0 x1)) = Some r0 -> fload 16 g1 (row_at2 S (C d x0 x1)) = Some r1 ->
      option_map fm (fexec k (put_code prev) t) = andthen (fstore 16 (writable k) g1 (Q + 0) (Y0 d x0 x1 r0)) (fun g2 => fstore 16 (writable k) g2 (bits (Q + n1) 63 0 + 0) (Y1 d x0 x1 r1))) /\
  (fload 16 (fm t) (P + 0) = None \/ fload 16 (fm t) (P + 16) = None -> option_map fm (fexec k (put_code prev) t) = None).
Proof.
  destruct prev as [?|]; do 3 eexists; intros k t P d H1 H2 H3 H4; unfold row_at, row_at2, len_at;
  rewrite sexec_memory; unfold regs_of, put_code, Put8uint32FastAsm_code, Put8uint32DeltaFastAsm_code, put_ret; cbn [Z.sub Z.add Z.opp Z.pos_sub Pos.pred_double].
  all: split; [|intros E; destruct (fload 16 (fm t) (P + 0)) eqn:E0; [destruct E as [E|E]; [discriminate E|]|clear E]; go; fault].
  all: intros x0 x1 E0 E1; go; match goal with |- context [Regs ?a _ _ _ _ _ _ _ _ _ _ _ _] => match goal with |- context [fstore 2 _ _ _ (bits ?Y 15 0)] => unify Y a end; set (c := a) end.
  all: change (72 - 16) with 56; change (72 - 8) with 64; change (64 - 16) with 48; change (64 - 8) with 56.
  all: split; [intros E; fault|intros g1 Q S L n1 r0 r1 G1 G2 G3 G4 G5 G6 G7; go; stores].
Qed.
