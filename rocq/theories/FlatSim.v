(** * Simulation, instruction by instruction *)
From stdpp Require Import prelude gmap list.
From Coq Require Import ZArith Lia.
From Verif Require Import Spec SpecLemmas GoSem Shared Asm Api ApiLemmas Flat FlatVec FlatProof.
Local Open Scope Z_scope.

(** ** Normal executions *)
Lemma ret_inv {A} (a : A) m v m' : returns (Ret a) m v m' -> a = v /\ m = m'.
Proof. intros [H1 H2]. cbn in *. by injection H1. Qed.
Lemma fault_inv {A} m (v : A) m' : returns Fault m v m' -> False.
Proof. intros [H _]. discriminate H. Qed.
Lemma bind_inv {A B} (p : prog A) (f : A -> prog B) m v m' : returns (bind p f) m v m' -> exists a m1, returns p m a m1 /\ returns (f a) m1 v m'.
Proof.
  unfold returns. rewrite run_bind. destruct (run p m) as [[r m1] t]. unfold result, final, trace. cbn. destruct r as [a| | | |]; cbn; intros [H1 H2]; try discriminate H1. by exists a, m1.
Qed.
Lemma bind_acc {A B} (p : prog A) (f : A -> prog B) m a m1 F : returns p m a m1 -> accesses (bind p f) m F -> accesses p m F /\ accesses (f a) m1 F.
Proof.
  intros [R M] H. unfold accesses in *. rewrite (run_bind p f m), R, M in H. unfold trace in H at 1. cbn [snd] in H. by apply Forall_app in H.
Qed.
Lemma writeBs_acc b i v vs m F : accesses (writeBs b i (v :: vs)) m F -> F (EWrB b i).
Proof. unfold accesses. cbn [writeBs run]. destruct (hput _ _ _ _); [destruct (run _ _) as [[? ?] ?]|]; intros H; by inversion H. Qed.
Lemma writeWs_acc b i v vs m F : accesses (writeWs b i (v :: vs)) m F -> F (EWrW b i).
Proof. unfold accesses. cbn [writeWs run]. destruct (hput _ _ _ _); [destruct (run _ _) as [[? ?] ?]|]; intros H; by inversion H. Qed.
Lemma readB_inv {A} b i (k : Z -> prog A) m v m' : returns (ReadB b i k) m v m' -> exists x, hget (mb m) b i = Some x /\ returns (k x) m v m'.
Proof. unfold returns. cbn. destruct (hget (mb m) b i) as [x|]; [|by intros [H _]]. destruct (run (k x) m) as [[r m1] t] eqn:E. unfold result, final. cbn. intros H. exists x. by rewrite E. Qed.
Lemma readW_inv {A} b i (k : Z -> prog A) m v m' : returns (ReadW b i k) m v m' -> exists x, hget (mw m) b i = Some x /\ returns (k x) m v m'.
Proof. unfold returns. cbn. destruct (hget (mw m) b i) as [x|]; [|by intros [H _]]. destruct (run (k x) m) as [[r m1] t] eqn:E. unfold result, final. cbn. intros H. exists x. by rewrite E. Qed.
Lemma writeB_inv {A} b i x (k : prog A) m v m' : returns (WriteB b i x k) m v m' -> exists h, hput (mb m) b i x = Some h /\ returns k (Mem h (mw m)) v m'.
Proof. unfold returns. cbn. destruct (hput (mb m) b i x) as [h|]; [|by intros [H _]]. destruct (run k (Mem h (mw m))) as [[r m1] t] eqn:E. unfold result, final. cbn. intros H. exists h. by rewrite E. Qed.
Lemma writeW_inv {A} b i x (k : prog A) m v m' : returns (WriteW b i x k) m v m' -> exists h, hput (mw m) b i x = Some h /\ returns k (Mem (mb m) h) v m'.
Proof. unfold returns. cbn. destruct (hput (mw m) b i x) as [h|]; [|by intros [H _]]. destruct (run k (Mem (mb m) h)) as [[r m1] t] eqn:E. unfold result, final. cbn. intros H. exists h. by rewrite E. Qed.
Lemma readBs_inv n : forall b i m l m', returns (readBs n b i) m l m' -> m' = m /\ length l = n /\ forall j v, l !! j = Some v -> hget (mb m) b (i + Z.of_nat j) = Some v.
Proof.
  induction n as [|n IH]; intros b i m l m' H.
  - apply ret_inv in H as [<- <-]. split; [done|]. split; [done|]. intros j v E. discriminate E.
  - cbn [readBs] in H. apply readB_inv in H as (x & E & H). apply bind_inv in H as (l' & m1 & H1 & H2). apply ret_inv in H2 as [<- <-]. apply IH in H1 as (-> & L & H).
    split; [done|]. split; [cbn; lia|]. intros [|j] v Ev; cbn in Ev.
    + injection Ev as <-. by rewrite Z.add_0_r.
    + rewrite <- (H j v Ev). f_equal. lia.
Qed.
Lemma readWs_inv n : forall b i m l m', returns (readWs n b i) m l m' -> m' = m /\ length l = n /\ forall j v, l !! j = Some v -> hget (mw m) b (i + Z.of_nat j) = Some v.
Proof.
  induction n as [|n IH]; intros b i m l m' H.
  - apply ret_inv in H as [<- <-]. split; [done|]. split; [done|]. intros j v E. discriminate E.
  - cbn [readWs] in H. apply readW_inv in H as (x & E & H). apply bind_inv in H as (l' & m1 & H1 & H2). apply ret_inv in H2 as [<- <-]. apply IH in H1 as (-> & L & H).
    split; [done|]. split; [cbn; lia|]. intros [|j] v Ev; cbn in Ev.
    + injection Ev as <-. by rewrite Z.add_0_r.
    + rewrite <- (H j v Ev). f_equal. lia.
Qed.
Lemma hput_get h b i v h' : hput h b i v = Some h' -> hget h b i <> None /\ forall b' j, hget h' b' j = if decide (b' = b /\ j = i) then Some v else hget h b' j.
Proof.
  unfold hput, hget. destruct (Z.leb_spec 0 i) as [L|]; [|discriminate]. destruct (h !! b) as [l|] eqn:E; [|discriminate]. destruct (Nat.ltb_spec (Z.to_nat i) (length l)) as [L2|]; [|discriminate].
  intros H. injection H as <-. split; [by apply lookup_lt_is_Some_2 in L2 as [x ->]|]. intros b' j. destruct (decide (b' = b /\ j = i)) as [[-> ->]|N].
  - rewrite (proj2 (Z.leb_le _ _)) by lia. rewrite lookup_insert. by rewrite list_lookup_insert.
  - destruct (Z.leb_spec 0 j); [|done]. destruct (decide (b' = b)) as [->|]; [|by rewrite lookup_insert_ne]. rewrite lookup_insert, E, list_lookup_insert_ne; [done|]. intros X. apply N. split; [done|lia].
Qed.
Definition overwritten (h h' : gmap nat (list Z)) (b : nat) (i : Z) (vs : list Z) : Prop :=
  (forall j, i <= j < i + Z.of_nat (length vs) -> hget h b j <> None) /\
  forall b' j, hget h' b' j = if decide (b' = b /\ i <= j < i + Z.of_nat (length vs)) then vs !! Z.to_nat (j - i) else hget h b' j.
Lemma overwritten_cons h h1 h2 b i v vs : hput h b i v = Some h1 -> overwritten h1 h2 b (i + 1) vs -> overwritten h h2 b i (v :: vs).
Proof.
  intros P [D G]. apply hput_get in P as [P1 P2]. split.
  - intros j Hj. cbn [length] in Hj. destruct (decide (j = i)) as [->|]; [done|]. specialize (D j ltac:(lia)). rewrite P2 in D. rewrite decide_False in D by (intros [_ X]; lia). done.
  - intros b' j. rewrite G, P2. cbn [length]. destruct (decide (b' = b /\ i <= j < i + Z.of_nat (S (length vs)))) as [[-> Hj]|N].
    + destruct (decide (j = i)) as [->|Nj].
      * rewrite decide_False by (intros [_ X]; lia). rewrite decide_True by done. by rewrite Z.sub_diag.
      * rewrite decide_True by (split; [done|lia]). replace (Z.to_nat (j - i)) with (S (Z.to_nat (j - (i + 1)))) by lia. done.
    + rewrite decide_False by (intros [-> X]; apply N; split; [done|lia]). rewrite decide_False; [done|]. intros [-> ->]. apply N. split; [done|lia].
Qed.
Lemma overwritten_nil h b i : overwritten h h b i [].
Proof. split; [cbn; lia|]. intros b' j. rewrite decide_False; [done|]. intros [_ X]. cbn in X. lia. Qed.
Lemma writeBs_inv vs : forall b i m m', returns (writeBs b i vs) m tt m' -> mw m' = mw m /\ overwritten (mb m) (mb m') b i vs.
Proof.
  induction vs as [|v vs IH]; intros b i m m' H.
  - apply ret_inv in H as [_ <-]. split; [done|]. apply overwritten_nil.
  - cbn [writeBs] in H. apply writeB_inv in H as (h & E & H). apply IH in H as [H1 H2]. cbn [mb mw] in *. split; [done|]. eapply overwritten_cons; eassumption.
Qed.
Lemma writeWs_inv vs : forall b i m m', returns (writeWs b i vs) m tt m' -> mb m' = mb m /\ overwritten (mw m) (mw m') b i vs.
Proof.
  induction vs as [|v vs IH]; intros b i m m' H.
  - apply ret_inv in H as [_ <-]. split; [done|]. apply overwritten_nil.
  - cbn [writeWs] in H. apply writeW_inv in H as (h & E & H). apply IH in H as [H1 H2]. cbn [mb mw] in *. split; [done|]. eapply overwritten_cons; eassumption.
Qed.
(** The allocations keep their sizes. *)
Definition same_dom (h h' : gmap nat (list Z)) : Prop := forall b i, hget h' b i = None <-> hget h b i = None.
Lemma overwritten_dom h h' b i vs : overwritten h h' b i vs -> same_dom h h'.
Proof.
  intros [D G] b' j. rewrite G. destruct (decide _) as [[-> Hj]|]; [|done]. specialize (D j Hj). destruct (lookup_lt_is_Some_2 vs (Z.to_nat (j - i)) ltac:(lia)) as [x ->]. split; intros; [discriminate|done].
Qed.
Lemma overwritten_all P h h' b i vs : overwritten h h' b i vs -> Forall P vs -> (forall b j v, hget h b j = Some v -> P v) -> forall b j v, hget h' b j = Some v -> P v.
Proof.
  intros [_ G] F H b' j v. rewrite G. destruct (decide _) as [[-> Hj]|]; [|apply H]. intros E. rewrite Forall_lookup in F. by eapply F.
Qed.
(** Types, element by element. *)
Record good_mem (m : mem) : Prop := { gm_b : forall b i v, hget (mb m) b i = Some v -> is_byte v; gm_w : forall b i v, hget (mw m) b i = Some v -> is_u32 v }.
Lemma typed_good m : typed m -> good_mem m.
Proof.
  intros [B W]. split; intros b i v; unfold hget; (destruct (0 <=? i); [|discriminate]).
  - destruct (mb m !! b) as [l|] eqn:E; [|discriminate]. intros H. specialize (B b l E). rewrite Forall_lookup in B. by eapply B.
  - destruct (mw m !! b) as [l|] eqn:E; [|discriminate]. intros H. specialize (W b l E). rewrite Forall_lookup in W. by eapply W.
Qed.

Section sim.
Context (p : placement) (Htabs : Forall (Forall is_byte) (tabs p)).
Notation addr := (addr p). Notation placed := (placed p). Notation repr := (repr p). Notation live := (live p). Notation holds := (holds p). Notation vrel := (vrel p). Notation writes := (writes p).

Lemma live_same m m' f : same_dom (mb m) (mb m') -> same_dom (mw m) (mw m') -> forall o, live m' f o <-> live m f o.
Proof.
  intros B W o. assert (K : forall h h', same_dom h h' -> forall b i, (exists v, hget h' b i = Some v) <-> exists v, hget h b i = Some v).
  { intros h h' S b i. destruct (hget h' b i) eqn:E1, (hget h b i) eqn:E2; try (split; intros [? ?]; eauto; discriminate); [apply S in E2|apply S in E1]; congruence. }
  destruct o as [b i|b i k| | | |]; try done; cbn [FlatProof.live FlatProof.holds].
  - by apply K.
  - pose proof (K _ _ W b i) as Q. split; intros (v & Hk & x & E & _).
    + destruct (proj1 Q (ex_intro _ x E)) as [y Ey]. eexists. split; [done|]. by exists y.
    + destruct (proj2 Q (ex_intro _ x E)) as [y Ey]. eexists. split; [done|]. by exists y.
Qed.
Lemma placed_same m m' f : same_dom (mb m) (mb m') -> same_dom (mw m) (mw m') -> placed m f -> placed m' f.
Proof.
  intros B W P. pose proof (live_same m m' f B W) as L. split.
  - intros o H. apply (pl_range _ _ _ P). by apply L.
  - intros o o' H H'. apply (pl_apart _ _ _ P); by apply L.
  - intros o H. apply (pl_write _ _ _ P). by apply L.
Qed.

(** The state of the registers; [X] are the vector registers that have been set. *)
Record rel (f : list (Z * cell)) (X : list xreg) (s : astate) (m : mem) (t : fstate) : Prop := {
  rl_g : forall r, vrel (gp s r) (fg t r);
  rl_x : forall x, In x X -> reg128 (xm s x) /\ fx t x = le_val (xm s x);
  rl_m : repr m f (aret s) (fm t);
  rl_t : good_mem m }.
(** Only what the memory and the result occupy has changed. *)
Definition may (e : event) : Prop := match e with EWrB b _ => wB p b = true | EWrW b _ => wW p b = true | _ => True end.
Definition outside (m : mem) (f : list (Z * cell)) (g g' : fmem) : Prop := forall a, (forall o, live m f o -> writes o -> addr o <> a) -> g' a = g a.

(** Registers read and set; immediate operands. *)
Definition xreads (i : instr) : list xreg :=
  match i with
  | VMOVDQU s _ _ | VPMOVMSKB s _ | VPSHUFB_ld _ s _ | VPSLLDQ _ s _ | VPSHUFD _ s _ => [s]
  | VPMINUB s2 s1 _ | VPACKUSWB s2 s1 _ | VPMINSW s2 s1 _ | VPADDUSW s2 s1 _ | VPALIGNR _ s2 s1 _ | VPSUBD s2 s1 _ | VPADDD s2 s1 _ => [s2; s1]
  | _ => []
  end.
Definition xsets (i : instr) : list xreg :=
  match i with
  | VLDDQU _ _ d | VPBROADCASTW _ d | VBROADCASTSS_arg _ d | VPMINUB _ _ d | VPACKUSWB _ _ d | VPMINSW _ _ d | VPADDUSW _ _ d
  | VPSHUFB_ld _ _ d | VPALIGNR _ _ _ d | VPSUBD _ _ d | VPADDD _ _ d | VPSLLDQ _ _ d | VPSHUFD _ _ d => [d]
  | _ => []
  end.
Definition operands_ok (i : instr) : bool :=
  match i with
  | SHLQ n _ | SHRQ n _ => (0 <=? n) && (n <? 64)
  | VPALIGNR n _ _ _ => (0 <=? n) && (n <=? 16)
  | VPSLLDQ n _ _ | VPSHUFD n _ _ => 0 <=? n
  | VPBROADCASTW c _ => (0 <=? c) && (c <? 65536) && existsb (Z.eqb c) (consts p)
  | MOVW_ret _ _ => pN p =? 2
  | _ => true
  end.
Definition xin (X : list xreg) (x : xreg) : bool := existsb (xreg_eqb x) X.
Fixpoint checked (X : list xreg) (c : list instr) : bool :=
  match c with [] => true | i :: r => forallb (xin X) (xreads i) && operands_ok i && checked (xsets i ++ X) r end.

Lemma xreg_eqb_eq a b : xreg_eqb a b = true <-> a = b.
Proof. destruct a, b; cbn; split; congruence. Qed.
Lemma gpr_eqb_eq a b : gpr_eqb a b = true <-> a = b.
Proof. destruct a, b; cbn; split; congruence. Qed.
Lemma xin_in X x : xin X x = true -> In x X.
Proof. unfold xin. rewrite existsb_exists. intros (y & I & E). apply xreg_eqb_eq in E. by subst. Qed.

Lemma rel_setg f X s m t d v x : rel f X s m t -> vrel v x -> rel f X (setg s d v) m (fsetg t d x).
Proof. intros [G V M T] H. split; cbn; try done. intros r. by destruct (gpr_eqb r d). Qed.
Lemma rel_setx f X s m t d l x : rel f X s m t -> reg128 l -> x = le_val l -> rel f (d :: X) (setx s d l) m (fsetx t d x).
Proof.
  intros [G V M T] H E. split; cbn; try done. intros r I. destruct (xreg_eqb r d) eqn:Er; [done|]. apply V. destruct I as [->|I]; [|done]. exfalso. rewrite (proj2 (xreg_eqb_eq r r) eq_refl) in Er. discriminate.
Qed.
Lemma vrel_int z : 0 <= z < 2 ^ 64 -> vrel (VI z) z.
Proof. intros H. split; [done|]. intros y E. by injection E. Qed.
Lemma vrel_z z x : vrel (VI z) x -> x = z /\ 0 <= z < 2 ^ 64.
Proof. intros [H E]. split; [|done]. by apply E. Qed.

(** ** Loads *)
Lemma frame_load f m r g o c n : placed m f -> repr m f r g -> frame_get f o = Some c -> cell_ok p c -> cell_size c = Z.of_nat n ->
  forall x, cell_val p c = Some x -> 0 <= x < 256 ^ Z.of_nat n -> fload n g (FP (pk p) + o) = Some x.
Proof.
  intros P R F K S x E B. assert (L : length (le n x) = n) by apply le_length. rewrite <- L at 1.
  rewrite (fload_objs p m f r g _ (fun j => OA (o + Z.of_nat j)) (le n x) P R).
  - by rewrite le_val_le, Z.mod_small.
  - intros j v Ev. split; [|cbn [FlatProof.addr]; f_equal; lia]. assert (j < n)%nat by (rewrite <- L; by eapply lookup_lt_Some).
    exists o, c, x. split; [done|]. split; [lia|]. split; [done|]. replace (o + Z.of_nat j - o) with (Z.of_nat j) by lia.
    revert Ev. clear. unfold byte_of. revert x j. induction n as [|n IH]; intros x j Ev; [discriminate|]. cbn [le] in Ev. destruct j as [|j].
    + cbn in Ev. injection Ev as <-. by rewrite Z.div_1_r.
    + cbn in Ev. apply IH in Ev. rewrite Ev, Nat2Z.inj_succ, Z.pow_succ_r by lia. rewrite Z.div_div by (try apply Z.pow_pos_nonneg; lia). done.
Qed.
Lemma table_load f m r g t o n : placed m f -> repr m f r g -> In t (tabs p) -> 0 <= o -> o + Z.of_nat n <= Z.of_nat (length t) ->
  fload n g (pT p t + o) = Some (le_val (take n (drop (Z.to_nat o) t))).
Proof.
  intros P R I O L. assert (E : length (take n (drop (Z.to_nat o) t)) = n) by (rewrite take_length, drop_length; lia). rewrite <- E at 1.
  apply (fload_objs p m f r g _ (fun j => OT t (o + Z.of_nat j)) _ P R). intros j v Ev. split; [|cbn [FlatProof.addr]; f_equal; lia].
  split; [done|]. split; [lia|]. assert (j < n)%nat by (rewrite <- E; by eapply lookup_lt_Some). rewrite lookup_take, lookup_drop in Ev by done. rewrite <- Ev. f_equal. lia.
Qed.
Lemma byte_load f m r g b o l : placed m f -> repr m f r g -> (forall j v, l !! j = Some v -> hget (mb m) b (o + Z.of_nat j) = Some v) -> fload (length l) g (pB p b + o) = Some (le_val l).
Proof.
  intros P R H. apply (fload_objs p m f r g _ (fun j => OB b (o + Z.of_nat j)) _ P R). intros j v Ev. split; [by apply H|]. cbn [FlatProof.addr]. f_equal. lia.
Qed.
Lemma bytes32_lookup ws : forall j v, bytes32 ws !! j = Some v -> exists w, ws !! (j / 4)%nat = Some w /\ v = byte_of w (Z.of_nat (j mod 4)).
Proof.
  induction ws as [|w ws IH]; intros j v E; [discriminate|]. cbn [bytes32] in E. apply lookup_app_Some in E as [E|[L E]].
  - exists w. assert (j < 4)%nat by (apply lookup_lt_Some in E; by rewrite le_length in E). rewrite (Nat.div_small j), (Nat.mod_small j) by done. split; [done|]. unfold byte_of.
    destruct j as [|[|[|[|j]]]]; cbn in E; try lia; injection E as <-; cbn [Z.of_nat Pos.of_succ_nat Pos.succ].
    + change (256 ^ 0) with 1. by rewrite Z.div_1_r.
    + done.
    + by rewrite !Z.div_div by lia.
    + by rewrite !Z.div_div by lia.
  - rewrite le_length in *. apply IH in E as (w' & E & ->). exists w'. replace j with ((j - 4) + 1 * 4)%nat at 1 3 by lia. rewrite Nat.div_add, Nat.mod_add by lia. split; [|done].
    rewrite Nat.add_1_r. done.
Qed.
Lemma word_load f m r g b k ws : placed m f -> repr m f r g -> (forall j v, ws !! j = Some v -> hget (mw m) b (k + Z.of_nat j) = Some v) -> fload (length (bytes32 ws)) g (pW p b + 4 * k) = Some (le_val (bytes32 ws)).
Proof.
  intros P R H. apply (fload_objs p m f r g _ (fun j => OW b (k + Z.of_nat (j / 4)) (Z.of_nat (j mod 4))) _ P R). intros j v Ev. apply bytes32_lookup in Ev as (w & Ew & ->).
  pose proof (Nat.mod_upper_bound j 4 ltac:(lia)). split.
  - split; [lia|]. exists w. split; [by apply H|done].
  - cbn [FlatProof.addr]. f_equal. pose proof (Nat.div_mod j 4 ltac:(lia)). lia.
Qed.
Lemma load128_sim f m r g v x disp l m' : placed m f -> repr m f r g -> good_mem m -> vrel v x -> returns (load128 v disp) m l m' ->
  m' = m /\ reg128 l /\ fload 16 g (x + disp) = Some (le_val l).
Proof.
  intros P R T [Gv V] H. destruct v as [z|b o|b o|t o|]; cbn [load128] in H; try (by apply fault_inv in H).
  - apply readBs_inv in H as (-> & L & H). split; [done|]. split.
    + split; [done|]. apply Forall_lookup. intros j v E. apply (gm_b _ T b (o + disp + Z.of_nat j)). by apply H.
    + rewrite (V _ eq_refl), <- fload_wrap, wrap_add, fload_wrap, <- L, <- Z.add_assoc. by apply (byte_load f m r g).
  - destruct (Z.eqb_spec ((o + disp) mod 4) 0) as [E|]; [|by apply fault_inv in H]. apply bind_inv in H as (ws & m1 & H & H2). apply ret_inv in H2 as [<- <-]. apply readWs_inv in H as (-> & L & H).
    split; [done|]. split; [by apply bytes32_good|]. rewrite (V _ eq_refl), <- fload_wrap, wrap_add, fload_wrap.
    replace 16%nat with (length (bytes32 ws)) by (apply bytes32_good; done). replace (pW p b + o + disp) with (pW p b + 4 * ((o + disp) / 4)) by (pose proof (Z.div_mod (o + disp) 4); lia).
    by apply (word_load f m r g).
  - destruct (Z.leb_spec 0 (o + disp)); cbn [andb] in H; [|by apply fault_inv in H]. destruct (Z.leb_spec (o + disp + 16) (Z.of_nat (length t))); [|by apply fault_inv in H]. apply ret_inv in H as [<- <-].
    split; [done|]. cbn [vgood] in Gv. assert (Bt : Forall is_byte t) by (rewrite List.Forall_forall in Htabs; by apply Htabs). split.
    + split; [rewrite take_length, drop_length; lia|by apply Forall_take, Forall_drop].
    + rewrite (V _ eq_refl), <- fload_wrap, wrap_add, fload_wrap, <- Z.add_assoc. by apply (table_load f m r g).
Qed.
Lemma load8_sim f m r g v x z m' : placed m f -> repr m f r g -> good_mem m -> vrel v x -> returns (load8 v) m z m' ->
  m' = m /\ is_byte z /\ fload 1 g x = Some z.
Proof.
  intros P R T [Gv V] H. destruct v as [y|b o|b o|t o|]; cbn [load8] in H; try (by apply fault_inv in H).
  - apply readB_inv in H as (y & E & H). apply ret_inv in H as [<- <-]. split; [done|]. split; [by apply (gm_b _ T b o)|]. rewrite (V _ eq_refl), fload_wrap.
    change 1%nat with (length [y]). rewrite (byte_load f m r g b o [y] P R); [cbn [le_val]; f_equal; lia|]. intros [|j] v Ev; [injection Ev as <-; by rewrite Z.add_0_r|discriminate].
  - destruct (Z.leb_spec 0 o); cbn [andb] in H; [|by apply fault_inv in H]. destruct (Z.ltb_spec o (Z.of_nat (length t))); [|by apply fault_inv in H]. apply ret_inv in H as [<- <-].
    split; [done|]. cbn [vgood] in Gv. assert (Bt : Forall is_byte t) by (rewrite List.Forall_forall in Htabs; by apply Htabs). split; [by apply nth_all; [apply byte_0|]|].
    rewrite (V _ eq_refl), fload_wrap, (table_load f m r g t o 1 P R Gv) by lia. f_equal. destruct (lookup_lt_is_Some_2 t (Z.to_nat o) ltac:(lia)) as [y Ey].
    rewrite (nth_lookup_Some _ _ 0 _ Ey). rewrite (drop_S _ _ _ Ey). cbn [take le_val]. destruct (drop _ t); cbn [firstn le_val]; lia.
Qed.

(** ** Stores *)
Lemma store_sim f m m' r r' g l a x : placed m f -> repr m f r g -> NoDup (map fst l) -> (forall o v, In (o, v) l -> writes o /\ live m f o) ->
  le (length l) x = map snd l -> (forall j o v, l !! j = Some (o, v) -> wrap (a + Z.of_nat j) = wrap (addr o)) ->
  (forall o v, holds m' f r' o v -> In (o, v) l \/ (~ In o (map fst l) /\ holds m f r o v)) ->
  exists g', fstore (length l) (writable (pk p)) g a x = Some g' /\ repr m' f r' g' /\ outside m f g g'.
Proof.
  intros P R N W X A H. exists (upds p g l). split; [|split].
  - apply (fstore_objs p m f); try done. intros o v I. apply (live_mapped p m f r g o R). by eapply W.
  - by eapply upds_repr.
  - intros b Hb. apply upds_other. intros o v I. destruct (W _ _ I). by apply Hb.
Qed.
Lemma zip_objs (F : nat -> obj) (vs : list Z) : forall i, (forall j j', F j = F j' -> j = j') ->
  NoDup (map fst (zip (map F (seq i (length vs))) vs)) /\ map snd (zip (map F (seq i (length vs))) vs) = vs /\ length (zip (map F (seq i (length vs))) vs) = length vs /\
  (forall j o v, zip (map F (seq i (length vs))) vs !! j = Some (o, v) <-> o = F (i + j)%nat /\ vs !! j = Some v).
Proof.
  intros i I. assert (L : length (map F (seq i (length vs))) = length vs) by by rewrite map_length, seq_length.
  assert (Fs : map fst (zip (map F (seq i (length vs))) vs) = map F (seq i (length vs))) by (apply fst_zip; lia).
  split; [rewrite Fs; apply NoDup_fmap_2; [intros ? ?; apply I|apply NoDup_ListNoDup, seq_NoDup]|]. split; [apply snd_zip; lia|]. split; [rewrite zip_with_length; lia|].
  intros j o v. rewrite lookup_zip_with_Some. split.
  - intros (x & y & E & E1 & E2). injection E as -> ->. split; [|done]. change (map F (seq i (length vs))) with (F <$> seq i (length vs)) in E1. rewrite list_lookup_fmap in E1. apply fmap_Some in E1 as (k & E1 & ->). by apply lookup_seq in E1 as [-> _].
  - intros [-> E]. exists (F (i + j)%nat), v. split; [done|]. split; [|done]. change (map F (seq i (length vs))) with (F <$> seq i (length vs)). rewrite list_lookup_fmap. rewrite (proj2 (lookup_seq _ _ _ (i + j)%nat)); [done|]. split; [done|]. by eapply lookup_lt_Some.
Qed.
Lemma fstore_wrap n w x : forall g a, fstore n w g (wrap a) x = fstore n w g a x.
Proof.
  enough (H : forall x g a b, wrap a = wrap b -> fstore n w g a x = fstore n w g b x) by (intros g a; apply H; unfold wrap; apply Z.mod_mod; lia). clear x.
  induction n as [|n IH]; intros x g a b E; [done|]. cbn [fstore]. rewrite E. destruct (g (wrap b)); [|done]. destruct (w (wrap b)); [|done]. apply IH. by rewrite <- (wrap_add a), E, wrap_add.
Qed.
Lemma in_zip (F : nat -> obj) (vs : list Z) o v : (forall j j', F j = F j' -> j = j') -> In (o, v) (zip (map F (seq 0 (length vs))) vs) <-> exists j, o = F j /\ vs !! j = Some v.
Proof.
  intros I. destruct (zip_objs F vs 0 I) as (_ & _ & _ & Z). rewrite <- elem_of_list_In, elem_of_list_lookup. split.
  - intros [j E]. exists j. by apply Z in E.
  - intros [j E]. exists j. by apply Z.
Qed.
Lemma in_zip_fst (F : nat -> obj) (vs : list Z) o : (forall j j', F j = F j' -> j = j') -> In o (map fst (zip (map F (seq 0 (length vs))) vs)) -> exists j v, o = F j /\ vs !! j = Some v.
Proof. intros I H. apply in_map_iff in H as ([o' v] & <- & H). apply in_zip in H as (j & E & E2); [|done]. by exists j, v. Qed.
(** Bytes [vs] at the addresses of the objects F 0, F 1, ... *)
Lemma store_seq f m m' r r' g (F : nat -> obj) vs a : placed m f -> repr m f r g -> Forall is_byte vs -> (forall j j', F j = F j' -> j = j') ->
  (forall j, (j < length vs)%nat -> writes (F j) /\ live m f (F j) /\ wrap (a + Z.of_nat j) = wrap (addr (F j))) ->
  (forall o v, holds m' f r' o v -> (exists j, o = F j /\ vs !! j = Some v) \/ ((forall j, (j < length vs)%nat -> o <> F j) /\ holds m f r o v)) ->
  exists g', fstore (length vs) (writable (pk p)) g a (le_val vs) = Some g' /\ repr m' f r' g' /\ outside m f g g'.
Proof.
  intros P R B I W H. destruct (zip_objs F vs 0 I) as (Z1 & Z2 & Z3 & Z4). rewrite <- Z3. apply (store_sim f m m' r r' g); try done.
  - intros o v J. apply in_zip in J as (j & -> & E); [|done]. destruct (W j) as (? & ? & ?); [by eapply lookup_lt_Some|]. done.
  - by rewrite Z2, Z3, le_le_val.
  - intros j o v E. apply Z4 in E as [-> E]. apply W. by eapply lookup_lt_Some.
  - intros o v Hh. destruct (H o v Hh) as [(j & -> & E)|[N Hm]].
    + left. apply in_zip; [done|]. by exists j.
    + right. split; [|done]. intros J. apply in_zip_fst in J as (j & v' & -> & E); [|done]. apply (N j); [by eapply lookup_lt_Some|done].
Qed.
Lemma bytes32_at ws : forall j k w, ws !! j = Some w -> (k < 4)%nat -> bytes32 ws !! (4 * j + k)%nat = Some (byte_of w (Z.of_nat k)).
Proof.
  induction ws as [|w' ws IH]; intros j k w E K; [discriminate|]. cbn [bytes32]. destruct j as [|j].
  - injection E as <-. rewrite lookup_app_l by (rewrite le_length; lia). unfold byte_of. destruct k as [|[|[|[|k]]]]; [..|lia]; cbn [Nat.mul Nat.add le lookup list_lookup]; f_equal; cbn [Z.of_nat Pos.of_succ_nat Pos.succ].
    + change (256 ^ 0) with 1. by rewrite Z.div_1_r.
    + by rewrite !Z.div_div by lia.
    + by rewrite !Z.div_div by lia.
  - rewrite lookup_app_r by (rewrite le_length; lia). rewrite le_length. replace (4 * S j + k - 4)%nat with (4 * j + k)%nat by lia. by apply IH.
Qed.
Lemma lanes32_bytes32 l : Forall is_byte l -> (exists k, length l = 4 * k)%nat -> bytes32 (lanes32 l) = l.
Proof.
  induction l as [|a|a b|a b c|a b c d l IH] using lanes32_ind; intros H [k E]; try (cbn in E; lia); [done|]. do 4 (apply Forall_cons_1 in H as [? H]). cbn [lanes32 bytes32].
  assert (F : Forall is_byte [a; b; c; d]) by (do 4 (apply Forall_cons_2; [done|]); apply Forall_nil_2). change (le 4 (le_val [a; b; c; d])) with (le (length [a; b; c; d]) (le_val [a; b; c; d])). rewrite le_le_val by done. cbn [app]. rewrite IH; [done|done|]. exists (k - 1)%nat. cbn in E. lia.
Qed.
Lemma OW_inj b i k b' i' k' : OW b i k = OW b' i' k' -> b = b' /\ i = i' /\ k = k'.
Proof. intros E. by injection E. Qed.
Lemma store128_sim f m r g v x disp l m' : placed m f -> repr m f r g -> good_mem m -> reg128 l -> vrel v x -> returns (store128 v disp l) m tt m' -> accesses (store128 v disp l) m may ->
  (same_dom (mb m) (mb m') /\ same_dom (mw m) (mw m')) /\ good_mem m' /\ exists g', fstore 16 (writable (pk p)) g (x + disp) (le_val l) = Some g' /\ repr m' f r g' /\ outside m f g g'.
Proof.
  intros P R T [L B] [Gv V] H A. unfold store128 in H, A. rewrite L in H, A. cbn [Nat.eqb] in H, A. destruct v as [z|b o|b o|t o|]; try (by apply fault_inv in H).
  - assert (Wb : wB p b = true) by (destruct l as [|y l]; [discriminate L|exact (writeBs_acc _ _ _ _ _ _ A)]). apply writeBs_inv in H as [Ew O]. split; [split; [by eapply overwritten_dom|by rewrite Ew]|]. split; [split; [eapply overwritten_all; [exact O|exact B|apply T]|rewrite Ew; apply T]|].
    rewrite (V _ eq_refl), <- fstore_wrap, wrap_add, fstore_wrap. rewrite <- L. destruct O as [D G].
    apply (store_seq f m m' r r g (fun j => OB b (o + disp + Z.of_nat j))); try done.
    + intros j j' E. injection E. lia.
    + intros j J. split; [done|]. split; [|cbn [FlatProof.addr]; f_equal; lia]. specialize (D (o + disp + Z.of_nat j) ltac:(lia)). cbn [FlatProof.live FlatProof.holds]. destruct (hget _ _ _) as [y|]; [by exists y|done].
    + intros q v Hh. destruct q as [b' i|b' i k|t' i|c k|o'|k]; try (right; split; [intros; discriminate|exact Hh]).
      * cbn [FlatProof.holds] in Hh |- *. rewrite G in Hh. destruct (decide _) as [[-> Hi]|N].
        -- left. exists (Z.to_nat (i - (o + disp))). split; [f_equal; lia|done].
        -- right. split; [|done]. intros j J E. injection E as -> ->. apply N. split; [done|lia].
      * right. split; [intros; discriminate|]. cbn [FlatProof.holds] in *. by rewrite Ew in Hh.
  - destruct (Z.eqb_spec ((o + disp) mod 4) 0) as [E4|]; [|by apply fault_inv in H]. assert (Wb : wW p b = true) by (pose proof (lanes32_length l 4 L) as L4; destruct (lanes32 l) as [|y l']; [discriminate L4|exact (writeWs_acc _ _ _ _ _ _ A)]). apply writeWs_inv in H as [Eb O]. split; [split; [by rewrite Eb|by eapply overwritten_dom]|].
    split; [split; [rewrite Eb; apply T|eapply overwritten_all; [exact O|by apply lanes32_range|apply T]]|].
    rewrite (V _ eq_refl), <- fstore_wrap, wrap_add, fstore_wrap. rewrite <- L. destruct O as [D G]. pose proof (lanes32_length l 4 L) as L4. rewrite L4 in *.
    replace (pW p b + o + disp) with (pW p b + 4 * ((o + disp) / 4)) by (pose proof (Z.div_mod (o + disp) 4); lia). set (k0 := (o + disp) / 4) in *. clearbody k0.
    assert (El : bytes32 (lanes32 l) = l) by (apply lanes32_bytes32; [done|rewrite L; apply four16]).
    apply (store_seq f m m' r r g (fun j => OW b (k0 + Z.of_nat (j / 4)) (Z.of_nat (j mod 4)))); try done.
    + intros j j' E. apply OW_inj in E as (_ & E1 & E2). pose proof (Nat.div_mod j 4 ltac:(lia)). pose proof (Nat.div_mod j' 4 ltac:(lia)). lia.
    + intros j J. pose proof (Nat.div_mod j 4 ltac:(lia)). pose proof (Nat.mod_upper_bound j 4 ltac:(lia)). split; [done|]. split; [|cbn [FlatProof.addr]; f_equal; lia].
      specialize (D (k0 + Z.of_nat (j / 4)) ltac:(lia)). cbn [FlatProof.live FlatProof.holds]. destruct (hget _ _ _) as [y|]; [|done]. eexists. split; [lia|]. by exists y.
    + intros q v Hh. destruct q as [b' i|b' i k|t' i|c k|o'|k]; try (right; split; [intros; discriminate|exact Hh]).
      * right. split; [intros; discriminate|]. cbn [FlatProof.holds] in *. by rewrite Eb in Hh.
      * cbn [FlatProof.holds] in Hh |- *. destruct Hh as (Hk & y & Hy & ->). rewrite G in Hy. destruct (decide _) as [[-> Hi]|N].
        -- left. exists (4 * Z.to_nat (i - k0) + Z.to_nat k)%nat. rewrite Nat.mul_comm, Nat.div_add_l by lia. rewrite Nat.div_small, (Nat.add_comm _ (Z.to_nat k)), Nat.mod_add, Nat.mod_small by lia.
           split; [f_equal; lia|]. rewrite <- El, Nat.add_comm, Nat.mul_comm. rewrite (bytes32_at _ _ _ y) by (done || lia). by rewrite Z2Nat.id by lia.
        -- right. split; [|split; [done|by exists y]]. intros j J E. apply OW_inj in E as (-> & -> & _). apply N. split; [done|]. pose proof (Nat.div_mod j 4 ltac:(lia)). pose proof (Nat.div_lt_upper_bound j 4 4 ltac:(lia) ltac:(lia)). lia.
Qed.
Lemma result_sim f m r g z : placed m f -> repr m f r g -> is_u16 z ->
  pN p = 2 -> exists g', fstore 2 (writable (pk p)) g (FP (pk p) + pR p) z = Some g' /\ repr m f (Some z) g' /\ outside m f g g'.
Proof.
  intros P R Hz N2. assert (Ez : le_val (le 2 z) = z) by (rewrite le_val_le, Z.mod_small by (unfold is_u16 in Hz; change (256 ^ Z.of_nat 2) with 65536; lia); done).
  enough (H : exists g', fstore (length (le 2 z)) (writable (pk p)) g (FP (pk p) + pR p) (le_val (le 2 z)) = Some g' /\ repr m f (Some z) g' /\ outside m f g g') by (rewrite Ez in H; exact H).
  apply (store_seq f m m r (Some z) g (fun j => OR (Z.of_nat j))); try done.
  - apply le_bytes.
  - intros j j' E. injection E. lia.
  - intros j J. cbn in J. split; [done|]. split; [cbn; rewrite N2; lia|]. cbn [FlatProof.addr]. f_equal.
  - intros q v Hh. destruct q as [b' i|b' i k|t' i|c k|o'|k]; try (right; split; [intros; discriminate|exact Hh]). left. destruct Hh as (Hk & y & Ey & ->). injection Ey as <-. exists (Z.to_nat k).
    split; [f_equal; lia|]. assert (K : k = 0 \/ k = 1) by (rewrite N2 in Hk; lia). unfold byte_of. destruct K as [-> | ->]; [|done]. change (256 ^ 0) with 1. by rewrite Z.div_1_r.
Qed.

(** ** One instruction *)
Definition frame_ok (f : list (Z * cell)) : Prop := forall o c, frame_get f o = Some c -> cell_ok p c /\ cell_val p c <> None.
Definition same_doms (m m' : mem) : Prop := same_dom (mb m) (mb m') /\ same_dom (mw m) (mw m').
Lemma same_doms_refl m : same_doms m m. Proof. by split. Qed.
Lemma vaddr_range v x : vgood p v -> vaddr p v = Some x -> 0 <= x < 2 ^ 64.
Proof. destruct v; cbn; intros G E; try discriminate E; injection E as <-; [done|..]; unfold wrap; apply Z.mod_pos_bound; lia. Qed.
Lemma bits_low x n : 0 < n -> bits x (n - 1) 0 = x mod 2 ^ n.
Proof. intros. unfold bits. change (2 ^ 0) with 1. rewrite Z.div_1_r. do 2 f_equal. lia. Qed.
Lemma count_small n : 0 <= n < 64 -> count64 n = n.
Proof. intros. unfold count64, bits. change (2 ^ 0) with 1. rewrite Z.div_1_r. apply Z.mod_small. done. Qed.
Lemma vadd_rel a b x y : vrel a x -> vrel b y -> vrel (vadd a b) (bits (y + x) 63 0).
Proof.
  intros [Ga A] [Gb B]. change 63 with (64 - 1). rewrite bits_low by lia. fold (wrap (y + x)).
  assert (W : forall z, 0 <= wrap z < 2 ^ 64) by (intros; apply Z.mod_pos_bound; lia).
  destruct a as [za|ba oa|ba oa|ta oa|], b as [zb|bb ob|bb ob|tb ob|]; cbn [vadd]; split; cbn [vgood vaddr] in *; try done; try (apply W); intros q E; try discriminate E; injection E as <-;
    repeat match goal with H : forall y, Some _ = Some y -> _ |- _ => specialize (H _ eq_refl) end; subst.
  - unfold u64, wrap. f_equal. lia.
  - rewrite wrap_add. f_equal. lia.
  - rewrite wrap_add. f_equal. lia.
  - rewrite wrap_add. f_equal. lia.
  - rewrite Z.add_comm, wrap_add. f_equal. lia.
  - rewrite Z.add_comm, wrap_add. f_equal. lia.
  - rewrite Z.add_comm, wrap_add. f_equal. lia.
Qed.
Lemma const_load f m r g c : placed m f -> repr m f r g -> In c (consts p) -> is_u16 c -> fload 2 g (constant (pk p) c) = Some c.
Proof.
  intros P R I H. change 2%nat with (length (le 2 c)) at 1. rewrite (fload_objs p m f r g (constant (pk p) c) (fun j => OC c (Z.of_nat j)) (le 2 c) P R).
  - rewrite le_val_le, Z.mod_small; [done|]. unfold is_u16 in H. change (256 ^ Z.of_nat 2) with 65536. lia.
  - intros j v E. assert (j < 2)%nat by (apply lookup_lt_Some in E; by rewrite le_length in E). split; [|cbn [FlatProof.addr]; f_equal; lia]. split; [done|]. split; [lia|]. unfold byte_of.
    destruct j as [|[|j]]; [..|lia]; cbn in E; injection E as <-; [change (256 ^ Z.of_nat 0) with 1; by rewrite Z.div_1_r|done].
Qed.
Theorem step_sim f X i s m t s' m' : frame_ok f -> placed m f -> rel f X s m t -> forallb (xin X) (xreads i) = true -> operands_ok i = true ->
  returns (exec1 f (pR p) i s) m s' m' -> accesses (exec1 f (pR p) i s) m may ->
  exists t', fstep (pk p) i t = Some t' /\ rel f (xsets i ++ X) s' m' t' /\ same_doms m m' /\ outside m f (fm t) (fm t').
Proof.
  intros F P R C O H A. pose proof (rl_m _ _ _ _ _ R) as Rm. pose proof (rl_t _ _ _ _ _ R) as Rt. pose proof (rl_g _ _ _ _ _ R) as Rg.
  assert (V2 : forall s2 s1, forallb (xin X) [s2; s1] = true -> (reg128 (xm s s1) /\ fx t s1 = le_val (xm s s1)) /\ (reg128 (xm s s2) /\ fx t s2 = le_val (xm s s2))).
  { intros s2 s1 E. cbn [forallb] in E. rewrite !andb_true_iff in E. destruct E as (E2 & E1 & _). split; apply (rl_x _ _ _ _ _ R); by apply xin_in. }
  assert (V1 : forall s1, forallb (xin X) [s1] = true -> reg128 (xm s s1) /\ fx t s1 = le_val (xm s s1)).
  { intros s1 E. cbn [forallb] in E. rewrite !andb_true_iff in E. destruct E as (E1 & _). apply (rl_x _ _ _ _ _ R); by apply xin_in. }
  assert (Same : outside m f (fm t) (fm t)) by done.
  destruct i as [o d|a d|o d|a d|a d|a d|n d|n d|a d|a o|disp a d|x disp a|c d|o d|s2 s1 d|s2 s1 d|s2 s1 d|s2 s1 d|x d|a x d|n s2 s1 d|s2 s1 d|s2 s1 d|n x d|n x d]; cbn [exec1 fstep xreads xsets operands_ok app] in *.
  - destruct (frame_get f o) as [[v|z|z]|] eqn:E; try (by apply fault_inv in H). apply ret_inv in H as [<- <-]. destruct (F _ _ E) as [K N]. cbn [cell_ok cell_val] in *. destruct (vaddr p v) as [x|] eqn:Ev; [|done].
    rewrite (frame_load f m (aret s) (fm t) o (C64 v) 8 P Rm E K eq_refl x Ev) by (by eapply vaddr_range). cbn [andthen]. eexists. split; [done|]. split; [|by split; [apply same_doms_refl|]].
    apply rel_setg; [done|]. split; [done|]. intros y Ey. congruence.
  - apply ret_inv in H as [<- <-]. eexists. split; [done|]. split; [|by split; [apply same_doms_refl|]]. by apply rel_setg.
  - destruct (frame_get f o) as [[v|z|z]|] eqn:E; try (by apply fault_inv in H). apply ret_inv in H as [<- <-]. destruct (F _ _ E) as [K N]. cbn [cell_ok cell_val] in *. unfold is_u16 in K.
    rewrite (frame_load f m (aret s) (fm t) o (C16 z) 2 P Rm E K eq_refl z eq_refl) by (change (256 ^ Z.of_nat 2) with 65536; lia). cbn [andthen]. eexists. split; [done|]. split; [|by split; [apply same_doms_refl|]].
    apply rel_setg; [done|]. apply vrel_int. lia.
  - pose proof (Rg a) as Va. destruct (gp s a) as [z| | | |]; try (by apply fault_inv in H). apply ret_inv in H as [<- <-]. apply vrel_z in Va as [-> Hz].
    eexists. split; [done|]. split; [|by split; [apply same_doms_refl|]]. apply rel_setg; [done|]. change 15 with (16 - 1). rewrite bits_low by lia. apply vrel_int. unfold u16. pose proof (Z.mod_pos_bound z (2 ^ 16)). lia.
  - pose proof (Rg a) as Va. destruct (gp s a) as [z| | | |]; try (by apply fault_inv in H). apply ret_inv in H as [<- <-]. apply vrel_z in Va as [-> Hz].
    eexists. split; [done|]. split; [|by split; [apply same_doms_refl|]]. apply rel_setg; [done|]. change 7 with (8 - 1). rewrite bits_low by lia. apply vrel_int. unfold u8. pose proof (Z.mod_pos_bound z (2 ^ 8)). lia.
  - apply bind_inv in H as (z & m1 & H1 & H). apply ret_inv in H as [<- <-]. destruct (load8_sim f m (aret s) (fm t) _ _ _ _ P Rm Rt (Rg a) H1) as (-> & Bz & ->). cbn [andthen].
    eexists. split; [done|]. split; [|by split; [apply same_doms_refl|]]. apply rel_setg; [done|]. apply vrel_int. unfold is_byte in Bz. lia.
  - rewrite andb_true_iff, Z.leb_le, Z.ltb_lt in O. rewrite count_small by lia. pose proof (Rg d) as Va. destruct (gp s d) as [z| | | |]; try (by apply fault_inv in H). apply ret_inv in H as [<- <-]. apply vrel_z in Va as [-> Hz].
    eexists. split; [done|]. split; [|by split; [apply same_doms_refl|]]. apply rel_setg; [done|]. change 63 with (64 - 1). rewrite bits_low by lia. unfold u64. rewrite Z.shiftl_mul_pow2 by lia. apply vrel_int. apply Z.mod_pos_bound. lia.
  - rewrite andb_true_iff, Z.leb_le, Z.ltb_lt in O. rewrite count_small by lia. pose proof (Rg d) as Va. destruct (gp s d) as [z| | | |]; try (by apply fault_inv in H). apply ret_inv in H as [<- <-]. apply vrel_z in Va as [-> Hz].
    eexists. split; [done|]. split; [|by split; [apply same_doms_refl|]]. apply rel_setg; [done|]. rewrite Z.shiftr_div_pow2 by lia. apply vrel_int. split; [apply Z.div_pos; [lia|apply Z.pow_pos_nonneg; lia]|]. apply Z.div_lt_upper_bound; [apply Z.pow_pos_nonneg; lia|].
    assert (1 <= 2 ^ n) by (pose proof (Z.pow_pos_nonneg 2 n); lia). nia.
  - apply ret_inv in H as [<- <-]. eexists. split; [done|]. split; [|by split; [apply same_doms_refl|]]. apply rel_setg; [done|]. by apply vadd_rel.
  - destruct (Z.eqb_spec o (pR p)) as [->|]; [|by apply fault_inv in H]. pose proof (Rg a) as Va. destruct (gp s a) as [z| | | |]; try (by apply fault_inv in H). apply ret_inv in H as [<- <-]. apply vrel_z in Va as [-> Hz].
    change 15 with (16 - 1). rewrite bits_low by lia. destruct (result_sim f m (aret s) (fm t) (z mod 2 ^ 16) P Rm) as (g' & E & R' & Og); [unfold is_u16; apply Z.mod_pos_bound; lia|by apply Z.eqb_eq|].
    rewrite E. cbn [andthen]. eexists. split; [done|]. split; [|by split; [apply same_doms_refl|]]. destruct R. split; done.
  - apply bind_inv in H as (l & m1 & H1 & H). apply ret_inv in H as [<- <-]. destruct (load128_sim f m (aret s) (fm t) _ _ _ _ _ P Rm Rt (Rg a) H1) as (-> & Bl & ->). cbn [andthen].
    eexists. split; [done|]. split; [|by split; [apply same_doms_refl|]]. by apply rel_setx.
  - apply bind_inv in H as ([] & m1 & H1 & H). apply ret_inv in H as [<- <-]. apply (bind_acc _ _ _ _ _ _ H1) in A as [A1 _]. destruct (V1 x C) as [Bx Ex].
    destruct (store128_sim f m (aret s) (fm t) _ _ _ _ _ P Rm Rt Bx (Rg a) H1 A1) as (D & Gm & g' & E & R' & Og). rewrite Ex, E. cbn [andthen]. eexists. split; [done|]. split; [|by split]. destruct R. split; done.
  - rewrite !andb_true_iff, Z.leb_le, Z.ltb_lt, existsb_exists in O. destruct O as [Oc (c' & Ic & Ec)]. apply Z.eqb_eq in Ec as <-. apply ret_inv in H as [<- <-].
    rewrite (const_load f m (aret s) (fm t) c P Rm Ic) by (unfold is_u16; lia). cbn [andthen]. eexists. split; [done|]. split; [|by split; [apply same_doms_refl|]]. destruct (broadcastw_flat c); [unfold is_u16; lia|]. by apply rel_setx.
  - destruct (frame_get f o) as [[v|z|z]|] eqn:E; try (by apply fault_inv in H). apply ret_inv in H as [<- <-]. destruct (F _ _ E) as [K N]. cbn [cell_ok cell_val] in *. unfold is_u32 in K.
    rewrite (frame_load f m (aret s) (fm t) o (C32 z) 4 P Rm E K eq_refl z eq_refl) by (change (256 ^ Z.of_nat 4) with (2 ^ 32); lia). cbn [andthen]. eexists. split; [done|]. split; [|by split; [apply same_doms_refl|]].
    destruct (broadcastss_flat z); [done|]. by apply rel_setx.
  - apply ret_inv in H as [<- <-]. destruct (V2 _ _ C) as [[B1 ->] [B2 ->]]. destruct (pminub_flat _ _ B1 B2) as [B ->]. eexists. split; [done|]. split; [|by split; [apply same_doms_refl|]]. by apply rel_setx.
  - apply ret_inv in H as [<- <-]. destruct (V2 _ _ C) as [[B1 ->] [B2 ->]]. destruct (packuswb_flat _ _ B1 B2) as [B ->]. eexists. split; [done|]. split; [|by split; [apply same_doms_refl|]]. by apply rel_setx.
  - apply ret_inv in H as [<- <-]. destruct (V2 _ _ C) as [[B1 ->] [B2 ->]]. destruct (pminsw_flat _ _ B1 B2) as [B ->]. eexists. split; [done|]. split; [|by split; [apply same_doms_refl|]]. by apply rel_setx.
  - apply ret_inv in H as [<- <-]. destruct (V2 _ _ C) as [[B1 ->] [B2 ->]]. destruct (paddusw_flat _ _ B1 B2) as [B ->]. eexists. split; [done|]. split; [|by split; [apply same_doms_refl|]]. by apply rel_setx.
  - apply ret_inv in H as [<- <-]. destruct (V1 _ C) as [B1 ->]. destruct (pmovmskb_flat _ B1) as [B ->]. eexists. split; [done|]. split; [|by split; [apply same_doms_refl|]]. apply rel_setg; [done|]. apply vrel_int. lia.
  - apply bind_inv in H as (l & m1 & H1 & H). apply ret_inv in H as [<- <-]. destruct (load128_sim f m (aret s) (fm t) _ _ _ _ _ P Rm Rt (Rg a) H1) as (-> & Bl & El). rewrite Z.add_0_r in El. rewrite El. cbn [andthen].
    destruct (V1 _ C) as [B1 ->]. destruct (pshufb_flat _ _ B1 Bl) as [B ->]. eexists. split; [done|]. split; [|by split; [apply same_doms_refl|]]. by apply rel_setx.
  - rewrite andb_true_iff, !Z.leb_le in O. apply ret_inv in H as [<- <-]. destruct (V2 _ _ C) as [[B1 ->] [B2 ->]]. destruct (palignr_flat n _ _ O B2 B1) as [B ->]. eexists. split; [done|]. split; [|by split; [apply same_doms_refl|]]. by apply rel_setx.
  - apply ret_inv in H as [<- <-]. destruct (V2 _ _ C) as [[B1 ->] [B2 ->]]. destruct (psubd_flat _ _ B1 B2) as [B ->]. eexists. split; [done|]. split; [|by split; [apply same_doms_refl|]]. by apply rel_setx.
  - apply ret_inv in H as [<- <-]. destruct (V2 _ _ C) as [[B1 ->] [B2 ->]]. destruct (paddd_flat _ _ B1 B2) as [B ->]. eexists. split; [done|]. split; [|by split; [apply same_doms_refl|]]. by apply rel_setx.
  - rewrite Z.leb_le in O. apply ret_inv in H as [<- <-]. destruct (V1 _ C) as [B1 ->]. destruct (pslldq_flat n _ O B1) as [B ->]. eexists. split; [done|]. split; [|by split; [apply same_doms_refl|]]. by apply rel_setx.
  - rewrite Z.leb_le in O. apply ret_inv in H as [<- <-]. destruct (V1 _ C) as [B1 ->]. destruct (pshufd_flat n _ O B1) as [B ->]. eexists. split; [done|]. split; [|by split; [apply same_doms_refl|]]. by apply rel_setx.
Qed.
Lemma outside_trans m m1 f g g1 g2 : same_doms m m1 -> outside m f g g1 -> outside m1 f g1 g2 -> outside m f g g2.
Proof.
  intros [D1 D2] A B a H. rewrite (B a); [by apply A|]. intros o L W. apply H; [|done]. by apply (live_same m m1 f D1 D2).
Qed.
Theorem exec_sim a f c : forall X s m t s' m', frame_ok f -> placed m f -> rel f X s m t -> checked X c = true ->
  returns (exec a f (pR p) c s) m s' m' -> accesses (exec a f (pR p) c s) m may ->
  exists t', fexec (pk p) c t = Some t' /\ (exists X', rel f X' s' m' t') /\ same_doms m m' /\ outside m f (fm t) (fm t').
Proof.
  induction c as [|i c IH]; intros X s m t s' m' F P R C H A; cbn [exec fexec checked] in *.
  - apply ret_inv in H as [<- <-]. exists t. split; [done|]. split; [by exists X|]. split; [apply same_doms_refl|done].
  - rewrite !andb_true_iff in C. destruct C as [[C1 C2] C3]. destruct (supports a (needs i)); [|destruct H as [H _]; discriminate H]. apply bind_inv in H as (s1 & m1 & H1 & H). apply (bind_acc _ _ _ _ _ _ H1) in A as [A1 A].
    destruct (step_sim f X i s m t s1 m1 F P R C1 C2 H1 A1) as (t1 & -> & R1 & D1 & O1). cbn [andthen].
    destruct (IH _ _ _ _ _ _ F (placed_same _ _ _ (proj1 D1) (proj2 D1) P) R1 C3 H A) as (t2 & -> & R2 & D2 & O2). exists t2. split; [done|]. split; [done|]. split.
    + destruct D1 as [K1 K2], D2 as [K3 K4]. split; intros b j; [rewrite (K3 b j); apply K1|rewrite (K4 b j); apply K2].
    + by eapply outside_trans.
Qed.
End sim.
