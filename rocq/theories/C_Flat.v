(** * The assembly routines on a machine with one flat memory: C63

    The other theorems on the assembly run it with pointers that name an
    allocation and an offset, and with vector registers that are lists of bytes.
    Here the registers are numbers, an address is a number modulo 2^64, all
    data - arguments, tables, constants, input, output, result - lies in one memory
    of bytes, and vector instructions are written bit field by bit field as in the
    manuals (Flat.v).  *)
From stdpp Require Import prelude gmap list.
From Coq Require Import ZArith Lia.
From Verif Require Import Spec SpecLemmas GoSem Shared Tables TableProof Asm AsmProgs Wp Encode EncodeProof EncodeProof2 SimdProof AsmProof Decode DecodeProof DecodeProof2 Reader ReaderProof Api ApiLemmas C_Prims C_Group8 C_Prims C_Exact8 Flat FlatVec FlatProof FlatSim.
Local Open Scope Z_scope.

(** ** Every call with symbolic pointers *)
Theorem C63_simulation : forall p a c ps f m v m' t,
  layout 0 ps = (f, pR p) -> Forall (Forall is_byte) (tabs p) -> frame_ok p f -> placed p m f -> typed m -> repr p m f None (fm t) -> checked p [] c = true ->
  returns (call_asm a c ps) m v m' -> accesses (call_asm a c ps) m (may p) ->
  exists t', fexec (pk p) c t = Some t' /\ repr p m' f v (fm t') /\ outside p m f (fm t) (fm t').
Proof.
  intros p a c ps f m v m' t L T F P Ty R C H A. unfold call_asm in H, A. rewrite L in H, A. apply bind_inv in H as (s & m1 & H1 & H). apply (bind_acc _ _ _ _ _ _ H1) in A as [A1 _]. apply ret_inv in H as [<- <-].
  destruct (exec_sim p T a f c [] astate0 m t s m1 F P) as (t' & E & (X & Rl) & _ & O); try done.
  - split; try done. by apply typed_good.
  - exists t'. split; [done|]. split; [|done]. apply Rl.
Qed.

(** ** The four routines *)
Definition stored (g : fmem) (a : Z) (l : list Z) : Prop := forall j v, l !! j = Some v -> g (a + Z.of_nat j) = Some v.
(** The arguments: offset, size and value of each. *)
Definition passed (g : fmem) (fp : Z) (args : list (Z * nat * Z)) : Prop := Forall (fun '(o, n, x) => stored g (fp + o) (le n x)) args.
(** A region: first address and number of bytes. *)
Definition inside (r : Z * Z) (a : Z) : Prop := fst r <= a < fst r + snd r.
(** [W]: regions that are written; [R]: regions that are read. *)
Record memory_map (k : machine) (g : fmem) (W R : list (Z * Z)) : Prop := {
  mm_bytes : forall a v, g a = Some v -> is_byte v;
  mm_range : forall r a, In r (W ++ R) -> inside r a -> 0 <= a < 2 ^ 64;
  mm_write : forall w a, In w W -> inside w a -> writable k a = true /\ g a <> None;
  mm_apart : forall w r a, In w W -> In r R -> inside w a -> ~ inside r a;
  mm_once : forall i j w w' a, W !! i = Some w -> W !! j = Some w' -> inside w a -> inside w' a -> i = j }.

Definition put_args (prev : option Z) (P nin cin Q nout cout S L : Z) : list (Z * nat * Z) :=
  [(0, 8%nat, P); (8, 8%nat, nin); (16, 8%nat, cin); (24, 8%nat, Q); (32, 8%nat, nout); (40, 8%nat, cout)] ++
  match prev with None => [(48, 8%nat, S); (56, 8%nat, L)] | Some d => [(48, 4%nat, d); (56, 8%nat, S); (64, 8%nat, L)] end.
Definition put_ret (prev : option Z) : Z := match prev with None => 64 | Some _ => 72 end.
Definition put_code (prev : option Z) : list instr := match prev with None => Put8uint32FastAsm_code | Some _ => Put8uint32DeltaFastAsm_code end.
Definition get_args (prev : option Z) (c P nin cin Q nout cout S L : Z) : list (Z * nat * Z) :=
  [(0, 8%nat, P); (8, 8%nat, nin); (16, 8%nat, cin); (24, 8%nat, Q); (32, 8%nat, nout); (40, 8%nat, cout); (48, 2%nat, c)] ++
  match prev with None => [] | Some d => [(52, 4%nat, d)] end ++ [(56, 8%nat, S); (64, 8%nat, L)].
Definition get_code (prev : option Z) : list instr := match prev with None => Get8uint32FastAsm_code | Some _ => Get8uint32DeltaFastAsm_code end.
Definition is_u64 (x : Z) : Prop := 0 <= x < 2 ^ 64.
Definition quads (xs : list Z) : list Z := concat (map (le 4) xs).

(** *** The placement *)
Definition ST : list Z := concat EncodeShuffleTable.
Definition SD : list Z := concat DecodeShuffleTable.
Definition LT : list Z := PerControlLenTable.
Lemma ST_length : length ST = 4096%nat. Proof. by vm_compute. Qed.
Lemma SD_length : length SD = 4096%nat. Proof. by vm_compute. Qed.
Lemma LT_length : length LT = 256%nat. Proof. by vm_compute. Qed.
Lemma bytes_dec l : forallb (fun b => (0 <=? b) && (b <? 256)) l = true -> Forall is_byte l.
Proof. intros H. apply List.Forall_forall. intros x I. rewrite forallb_forall in H. specialize (H x I). unfold is_byte. lia. Qed.
Lemma ST_bytes : Forall is_byte ST. Proof. apply bytes_dec. by vm_compute. Qed.
Lemma SD_bytes : Forall is_byte SD. Proof. apply bytes_dec. by vm_compute. Qed.
Lemma LT_bytes : Forall is_byte LT. Proof. apply bytes_dec. by vm_compute. Qed.
Definition at_table (S L : Z) (t : list Z) : Z := if Nat.eqb (length t) 256 then L else S.
Definition place_put (k : machine) (P Q S L r : Z) : placement :=
  Placement k (fun _ => Q) (fun _ => P) (at_table S L) [ST; LT] [mask0101; mask7F00] r 2 (fun _ => true) (fun _ => false).
Definition place_get (k : machine) (P Q S L : Z) : placement :=
  Placement k (fun _ => P) (fun _ => Q) (at_table S L) [SD; LT] [] 72 0 (fun _ => false) (fun _ => true).
Lemma at_ST S L : at_table S L ST = S. Proof. unfold at_table. by rewrite ST_length. Qed.
Lemma at_SD S L : at_table S L SD = S. Proof. unfold at_table. by rewrite SD_length. Qed.
Lemma at_LT S L : at_table S L LT = L. Proof. unfold at_table. by rewrite LT_length. Qed.

(** Cells and argument slots. *)
Definition cell_slot (p : placement) (c : Z * cell) (s : Z * nat * Z) : Prop :=
  let '(o, n, x) := s in fst c = o /\ cell_size (snd c) = Z.of_nat n /\ cell_ok p (snd c) /\ cell_val p (snd c) = Some x.
Lemma frame_in f o c : frame_get f o = Some c -> In (o, c) f.
Proof. induction f as [|[o' c'] f IH]; [done|]. cbn [frame_get]. destruct (Z.eqb_spec o o') as [->|]; [intros [= ->]; by left|]. right. by apply IH. Qed.
Lemma slot_of p f args o c : Forall2 (cell_slot p) f args -> frame_get f o = Some c -> exists n x, In (o, n, x) args /\ cell_size c = Z.of_nat n /\ cell_ok p c /\ cell_val p c = Some x.
Proof.
  intros F G. apply frame_in in G. induction F as [|[o' c'] [[o2 n] x] f args H F IH]; [destruct G|]. destruct G as [G|G].
  - injection G as -> ->. destruct H as (H1 & H2 & H3 & H4). cbn in *. subst o2. exists n, x. split; [by left|done].
  - destruct (IH G) as (n1 & x1 & I & R). exists n1, x1. split; [by right|done].
Qed.
Lemma frame_cells p f args : Forall2 (cell_slot p) f args -> frame_ok p f.
Proof. intros F o c G. destruct (slot_of p f args o c F G) as (n & x & _ & _ & H & E). split; [done|]. by rewrite E. Qed.
Lemma cell_size_pos c : 0 <= cell_size c. Proof. destruct c; cbn; lia. Qed.
Lemma le_at n x j : (j < n)%nat -> le n x !! j = Some (byte_of x (Z.of_nat j)).
Proof.
  revert x j. induction n as [|n IH]; intros x j J; [lia|]. destruct j as [|j]; cbn [le lookup list_lookup]; unfold byte_of.
  - change (256 ^ Z.of_nat 0) with 1. by rewrite Z.div_1_r.
  - rewrite IH by lia. unfold byte_of. rewrite Z.div_div by lia. do 3 f_equal. rewrite Nat2Z.inj_succ, Z.pow_succ_r by lia. done.
Qed.
Lemma cell_stored p f args g o v : Forall2 (cell_slot p) f args -> passed g (FP (pk p)) args -> holds p (Mem ∅ ∅) f None (OA o) v -> g (FP (pk p) + o) = Some v.
Proof.
  intros F Pa (o' & c & x & G & Ho & Ex & ->). destruct (slot_of p f args o' c F G) as (n & x' & I & En & _ & Ex'). assert (x' = x) as -> by congruence.
  unfold passed in Pa. rewrite List.Forall_forall in Pa. specialize (Pa _ I). cbn in Pa. specialize (Pa (Z.to_nat (o - o')) (byte_of x (o - o'))).
  replace (FP (pk p) + o) with (FP (pk p) + o' + Z.of_nat (Z.to_nat (o - o'))) by lia. apply Pa. rewrite le_at by lia. do 2 f_equal. lia.
Qed.
(** All arguments lie below [r]. *)
Lemma cell_below p f args r o v : Forall2 (cell_slot p) f args -> Forall (fun '(o, n, _) => 0 <= o /\ o + Z.of_nat n <= r) args -> holds p (Mem ∅ ∅) f None (OA o) v -> 0 <= o < r.
Proof.
  intros F B (o' & c & x & G & Ho & Ex & ->). destruct (slot_of p f args o' c F G) as (n & x' & I & En & _). rewrite List.Forall_forall in B. specialize (B _ I). cbn in B. lia.
Qed.
Lemma hget_one l b i v : hget {[0%nat := l]} b i = Some v <-> b = 0%nat /\ 0 <= i /\ l !! Z.to_nat i = Some v.
Proof.
  unfold hget. destruct (Z.leb_spec 0 i) as [Hi|Hi].
  - destruct (decide (b = 0%nat)) as [->|N]; [rewrite lookup_singleton; naive_solver|]. rewrite lookup_singleton_ne by done. split; [done|]. intros [-> _]. done.
  - split; [done|lia].
Qed.
Lemma one_typed bs ws : Forall is_byte bs -> Forall is_u32 ws -> typed (Mem {[0%nat := bs]} {[0%nat := ws]}).
Proof. intros B W. split; cbn [mb mw]; intros b l E; apply lookup_singleton_Some in E as [_ <-]; done. Qed.
Lemma blk_one l : blk {[0%nat := l]} 0 = l. Proof. unfold blk. by rewrite lookup_singleton. Qed.
Lemma quads_bytes xs : quads xs = bytes32 xs. Proof. unfold quads. induction xs as [|x xs IH]; [done|]. cbn [map concat bytes32]. by rewrite IH. Qed.
Lemma quads_at xs i k x : xs !! i = Some x -> (k < 4)%nat -> quads xs !! (4 * i + k)%nat = Some (byte_of x (Z.of_nat k)).
Proof. rewrite quads_bytes. apply bytes32_at. Qed.
Lemma quads_length xs : length (quads xs) = (4 * length xs)%nat.
Proof. unfold quads. induction xs as [|x xs IH]; [done|]. cbn [map concat]. rewrite app_length, IH, le_length. cbn [length]. lia. Qed.
(** What is in a region. *)
Definition contents (g : fmem) (a : Z) (n : nat) : list Z := map (fun i => default 0 (g (a + Z.of_nat i))) (seq 0 n).
Lemma contents_length g a n : length (contents g a n) = n. Proof. unfold contents. by rewrite map_length, seq_length. Qed.
Lemma contents_stored g a n : (forall x, inside (a, Z.of_nat n) x -> g x <> None) -> stored g a (contents g a n).
Proof.
  intros H j v E. unfold contents in E. change (map ?f ?l) with (f <$> l) in E. rewrite list_lookup_fmap in E. destruct (seq 0 n !! j) as [i|] eqn:Ei; [|done]. apply lookup_seq in Ei as [-> Hj]. cbn in E. injection E as <-.
  specialize (H (a + Z.of_nat j)). destruct (g (a + Z.of_nat j)); [done|]. exfalso. apply H; [|done]. unfold inside. cbn [fst snd]. lia.
Qed.
Lemma stored_bytes g a l : (forall x v, g x = Some v -> is_byte v) -> stored g a l -> Forall is_byte l.
Proof. intros B H. apply Forall_lookup. intros j v E. eapply B. by apply H. Qed.

Section put.
Context (k : machine) (P Q S L r : Z) (n : nat) (xs : list Z) (f : list (Z * cell)) (args : list (Z * nat * Z)) (g : fmem).
Let p := place_put k P Q S L r.
Context (Hf : Forall2 (cell_slot p) f args) (Hb : Forall (fun '(o, n, _) => 0 <= o /\ o + Z.of_nat n <= r) args) (Ha : passed g (FP k) args).
Context (Hx : length xs = 8%nat) (Hu : Forall is_u32 xs) (HP : stored g P (quads xs)) (HS : stored g S ST) (HL : stored g L LT).
Context (H1 : stored g (constant k mask0101) (le 2 mask0101)) (H2 : stored g (constant k mask7F00) (le 2 mask7F00)).
Let W := [(Q, Z.of_nat n); (FP k + r, 2)].
Let R := [(P, 32); (S, 4096); (L, 256); (constant k mask0101, 2); (constant k mask7F00, 2); (FP k, r)].
Context (M : memory_map k g W R).
Let m := Mem {[0%nat := contents g Q n]} {[0%nat := xs]}.
Lemma put_old : stored g Q (contents g Q n).
Proof. apply contents_stored. intros x I. apply (mm_write _ _ _ _ M (Q, Z.of_nat n)); [by left|done]. Qed.
Lemma put_region o : live p m f o -> (writes p o /\ exists w, In w W /\ inside w (addr p o)) \/ (~ writes p o /\ exists w, In w R /\ inside w (addr p o)).
Proof.
  destruct o as [b i|b i j|t i|c j|o|j]; cbn [live]; [intros [v H]..|].
  - left. cbn [holds m mb] in H. apply hget_one in H as (-> & Hi & E). apply lookup_lt_Some in E. rewrite contents_length in E. split; [done|]. exists (Q, Z.of_nat n). split; [by left|]. unfold inside. cbn. lia.
  - right. destruct H as (Hj & x & H & ->). cbn [m mw] in H. apply hget_one in H as (-> & Hi & E). apply lookup_lt_Some in E. rewrite Hx in E. split; [done|]. exists (P, 32). split; [by left|]. unfold inside. cbn [fst snd addr pW p place_put]. lia.
  - right. split; [intros []|]. destruct H as (I & Hi & E). apply lookup_lt_Some in E. cbn [addr pT p place_put]. cbn [tabs p place_put] in I. destruct I as [<-|[<-|[]]].
    + rewrite at_ST. rewrite ST_length in E. exists (S, 4096). split; [right; by left|]. unfold inside. cbn [fst snd]. lia.
    + rewrite at_LT. rewrite LT_length in E. exists (L, 256). split; [right; right; by left|]. unfold inside. cbn [fst snd]. lia.
  - right. split; [intros []|]. destruct H as (I & Hi & _). cbn [consts p place_put] in I. destruct I as [<-|[<-|[]]].
    + exists (constant k mask0101, 2). split; [do 3 right; by left|]. unfold inside. cbn [fst snd addr pk p place_put]. lia.
    + exists (constant k mask7F00, 2). split; [do 4 right; by left|]. unfold inside. cbn [fst snd addr pk p place_put]. lia.
  - right. split; [intros []|]. apply (cell_below p f args r o v Hf Hb) in H. exists (FP k, r). split; [do 5 right; by left|]. unfold inside. cbn [fst snd addr pk p place_put]. lia.
  - left. intros. cbn [pN p place_put] in *. split; [done|]. exists (FP k + r, 2). split; [right; by left|]. unfold inside. cbn [fst snd addr pk pR p place_put]. lia.
Qed.
Lemma put_placed : placed p m f.
Proof.
  split.
  - intros o Lo. destruct (put_region o Lo) as [[_ (w & I & J)]|[_ (w & I & J)]]; (eapply (mm_range _ _ _ _ M w); [apply in_or_app|exact J]); [by left|by right].
  - intros o o' Lo Lo' Wo E. destruct (put_region o Lo) as [[_ (w & I & J)]|[N _]]; [|done]. destruct (put_region o' Lo') as [[Wo' _]|[_ (w' & I' & J')]].
    + destruct o as [b i|b i j|t i|c j|o|j]; try done; destruct o' as [b' i'|b' i' j'|t' i'|c' j'|o'|j']; try done; cbn [addr p place_put pB pk pR] in E.
      * destruct Lo as [v Lo], Lo' as [v' Lo']. cbn [holds m mb] in Lo, Lo'. apply hget_one in Lo as (-> & _), Lo' as (-> & _). f_equal. lia.
      * destruct Lo as [v Lo]. cbn [holds m mb] in Lo. apply hget_one in Lo as (-> & Hi & Ev). apply lookup_lt_Some in Ev. rewrite contents_length in Ev. cbn [live p place_put pN] in Lo'.
        discriminate (mm_once _ _ _ _ M 0%nat 1%nat (Q, Z.of_nat n) (FP k + r, 2) (Q + i) eq_refl eq_refl); unfold inside; cbn [fst snd]; lia.
      * destruct Lo' as [v Lo']. cbn [holds m mb] in Lo'. apply hget_one in Lo' as (-> & Hi & Ev). apply lookup_lt_Some in Ev. rewrite contents_length in Ev. cbn [live p place_put pN] in Lo.
        discriminate (mm_once _ _ _ _ M 0%nat 1%nat (Q, Z.of_nat n) (FP k + r, 2) (Q + i') eq_refl eq_refl); unfold inside; cbn [fst snd]; lia.
      * f_equal. lia.
    + exfalso. rewrite E in J. exact (mm_apart _ _ _ _ M w w' _ I I' J J').
  - intros o Lo Wo. destruct (put_region o Lo) as [[_ (w & I & J)]|[N _]]; [|done]. exact (proj1 (mm_write _ _ _ _ M w _ I J)).
Qed.
Lemma put_repr : repr p m f None g.
Proof.
  split.
  - intros o v H. destruct o as [b i|b i j|t i|c j|o|j].
    + cbn [holds m mb] in H. apply hget_one in H as (-> & Hi & E). apply put_old in E. cbn [addr p place_put pB]. by rewrite Z2Nat.id in E by lia.
    + destruct H as (Hj & x & H & ->). cbn [m mw] in H. apply hget_one in H as (-> & Hi & E). pose proof (HP _ _ (quads_at xs _ (Z.to_nat j) x E ltac:(lia))) as G. rewrite Z2Nat.id in G by lia.
      rewrite <- G. cbn [addr p place_put pW]. f_equal. lia.
    + destruct H as (I & Hi & E). cbn [addr pT p place_put]. cbn [tabs p place_put] in I. destruct I as [<-|[<-|[]]]; [rewrite at_ST; apply HS in E|rewrite at_LT; apply HL in E]; by rewrite Z2Nat.id in E by lia.
    + destruct H as (I & Hj & ->). cbn [consts p place_put] in I. cbn [addr pk p place_put]. replace j with (Z.of_nat (Z.to_nat j)) by lia. destruct I as [<-|[<-|[]]]; [apply H1|apply H2]; apply le_at; lia.
    + exact (cell_stored p f args g o v Hf Ha H).
    + destruct H as (_ & z & E & _). done.
  - intros j Hj. apply (mm_write _ _ _ _ M (FP k + r, 2)); [right; by left|]. unfold inside. cbn [fst snd addr pk pR p place_put]. cbn [pN p place_put] in Hj. lia.
Qed.
(** What is then in memory. *)
Lemma put_after D z g' : length D = n -> 0 <= z < 65536 -> repr p (bmem m (Slice 0 0 0 0) D) f (Some z) g' -> outside p m f g g' ->
  stored g' Q D /\ stored g' (FP k + r) (le 2 z) /\ forall a, ~ inside (Q, Z.of_nat n) a -> ~ inside (FP k + r, 2) a -> g' a = g a.
Proof.
  intros Dn Hz Rg O. split; [|split].
  - intros j v E. apply (re_holds _ _ _ _ _ Rg (OB 0 (Z.of_nat j)) v). cbn [holds bmem setb mb s_blk s_off m]. rewrite blk_one. unfold put. rewrite lookup_singleton. rewrite insert_singleton. apply hget_one. split; [done|]. split; [lia|].
    rewrite splice_lookup by (unfold zlen; rewrite ?contents_length; lia). rewrite decide_False by lia. apply lookup_lt_Some in E as Hj. rewrite decide_True by (unfold zlen; lia). rewrite Nat2Z.id. by replace (j - Z.to_nat 0)%nat with j by lia.
  - intros j v E. apply lookup_lt_Some in E as Hj. rewrite le_length in Hj. rewrite le_at in E by done. injection E as <-. apply (re_holds _ _ _ _ _ Rg (OR (Z.of_nat j))). cbn [holds pN p place_put]. split; [lia|]. by exists z.
  - intros a A1 A2. apply O. intros o Lo Wo E. destruct (put_region o Lo) as [[_ (w & I & J)]|[N _]]; [|done]. rewrite E in J. destruct I as [<-|[<-|[]]]; done.
Qed.
End put.

Lemma wrap_id x : is_u64 x -> wrap (x + 0) = x.
Proof. intros H. unfold wrap. rewrite Z.add_0_r. by apply Z.mod_small. Qed.
Lemma wrap_id' x : is_u64 x -> wrap x = x.
Proof. intros H. unfold wrap. by apply Z.mod_small. Qed.
Lemma first_u64 k g W R r : memory_map k g W R -> In r (W ++ R) -> 0 < snd r -> is_u64 (fst r).
Proof. intros M I H. apply (mm_range _ _ _ _ M r (fst r) I). unfold inside. lia. Qed.
Theorem C63_put8 : forall k prev xs P nin cin Q nout cout S L t, length xs = 8%nat -> Forall is_u32 xs -> prev_ok prev -> Forall is_u64 [nin; cin; nout; cout] ->
  let ys := to_code prev xs in let n := (length (enc_data (firstn 4 ys)) + 16)%nat in
  passed (fm t) (FP k) (put_args prev P nin cin Q nout cout S L) -> stored (fm t) P (quads xs) ->
  stored (fm t) S (concat EncodeShuffleTable) -> stored (fm t) L PerControlLenTable -> stored (fm t) (constant k 257) [1; 1] -> stored (fm t) (constant k 32512) [0; 127] ->
  memory_map k (fm t) [(Q, Z.of_nat n); (FP k + put_ret prev, 2)] [(P, 32); (S, 4096); (L, 256); (constant k 257, 2); (constant k 32512, 2); (FP k, put_ret prev)] ->
  exists t', fexec k (put_code prev) t = Some t' /\ stored (fm t') Q (enc_data ys ++ replicate (n - length (enc_data ys)) 0) /\ stored (fm t') (FP k + put_ret prev) (le 2 (ctrl8_of ys)) /\
    forall a, ~ inside (Q, Z.of_nat n) a -> ~ inside (FP k + put_ret prev, 2) a -> fm t' a = fm t a.
Proof.
  intros k prev xs P nin cin Q nout cout S L t Hx Hu Hp HN ys n Ha HP HS HL H1 H2 M.
  inversion HN as [|? ? N1 HN1]; subst. inversion HN1 as [|? ? N2 HN2]; subst. inversion HN2 as [|? ? N3 HN3]; subst. inversion HN3 as [|? ? N4 _]; subst. clear HN HN1 HN2 HN3.
  pose proof (first_u64 _ _ _ _ (P, 32) M ltac:(cbn; tauto) ltac:(cbn; lia)) as UP. pose proof (first_u64 _ _ _ _ (S, 4096) M ltac:(cbn; tauto) ltac:(cbn; lia)) as US. pose proof (first_u64 _ _ _ _ (L, 256) M ltac:(cbn; tauto) ltac:(cbn; lia)) as UL.
  pose proof (first_u64 _ _ _ _ (Q, Z.of_nat n) M ltac:(cbn; tauto) ltac:(cbn; lia)) as UQ. cbn [fst] in UP, US, UL, UQ.
  fold ST in HS. fold LT in HL.
  set (p := place_put k P Q S L (put_ret prev)).
  set (inp := Slice 0 0 nin cin). set (out := Slice 0 0 nout cout).
  set (m := Mem {[0%nat := contents (fm t) Q n]} {[0%nat := xs]}).
  assert (Lys : length ys = 8%nat) by (unfold ys; rewrite to_code_length; done).
  set (f := [(0, C64 (PW 0 0)); (8, C64 (VI nin)); (16, C64 (VI cin)); (24, C64 (PB 0 0)); (32, C64 (VI nout)); (40, C64 (VI cout))] ++
    match prev with None => [(48, C64 (PT ST 0)); (56, C64 (PT LT 0))] | Some d => [(48, C32 d); (56, C64 (PT ST 0)); (64, C64 (PT LT 0))] end).
  set (ps := [argW inp; argB out] ++ match prev with None => [] | Some d => [PU32 d] end ++ [PPtr (PT ST 0); PPtr (PT LT 0)]).
  assert (Lay : layout 0 ps = (f, pR p)) by (destruct prev; reflexivity).
  assert (Hf : Forall2 (cell_slot p) f (put_args prev P nin cin Q nout cout S L)).
  { assert (TS : cell_slot p (48, C64 (PT ST 0)) (48, 8%nat, S) /\ cell_slot p (56, C64 (PT ST 0)) (56, 8%nat, S)).
    { unfold cell_slot. cbn [fst snd cell_size cell_ok cell_val vgood vaddr p place_put tabs pT]. rewrite at_ST, wrap_id by done. repeat split; by left. }
    assert (TL : cell_slot p (56, C64 (PT LT 0)) (56, 8%nat, L) /\ cell_slot p (64, C64 (PT LT 0)) (64, 8%nat, L)).
    { unfold cell_slot. cbn [fst snd cell_size cell_ok cell_val vgood vaddr p place_put tabs pT]. rewrite at_LT, wrap_id by done. repeat split; right; by left. }
    unfold f, put_args. apply Forall2_app.
    - repeat match goal with |- Forall2 _ [] _ => apply List.Forall2_nil | |- Forall2 _ _ _ => apply List.Forall2_cons end; unfold cell_slot; cbn [fst snd cell_size cell_ok cell_val vgood vaddr p place_put pB pW]; rewrite ?wrap_id by done; done.
    - destruct TS as [S1 S2], TL as [L1 L2]. destruct prev as [d|].
      + apply List.Forall2_cons; [split; [reflexivity|split; [reflexivity|split; [exact Hp|reflexivity]]]|]. apply List.Forall2_cons; [exact S2|]. apply List.Forall2_cons; [exact L2|]. apply List.Forall2_nil.
      + apply List.Forall2_cons; [exact S1|]. apply List.Forall2_cons; [exact L1|]. apply List.Forall2_nil. }
  assert (Hb : Forall (fun '(o, n, _) => 0 <= o /\ o + Z.of_nat n <= put_ret prev) (put_args prev P nin cin Q nout cout S L)).
  { destruct prev; cbn [put_args put_ret app]; repeat constructor; lia. }
  pose proof (put_placed k P Q S L (put_ret prev) n xs f _ (fm t) Hf Hb Hx M) as Pl. pose proof (put_repr k P Q S L (put_ret prev) n xs f _ (fm t) Hf Ha Hx HP HS HL H1 H2 M) as Rp. fold p m in Pl, Rp.
  assert (Ty : typed m).
  { apply one_typed; [|done]. eapply stored_bytes; [exact (mm_bytes _ _ _ _ M)|]. apply (put_old k P Q S L (put_ret prev) n (fm t) M). }
  assert (Dn : length (put8_bytes ys) = n) by (pose proof (put8_bytes_zlen ys Lys) as Hz; unfold zlen in Hz; unfold n; change (firstn 4 ys) with (take 4 ys); lia).
  assert (Ep : put8_bytes ys = enc_data ys ++ replicate (n - length (enc_data ys)) 0).
  { pose proof Dn as En'. unfold put8_bytes in En' |- *. rewrite app_length, replicate_length in En'. f_equal. rewrite <- En'. f_equal. lia. }
  assert (Ex : sub 0 8 (blk (mw m) 0) = xs) by (cbn [m mw]; rewrite blk_one; unfold sub; cbn [Z.to_nat drop]; apply take_ge; change (Z.to_nat 8) with 8%nat; lia).
  assert (Wp : wp (may p) False (put8 Simd prev inp out) m (fun a m1 => a = ctrl8_of ys /\ m1 = bmem m out (put8_bytes ys))).
  { apply wp_put8_simd; try done; cbn [s_off s_blk inp out]; rewrite ?Ex; fold ys.
    - cbn [m mw]. rewrite blk_one. unfold zlen. lia.
    - cbn [m mb]. rewrite blk_one. unfold zlen. rewrite contents_length. unfold n. change (firstn 4 ys) with (take 4 ys). lia.
    - intros e. destruct e; done.
    - done. }
  apply wp_returns in Wp as [W1 W2].
  assert (Ec : put8 Simd prev inp out = with_result (call_asm (AMD64 true true) (put_code prev) ps)) by (destruct prev; reflexivity).
  rewrite Ec in W1, W2. unfold with_result in W1, W2. apply bind_inv in W1 as (v & m1 & W1 & W3). apply (bind_acc _ _ _ _ _ _ W1) in W2 as [W2 _]. destruct v as [z|]; [|by apply fault_inv in W3]. apply ret_inv in W3 as [-> ->].
  assert (Tb : Forall (Forall is_byte) (tabs p)) by (apply List.Forall_cons; [exact ST_bytes|apply List.Forall_cons; [exact LT_bytes|apply List.Forall_nil]]).
  assert (Ck : checked p [] (put_code prev) = true) by (destruct prev; reflexivity).
  destruct (C63_simulation p (AMD64 true true) (put_code prev) ps f m (Some (ctrl8_of ys)) _ t Lay Tb (frame_cells p f _ Hf) Pl Ty Rp Ck W1 W2) as (t' & E & R' & O).
  exists t'. split; [exact E|]. rewrite <- Ep. apply (put_after k P Q S L (put_ret prev) n xs f _ (fm t) Hf Hb Hx (put8_bytes ys) (ctrl8_of ys) (fm t') Dn); try done.
  pose proof (ctrl_of_byte (take 4 ys)) as B0. pose proof (ctrl_of_byte (drop 4 ys)) as B1. rewrite take_length in B0. rewrite drop_length in B1. unfold ctrl8_of, is_byte in *. lia.
Qed.

Section get.
Context (k : machine) (P Q S L : Z) (bs : list Z) (f : list (Z * cell)) (args : list (Z * nat * Z)) (g : fmem).
Let p := place_get k P Q S L.
Context (Hf : Forall2 (cell_slot p) f args) (Hb : Forall (fun '(o, n, _) => 0 <= o /\ o + Z.of_nat n <= 72) args) (Ha : passed g (FP k) args).
Context (HP : stored g P bs) (HS : stored g S SD) (HL : stored g L LT).
Let W := [(Q, 32)].
Let R := [(P, Z.of_nat (length bs)); (S, 4096); (L, 256); (FP k, 72)].
Context (M : memory_map k g W R).
Let old := lanes32 (contents g Q 32).
Let m := Mem {[0%nat := bs]} {[0%nat := old]}.
Lemma get_old : stored g Q (contents g Q 32).
Proof. apply contents_stored. intros x I. apply (mm_write _ _ _ _ M (Q, 32)); [by left|done]. Qed.
Lemma get_old_bytes : Forall is_byte (contents g Q 32).
Proof. eapply stored_bytes; [exact (mm_bytes _ _ _ _ M)|exact get_old]. Qed.
Lemma get_old_length : length old = 8%nat.
Proof. apply (lanes32_length _ 8). by rewrite contents_length. Qed.
Lemma get_old_quads : quads old = contents g Q 32.
Proof. rewrite quads_bytes. apply lanes32_bytes32; [exact get_old_bytes|]. exists 8%nat. by rewrite contents_length. Qed.
Lemma get_region o : live p m f o -> (writes p o /\ exists w, In w W /\ inside w (addr p o)) \/ (~ writes p o /\ exists w, In w R /\ inside w (addr p o)).
Proof.
  destruct o as [b i|b i j|t i|c j|o|j]; cbn [live]; [intros [v H]..|].
  - right. cbn [holds m mb] in H. apply hget_one in H as (-> & Hi & E). apply lookup_lt_Some in E. split; [done|]. exists (P, Z.of_nat (length bs)). split; [by left|]. unfold inside. cbn [fst snd addr pB p place_get]. lia.
  - left. destruct H as (Hj & x & H & ->). cbn [m mw] in H. apply hget_one in H as (-> & Hi & E). apply lookup_lt_Some in E. rewrite get_old_length in E. split; [done|]. exists (Q, 32). split; [by left|]. unfold inside. cbn [fst snd addr pW p place_get]. lia.
  - right. split; [intros []|]. destruct H as (I & Hi & E). apply lookup_lt_Some in E. cbn [addr pT p place_get]. cbn [tabs p place_get] in I. destruct I as [<-|[<-|[]]].
    + rewrite at_SD. rewrite SD_length in E. exists (S, 4096). split; [right; by left|]. unfold inside. cbn [fst snd]. lia.
    + rewrite at_LT. rewrite LT_length in E. exists (L, 256). split; [right; right; by left|]. unfold inside. cbn [fst snd]. lia.
  - destruct H as ([] & _).
  - right. split; [intros []|]. apply (cell_below p f args 72 o v Hf Hb) in H. exists (FP k, 72). split; [do 3 right; by left|]. unfold inside. cbn [fst snd addr pk p place_get]. lia.
  - intros. cbn [pN p place_get] in *. lia.
Qed.
Lemma get_placed : placed p m f.
Proof.
  split.
  - intros o Lo. destruct (get_region o Lo) as [[_ (w & I & J)]|[_ (w & I & J)]]; (eapply (mm_range _ _ _ _ M w); [apply in_or_app|exact J]); [by left|by right].
  - intros o o' Lo Lo' Wo E. destruct (get_region o Lo) as [[_ (w & I & J)]|[N _]]; [|done]. destruct (get_region o' Lo') as [[Wo' _]|[_ (w' & I' & J')]].
    + destruct o as [b i|b i j|t i|c j|o|j]; try done; [|cbn [live pN p place_get] in Lo; lia]. destruct o' as [b' i'|b' i' j'|t' i'|c' j'|o'|j']; try done; [|cbn [live pN p place_get] in Lo'; lia]. cbn [addr p place_get pW pk pR] in E.
      destruct Lo as [v (Hj & x & Lo & _)], Lo' as [v' (Hj' & x' & Lo' & _)]. cbn [m mw] in Lo, Lo'. apply hget_one in Lo as (-> & _), Lo' as (-> & _). f_equal; lia.
    + exfalso. rewrite E in J. exact (mm_apart _ _ _ _ M w w' _ I I' J J').
  - intros o Lo Wo. destruct (get_region o Lo) as [[_ (w & I & J)]|[N _]]; [|done]. exact (proj1 (mm_write _ _ _ _ M w _ I J)).
Qed.
Lemma get_repr : repr p m f None g.
Proof.
  split.
  - intros o v H. destruct o as [b i|b i j|t i|c j|o|j].
    + cbn [holds m mb] in H. apply hget_one in H as (-> & Hi & E). apply HP in E. cbn [addr p place_get pB]. by rewrite Z2Nat.id in E by lia.
    + destruct H as (Hj & x & H & ->). cbn [m mw] in H. apply hget_one in H as (-> & Hi & E). pose proof (quads_at old _ (Z.to_nat j) x E ltac:(lia)) as G. rewrite get_old_quads in G. apply get_old in G. rewrite Z2Nat.id in G by lia.
      rewrite <- G. cbn [addr p place_get pW]. f_equal. lia.
    + destruct H as (I & Hi & E). cbn [addr pT p place_get]. cbn [tabs p place_get] in I. destruct I as [<-|[<-|[]]]; [rewrite at_SD; apply HS in E|rewrite at_LT; apply HL in E]; by rewrite Z2Nat.id in E by lia.
    + destruct H as ([] & _).
    + exact (cell_stored p f args g o v Hf Ha H).
    + destruct H as (_ & z & E & _). done.
  - intros j Hj. cbn [pN p place_get] in Hj. lia.
Qed.
Lemma get_after D v g' : length D = 8%nat -> repr p (rmem m (Slice 0 0 0 0) D) f v g' -> outside p m f g g' ->
  stored g' Q (quads D) /\ forall a, ~ inside (Q, 32) a -> g' a = g a.
Proof.
  intros Dn Rg O. split.
  - intros j x E. apply lookup_lt_Some in E as Hj. rewrite quads_length in Hj. rewrite quads_bytes in E. apply bytes32_lookup in E as (w & E & ->). pose proof (Nat.div_mod j 4 ltac:(lia)) as Dj. pose proof (Nat.mod_upper_bound j 4 ltac:(lia)) as Mj.
    replace (Q + Z.of_nat j) with (Q + 4 * Z.of_nat (j / 4) + Z.of_nat (j mod 4)) by lia.
    apply (re_holds _ _ _ _ _ Rg (OW 0 (Z.of_nat (j / 4)) (Z.of_nat (j mod 4)))). cbn [holds]. split; [lia|]. exists w. split; [|done]. cbn [rmem setw mw s_blk s_off m]. rewrite blk_one. unfold put. rewrite lookup_singleton. rewrite insert_singleton.
    apply hget_one. split; [done|]. split; [lia|]. apply lookup_lt_Some in E as He.
    rewrite splice_lookup by (unfold zlen; rewrite ?get_old_length; lia). rewrite decide_False by lia. rewrite decide_True by (unfold zlen; lia). rewrite Nat2Z.id. by replace (j / 4 - Z.to_nat 0)%nat with (j / 4)%nat by lia.
  - intros a A1. apply O. intros o Lo Wo E. destruct (get_region o Lo) as [[_ (w & I & J)]|[N _]]; [|done]. rewrite E in J. destruct I as [<-|[]]. done.
Qed.
End get.

Theorem C63_get8 : forall k prev c bs P nin cin Q nout cout S L t, is_u16 c -> length bs = (sum_nat (ctrl_lens (c mod 256)) + 16)%nat -> prev_ok prev -> Forall is_u64 [nin; cin; nout; cout] ->
  passed (fm t) (FP k) (get_args prev c P nin cin Q nout cout S L) -> stored (fm t) P bs ->
  stored (fm t) S (concat DecodeShuffleTable) -> stored (fm t) L PerControlLenTable ->
  memory_map k (fm t) [(Q, 32)] [(P, Z.of_nat (length bs)); (S, 4096); (L, 256); (FP k, 72)] ->
  exists t', fexec k (get_code prev) t = Some t' /\ stored (fm t') Q (quads (of_code prev (numbers (ctrl8_lens c) bs))) /\
    forall a, ~ inside (Q, 32) a -> fm t' a = fm t a.
Proof.
  intros k prev c bs P nin cin Q nout cout S L t Hc Hn Hp HN Ha HP HS HL M.
  inversion HN as [|? ? N1 HN1]; subst. inversion HN1 as [|? ? N2 HN2]; subst. inversion HN2 as [|? ? N3 HN3]; subst. inversion HN3 as [|? ? N4 _]; subst. clear HN HN1 HN2 HN3.
  pose proof (first_u64 _ _ _ _ (P, Z.of_nat (length bs)) M ltac:(cbn; tauto) ltac:(cbn [snd]; lia)) as UP. pose proof (first_u64 _ _ _ _ (S, 4096) M ltac:(cbn; tauto) ltac:(cbn; lia)) as US. pose proof (first_u64 _ _ _ _ (L, 256) M ltac:(cbn; tauto) ltac:(cbn; lia)) as UL.
  pose proof (first_u64 _ _ _ _ (Q, 32) M ltac:(cbn; tauto) ltac:(cbn; lia)) as UQ. cbn [fst] in UP, US, UL, UQ.
  fold SD in HS. fold LT in HL.
  set (p := place_get k P Q S L).
  set (inp := Slice 0 0 nin cin). set (out := Slice 0 0 nout cout).
  set (m := Mem {[0%nat := bs]} {[0%nat := lanes32 (contents (fm t) Q 32)]}).
  set (f := [(0, C64 (PB 0 0)); (8, C64 (VI nin)); (16, C64 (VI cin)); (24, C64 (PW 0 0)); (32, C64 (VI nout)); (40, C64 (VI cout)); (48, C16 c)] ++
    match prev with None => [] | Some d => [(52, C32 d)] end ++ [(56, C64 (PT SD 0)); (64, C64 (PT LT 0))]).
  set (ps := [argB inp; argW out; PU16 c] ++ match prev with None => [] | Some d => [PU32 d] end ++ [PPtr (PT SD 0); PPtr (PT LT 0)]).
  assert (Lay : layout 0 ps = (f, pR p)) by (destruct prev; reflexivity).
  assert (Hf : Forall2 (cell_slot p) f (get_args prev c P nin cin Q nout cout S L)).
  { assert (TS : cell_slot p (56, C64 (PT SD 0)) (56, 8%nat, S)).
    { unfold cell_slot. cbn [fst snd cell_size cell_ok cell_val vgood vaddr p place_get tabs pT]. rewrite at_SD, wrap_id by done. repeat split; by left. }
    assert (TL : cell_slot p (64, C64 (PT LT 0)) (64, 8%nat, L)).
    { unfold cell_slot. cbn [fst snd cell_size cell_ok cell_val vgood vaddr p place_get tabs pT]. rewrite at_LT, wrap_id by done. repeat split; right; by left. }
    unfold f, get_args. apply Forall2_app; [|apply Forall2_app].
    - repeat match goal with |- Forall2 _ [] _ => apply List.Forall2_nil | |- Forall2 _ _ _ => apply List.Forall2_cons end; unfold cell_slot; cbn [fst snd cell_size cell_ok cell_val vgood vaddr p place_get pB pW]; rewrite ?wrap_id by done; done.
    - destruct prev as [d|]; [|apply List.Forall2_nil]. apply List.Forall2_cons; [split; [reflexivity|split; [reflexivity|split; [exact Hp|reflexivity]]]|]. apply List.Forall2_nil.
    - apply List.Forall2_cons; [exact TS|]. apply List.Forall2_cons; [exact TL|]. apply List.Forall2_nil. }
  assert (Hb : Forall (fun '(o, n, _) => 0 <= o /\ o + Z.of_nat n <= 72) (get_args prev c P nin cin Q nout cout S L)).
  { destruct prev; cbn [get_args app]; repeat constructor; lia. }
  pose proof (get_placed k P Q S L bs f _ (fm t) Hf Hb M) as Pl. pose proof (get_repr k P Q S L bs f _ (fm t) Hf Ha HP HS HL M) as Rp. fold p m in Pl, Rp.
  assert (Ty : typed m).
  { apply one_typed; [eapply stored_bytes; [exact (mm_bytes _ _ _ _ M)|exact HP]|]. apply lanes32_range. exact (get_old_bytes k P Q S L bs (fm t) M). }
  assert (Eb : bytes_on m inp = bs) by (unfold bytes_on; cbn [m mb inp s_blk s_off]; by rewrite lookup_singleton).
  assert (Wp : wp (may p) False (get8_fast true prev inp out c) m (fun a m1 => a = tt /\ m1 = rmem m out (of_code prev (numbers (ctrl8_lens c) (bytes_on m inp))))).
  { apply wp_get8_fast; try done; cbn [s_off s_blk inp out].
    - cbn [m mb]. rewrite blk_one. unfold zlen. lia.
    - intros e. destruct e; done. }
  apply wp_returns in Wp as [W1 W2]. rewrite Eb in W1.
  assert (Ec : get8_fast true prev inp out c = without_result (call_asm (AMD64 true true) (get_code prev) ps)) by (destruct prev; reflexivity).
  rewrite Ec in W1, W2. unfold without_result in W1, W2. apply bind_inv in W1 as (v & m1 & W1 & W3). apply (bind_acc _ _ _ _ _ _ W1) in W2 as [W2 _]. apply ret_inv in W3 as [_ ->].
  assert (Tb : Forall (Forall is_byte) (tabs p)) by (apply List.Forall_cons; [exact SD_bytes|apply List.Forall_cons; [exact LT_bytes|apply List.Forall_nil]]).
  assert (Ck : checked p [] (get_code prev) = true) by (destruct prev; reflexivity).
  destruct (C63_simulation p (AMD64 true true) (get_code prev) ps f m v _ t Lay Tb (frame_cells p f _ Hf) Pl Ty Rp Ck W1 W2) as (t' & E & R' & O).
  exists t'. split; [exact E|]. apply (get_after k P Q S L bs f _ (fm t) Hf Hb _ v (fm t')); try done.
  rewrite of_code_length. by rewrite numbers_length.
Qed.

(** ** A memory *)
Fixpoint memory (rs : list (Z * list Z)) (a : Z) : option Z :=
  match rs with
  | [] => None
  | (s, l) :: r => if (s <=? a) && (a <? s + Z.of_nat (length l)) then l !! Z.to_nat (a - s) else memory r a
  end.
Fixpoint separate (rs : list (Z * list Z)) (a : Z) : bool := match rs with [] => true | (s, l) :: r => (a <=? s) && separate r (s + Z.of_nat (length l)) end.
Lemma memory_bytes rs : Forall (fun r => Forall is_byte (snd r)) rs -> forall a v, memory rs a = Some v -> is_byte v.
Proof.
  induction 1 as [|[s l] r H F IH]; intros a v E; [done|]. cbn [memory] in E. destruct (_ && _); [|by eapply IH]. cbn in H. rewrite Forall_lookup in H. by eapply H.
Qed.
Lemma separate_le rs : forall a s l, separate rs a = true -> In (s, l) rs -> a <= s.
Proof.
  induction rs as [|[s' l'] rs IH]; intros a s l H I; [destruct I|]. cbn [separate] in H. apply andb_true_iff in H as [H1 H2]. apply Z.leb_le in H1. destruct I as [I|I]; [by injection I as -> ->|]. specialize (IH _ _ _ H2 I). lia.
Qed.
Lemma memory_stored rs : forall a s l, separate rs a = true -> In (s, l) rs -> stored (memory rs) s l.
Proof.
  induction rs as [|[s' l'] rs IH]; intros a s l H I; [destruct I|]. cbn [separate] in H. apply andb_true_iff in H as [_ H]. intros j v E. cbn [memory]. apply lookup_lt_Some in E as Hj. destruct I as [I|I].
  - injection I as -> ->. destruct (Z.leb_spec s (s + Z.of_nat j)); [|lia]. destruct (Z.ltb_spec (s + Z.of_nat j) (s + Z.of_nat (length l))); [|lia]. cbn [andb]. by replace (Z.to_nat (s + Z.of_nat j - s)) with j by lia.
  - pose proof (separate_le _ _ _ _ H I). destruct (Z.ltb_spec (s + Z.of_nat j) (s' + Z.of_nat (length l'))); [lia|]. rewrite andb_false_r. by apply (IH _ s l H I).
Qed.
(** The stack at 0x1000, the constants at 0x2000, the tables at 0x3000 and 0x5000, the numbers at 0x6001, the output at the very end of the address space. *)
Definition the_machine (w : list (Z * Z)) : machine := Machine 4096 (fun c => if c =? 257 then 8192 else 8194) (fun a => existsb (fun r => (fst r <=? a) && (a <? fst r + snd r)) w).
Definition the_numbers : list Z := [1; 300; 70000; 20000000; 0; 255; 256; 4294967295].
Definition slots (prev : option Z) : list Z := match prev with None => [] | Some d => le 4 d ++ [0; 0; 0; 0] end.
Definition put_memory (prev : option Z) : list (Z * list Z) :=
  [(4096, le 8 24577 ++ le 8 8 ++ le 8 8 ++ le 8 (2 ^ 64 - 32) ++ le 8 32 ++ le 8 32 ++ slots prev ++ le 8 12288 ++ le 8 20480); (4096 + put_ret prev, [170; 170]);
   (8192, [1; 1]); (8194, [0; 127]); (12288, ST); (20480, LT); (24577, quads the_numbers); (2 ^ 64 - 32, replicate 32 170)].
Definition start (g : fmem) : fstate := FState (fun _ => 12345) (fun _ => 67890) g.
Definition n_of (prev : option Z) : Z := Z.of_nat (length (enc_data (firstn 4 (to_code prev the_numbers)))) + 16.
Definition result_of (t : option fstate) (rs : list (Z * nat)) : option (list (option (list Z))) := match t with Some t => Some (map (fun '(a, n) => option_map (le n) (fload n (fm t) a)) rs) | None => None end.
Definition put_regions (prev : option Z) : list (Z * Z) := [(2 ^ 64 - 32, n_of prev); (4096 + put_ret prev, 2)].
Example C63_put8_case : forall prev, prev = None \/ prev = Some 1 -> let t := start (memory (put_memory prev)) in let k := the_machine (put_regions prev) in
  passed (fm t) (FP k) (put_args prev 24577 8 8 (2 ^ 64 - 32) 32 32 12288 20480) /\ stored (fm t) 24577 (quads the_numbers) /\
  stored (fm t) 12288 (concat EncodeShuffleTable) /\ stored (fm t) 20480 PerControlLenTable /\ stored (fm t) (constant k 257) [1; 1] /\ stored (fm t) (constant k 32512) [0; 127] /\
  memory_map k (fm t) (put_regions prev) [(24577, 32); (12288, 4096); (20480, 256); (constant k 257, 2); (constant k 32512, 2); (FP k, put_ret prev)].
Proof.
  intros prev Hp t k.
  assert (Sep : separate (put_memory prev) 0 = true) by (destruct Hp as [-> | ->]; vm_compute; reflexivity).
  assert (St : forall s l, In (s, l) (put_memory prev) -> stored (fm t) s l) by (intros s l; apply (memory_stored _ 0 s l Sep)).
  split; [|split; [|split; [|split; [|split; [|split]]]]].
  - assert (A : forall o n x, forallb (fun j => match memory (put_memory prev) (4096 + o + Z.of_nat j), le n x !! j with Some a, Some b => a =? b | _, _ => false end) (seq 0 n) = true -> stored (fm t) (4096 + o) (le n x)).
    { intros o n x F j v E. apply lookup_lt_Some in E as Hj. rewrite le_length in Hj. rewrite forallb_forall in F. specialize (F j). rewrite E in F. cbn [fm start t]. destruct (memory _ _) as [y|]; [|discriminate F; apply in_seq; lia]. f_equal. apply Z.eqb_eq, F. apply in_seq. lia. }
    destruct Hp as [-> | ->]; repeat (apply List.Forall_cons; [apply A; vm_compute; reflexivity|]); apply List.Forall_nil.
  - apply St. do 6 right. by left.
  - apply St. do 4 right. by left.
  - apply St. do 5 right. by left.
  - apply (St 8192). do 2 right. by left.
  - apply (St 8194). do 3 right. by left.
  - assert (n_of prev = 26) as En by (destruct Hp as [-> | ->]; vm_compute; reflexivity). assert (64 <= put_ret prev <= 72) as Er by (destruct Hp as [-> | ->]; cbn; lia).
    change (constant k 257) with 8192. change (constant k 32512) with 8194. change (FP k) with 4096.
    unfold put_regions. rewrite En. split.
    + apply memory_bytes. assert (B : forallb (fun r => forallb (fun b => (0 <=? b) && (b <? 256)) (snd r)) (put_memory prev) = true) by (destruct Hp as [-> | ->]; vm_compute; reflexivity).
      apply List.Forall_forall. intros r I. rewrite forallb_forall in B. apply bytes_dec. by apply B.
    + intros r a I J. unfold inside in J. cbn [app In] in I. repeat destruct I as [I|I]; try subst r; cbn [fst snd] in J; try lia; try (by destruct I).
    + intros w a I J. unfold inside in J. split.
      * cbn [writable the_machine k]. unfold put_regions. rewrite En. apply existsb_exists. exists w. split; [done|]. lia.
      * intros N. assert (X : forall s l i, In (s, l) (put_memory prev) -> (i < length l)%nat -> a = s + Z.of_nat i -> False).
        { intros s l i Il Li Ea. destruct (lookup_lt_is_Some_2 l i Li) as [v Ev]. pose proof (St s l Il i v Ev) as Q. rewrite <- Ea in Q. congruence. }
        cbn [In] in I. destruct I as [<-|[<-|[]]]; cbn [fst snd] in J.
        -- apply (X (2 ^ 64 - 32) (replicate 32 170) (Z.to_nat (a - (2 ^ 64 - 32)))); [do 7 right; by left|rewrite replicate_length; lia|lia].
        -- apply (X (4096 + put_ret prev) [170; 170] (Z.to_nat (a - (4096 + put_ret prev)))); [right; by left|cbn; lia|lia].
    + intros w r a I1 I2 J1 J2. unfold inside in *. cbn [In] in I1, I2. destruct I1 as [<-|[<-|[]]]; repeat destruct I2 as [I2|I2]; try subst r; cbn [fst snd] in *; try lia; try (by destruct I2).
    + intros i j w w' a E1 E2 J1 J2. unfold inside in *. destruct i as [|[|i]], j as [|[|j]]; cbn in E1, E2; try done; injection E1 as <-; injection E2 as <-; cbn [fst snd] in *; lia.
Qed.
(** Running it. *)
Example C63_put8_runs :
  result_of (fexec (the_machine (put_regions None)) Put8uint32FastAsm_code (start (memory (put_memory None)))) [(2 ^ 64 - 32, 32%nat); (4096 + 64, 2%nat)] =
    Some [Some ([1; 44; 1; 112; 17; 1; 0; 45; 49; 1; 0; 255; 0; 1; 255; 255; 255; 255] ++ replicate 8 0 ++ replicate 6 170); Some [228; 208]] /\
  result_of (fexec (the_machine (put_regions (Some 1))) Put8uint32DeltaFastAsm_code (start (memory (put_memory (Some 1))))) [(2 ^ 64 - 32, 32%nat); (4096 + 72, 2%nat)] =
    Some [Some ([0; 43; 1; 68; 16; 1; 144; 27; 48; 1; 0; 211; 206; 254; 255; 1; 255; 254; 255; 255] ++ replicate 6 0 ++ replicate 6 170); Some [228; 195]].
Proof. vm_compute. split; reflexivity. Qed.
(** One byte of the output missing: a fault. *)
Example C63_put8_faults : fexec (the_machine (put_regions None)) Put8uint32FastAsm_code (start (fun a => if a =? 2 ^ 64 - 32 + 25 then None else memory (put_memory None) a)) = None /\
  fexec (the_machine (tail (put_regions None))) Put8uint32FastAsm_code (start (memory (put_memory None))) = None.
Proof. vm_compute. split; reflexivity. Qed.
Definition the_stream : list Z := [1; 44; 1; 112; 17; 1; 0; 45; 49; 1; 0; 255; 0; 1; 255; 255; 255; 255] ++ replicate 8 99.
Definition get_slots (prev : option Z) : list Z := match prev with None => [0; 0; 0; 0] | Some d => le 4 d end.
Definition get_memory (prev : option Z) : list (Z * list Z) :=
  [(4096, le 8 24577 ++ le 8 26 ++ le 8 26 ++ le 8 (2 ^ 64 - 32) ++ le 8 8 ++ le 8 8 ++ le 2 53476 ++ [0; 0] ++ get_slots prev ++ le 8 12288 ++ le 8 20480);
   (12288, SD); (20480, LT); (24577, the_stream); (2 ^ 64 - 32, replicate 32 170)].
Example C63_get8_case : forall prev, prev = None \/ prev = Some 5 -> let t := start (memory (get_memory prev)) in let k := the_machine [(2 ^ 64 - 32, 32)] in
  length the_stream = (sum_nat (ctrl_lens (53476 mod 256)) + 16)%nat /\
  passed (fm t) (FP k) (get_args prev 53476 24577 26 26 (2 ^ 64 - 32) 8 8 12288 20480) /\ stored (fm t) 24577 the_stream /\
  stored (fm t) 12288 (concat DecodeShuffleTable) /\ stored (fm t) 20480 PerControlLenTable /\
  memory_map k (fm t) [(2 ^ 64 - 32, 32)] [(24577, 26); (12288, 4096); (20480, 256); (FP k, 72)].
Proof.
  intros prev Hp t k. split; [reflexivity|].
  assert (Sep : separate (get_memory prev) 0 = true) by (destruct Hp as [-> | ->]; vm_compute; reflexivity).
  assert (St : forall s l, In (s, l) (get_memory prev) -> stored (fm t) s l) by (intros s l; apply (memory_stored _ 0 s l Sep)).
  split; [|split; [|split; [|split]]].
  - assert (A : forall o n x, forallb (fun j => match memory (get_memory prev) (4096 + o + Z.of_nat j), le n x !! j with Some a, Some b => a =? b | _, _ => false end) (seq 0 n) = true -> stored (fm t) (4096 + o) (le n x)).
    { intros o n x F j v E. apply lookup_lt_Some in E as Hj. rewrite le_length in Hj. rewrite forallb_forall in F. specialize (F j). rewrite E in F. cbn [fm start t]. destruct (memory _ _) as [y|]; [|discriminate F; apply in_seq; lia]. f_equal. apply Z.eqb_eq, F. apply in_seq. lia. }
    destruct Hp as [-> | ->]; repeat (apply List.Forall_cons; [apply A; vm_compute; reflexivity|]); apply List.Forall_nil.
  - apply St. do 3 right. by left.
  - apply St. do 1 right. by left.
  - apply St. do 2 right. by left.
  - change (FP k) with 4096. split.
    + apply memory_bytes. assert (B : forallb (fun r => forallb (fun b => (0 <=? b) && (b <? 256)) (snd r)) (get_memory prev) = true) by (destruct Hp as [-> | ->]; vm_compute; reflexivity).
      apply List.Forall_forall. intros r I. rewrite forallb_forall in B. apply bytes_dec. by apply B.
    + intros r a I J. unfold inside in J. cbn [app In] in I. repeat destruct I as [I|I]; try subst r; cbn [fst snd] in J; try lia; try (by destruct I).
    + intros w a [<-|[]] J. unfold inside in J. cbn [fst snd] in J. split.
      * cbn [writable the_machine k existsb fst snd]. lia.
      * intros N. destruct (lookup_lt_is_Some_2 (replicate 32 170) (Z.to_nat (a - (2 ^ 64 - 32)))) as [v Ev]; [rewrite replicate_length; lia|].
        pose proof (St (2 ^ 64 - 32) (replicate 32 170) ltac:(do 4 right; by left) _ _ Ev) as Q. replace (2 ^ 64 - 32 + Z.of_nat (Z.to_nat (a - (2 ^ 64 - 32)))) with a in Q by lia. congruence.
    + intros w r a [<-|[]] I2 J1 J2. unfold inside in *. cbn [In] in I2. repeat destruct I2 as [I2|I2]; try subst r; cbn [fst snd] in *; try lia; try (by destruct I2).
    + intros i j w w' a E1 E2 J1 J2. destruct i as [|i], j as [|j]; done.
Qed.
Example C63_get8_runs :
  result_of (fexec (the_machine [(2 ^ 64 - 32, 32)]) Get8uint32FastAsm_code (start (memory (get_memory None)))) [(2 ^ 64 - 32, 32%nat)] = Some [Some (quads the_numbers)] /\
  result_of (fexec (the_machine [(2 ^ 64 - 32, 32)]) Get8uint32DeltaFastAsm_code (start (memory (get_memory (Some 5))))) [(2 ^ 64 - 32, 32%nat)] =
    Some [Some (quads [6; 306; 70306; 20070306; 20070306; 20070561; 20070817; 20070816])].
Proof. vm_compute. split; reflexivity. Qed.
