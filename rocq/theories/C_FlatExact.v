(** * Exactly when the assembly routines fault, and what overlapping arguments do: C64

    C63 describes calls with everything in place.  Here nothing is assumed about the
    input and the output: they may be unmapped, write-protected, overlap each other, the
    tables or the arguments, or lie across the end of the address space. *)
From stdpp Require Import prelude gmap list.
From Coq Require Import ZArith Lia.
From Verif Require Import Spec SpecLemmas GoSem Shared Tables TableProof Asm AsmProgs AsmProof SimdProof Api ApiLemmas C_Group8 C_Prims Flat FlatVec FlatProof FlatSim C_Flat FlatExact.
Local Open Scope Z_scope.

(** The memory [g] with the bytes [D] put at [a] and the addresses after it, going round at 2^64. *)
Definition patched (g : fmem) (a : Z) (D : list Z) : fmem :=
  fun b => if is_addr b then match D !! Z.to_nat (off a b) with Some v => Some v | None => g b end else g b.
(** [D] is what is in memory at [a]. *)
Definition found (g : fmem) (a : Z) (D : list Z) : Prop := forall i v, D !! i = Some v -> g (wrap (a + Z.of_nat i)) = Some v.
(** The first [n] bytes at [a] may be stored to. *)
Definition open (k : machine) (g : fmem) (a : Z) (n : nat) : Prop := forall i, 0 <= i < Z.of_nat n -> open_at (writable k) g (wrap (a + i)).
Definition closed (k : machine) (g : fmem) (a : Z) (n : nat) : Prop := exists i, 0 <= i < Z.of_nat n /\ ~ open_at (writable k) g (wrap (a + i)).
Definition unmapped (g : fmem) (a : Z) (n : nat) : Prop := exists i, 0 <= i < Z.of_nat n /\ g (wrap (a + i)) = None.

Lemma patched_wrap g a D b : patched g (wrap a) D b = patched g a D b.
Proof. unfold patched, off, wrap. by rewrite Zminus_mod_idemp_r. Qed.
Lemma off_add a i : 0 <= i < 2 ^ 64 -> off a (wrap (a + i)) = i.
Proof. intros H. unfold off, wrap. rewrite Zminus_mod_idemp_l. replace (a + i - a) with i by lia. by apply Z.mod_small. Qed.
Lemma is_addr_wrap a : is_addr (wrap a) = true.
Proof. unfold is_addr. pose proof (wrap_range a). apply andb_true_iff. rewrite Z.leb_le, Z.ltb_lt. lia. Qed.
Lemma patched_at g a D i v : (i < Z.to_nat (2 ^ 64))%nat -> D !! i = Some v -> patched g a D (wrap (a + Z.of_nat i)) = Some v.
Proof. intros H E. unfold patched. rewrite is_addr_wrap, off_add, Nat2Z.id, E by lia. done. Qed.
Lemma le_ge n x j : (n <= j)%nat -> le n x !! j = None.
Proof. intros H. apply lookup_ge_None. by rewrite le_length. Qed.
Lemma fstore_patched w n g a x : Z.of_nat n < 2 ^ 64 ->
  match fstore n w g a x with
  | Some g' => (forall j, 0 <= j < Z.of_nat n -> open_at w g (wrap (a + j))) /\ forall b, g' b = patched g a (le n x) b
  | None => exists j, 0 <= j < Z.of_nat n /\ ~ open_at w g (wrap (a + j))
  end.
Proof.
  intros Hn. pose proof (fstore_spec w n g a x Hn) as H. destruct (fstore n w g a x) as [g'|]; [|done]. destruct H as [H1 H2]. split; [done|]. intros b. rewrite H2. unfold patched.
  destruct (is_addr b); [|done]. cbn [andb]. pose proof (off_range a b). destruct (Z.ltb_spec (off a b) (Z.of_nat n)).
  - rewrite le_at by lia. by rewrite Z2Nat.id by lia.
  - by rewrite le_ge by lia.
Qed.
Lemma open_patched w g a D b : open_at w (patched g a D) b <-> (w b = true /\ (g b <> None \/ (is_addr b = true /\ (Z.to_nat (off a b) < length D)%nat))).
Proof.
  unfold open_at, patched. destruct (is_addr b); [|naive_solver]. destruct (D !! Z.to_nat (off a b)) as [v|] eqn:E.
  - apply lookup_lt_Some in E. naive_solver.
  - apply lookup_ge_None in E. split; [naive_solver|]. intros [? [?|[_ ?]]]; [done|lia].
Qed.
(** Storing to what is open does not change what is open. *)
Lemma open_same w g a D b : (forall j, 0 <= j < Z.of_nat (length D) -> open_at w g (wrap (a + j))) -> open_at w (patched g a D) b <-> open_at w g b.
Proof.
  intros O. rewrite open_patched. split; [|unfold open_at; naive_solver]. intros [Hw [Hg|[A Ho]]]; [done|]. pose proof (off_range a b).
  assert (b = wrap (a + off a b)) as ->; [|apply O; lia]. unfold wrap, off. rewrite Zplus_mod_idemp_r. replace (a + (b - a)) with b by lia. unfold is_addr in A. apply andb_true_iff in A. rewrite Z.leb_le, Z.ltb_lt in A. by rewrite Z.mod_small by lia.
Qed.
(** Two stores of sixteen bytes, the second one not further than sixteen bytes behind the first. *)
Lemma two_stores w g a b n x y : (n <= 16)%nat -> wrap b = wrap (a + Z.of_nat n) ->
  match andthen (fstore 16 w g a x) (fun g2 => fstore 16 w g2 b y) with
  | Some g3 => (forall j, 0 <= j < Z.of_nat (n + 16) -> open_at w g (wrap (a + j))) /\ forall c, g3 c = patched g a (take n (le 16 x) ++ le 16 y) c
  | None => exists j, 0 <= j < Z.of_nat (n + 16) /\ ~ open_at w g (wrap (a + j))
  end.
Proof.
  intros Hn Eb. pose proof (fstore_patched w 16 g a x ltac:(lia)) as H1. destruct (fstore 16 w g a x) as [g2|]; cbn [andthen].
  2:{ destruct H1 as (j & Hj & N). exists j. split; [lia|done]. }
  destruct H1 as [O1 P1].
  assert (Ob : forall j, wrap (b + j) = wrap (a + (Z.of_nat n + j))).
  { intros j. rewrite <- (wrap_add b), Eb, wrap_add. f_equal. lia. }
  assert (Op : forall c, open_at w g2 c <-> open_at w g c).
  { intros c. transitivity (open_at w (patched g a (le 16 x)) c); [unfold open_at; by rewrite P1|]. apply open_same. by rewrite le_length. }
  pose proof (fstore_patched w 16 g2 b y ltac:(lia)) as H2. destruct (fstore 16 w g2 b y) as [g3|].
  - destruct H2 as [O2 P2]. split.
    + intros j Hj. destruct (decide (j < 16)); [apply O1; lia|]. replace (a + j) with (a + (Z.of_nat n + (j - Z.of_nat n))) by lia. rewrite <- Ob. apply Op. apply O2. lia.
    + intros c. rewrite P2. unfold patched. rewrite P1. unfold patched. destruct (is_addr c) eqn:A; [|done]. pose proof (off_range a c) as Ra. pose proof (off_range b c) as Rb.
      assert (Eo : off b c = (off a c - Z.of_nat n) mod 2 ^ 64).
      { unfold off. rewrite Zminus_mod_idemp_l. replace (c - a - Z.of_nat n) with (c - (a + Z.of_nat n)) by lia. rewrite <- (Zminus_mod_idemp_r c b), <- (Zminus_mod_idemp_r c (a + _)). unfold wrap in Eb. by rewrite Eb. }
      assert (Lt : length (take n (le 16 x)) = n) by (rewrite take_length, le_length; lia).
      destruct (Z.ltb_spec (off a c) (Z.of_nat n)) as [C|C].
      * rewrite lookup_app_l by lia. rewrite lookup_take by lia. rewrite (le_ge 16 y); [done|]. rewrite Eo. replace (off a c - Z.of_nat n) with (2 ^ 64 + (off a c - Z.of_nat n) + (-1) * 2 ^ 64) by lia. rewrite Z.mod_add by lia. rewrite Z.mod_small by lia. lia.
      * rewrite Z.mod_small in Eo by lia. rewrite lookup_app_r by lia. rewrite Lt. replace (Z.to_nat (off a c) - n)%nat with (Z.to_nat (off b c)) by lia. destruct (le 16 y !! Z.to_nat (off b c)) eqn:Ey; [done|]. apply lookup_ge_None in Ey. rewrite le_length in Ey. by rewrite (le_ge 16 x) by lia.
  - destruct H2 as (j & Hj & N). exists (Z.of_nat n + j). split; [lia|]. rewrite <- Ob. intros H. apply N. by apply Op.
Qed.

(** ** Loads of what is stored *)
Lemma found_fload g a D : found g a D -> fload (length D) g a = Some (le_val D).
Proof. intros H. apply fload_bytes. exact H. Qed.
Lemma stored_found g a D : 0 <= a -> a + Z.of_nat (length D) <= 2 ^ 64 -> stored g a D -> found g a D.
Proof. intros H1 H2 H i v E. apply lookup_lt_Some in E as Hi. unfold wrap. rewrite Z.mod_small by lia. by apply H. Qed.
Lemma stored_sub g a D i n : stored g a D -> stored g (a + Z.of_nat i) (take n (drop i D)).
Proof. intros H j v E. apply lookup_take_Some in E as [E _]. rewrite lookup_drop in E. apply H in E. rewrite <- E. f_equal. lia. Qed.
Lemma stored_app g a D D' : stored g a (D ++ D') -> stored g a D /\ stored g (a + Z.of_nat (length D)) D'.
Proof.
  intros H. split; intros j v E.
  - apply H. by apply lookup_app_l_Some.
  - replace (a + Z.of_nat (length D) + Z.of_nat j) with (a + Z.of_nat (length D + j)) by lia. apply H. rewrite lookup_app_r by lia. by replace (length D + j - length D)%nat with j by lia.
Qed.
Lemma found_sub g a D i n : found g a D -> found g (a + Z.of_nat i) (take n (drop i D)).
Proof. intros H j v E. apply lookup_take_Some in E as [E _]. rewrite lookup_drop in E. apply H in E. rewrite <- E. do 2 f_equal. lia. Qed.
Lemma load_number g a n x : 0 <= x < 256 ^ Z.of_nat n -> 0 <= a -> a + Z.of_nat n <= 2 ^ 64 -> stored g a (le n x) -> fload n g a = Some x.
Proof.
  intros Hx H1 H2 H. apply stored_found in H; [|done|by rewrite le_length]. apply found_fload in H. rewrite le_length, le_val_le, Z.mod_small in H by done. done.
Qed.
(** Bytes loaded one after the other. *)
Lemma contents_found g a n : ~ unmapped g a n -> exists D, length D = n /\ found g a D.
Proof.
  intros H. exists (map (fun i => default 0 (g (wrap (a + Z.of_nat i)))) (seq 0 n)). split; [by rewrite map_length, seq_length|]. intros i v E.
  change (map ?f ?l) with (f <$> l) in E. rewrite list_lookup_fmap in E. destruct (seq 0 n !! i) as [j|] eqn:Ej; [|done]. apply lookup_seq in Ej as [-> Hi]. cbn in E. injection E as <-.
  destruct (g (wrap (a + Z.of_nat i))) eqn:Eg; [done|]. exfalso. apply H. exists (Z.of_nat i). split; [lia|done].
Qed.
Lemma unmapped_dec g a n : unmapped g a n \/ ~ unmapped g a n.
Proof.
  destruct (fload n g a) eqn:E.
  - right. intros H. apply fload_none in H. congruence.
  - left. by apply fload_none in E.
Qed.

Lemma bits_mod x n : 0 <= n -> bits x n 0 = x mod 2 ^ (n + 1).
Proof. intros H. unfold bits. rewrite Z.pow_0_r, Z.div_1_r. do 2 f_equal. lia. Qed.
Lemma count64_small n : 0 <= n < 64 -> count64 n = n.
Proof. intros H. unfold count64. rewrite bits_mod by lia. by apply Z.mod_small. Qed.
Lemma row_at_eq S c : 0 <= S -> S + 4096 <= 2 ^ 64 -> row_at S c = S + Z.of_nat (16 * Z.to_nat (c mod 256)).
Proof.
  intros H1 H2. unfold row_at. rewrite count64_small by lia. rewrite !bits_mod by lia. change (2 ^ (7 + 1)) with 256. change (2 ^ (63 + 1)) with (2 ^ 64). change (2 ^ 4) with 16.
  pose proof (Z.mod_pos_bound c 256). rewrite !(Z.mod_small _ (2 ^ 64)) by (rewrite ?(Z.mod_small (c mod 256 * 16)) by lia; lia). lia.
Qed.
Lemma row_at2_eq S c : 0 <= S -> S + 4096 <= 2 ^ 64 -> row_at2 S c = S + Z.of_nat (16 * Z.to_nat (c mod 65536 / 256)).
Proof.
  intros H1 H2. unfold row_at2. rewrite !count64_small by lia. rewrite !bits_mod by lia. change (2 ^ (15 + 1)) with 65536. change (2 ^ (63 + 1)) with (2 ^ 64). change (2 ^ 4) with 16. change (2 ^ 8) with 256.
  pose proof (Z.mod_pos_bound c 65536). assert (0 <= c mod 65536 / 256 < 256) by (split; [apply Z.div_pos; lia|apply Z.div_lt_upper_bound; lia]).
  rewrite !(Z.mod_small _ (2 ^ 64)) by (rewrite ?(Z.mod_small (c mod 65536 / 256 * 16)) by lia; lia). lia.
Qed.
Lemma len_at_eq L c : 0 <= L -> L + 256 <= 2 ^ 64 -> len_at L c = L + Z.of_nat (Z.to_nat (c mod 256)).
Proof.
  intros H1 H2. unfold len_at. rewrite !bits_mod by lia. change (2 ^ (7 + 1)) with 256. change (2 ^ (63 + 1)) with (2 ^ 64). pose proof (Z.mod_pos_bound c 256). rewrite (Z.mod_small _ (2 ^ 64)) by lia. lia.
Qed.
(** A row of a shuffle table as a number; the length of a group. *)
Definition row (T : list Z) (i : Z) : Z := le_val (take 16 (drop (16 * Z.to_nat i) T)).
Definition len1 (c : Z) : nat := sum_nat (ctrl_lens (c mod 256)).
Lemma load_row g S T i : length T = 4096%nat -> 0 <= i < 256 -> 0 <= S -> S + 4096 <= 2 ^ 64 -> stored g S T -> fload 16 g (S + Z.of_nat (16 * Z.to_nat i)) = Some (row T i).
Proof.
  intros Lt Hi H1 H2 H. pose proof (stored_sub g S T (16 * Z.to_nat i) 16 H) as H0. assert (El : length (take 16 (drop (16 * Z.to_nat i) T)) = 16%nat) by (rewrite take_length, drop_length; lia).
  apply stored_found in H0; [|lia|rewrite El; lia]. apply found_fload in H0. by rewrite El in H0.
Qed.
Lemma LT_at c : LT !! Z.to_nat (c mod 256) = Some (Z.of_nat (len1 c)).
Proof.
  pose proof (Z.mod_pos_bound c 256 ltac:(lia)) as B. pose proof (ControlByteToSize_lens (c mod 256) B) as E. unfold len1. rewrite <- E. unfold ControlByteToSize.
  destruct (lookup_lt_is_Some_2 LT (Z.to_nat (c mod 256))) as [v Ev]; [rewrite LT_length; lia|]. rewrite Ev. f_equal. symmetry. apply nth_lookup_Some with (d := 0) in Ev. exact Ev.
Qed.
Lemma load_len g L c : 0 <= L -> L + 256 <= 2 ^ 64 -> stored g L LT -> fload 1 g (len_at L c) = Some (Z.of_nat (len1 c)).
Proof.
  intros H1 H2 H. rewrite len_at_eq by done. pose proof (Z.mod_pos_bound c 256 ltac:(lia)) as B. pose proof (H _ _ (LT_at c)) as E. cbn [fload]. unfold wrap. rewrite Z.mod_small by lia. rewrite E. f_equal. lia.
Qed.

(** ** The decoders *)
Lemma mod_of_u16 c : is_u16 c -> c mod 65536 = c.
Proof. intros H. apply Z.mod_small. unfold is_u16 in H. lia. Qed.
Lemma get_loads k g prev c P nin cin Q nout cout S L : is_u16 c -> prev_ok prev -> Forall is_u64 [P; Q; S; L] ->
  0 <= FP k -> FP k + 72 <= 2 ^ 64 -> S + 4096 <= 2 ^ 64 -> L + 256 <= 2 ^ 64 ->
  passed g (FP k) (get_args prev c P nin cin Q nout cout S L) -> stored g S SD -> stored g L LT ->
  fload 2 g (FP k + 48) = Some c /\ fload 8 g (FP k + 56) = Some S /\ fload 8 g (FP k + 0) = Some P /\ fload 8 g (FP k + 64) = Some L /\ fload 8 g (FP k + 24) = Some Q /\
  match prev with None => True | Some _ => fload 4 g (FP k + 52) = Some (default 0 prev) end /\
  fload 1 g (len_at L c) = Some (Z.of_nat (len1 c)) /\ fload 16 g (row_at S c) = Some (row SD (c mod 256)) /\ fload 16 g (row_at2 S c) = Some (row SD (c / 256)).
Proof.
  intros Hc Hp U F1 F2 S2 L2 Pa HS HL. inversion U as [|? ? UP U1]; subst. inversion U1 as [|? ? UQ U2]; subst. inversion U2 as [|? ? US U3]; subst. inversion U3 as [|? ? UL _]; subst. clear U U1 U2 U3. unfold is_u64 in *.
  assert (Ld : forall o n x, In (o, n, x) (get_args prev c P nin cin Q nout cout S L) -> 0 <= x < 256 ^ Z.of_nat n -> 0 <= o -> o + Z.of_nat n <= 72 -> fload n g (FP k + o) = Some x).
  { intros o n x I Hx Ho Ho'. unfold passed in Pa. rewrite List.Forall_forall in Pa. specialize (Pa _ I). apply load_number; [done|lia|lia|exact Pa]. }
  change (256 ^ Z.of_nat 8) with (2 ^ 64) in Ld. unfold get_args in Ld.
  split; [apply Ld; [apply in_or_app; left; do 6 right; by left|unfold is_u16 in Hc; cbn; lia..]|].
  split; [apply Ld; [do 2 (apply in_or_app; right); by left|change (256 ^ Z.of_nat 8) with (2 ^ 64); lia..]|].
  split; [apply Ld; [apply in_or_app; left; by left|change (256 ^ Z.of_nat 8) with (2 ^ 64); lia..]|].
  split; [apply Ld; [do 2 (apply in_or_app; right); right; by left|change (256 ^ Z.of_nat 8) with (2 ^ 64); lia..]|].
  split; [apply Ld; [apply in_or_app; left; do 3 right; by left|change (256 ^ Z.of_nat 8) with (2 ^ 64); lia..]|].
  split; [destruct prev as [d|]; [|done]; apply Ld; [apply in_or_app; right; apply in_or_app; left; by left|unfold prev_ok, is_u32 in Hp; cbn; lia..]|].
  split; [apply load_len; [lia|done|done]|]. pose proof (Z.mod_pos_bound c 256 ltac:(lia)). assert (0 <= c / 256 < 256) by (unfold is_u16 in Hc; split; [apply Z.div_pos; lia|apply Z.div_lt_upper_bound; lia]).
  split.
  - rewrite row_at_eq by lia. apply load_row; [exact SD_length|lia|lia|lia|exact HS].
  - rewrite row_at2_eq by lia. rewrite mod_of_u16 by done. apply load_row; [exact SD_length|lia|lia|lia|exact HS].
Qed.

(** The values, from C63 on one particular memory. *)
Definition get_sample (prev : option Z) (c : Z) (bs : list Z) : list (Z * list Z) :=
  [(4096, le 8 24577 ++ le 8 26 ++ le 8 26 ++ le 8 (2 ^ 64 - 32) ++ le 8 8 ++ le 8 8 ++ le 2 c ++ [0; 0] ++ get_slots prev ++ le 8 12288 ++ le 8 20480);
   (12288, SD); (20480, LT); (24577, bs); (2 ^ 64 - 32, replicate 32 170)].
Lemma le_bytes n x : Forall is_byte (le n x).
Proof. apply Forall_lookup. intros i v E. apply lookup_lt_Some in E as Hi. rewrite le_length in Hi. rewrite le_at in E by done. injection E as <-. unfold byte_of, is_byte. apply Z.mod_pos_bound. lia. Qed.
Lemma get_slots_length prev : length (get_slots prev) = 4%nat. Proof. by destruct prev. Qed.
Lemma get_slots_bytes prev : Forall is_byte (get_slots prev). Proof. destruct prev; [apply le_bytes|]. apply bytes_dec. reflexivity. Qed.
Lemma get_sample_case prev c bs : is_u16 c -> Forall is_byte bs -> (length bs <= 32)%nat -> prev_ok prev -> let t := start (memory (get_sample prev c bs)) in let k := the_machine [(2 ^ 64 - 32, 32)] in
  passed (fm t) (FP k) (get_args prev c 24577 26 26 (2 ^ 64 - 32) 8 8 12288 20480) /\ stored (fm t) 24577 bs /\ stored (fm t) 12288 SD /\ stored (fm t) 20480 LT /\
  memory_map k (fm t) [(2 ^ 64 - 32, 32)] [(24577, Z.of_nat (length bs)); (12288, 4096); (20480, 256); (FP k, 72)].
Proof.
  intros Hc Hb Hl Hp t k.
  assert (Sep : separate (get_sample prev c bs) 0 = true).
  { unfold get_sample. cbn [separate]. rewrite !app_length, !le_length, get_slots_length, SD_length, LT_length. cbn [length]. repeat (apply andb_true_iff; split); try (apply Z.leb_le; lia). done. }
  assert (St : forall s l, In (s, l) (get_sample prev c bs) -> stored (fm t) s l) by (intros s l; apply (memory_stored _ 0 s l Sep)).
  split; [|split; [|split; [|split]]].
  - pose proof (St 4096 _ ltac:(by left)) as H. change (FP k) with 4096.
    apply stored_app in H as [A0 H]. apply stored_app in H as [A1 H]. apply stored_app in H as [A2 H]. apply stored_app in H as [A3 H]. apply stored_app in H as [A4 H]. apply stored_app in H as [A5 H]. apply stored_app in H as [A6 H].
    apply stored_app in H as [_ H]. apply stored_app in H as [A7 H]. apply stored_app in H as [A8 A9]. rewrite ?le_length, ?get_slots_length in *. cbn [length] in *.
    unfold passed, get_args. destruct prev as [d|]; cbn [app get_slots] in *;
      repeat match goal with |- Forall _ [] => apply List.Forall_nil | |- Forall _ _ => apply List.Forall_cons end; assumption.
  - apply St. do 3 right. by left.
  - apply St. do 1 right. by left.
  - apply St. do 2 right. by left.
  - change (FP k) with 4096. split.
    + apply memory_bytes. unfold get_sample.
      apply List.Forall_cons; [cbn [snd]; repeat (apply Forall_app; split); try apply le_bytes; [apply bytes_dec; reflexivity|apply get_slots_bytes]|].
      apply List.Forall_cons; [exact SD_bytes|]. apply List.Forall_cons; [exact LT_bytes|]. apply List.Forall_cons; [exact Hb|]. apply List.Forall_cons; [apply bytes_dec; reflexivity|]. apply List.Forall_nil.
    + intros r a I J. unfold inside in J. cbn [app In] in I. repeat destruct I as [I|I]; try subst r; cbn [fst snd] in J; try lia; try (by destruct I).
    + intros w a [<-|[]] J. unfold inside in J. cbn [fst snd] in J. split.
      * cbn [writable the_machine k existsb fst snd]. lia.
      * intros N. destruct (lookup_lt_is_Some_2 (replicate 32 170) (Z.to_nat (a - (2 ^ 64 - 32)))) as [v Ev]; [rewrite replicate_length; lia|].
        pose proof (St (2 ^ 64 - 32) (replicate 32 170) ltac:(do 4 right; by left) _ _ Ev) as Q. replace (2 ^ 64 - 32 + Z.of_nat (Z.to_nat (a - (2 ^ 64 - 32)))) with a in Q by lia. congruence.
    + intros w r a [<-|[]] I2 J1 J2. unfold inside in *. cbn [In] in I2. repeat destruct I2 as [I2|I2]; try subst r; cbn [fst snd] in *; try lia; try (by destruct I2).
    + intros i j w w' a E1 E2 J1 J2. destruct i as [|i], j as [|j]; done.
Qed.
Lemma len1_range c : (4 <= len1 c <= 16)%nat.
Proof. apply sum_ctrl_lens_range. Qed.
(** Sixteen bytes and sixteen bytes [n] further. *)
Lemma two_loads g a n D : (n <= 16)%nat -> length D = (n + 16)%nat -> found g a D ->
  fload 16 g (a + 0) = Some (le_val (take 16 D)) /\ fload 16 g (bits (a + Z.of_nat n) 63 0 + 0) = Some (le_val (take 16 (drop n D))).
Proof.
  intros Hn Hl F. rewrite Z.add_0_r. split.
  - pose proof (found_sub g a D 0 16 F) as H. rewrite drop_0, Z.add_0_r in H. apply found_fload in H. rewrite take_length in H. by replace (16 `min` length D)%nat with 16%nat in H by lia.
  - rewrite Z.add_0_r, bits_mod by lia. change ((a + Z.of_nat n) mod 2 ^ (63 + 1)) with (wrap (a + Z.of_nat n)). rewrite fload_wrap. pose proof (found_sub g a D n 16 F) as H. apply found_fload in H. rewrite take_length, drop_length in H. by replace (16 `min` (length D - n))%nat with 16%nat in H by lia.
Qed.
Lemma two_unmapped g a n : (n <= 16)%nat -> unmapped g a (n + 16) -> fload 16 g (a + 0) = None \/ fload 16 g (bits (a + Z.of_nat n) 63 0 + 0) = None.
Proof.
  intros Hn (i & Hi & E). rewrite !Z.add_0_r. destruct (decide (i < 16)).
  - left. apply fload_none. exists i. split; [lia|done].
  - right. rewrite bits_mod by lia. change ((a + Z.of_nat n) mod 2 ^ (63 + 1)) with (wrap (a + Z.of_nat n)). rewrite fload_wrap. apply fload_none. exists (i - Z.of_nat n). split; [lia|]. by replace (a + Z.of_nat n + (i - Z.of_nat n)) with (a + i) by lia.
Qed.
Lemma get_values prev : prev_ok prev -> exists Y0 Y1 : Z -> Z -> Z -> Z -> Z -> Z,
  (forall k t c P nin cin Q nout cout S L, is_u16 c -> Forall is_u64 [P; Q; S; L] -> 0 <= FP k -> FP k + 72 <= 2 ^ 64 -> S + 4096 <= 2 ^ 64 -> L + 256 <= 2 ^ 64 ->
    passed (fm t) (FP k) (get_args prev c P nin cin Q nout cout S L) -> stored (fm t) S SD -> stored (fm t) L LT ->
    (unmapped (fm t) P (len1 c + 16) -> fexec k (get_code prev) t = None) /\
    forall bs, length bs = (len1 c + 16)%nat -> found (fm t) P bs ->
      let x0 := le_val (take 16 bs) in let x1 := le_val (take 16 (drop (len1 c) bs)) in let r0 := row SD (c mod 256) in let r1 := row SD (c / 256) in let d := default 0 prev in
      option_map fm (fexec k (get_code prev) t) = andthen (fstore 16 (writable k) (fm t) (Q + 0) (Y0 d x0 x1 r0 r1)) (fun g2 => fstore 16 (writable k) g2 (Q + 16) (Y1 d x0 x1 r0 r1))) /\
  forall c bs, is_u16 c -> Forall is_byte bs -> length bs = (len1 c + 16)%nat ->
      let x0 := le_val (take 16 bs) in let x1 := le_val (take 16 (drop (len1 c) bs)) in let r0 := row SD (c mod 256) in let r1 := row SD (c / 256) in let d := default 0 prev in
      le 16 (Y0 d x0 x1 r0 r1) ++ le 16 (Y1 d x0 x1 r0 r1) = quads (of_code prev (numbers (ctrl8_lens c) bs)).
Proof.
  intros Hp. destruct (get_run prev) as (Y0 & Y1 & R). exists Y0, Y1.
  assert (A : forall k t c P nin cin Q nout cout S L, is_u16 c -> Forall is_u64 [P; Q; S; L] -> 0 <= FP k -> FP k + 72 <= 2 ^ 64 -> S + 4096 <= 2 ^ 64 -> L + 256 <= 2 ^ 64 ->
    passed (fm t) (FP k) (get_args prev c P nin cin Q nout cout S L) -> stored (fm t) S SD -> stored (fm t) L LT ->
    (unmapped (fm t) P (len1 c + 16) -> fexec k (get_code prev) t = None) /\
    forall bs, length bs = (len1 c + 16)%nat -> found (fm t) P bs ->
      let x0 := le_val (take 16 bs) in let x1 := le_val (take 16 (drop (len1 c) bs)) in let r0 := row SD (c mod 256) in let r1 := row SD (c / 256) in let d := default 0 prev in
      option_map fm (fexec k (get_code prev) t) = andthen (fstore 16 (writable k) (fm t) (Q + 0) (Y0 d x0 x1 r0 r1)) (fun g2 => fstore 16 (writable k) g2 (Q + 16) (Y1 d x0 x1 r0 r1))).
  { intros k t c P nin cin Q nout cout S L Hc U F1 F2 S2 L2 Pa HS HL. pose proof (len1_range c) as Hl.
    destruct (get_loads k (fm t) prev c P nin cin Q nout cout S L Hc Hp U F1 F2 S2 L2 Pa HS HL) as (E1 & E2 & E3 & E4 & E5 & E6 & E7 & E8 & E9).
    destruct (R k t c P Q S L (default 0 prev) (Z.of_nat (len1 c)) _ _ E1 E2 E3 E4 E5 E6 E7 E8 E9) as [R1 R2]. split.
    - intros N. apply two_unmapped in N; [|lia]. apply R2 in N. by destruct (fexec k (get_code prev) t).
    - intros bs Lb F. cbn zeta. destruct (two_loads (fm t) P (len1 c) bs) as [G0 G1]; [lia|done|done|]. by apply R1. }
  split; [exact A|]. intros c bs Hc Hb Lb. cbn zeta. pose proof (len1_range c) as Hl.
  destruct (get_sample_case prev c bs Hc Hb ltac:(lia) Hp) as (Pa & HP & HS & HL & M). set (t := start (memory (get_sample prev c bs))) in *. set (k := the_machine [(2 ^ 64 - 32, 32)]) in *.
  destruct (C63_get8 k prev c bs 24577 26 26 (2 ^ 64 - 32) 8 8 12288 20480 t) as (t' & E & St & _); try done.
  { repeat (apply List.Forall_cons; [unfold is_u64; lia|]). apply List.Forall_nil. }
  destruct (A k t c 24577 26 26 (2 ^ 64 - 32) 8 8 12288 20480) as [_ B]; try done.
  { repeat (apply List.Forall_cons; [unfold is_u64; lia|]). apply List.Forall_nil. }
  specialize (B bs Lb). cbn zeta in B. rewrite E in B. cbn [option_map] in B.
  set (D0 := Y0 _ _ _ _ _) in *. set (D1 := Y1 _ _ _ _ _) in *.
  pose proof (two_stores (writable k) (fm t) (2 ^ 64 - 32 + 0) (2 ^ 64 - 32 + 16) 16 D0 D1 ltac:(lia) eq_refl) as T. rewrite <- B in T by (apply stored_found; [lia|lia|exact HP]). clear B.
  destruct T as [_ T]. rewrite take_ge in T by (by rewrite le_length).
  assert (Lq : length (quads (of_code prev (numbers (ctrl8_lens c) bs))) = 32%nat) by (rewrite quads_length, of_code_length, numbers_length; done).
  apply list_eq_same_length with (n := 32%nat); [by rewrite Lq|by rewrite app_length, !le_length|]. intros i x y Hi Ex Ey.
  pose proof (St _ _ Ey) as S1. pose proof (patched_at (fm t) (2 ^ 64 - 32 + 0) _ i x ltac:(lia) Ex) as S2. unfold wrap in S2. rewrite Z.mod_small in S2 by lia. rewrite <- T in S2. rewrite Z.add_0_r in S2. congruence.
Qed.
(** The four words of lengths and capacities, whatever is there, play no role. *)
Theorem C64_get8 : forall k prev c P nin cin Q nout cout S L t, is_u16 c -> prev_ok prev -> Forall is_u64 [P; Q; S; L] ->
  (forall a v, fm t a = Some v -> is_byte v) -> 0 <= FP k -> FP k + 72 <= 2 ^ 64 -> S + 4096 <= 2 ^ 64 -> L + 256 <= 2 ^ 64 ->
  passed (fm t) (FP k) (get_args prev c P nin cin Q nout cout S L) -> stored (fm t) S (concat DecodeShuffleTable) -> stored (fm t) L PerControlLenTable ->
  let n := (sum_nat (ctrl_lens (c mod 256)) + 16)%nat in
  match fexec k (get_code prev) t with
  | Some t' => open k (fm t) Q 32 /\ exists bs, length bs = n /\ found (fm t) P bs /\ forall a, fm t' a = patched (fm t) Q (quads (of_code prev (numbers (ctrl8_lens c) bs))) a
  | None => unmapped (fm t) P n \/ closed k (fm t) Q 32
  end.
Proof.
  intros k prev c P nin cin Q nout cout S L t Hc Hp U By F1 F2 S2 L2 Pa HS HL n. destruct (get_values prev Hp) as (Y0 & Y1 & A & V).
  destruct (A k t c P nin cin Q nout cout S L Hc U F1 F2 S2 L2 Pa HS HL) as [N R]. destruct (unmapped_dec (fm t) P n) as [B|B].
  - rewrite (N B). by left.
  - apply contents_found in B as (bs & Lb & F). specialize (R bs Lb F). cbn zeta in R. assert (Hb : Forall is_byte bs) by (apply Forall_lookup; intros i v E; apply F in E; by eapply By).
    specialize (V c bs Hc Hb Lb). cbn zeta in V. set (D0 := Y0 _ _ _ _ _) in *. set (D1 := Y1 _ _ _ _ _) in *.
    pose proof (two_stores (writable k) (fm t) (Q + 0) (Q + 16) 16 D0 D1 ltac:(lia) ltac:(f_equal; lia)) as T. rewrite <- R in T. rewrite Z.add_0_r in T. rewrite take_ge in T by (by rewrite le_length). rewrite V in T.
    destruct (fexec k (get_code prev) t) as [t'|]; cbn [option_map] in T.
    + destruct T as [O T]. split; [exact O|]. exists bs. done.
    + by right.
Qed.

(** ** The encoders *)
(** Bytes away from two bytes that were stored. *)
Lemma stored_beside g s v a l : 0 <= s -> s + 2 <= 2 ^ 64 -> (forall b, inside (s, 2) b -> ~ inside (a, Z.of_nat (length l)) b) -> stored g a l -> stored (patched g s (le 2 v)) a l.
Proof.
  intros H1 H2 N H j x E. specialize (H j x E). apply lookup_lt_Some in E as Hj. unfold patched. destruct (is_addr (a + Z.of_nat j)) eqn:A; [|exact H]. unfold is_addr in A. apply andb_true_iff in A. rewrite Z.leb_le, Z.ltb_lt in A.
  rewrite le_ge; [exact H|]. specialize (N (a + Z.of_nat j)). unfold inside in N. cbn [fst snd] in N. unfold off. destruct (Z.ltb_spec (a + Z.of_nat j) s) as [C|C].
  - replace (a + Z.of_nat j - s) with (a + Z.of_nat j - s + 2 ^ 64 + (-1) * 2 ^ 64) by lia. rewrite Z.mod_add, Z.mod_small by lia. lia.
  - rewrite Z.mod_small by lia. lia.
Qed.
Lemma stored_ext g g' a l : (forall b, g' b = g b) -> stored g a l -> stored g' a l.
Proof. intros H S j v E. rewrite H. by apply S. Qed.
Definition put_tables (k : machine) (g : fmem) (prev : option Z) (S L : Z) : Prop :=
  stored g S ST /\ stored g L LT /\ forall b, inside (FP k + put_ret prev, 2) b -> ~ inside (S, 4096) b /\ ~ inside (L, 256) b.
Lemma put_ret_range prev : 64 <= put_ret prev <= 72. Proof. destruct prev; cbn; lia. Qed.
Lemma two_loads16 g a D : length D = 32%nat -> found g a D -> fload 16 g (a + 0) = Some (le_val (take 16 D)) /\ fload 16 g (a + 16) = Some (le_val (drop 16 D)).
Proof.
  intros Hl F. destruct (two_loads g a 16 D) as [E1 E2]; [lia|done|done|]. split; [done|]. rewrite Z.add_0_r, bits_mod in E2 by lia. change ((a + Z.of_nat 16) mod 2 ^ (63 + 1)) with (wrap (a + 16)) in E2. rewrite fload_wrap in E2. rewrite E2. rewrite (take_ge (drop 16 D)); [done|]. rewrite drop_length. lia.
Qed.
Lemma two_unmapped16 g a : unmapped g a 32 -> fload 16 g (a + 0) = None \/ fload 16 g (a + 16) = None.
Proof.
  intros H. apply (two_unmapped g a 16) in H; [|lia]. rewrite (Z.add_0_r (bits _ _ _)), bits_mod in H by lia. change ((a + Z.of_nat 16) mod 2 ^ (63 + 1)) with (wrap (a + 16)) in H. by rewrite fload_wrap in H.
Qed.
Definition put_input (k : machine) (g : fmem) (prev : option Z) (P nin cin Q nout cout S L : Z) : Prop :=
  passed g (FP k) (put_args prev P nin cin Q nout cout S L) /\ found g (constant k 257) [1; 1] /\ found g (constant k 32512) [0; 127].
Lemma arg_in prev P nin cin Q nout cout S L : let args := put_args prev P nin cin Q nout cout S L in
  In (0, 8%nat, P) args /\ In (24, 8%nat, Q) args /\ In (put_ret prev - 16, 8%nat, S) args /\ In (put_ret prev - 8, 8%nat, L) args /\ match prev with None => True | Some d => In (48, 4%nat, d) args end.
Proof. destruct prev; cbn; tauto. Qed.

Lemma put_values prev : prev_ok prev -> exists (C : Z -> Z -> Z -> Z) (Y0 Y1 : Z -> Z -> Z -> Z -> Z),
  forall k t P nin cin Q nout cout S L, Forall is_u64 [P; Q; S; L] -> 0 <= FP k -> FP k + put_ret prev + 2 <= 2 ^ 64 -> S + 4096 <= 2 ^ 64 -> L + 256 <= 2 ^ 64 ->
    put_input k (fm t) prev P nin cin Q nout cout S L -> put_tables k (fm t) prev S L ->
    (unmapped (fm t) P 32 -> option_map fm (fexec k (put_code prev) t) = None) /\
    forall D, length D = 32%nat -> found (fm t) P D ->
      let x0 := le_val (take 16 D) in let x1 := le_val (drop 16 D) in let d := default 0 prev in let c := C d x0 x1 mod 65536 in
      match fstore 2 (writable k) (fm t) (FP k + put_ret prev) c with
      | None => option_map fm (fexec k (put_code prev) t) = None
      | Some g1 => option_map fm (fexec k (put_code prev) t) = andthen (fstore 16 (writable k) g1 (Q + 0) (Y0 d x0 x1 (row ST (c mod 256)))) (fun g2 => fstore 16 (writable k) g2 (bits (Q + Z.of_nat (len1 c)) 63 0 + 0) (Y1 d x0 x1 (row ST (c / 256))))
      end.
Proof.
  intros Hp. destruct (put_run prev) as (C & Y0 & Y1 & R). exists C, Y0, Y1. intros k t P nin cin Q nout cout S L U F1 F2 S2 L2 (Pa & C1 & C2) (HS & HL & Ap).
  inversion U as [|? ? UP U1]; subst. inversion U1 as [|? ? UQ U2]; subst. inversion U2 as [|? ? US U3]; subst. inversion U3 as [|? ? UL _]; subst. clear U U1 U2 U3. unfold is_u64 in *. pose proof (put_ret_range prev) as Rr.
  destruct (arg_in prev P nin cin Q nout cout S L) as (I1 & I2 & I3 & I4 & I5). unfold passed in Pa. rewrite List.Forall_forall in Pa. pose proof (Pa _ I1) as A1. pose proof (Pa _ I2) as A2. pose proof (Pa _ I3) as A3. pose proof (Pa _ I4) as A4. cbn in A1, A2, A3, A4. cbn zeta in *.
  assert (U8 : forall x, 0 <= x < 2 ^ 64 -> 0 <= x < 256 ^ Z.of_nat 8) by (intros x Hx; change (256 ^ Z.of_nat 8) with (2 ^ 64); lia).
  assert (E1 : fload 8 (fm t) (FP k + 0) = Some P) by (apply load_number; [by apply U8|lia|lia|exact A1]).
  assert (E4 : match prev with None => True | Some _ => fload 4 (fm t) (FP k + 48) = Some (default 0 prev) end).
  { destruct prev as [d|]; [|done]. pose proof (Pa _ I5) as A5. apply load_number; [unfold prev_ok, is_u32 in Hp; cbn; lia|lia|cbn in F2; lia|exact A5]. }
  apply found_fload in C1. apply found_fload in C2. change (le_val [1; 1]) with mask0101 in C1. change (le_val [0; 127]) with mask7F00 in C2.
  destruct (R k t P (default 0 prev) E1 C1 C2 E4) as [R1 R2]. split.
  - intros N. apply R2. by apply two_unmapped16.
  - intros D Ld F. cbn zeta. destruct (two_loads16 (fm t) P D Ld F) as [G0 G1]. specialize (R1 _ _ G0 G1). set (c0 := C _ _ _) in *. destruct R1 as [R3 R4]. set (c := c0 mod 65536).
    assert (Ec : bits c0 15 0 = c) by (rewrite bits_mod by lia; done). rewrite Ec in R3, R4.
    pose proof (fstore_patched (writable k) 2 (fm t) (FP k + put_ret prev) c ltac:(lia)) as T. destruct (fstore 2 _ _ _ c) as [g1|]; [|by apply R3]. destruct T as [_ T].
    assert (Bs : forall a l, (forall b, inside (FP k + put_ret prev, 2) b -> ~ inside (a, Z.of_nat (length l)) b) -> stored (fm t) a l -> stored g1 a l).
    { intros a l N H. apply (stored_ext (patched (fm t) (FP k + put_ret prev) (le 2 c))); [exact T|]. apply stored_beside; [lia|lia|exact N|exact H]. }
    assert (HS1 : stored g1 S ST) by (apply Bs; [rewrite ST_length; intros b B; by apply Ap|exact HS]). assert (HL1 : stored g1 L LT) by (apply Bs; [rewrite LT_length; intros b B; by apply Ap|exact HL]).
    assert (Ba : forall o x, 0 <= o -> o + 8 <= put_ret prev -> 0 <= x < 2 ^ 64 -> stored (fm t) (FP k + o) (le 8 x) -> fload 8 g1 (FP k + o) = Some x).
    { intros o x O1 O2 Hx H. apply load_number; [by apply U8|lia|lia|]. apply Bs; [|exact H]. rewrite le_length. unfold inside. cbn [fst snd]. lia. }
    assert (Em : c0 mod 256 = c mod 256) by (unfold c; change 65536 with (256 * 256); rewrite Z.rem_mul_r by lia; rewrite Z.mul_comm, Z.mod_add by lia; by rewrite Z.mod_mod by lia).
    assert (En : len1 c0 = len1 c) by (unfold len1; by rewrite Em).
    pose proof (Z.mod_pos_bound c0 65536 ltac:(lia)) as Bc. fold c in Bc. pose proof (Z.mod_pos_bound c 256 ltac:(lia)). assert (0 <= c / 256 < 256) by (split; [apply Z.div_pos; lia|apply Z.div_lt_upper_bound; lia]).
    rewrite <- En. apply (R4 g1 Q S L); [reflexivity|apply Ba; [lia|lia|lia|exact A3]|apply Ba; [lia|lia|lia|exact A2]|apply Ba; [lia|lia|lia|exact A4]|apply load_len; [lia|lia|exact HL1]|..].
    + rewrite row_at_eq by lia. rewrite Em. apply load_row; [exact ST_length|lia|lia|lia|exact HS1].
    + rewrite row_at2_eq by lia. fold c. apply load_row; [exact ST_length|lia|lia|lia|exact HS1].
Qed.
Definition put_sample (prev : option Z) (xs : list Z) : list (Z * list Z) :=
  [(4096, le 8 24577 ++ le 8 8 ++ le 8 8 ++ le 8 (2 ^ 64 - 32) ++ le 8 32 ++ le 8 32 ++ slots prev ++ le 8 12288 ++ le 8 20480); (4096 + put_ret prev, [170; 170]);
   (8192, [1; 1]); (8194, [0; 127]); (12288, ST); (20480, LT); (24577, quads xs); (2 ^ 64 - 32, replicate 32 170)].
Lemma slots_length prev : length (slots prev) = Z.to_nat (put_ret prev - 64). Proof. by destruct prev. Qed.
Lemma slots_bytes prev : Forall is_byte (slots prev). Proof. destruct prev; [|apply List.Forall_nil]. apply Forall_app. split; [apply le_bytes|apply bytes_dec; reflexivity]. Qed.
Lemma quads_all_bytes xs : Forall is_byte (quads xs).
Proof. unfold quads. induction xs as [|x xs IH]; [apply List.Forall_nil|]. cbn [map concat]. apply Forall_app. split; [apply le_bytes|exact IH]. Qed.
Lemma put_sample_case prev xs n : prev_ok prev -> length xs = 8%nat -> (n <= 32)%nat -> let W := [(2 ^ 64 - 32, Z.of_nat n); (4096 + put_ret prev, 2)] in let t := start (memory (put_sample prev xs)) in let k := the_machine W in
  passed (fm t) (FP k) (put_args prev 24577 8 8 (2 ^ 64 - 32) 32 32 12288 20480) /\ stored (fm t) 24577 (quads xs) /\
  stored (fm t) 12288 ST /\ stored (fm t) 20480 LT /\ stored (fm t) (constant k 257) [1; 1] /\ stored (fm t) (constant k 32512) [0; 127] /\
  memory_map k (fm t) W [(24577, 32); (12288, 4096); (20480, 256); (constant k 257, 2); (constant k 32512, 2); (FP k, put_ret prev)].
Proof.
  intros Hp Hx Hn W t k. pose proof (put_ret_range prev) as Er.
  assert (Sep : separate (put_sample prev xs) 0 = true).
  { unfold put_sample. cbn [separate]. rewrite !app_length, !le_length, slots_length, ST_length, LT_length, quads_length, Hx. cbn [length]. repeat (apply andb_true_iff; split); try (apply Z.leb_le; lia). done. }
  assert (St : forall s l, In (s, l) (put_sample prev xs) -> stored (fm t) s l) by (intros s l; apply (memory_stored _ 0 s l Sep)).
  split; [|split; [|split; [|split; [|split; [|split]]]]].
  - pose proof (St 4096 _ ltac:(by left)) as H. change (FP k) with 4096.
    apply stored_app in H as [A0 H]. apply stored_app in H as [A1 H]. apply stored_app in H as [A2 H]. apply stored_app in H as [A3 H]. apply stored_app in H as [A4 H]. apply stored_app in H as [A5 H].
    apply stored_app in H as [A7 H]. apply stored_app in H as [A8 A9]. rewrite ?le_length, ?slots_length in *. unfold passed, put_args. destruct prev as [d|]; cbn [app slots put_ret] in *.
    + apply stored_app in A7 as [A7 _]. repeat match goal with |- Forall _ [] => apply List.Forall_nil | |- Forall _ _ => apply List.Forall_cons end; assumption.
    + repeat match goal with |- Forall _ [] => apply List.Forall_nil | |- Forall _ _ => apply List.Forall_cons end; assumption.
  - apply St. do 6 right. by left.
  - apply St. do 4 right. by left.
  - apply St. do 5 right. by left.
  - apply (St 8192). do 2 right. by left.
  - apply (St 8194). do 3 right. by left.
  - change (FP k) with 4096. change (constant k 257) with 8192. change (constant k 32512) with 8194. split.
    + apply memory_bytes. unfold put_sample.
      apply List.Forall_cons; [cbn [snd]; repeat (apply Forall_app; split); try apply le_bytes; apply slots_bytes|].
      apply List.Forall_cons; [apply bytes_dec; reflexivity|]. apply List.Forall_cons; [apply bytes_dec; reflexivity|]. apply List.Forall_cons; [apply bytes_dec; reflexivity|].
      apply List.Forall_cons; [exact ST_bytes|]. apply List.Forall_cons; [exact LT_bytes|]. apply List.Forall_cons; [apply quads_all_bytes|]. apply List.Forall_cons; [apply bytes_dec; reflexivity|]. apply List.Forall_nil.
    + intros r a I J. unfold inside in J. cbn [app In W] in I. repeat destruct I as [I|I]; try subst r; cbn [fst snd] in J; try lia; try (by destruct I).
    + intros w a I J. unfold inside in J. split.
      * cbn [writable the_machine k]. apply existsb_exists. exists w. split; [done|]. lia.
      * intros N. assert (X : forall s l i, In (s, l) (put_sample prev xs) -> (i < length l)%nat -> a = s + Z.of_nat i -> False).
        { intros s l i Il Li Ea. destruct (lookup_lt_is_Some_2 l i Li) as [v Ev]. pose proof (St s l Il i v Ev) as Q. rewrite <- Ea in Q. congruence. }
        cbn [In W] in I. destruct I as [<-|[<-|[]]]; cbn [fst snd] in J.
        -- apply (X (2 ^ 64 - 32) (replicate 32 170) (Z.to_nat (a - (2 ^ 64 - 32)))); [do 7 right; by left|rewrite replicate_length; lia|lia].
        -- apply (X (4096 + put_ret prev) [170; 170] (Z.to_nat (a - (4096 + put_ret prev)))); [right; by left|cbn; lia|lia].
    + intros w r a I1 I2 J1 J2. unfold inside in *. cbn [In W] in I1, I2. destruct I1 as [<-|[<-|[]]]; repeat destruct I2 as [I2|I2]; try subst r; cbn [fst snd] in *; try lia; try (by destruct I2).
    + intros i j w w' a E1 E2 J1 J2. unfold inside in *. destruct i as [|[|i]], j as [|[|j]]; cbn in E1, E2; try done; injection E1 as <-; injection E2 as <-; cbn [fst snd] in *; lia.
Qed.
Lemma len1_ctrl ys : length ys = 8%nat -> len1 (ctrl8_of ys) = length (enc_data (firstn 4 ys)).
Proof.
  intros Hy. unfold len1, ctrl8_of. pose proof (ctrl_of_byte (take 4 ys)) as B. rewrite take_length in B.
  assert (E : (ctrl_of (take 4 ys) + 256 * ctrl_of (drop 4 ys)) mod 256 = ctrl_of (take 4 ys)) by (rewrite Z.mul_comm, Z.mod_add by lia; apply Z.mod_small; unfold is_byte in B; lia).
  rewrite E, ctrl_lens_short by (rewrite take_length; lia). rewrite take_length. replace (4 - 4 `min` length ys)%nat with 0%nat by lia. cbn [replicate]. rewrite app_nil_r. by rewrite enc_data_length.
Qed.
Lemma ctrl8_range ys : length ys = 8%nat -> 0 <= ctrl8_of ys < 65536.
Proof.
  intros H. pose proof (ctrl_of_byte (take 4 ys)) as B0. pose proof (ctrl_of_byte (drop 4 ys)) as B1. rewrite take_length in B0. rewrite drop_length in B1. unfold ctrl8_of, is_byte in *. lia.
Qed.
Lemma lookup_same (l l' : list Z) n : length l = n -> length l' = n -> (forall i x y, (i < n)%nat -> l !! i = Some x -> l' !! i = Some y -> x = y) -> l = l'.
Proof. intros H1 H2 H. by apply list_eq_same_length with (n := n). Qed.
Lemma off_far a b n : 0 <= n -> 0 <= a -> a + n <= 2 ^ 64 -> 0 <= b < 2 ^ 64 -> ~ (a <= b < a + n) -> n <= off a b.
Proof.
  intros H0 H1 H2 H3 H4. unfold off. destruct (Z.ltb_spec b a).
  - replace (b - a) with (b - a + 2 ^ 64 + (-1) * 2 ^ 64) by lia. rewrite Z.mod_add, Z.mod_small by lia. lia.
  - rewrite Z.mod_small by lia. lia.
Qed.
Lemma patched_far g a D b : 0 <= a -> a + Z.of_nat (length D) <= 2 ^ 64 -> ~ (a <= b < a + Z.of_nat (length D)) -> patched g a D b = g b.
Proof.
  intros H1 H2 H3. unfold patched. destruct (is_addr b) eqn:A; [|done]. unfold is_addr in A. apply andb_true_iff in A. rewrite Z.leb_le, Z.ltb_lt in A. pose proof (off_far a b (Z.of_nat (length D)) ltac:(lia) H1 H2 A H3).
  assert (D !! Z.to_nat (off a b) = None) as -> by (apply lookup_ge_None; lia). done.
Qed.
Lemma patched_near g a D j v : 0 <= a -> a + Z.of_nat (length D) <= 2 ^ 64 -> D !! j = Some v -> patched g a D (a + Z.of_nat j) = Some v.
Proof.
  intros H1 H2 E. apply lookup_lt_Some in E as Hj. rewrite <- (patched_at g a D j v) by (done || lia). f_equal. unfold wrap. symmetry. apply Z.mod_small. lia.
Qed.
(** What the encoders compute, from C63 on one particular memory. *)
Lemma put_meaning prev : prev_ok prev -> exists (C : Z -> Z -> Z -> Z) (Y0 Y1 : Z -> Z -> Z -> Z -> Z),
  (forall k t P nin cin Q nout cout S L, Forall is_u64 [P; Q; S; L] -> 0 <= FP k -> FP k + put_ret prev + 2 <= 2 ^ 64 -> S + 4096 <= 2 ^ 64 -> L + 256 <= 2 ^ 64 ->
    put_input k (fm t) prev P nin cin Q nout cout S L -> put_tables k (fm t) prev S L ->
    (unmapped (fm t) P 32 -> option_map fm (fexec k (put_code prev) t) = None) /\
    forall D, length D = 32%nat -> found (fm t) P D ->
      let x0 := le_val (take 16 D) in let x1 := le_val (drop 16 D) in let d := default 0 prev in let c := C d x0 x1 mod 65536 in
      match fstore 2 (writable k) (fm t) (FP k + put_ret prev) c with
      | None => option_map fm (fexec k (put_code prev) t) = None
      | Some g1 => option_map fm (fexec k (put_code prev) t) = andthen (fstore 16 (writable k) g1 (Q + 0) (Y0 d x0 x1 (row ST (c mod 256)))) (fun g2 => fstore 16 (writable k) g2 (bits (Q + Z.of_nat (len1 c)) 63 0 + 0) (Y1 d x0 x1 (row ST (c / 256))))
      end) /\
  forall xs, length xs = 8%nat -> Forall is_u32 xs -> let ys := to_code prev xs in
      let x0 := le_val (take 16 (quads xs)) in let x1 := le_val (drop 16 (quads xs)) in let d := default 0 prev in let c := C d x0 x1 mod 65536 in
      c = ctrl8_of ys /\ let n := (length (enc_data (firstn 4 ys)) + 16)%nat in take (len1 c) (le 16 (Y0 d x0 x1 (row ST (c mod 256)))) ++ le 16 (Y1 d x0 x1 (row ST (c / 256))) = enc_data ys ++ replicate (n - length (enc_data ys)) 0.
Proof.
  intros Hp. destruct (put_values prev Hp) as (C & Y0 & Y1 & A). exists C, Y0, Y1. split; [exact A|]. intros xs Hx Hu ys. cbn zeta.
  assert (Hy : length ys = 8%nat) by (unfold ys; by rewrite to_code_length). set (n := (length (enc_data (firstn 4 ys)) + 16)%nat).
  assert (Hn : (n <= 32)%nat) by (unfold n; pose proof (enc_data_bounds (firstn 4 ys)) as B; rewrite firstn_length in B; lia). pose proof (put_ret_range prev) as Er.
  destruct (put_sample_case prev xs n Hp Hx Hn) as (Pa & HP & HS & HL & K1 & K2 & M). set (t := start (memory (put_sample prev xs))) in *. set (k := the_machine _) in *.
  destruct (C63_put8 k prev xs 24577 8 8 (2 ^ 64 - 32) 32 32 12288 20480 t) as (t' & E & SQ & SR & _); try assumption.
  { repeat (apply List.Forall_cons; [unfold is_u64; lia|]). apply List.Forall_nil. }
  fold ys in SQ, SR. fold n in SQ.
  destruct (A k t 24577 8 8 (2 ^ 64 - 32) 32 32 12288 20480) as [_ B].
  { repeat (apply List.Forall_cons; [unfold is_u64; lia|]). apply List.Forall_nil. }
  { cbn; lia. } { change (FP k) with 4096. lia. } { lia. } { lia. }
  { split; [exact Pa|]. change (constant k 257) with 8192 in *. change (constant k 32512) with 8194 in *. split; apply stored_found; cbn [length]; try lia; assumption. }
  { split; [exact HS|]. split; [exact HL|]. change (FP k) with 4096. unfold inside. cbn [fst snd]. intros b Hb. lia. }
  specialize (B (quads xs)). rewrite quads_length, Hx in B. specialize (B eq_refl). cbn zeta in B. rewrite E in B. cbn [option_map] in B.
  specialize (B ltac:(apply stored_found; [lia|rewrite quads_length, Hx; lia|exact HP])).
  set (c := C _ _ _ mod 65536) in *. set (D0 := Y0 _ _ _ _) in *. set (D1 := Y1 _ _ _ _) in *. pose proof (len1_range c) as Hl. change (FP k) with 4096 in *.
  pose proof (fstore_patched (writable k) 2 (fm t) (4096 + put_ret prev) c ltac:(lia)) as T1. destruct (fstore 2 _ _ _ c) as [g1|]; [|discriminate B]. destruct T1 as [_ T1].
  pose proof (two_stores (writable k) g1 (2 ^ 64 - 32 + 0) (bits (2 ^ 64 - 32 + Z.of_nat (len1 c)) 63 0 + 0) (len1 c) D0 D1 ltac:(lia)) as T2. rewrite <- B in T2. clear B.
  destruct T2 as [_ T2]. { rewrite !Z.add_0_r, bits_mod by lia. unfold wrap. change (2 ^ (63 + 1)) with (2 ^ 64). rewrite Z.mod_mod by lia. done. } rewrite Z.add_0_r in T2.
  set (D := take (len1 c) (le 16 D0) ++ le 16 D1) in *. assert (LD : length D = (len1 c + 16)%nat) by (unfold D; rewrite app_length, take_length, !le_length; lia).
  assert (Ec : c = ctrl8_of ys).
  { assert (X : le 2 c = le 2 (ctrl8_of ys)).
    { apply (lookup_same _ _ 2); [by rewrite le_length|by rewrite le_length|]. intros i x y Hi Ex Ey. pose proof (SR _ _ Ey) as Q. rewrite T2, patched_far in Q by (rewrite ?LD; lia). rewrite T1 in Q. rewrite (patched_near _ _ _ i x) in Q; [congruence|lia|rewrite le_length; lia|exact Ex]. }
    apply (f_equal le_val) in X. rewrite !le_val_le in X. change (256 ^ Z.of_nat 2) with 65536 in X. pose proof (ctrl8_range ys Hy). pose proof (Z.mod_pos_bound (C (default 0 prev) (le_val (take 16 (quads xs))) (le_val (drop 16 (quads xs)))) 65536 ltac:(lia)) as Bc. fold c in Bc. rewrite !Z.mod_small in X by lia. exact X. }
  split; [exact Ec|].
  assert (En : len1 c = length (enc_data (firstn 4 ys))) by (rewrite Ec; by apply len1_ctrl).
  assert (Le : (length (enc_data ys) <= n)%nat).
  { unfold n. pose proof (enc_data_bounds (skipn 4 ys)) as Bd. rewrite skipn_length in Bd. rewrite <- (firstn_skipn 4 ys) at 1. rewrite enc_data_app, app_length. lia. }
  apply (lookup_same _ _ n); [unfold n; lia|rewrite app_length, replicate_length; lia|]. intros i x y Hi Ex Ey. pose proof (SQ _ _ Ey) as Q1. rewrite T2 in Q1. rewrite (patched_near _ _ _ i x) in Q1; [congruence|lia|rewrite LD; lia|exact Ex].
Qed.

Theorem C64_put8 : forall k prev P nin cin Q nout cout S L t, prev_ok prev -> Forall is_u64 [P; Q; S; L] ->
  (forall a v, fm t a = Some v -> is_byte v) -> 0 <= FP k -> FP k + put_ret prev + 2 <= 2 ^ 64 -> S + 4096 <= 2 ^ 64 -> L + 256 <= 2 ^ 64 ->
  passed (fm t) (FP k) (put_args prev P nin cin Q nout cout S L) -> stored (fm t) S (concat EncodeShuffleTable) -> stored (fm t) L PerControlLenTable ->
  (forall b, inside (FP k + put_ret prev, 2) b -> ~ inside (S, 4096) b /\ ~ inside (L, 256) b) ->
  found (fm t) (constant k 257) [1; 1] -> found (fm t) (constant k 32512) [0; 127] ->
  let n xs := (length (enc_data (firstn 4 (to_code prev xs))) + 16)%nat in
  match fexec k (put_code prev) t with
  | Some t' => open k (fm t) (FP k + put_ret prev) 2 /\ exists xs, length xs = 8%nat /\ Forall is_u32 xs /\ found (fm t) P (quads xs) /\ open k (fm t) Q (n xs) /\
      let ys := to_code prev xs in forall a, fm t' a = patched (patched (fm t) (FP k + put_ret prev) (le 2 (ctrl8_of ys))) Q (enc_data ys ++ replicate (n xs - length (enc_data ys)) 0) a
  | None => unmapped (fm t) P 32 \/ closed k (fm t) (FP k + put_ret prev) 2 \/
      exists xs, length xs = 8%nat /\ Forall is_u32 xs /\ found (fm t) P (quads xs) /\ closed k (fm t) Q (n xs)
  end.
Proof.
  intros k prev P nin cin Q nout cout S L t Hp U By F1 F2 S2 L2 Pa HS HL Ap K1 K2 n. destruct (put_meaning prev Hp) as (C & Y0 & Y1 & A & V).
  destruct (A k t P nin cin Q nout cout S L U F1 F2 S2 L2) as [N R]; [split; [exact Pa|split; [exact K1|exact K2]]|split; [exact HS|split; [exact HL|exact Ap]]|]. destruct (unmapped_dec (fm t) P 32) as [B|B].
  - pose proof (N B) as B'. destruct (fexec k (put_code prev) t); [discriminate B'|]. left. exact B.
  - apply contents_found in B as (D & Ld & F). assert (Hb : Forall is_byte D) by (apply Forall_lookup; intros i v E; apply F in E; by eapply By).
    assert (Eq : quads (lanes32 D) = D) by (rewrite quads_bytes; apply lanes32_bytes32; [exact Hb|exists 8%nat; exact Ld]).
    set (xs := lanes32 D) in *. assert (Hx : length xs = 8%nat) by (apply (FlatVec.lanes32_length D 8); exact Ld). assert (Hu : Forall is_u32 xs) by (by apply lanes32_range). rewrite <- Eq in F.
    specialize (R (quads xs) ltac:(by rewrite Eq) F). destruct (V xs Hx Hu) as [Ec Ed]. cbn zeta in R, Ec, Ed. rewrite Ec in R, Ed. set (ys := to_code prev xs) in *.
    assert (Hy : length ys = 8%nat) by (unfold ys; by rewrite to_code_length). pose proof (len1_ctrl ys Hy) as El. pose proof (len1_range (ctrl8_of ys)) as Hl.
    pose proof (fstore_patched (writable k) 2 (fm t) (FP k + put_ret prev) (ctrl8_of ys) ltac:(lia)) as T1. destruct (fstore 2 _ _ _ (ctrl8_of ys)) as [g1|].
    2:{ destruct (fexec k (put_code prev) t); [discriminate R|]. right. left. exact T1. }
    destruct T1 as [O1 T1]. set (D0 := Y0 _ _ _ _) in *. set (D1 := Y1 _ _ _ _) in *.
    assert (Ew : wrap (bits (Q + Z.of_nat (len1 (ctrl8_of ys))) 63 0 + 0) = wrap (Q + 0 + Z.of_nat (len1 (ctrl8_of ys)))).
    { rewrite !Z.add_0_r, bits_mod by lia. unfold wrap. change (2 ^ (63 + 1)) with (2 ^ 64). by rewrite Z.mod_mod by lia. }
    pose proof (two_stores (writable k) g1 (Q + 0) (bits (Q + Z.of_nat (len1 (ctrl8_of ys))) 63 0 + 0) (len1 (ctrl8_of ys)) D0 D1 ltac:(lia) Ew) as T2. rewrite <- R, Ed, (Z.add_0_r Q), El in T2. clear R Ew.
    assert (Op : forall b, open_at (writable k) g1 b <-> open_at (writable k) (fm t) b).
    { intros b. transitivity (open_at (writable k) (patched (fm t) (FP k + put_ret prev) (le 2 (ctrl8_of ys))) b); [unfold open_at; by rewrite T1|]. apply open_same. rewrite le_length. exact O1. }
    destruct (fexec k (put_code prev) t) as [t'|]; cbn [option_map] in T2.
    + destruct T2 as [O2 T2]. split; [exact O1|]. exists xs. split; [exact Hx|]. split; [exact Hu|]. split; [exact F|]. split.
      * intros i Hi. apply Op. apply O2. exact Hi.
      * cbn zeta. intros a. rewrite T2. unfold patched at 1 2. by rewrite T1.
    + right. right. exists xs. split; [exact Hx|]. split; [exact Hu|]. split; [exact F|]. destruct T2 as (j & Hj & Nj). exists j. split; [exact Hj|]. intros H. apply Nj. by apply Op.
Qed.

(** ** Examples *)
(** Decoding in place: the output begins three bytes after the input; both routines give the numbers.  Encoding in place. *)
Definition get_over (P Q : Z) (rest : list (Z * list Z)) (prev : option Z) : list (Z * list Z) :=
  [(4096, le 8 P ++ le 8 0 ++ le 8 0 ++ le 8 Q ++ le 8 0 ++ le 8 0 ++ le 2 53476 ++ [0; 0] ++ get_slots prev ++ le 8 12288 ++ le 8 20480); (12288, SD); (20480, LT)] ++ rest.
Definition in_place : list (Z * list Z) := [(24577, the_stream ++ replicate 9 170)].
Example C64_get8_case : forall prev, prev = None \/ prev = Some 5 -> let t := start (memory (get_over 24577 24580 in_place prev)) in let k := the_machine [(24580, 32)] in
  is_u16 53476 /\ prev_ok prev /\ Forall is_u64 [24577; 24580; 12288; 20480] /\ (forall a v, fm t a = Some v -> is_byte v) /\ 0 <= FP k /\ FP k + 72 <= 2 ^ 64 /\ 12288 + 4096 <= 2 ^ 64 /\ 20480 + 256 <= 2 ^ 64 /\
  passed (fm t) (FP k) (get_args prev 53476 24577 0 0 24580 0 0 12288 20480) /\ stored (fm t) 12288 (concat DecodeShuffleTable) /\ stored (fm t) 20480 PerControlLenTable.
Proof.
  intros prev Hp t k.
  assert (Sep : separate (get_over 24577 24580 in_place prev) 0 = true) by (destruct Hp as [-> | ->]; vm_compute; reflexivity).
  assert (St : forall s l, In (s, l) (get_over 24577 24580 in_place prev) -> stored (fm t) s l) by (intros s l; apply (memory_stored _ 0 s l Sep)).
  split; [unfold is_u16; lia|]. split; [destruct Hp as [-> | ->]; cbn; unfold is_u32; lia|]. split; [repeat (apply List.Forall_cons; [unfold is_u64; lia|]); apply List.Forall_nil|].
  split.
  { apply memory_bytes. assert (B : forallb (fun r => forallb (fun b => (0 <=? b) && (b <? 256)) (snd r)) (get_over 24577 24580 in_place prev) = true) by (destruct Hp as [-> | ->]; vm_compute; reflexivity).
    apply List.Forall_forall. intros r I. rewrite forallb_forall in B. apply bytes_dec. by apply B. }
  change (FP k) with 4096. split; [lia|]. split; [lia|]. split; [lia|]. split; [lia|]. split; [|split; [apply St; right; by left|apply St; do 2 right; by left]].
  pose proof (St 4096 _ ltac:(by left)) as H.
  apply stored_app in H as [A0 H]. apply stored_app in H as [A1 H]. apply stored_app in H as [A2 H]. apply stored_app in H as [A3 H]. apply stored_app in H as [A4 H]. apply stored_app in H as [A5 H]. apply stored_app in H as [A6 H].
  apply stored_app in H as [_ H]. apply stored_app in H as [A7 H]. apply stored_app in H as [A8 A9]. rewrite ?le_length, ?get_slots_length in *. cbn [length] in *.
  unfold passed, get_args. destruct prev as [d|]; cbn [app get_slots] in *; repeat match goal with |- Forall _ [] => apply List.Forall_nil | |- Forall _ _ => apply List.Forall_cons end; assumption.
Qed.
Example C64_get8_runs :
  result_of (fexec (the_machine [(24580, 32)]) Get8uint32FastAsm_code (start (memory (get_over 24577 24580 in_place None)))) [(24577, 35%nat)] = Some [Some ([1; 44; 1] ++ quads the_numbers)] /\
  result_of (fexec (the_machine [(24580, 32)]) Get8uint32DeltaFastAsm_code (start (memory (get_over 24577 24580 in_place (Some 5))))) [(24577, 35%nat)] =
    Some [Some ([1; 44; 1] ++ quads [6; 306; 70306; 20070306; 20070306; 20070561; 20070817; 20070816])].
Proof. vm_compute. split; reflexivity. Qed.
(** The output across the end of the address space; the output over the shuffle table; the last byte looked at not mapped; the last byte of the output not writable. *)
Example C64_get8_edges :
  result_of (fexec (the_machine [(2 ^ 64 - 5, 5); (0, 27)]) Get8uint32FastAsm_code (start (memory (get_over 24577 (2 ^ 64 - 5) [(24577, the_stream); (0, replicate 27 170); (2 ^ 64 - 5, replicate 5 170)] None)))) [(2 ^ 64 - 5, 32%nat)] = Some [Some (quads the_numbers)] /\
  result_of (fexec (the_machine [(12288, 4096)]) Get8uint32FastAsm_code (start (memory (get_over 24577 12300 [(24577, the_stream)] None)))) [(12300, 32%nat)] = Some [Some (quads the_numbers)] /\
  fexec (the_machine [(28672, 32)]) Get8uint32FastAsm_code (start (memory (get_over 24577 28672 [(24577, firstn 25 the_stream); (28672, replicate 32 170)] None))) = None /\
  fexec (the_machine [(28672, 31)]) Get8uint32FastAsm_code (start (memory (get_over 24577 28672 [(24577, the_stream); (28672, replicate 32 170)] None))) = None.
Proof. vm_compute. repeat split; reflexivity. Qed.
Definition put_over (Q : Z) (prev : option Z) : list (Z * list Z) :=
  [(4096, le 8 24577 ++ le 8 0 ++ le 8 0 ++ le 8 Q ++ le 8 0 ++ le 8 0 ++ slots prev ++ le 8 12288 ++ le 8 20480); (4096 + put_ret prev, [170; 170]); (8192, [1; 1]); (8194, [0; 127]); (12288, ST); (20480, LT); (24577, quads the_numbers)].
Example C64_put8_case : forall prev, prev = None \/ prev = Some 1 -> let t := start (memory (put_over 24577 prev)) in let k := the_machine [(24577, 32); (4096 + put_ret prev, 2)] in
  prev_ok prev /\ Forall is_u64 [24577; 24577; 12288; 20480] /\ (forall a v, fm t a = Some v -> is_byte v) /\ 0 <= FP k /\ FP k + put_ret prev + 2 <= 2 ^ 64 /\ 12288 + 4096 <= 2 ^ 64 /\ 20480 + 256 <= 2 ^ 64 /\
  passed (fm t) (FP k) (put_args prev 24577 0 0 24577 0 0 12288 20480) /\ stored (fm t) 12288 (concat EncodeShuffleTable) /\ stored (fm t) 20480 PerControlLenTable /\
  (forall b, inside (FP k + put_ret prev, 2) b -> ~ inside (12288, 4096) b /\ ~ inside (20480, 256) b) /\ found (fm t) (constant k 257) [1; 1] /\ found (fm t) (constant k 32512) [0; 127].
Proof.
  intros prev Hp t k. pose proof (put_ret_range prev) as Er.
  assert (Sep : separate (put_over 24577 prev) 0 = true) by (destruct Hp as [-> | ->]; vm_compute; reflexivity).
  assert (St : forall s l, In (s, l) (put_over 24577 prev) -> stored (fm t) s l) by (intros s l; apply (memory_stored _ 0 s l Sep)).
  split; [destruct Hp as [-> | ->]; cbn; unfold is_u32; lia|]. split; [repeat (apply List.Forall_cons; [unfold is_u64; lia|]); apply List.Forall_nil|].
  split.
  { apply memory_bytes. assert (B : forallb (fun r => forallb (fun b => (0 <=? b) && (b <? 256)) (snd r)) (put_over 24577 prev) = true) by (destruct Hp as [-> | ->]; vm_compute; reflexivity).
    apply List.Forall_forall. intros r I. rewrite forallb_forall in B. apply bytes_dec. by apply B. }
  change (FP k) with 4096. change (constant k 257) with 8192. change (constant k 32512) with 8194. split; [lia|]. split; [lia|]. split; [lia|]. split; [lia|].
  split; [|split; [apply St; do 4 right; by left|split; [apply St; do 5 right; by left|split; [unfold inside; cbn [fst snd]; lia|split; (apply stored_found; [lia|cbn [length]; lia|]); apply St; [do 2 right; by left|do 3 right; by left]]]]].
  pose proof (St 4096 _ ltac:(by left)) as H.
  apply stored_app in H as [A0 H]. apply stored_app in H as [A1 H]. apply stored_app in H as [A2 H]. apply stored_app in H as [A3 H]. apply stored_app in H as [A4 H]. apply stored_app in H as [A5 H].
  apply stored_app in H as [A7 H]. apply stored_app in H as [A8 A9]. rewrite ?le_length, ?slots_length in *. unfold passed, put_args. destruct prev as [d|]; cbn [app slots put_ret] in *.
  - apply stored_app in A7 as [A7 _]. repeat match goal with |- Forall _ [] => apply List.Forall_nil | |- Forall _ _ => apply List.Forall_cons end; assumption.
  - repeat match goal with |- Forall _ [] => apply List.Forall_nil | |- Forall _ _ => apply List.Forall_cons end; assumption.
Qed.
Example C64_put8_runs :
  result_of (fexec (the_machine [(24577, 32); (4160, 2)]) Put8uint32FastAsm_code (start (memory (put_over 24577 None)))) [(24577, 26%nat); (4160, 2%nat)] =
    Some [Some ([1; 44; 1; 112; 17; 1; 0; 45; 49; 1; 0; 255; 0; 1; 255; 255; 255; 255] ++ replicate 8 0); Some [228; 208]] /\
  fexec (the_machine [(24577, 25); (4160, 2)]) Put8uint32FastAsm_code (start (memory (put_over 24577 None))) = None /\
  fexec (the_machine [(24577, 26); (4160, 1)]) Put8uint32FastAsm_code (start (memory (put_over 24577 None))) = None.
Proof. vm_compute. repeat split; reflexivity. Qed.
