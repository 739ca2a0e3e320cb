(** * How a stream follows changes of the numbers: C61 *)
From stdpp Require Import prelude gmap list sorting.
From Coq Require Import ZArith Lia.
From Verif Require Import Spec SpecLemmas GoSem Shared Tables Asm Wp Writer WriterProof Api ApiLemmas Witness C_Writer C_Reader C_Prims C_Group8 C_Compose.
Local Open Scope Z_scope.

(** Two calls of writers, each with its own writer, memory and input *)
Record call := Call { c_writer : writer; c_block : nat; c_in : slice; c_prev : option Z; c_mem : mem }.
Definition ready (c : call) : Prop := typed (c_mem c) /\ validW (c_mem c) (c_in c) /\ mb (c_mem c) !! c_block c = None /\ prev_ok (c_prev c).
Definition numbers (c : call) : list Z := words (c_mem c) (c_in c).
(** The call returns the stream [S]. *)
Definition writes (c : call) (S : list Z) : Prop :=
  exists st m', returns (write_prev (c_writer c) (c_block c) (c_in c) (c_prev c)) (c_mem c) st m' /\ bytes m' st = S /\ s_len st = Z.of_nat (length S).
Lemma writes_iff c S : ready c -> (writes c S <-> S = stream_of (to_code (c_prev c) (numbers c))).
Proof.
  intros (Ht & Hi & Hf & Hp). unfold writes, numbers.
  assert (E : exists st m', returns (write_prev (c_writer c) (c_block c) (c_in c) (c_prev c)) (c_mem c) st m' /\
     bytes m' st = stream_of (to_code (c_prev c) (words (c_mem c) (c_in c))) /\ s_len st = Z.of_nat (length (bytes m' st))).
  { destruct (c_prev c) as [p|]; cbn [write_prev to_code].
    - do 2 eexists. split; [by apply write_delta_run|]. rewrite wmem_bytes. done.
    - do 2 eexists. split; [by apply write_run|]. rewrite wmem_bytes. done. }
  destruct E as (st & m' & R & E & L). split.
  - intros (st2 & m2 & R2 & <- & _). unfold returns in *. destruct R as [R R'], R2 as [R2 R2'].
    assert (st2 = st) as -> by congruence. assert (m2 = m') as -> by congruence. done.
  - intros ->. exists st, m'. rewrite <- E. done.
Qed.

(** ** The format *)
Lemma enc_ctrls_insert : forall xs i v x, xs !! i = Some x ->
  exists c, enc_ctrls xs !! (i / 4)%nat = Some c /\
    enc_ctrls (<[i := v]> xs) = <[(i / 4)%nat := c + 4 ^ Z.of_nat (i mod 4) * (Z.of_nat (nbytes v) - Z.of_nat (nbytes x))]> (enc_ctrls xs).
Proof.
  induction xs as [|a|a b|a b d|a b d e r IH] using list_ind4; intros i v x H; [done|..].
  4: { destruct (decide (i < 4)%nat) as [Hi|Hi].
    - destruct i as [|[|[|[|]]]]; [..|lia]; cbn in H; injection H as <-; eexists; (split; [reflexivity|]); unfold enc_ctrls; cbn [groups4 map insert list_insert Nat.div Nat.modulo Nat.divmod fst snd Nat.sub];
      f_equal; cbn [ctrl_of]; lia.
    - destruct i as [|[|[|[|j]]]]; try lia. cbn in H. destruct (IH j v x H) as (c & C & E). exists c.
      replace (S (S (S (S j))) / 4)%nat with (S (j / 4)) by (change (S (S (S (S j)))) with (1 * 4 + j)%nat; rewrite Nat.div_add_l; lia).
      replace (S (S (S (S j))) mod 4)%nat with (j mod 4)%nat by (change (S (S (S (S j)))) with (1 * 4 + j)%nat; rewrite Nat.add_comm, Nat.mod_add; lia).
      split; [exact C|]. unfold enc_ctrls in *. cbn [insert list_insert groups4 map]. f_equal. exact E. }
  all: destruct i as [|[|[|]]]; cbn in H; try discriminate H; injection H as <-; eexists; (split; [reflexivity|]); unfold enc_ctrls; cbn [groups4 map insert list_insert Nat.div Nat.modulo Nat.divmod fst snd Nat.sub];
    f_equal; cbn [ctrl_of]; lia.
Qed.
Lemma enc_data_insert xs i v x : xs !! i = Some x ->
  enc_data xs = enc_data (take i xs) ++ enc1 x ++ enc_data (drop (S i) xs) /\ enc_data (<[i := v]> xs) = enc_data (take i xs) ++ enc1 v ++ enc_data (drop (S i) xs).
Proof.
  intros H. split.
  - rewrite <- (take_drop_middle xs i x H) at 1. by rewrite enc_data_app.
  - rewrite (insert_take_drop xs i v) by (by apply lookup_lt_is_Some; eexists). by rewrite enc_data_app.
Qed.
Lemma parts xs : take (nctrl (length xs)) (stream_of xs) = enc_ctrls xs /\ drop (nctrl (length xs)) (stream_of xs) = enc_data xs.
Proof. unfold stream_of. rewrite <- enc_ctrls_length. by rewrite take_app, drop_app. Qed.
Lemma to_code_len prev xs : length (to_code prev xs) = length xs.
Proof. destruct prev; cbn; [apply deltas_length|done]. Qed.
Lemma take_deltas p n xs : take n (deltas p xs) = deltas p (take n xs).
Proof. exact (take_to_code (Some p) n xs). Qed.
Lemma deltas_insert : forall xs p i v x, xs !! i = Some x ->
  exists d, deltas p (<[i := v]> xs) = <[i := d]> (match deltas p xs !! S i with Some _ => <[S i := (default 0 (xs !! S i) - v) mod 2 ^ 32]> (deltas p xs) | None => deltas p xs end).
Proof.
  induction xs as [|a xs IH]; intros p i v x H; [done|]. destruct i as [|i].
  - eexists ((v - p) mod 2 ^ 32). cbn [insert list_insert deltas]. destruct xs as [|b xs]; [done|]. cbn. done.
  - cbn in H. destruct (IH a i v x H) as (d & E). exists d.
    change (deltas p (<[S i := v]> (a :: xs))) with ((a - p) mod 2 ^ 32 :: deltas a (<[i := v]> xs)). rewrite E.
    change (deltas p (a :: xs) !! S (S i)) with (deltas a xs !! S i). destruct (deltas a xs !! S i); done.
Qed.

(** ** C61 *)
(** The two streams, cut into control bytes and data bytes *)
Definition ctrls (c : call) (S : list Z) : list Z := take (nctrl (length (numbers c))) S.
Definition data (c : call) (S : list Z) : list Z := drop (nctrl (length (numbers c))) S.
Lemma cut_written c S : ready c -> writes c S ->
  ctrls c S = enc_ctrls (to_code (c_prev c) (numbers c)) /\ data c S = enc_data (to_code (c_prev c) (numbers c)).
Proof. intros R W. apply (writes_iff c S R) in W as ->. unfold ctrls, data. rewrite <- (to_code_len (c_prev c) (numbers c)). apply parts. Qed.
Lemma written_len c S : ready c -> writes c S -> length S = (nctrl (length (numbers c)) + sum_nat (map nbytes (to_code (c_prev c) (numbers c))))%nat.
Proof. intros R W. apply (writes_iff c S R) in W as ->. by rewrite stream_of_length, to_code_len. Qed.

(** Replacing number i: in the control bytes only the two bits of number i change, in the data
    bytes only its bytes. *)
Theorem C61_replace : forall c c' S S' i x v, ready c -> ready c' -> c_prev c = None -> c_prev c' = None ->
  writes c S -> writes c' S' -> numbers c !! i = Some x -> numbers c' = <[i := v]> (numbers c) ->
  (exists b, ctrls c S !! (i / 4)%nat = Some b /\
     ctrls c' S' = <[(i / 4)%nat := b + 4 ^ Z.of_nat (i mod 4) * (Z.of_nat (nbytes v) - Z.of_nat (nbytes x))]> (ctrls c S)) /\
  (exists D1 D2, data c S = D1 ++ le (nbytes x) x ++ D2 /\ data c' S' = D1 ++ le (nbytes v) v ++ D2 /\ length D1 = sum_nat (map nbytes (take i (numbers c)))) /\
  Z.of_nat (length S') - Z.of_nat (length S) = Z.of_nat (nbytes v) - Z.of_nat (nbytes x).
Proof.
  intros c c' S S' i x v R R' P P' W W' H E.
  pose proof (written_len c S R W) as L. pose proof (written_len c' S' R' W') as L'.
  destruct (cut_written c S R W) as [C D], (cut_written c' S' R' W') as [C' D']. rewrite P in *. rewrite P' in *. cbn [to_code] in *. rewrite E in *.
  split; [|split].
  - rewrite C, C'. by apply enc_ctrls_insert.
  - destruct (enc_data_insert (numbers c) i v x H) as [E1 E2]. exists (enc_data (take i (numbers c))), (enc_data (drop (1 + i) (numbers c))).
    rewrite D, D'. split; [exact E1|]. split; [exact E2|]. apply enc_data_length.
  - destruct (enc_data_insert (numbers c) i v x H) as [E1 E2]. apply (f_equal length) in E1, E2.
    rewrite !app_length, !enc1_length, !enc_data_length in E1, E2. rewrite insert_length in L'. lia.
Qed.
(** In a delta stream two numbers change: the control bytes of the other groups and the data
    bytes before and after these two stay, the size changes by at most 6. *)
Theorem C61_replace_delta : forall c c' S S' i x v p, ready c -> ready c' -> c_prev c = Some p -> c_prev c' = Some p ->
  writes c S -> writes c' S' -> numbers c !! i = Some x -> numbers c' = <[i := v]> (numbers c) ->
  (forall g, g <> (i / 4)%nat -> g <> ((i + 1) / 4)%nat -> ctrls c' S' !! g = ctrls c S !! g) /\
  (exists D1 D2 E E', data c S = D1 ++ E ++ D2 /\ data c' S' = D1 ++ E' ++ D2 /\ (length E <= 8)%nat /\ (length E' <= 8)%nat /\
     length D1 = sum_nat (map nbytes (deltas p (take i (numbers c))))) /\
  Z.abs (Z.of_nat (length S') - Z.of_nat (length S)) <= 6.
Proof.
  intros c c' S S' i x v p R R' P P' W W' H E.
  pose proof (written_len c S R W) as L. pose proof (written_len c' S' R' W') as L'.
  destruct (cut_written c S R W) as [C D], (cut_written c' S' R' W') as [C' D']. rewrite P in *. rewrite P' in *. cbn [to_code] in *. rewrite E in *.
  set (xs := numbers c) in *. set (ds := deltas p xs) in *. set (ds' := deltas p (<[i := v]> xs)) in *.
  assert (Hi : (i < length xs)%nat) by (by apply lookup_lt_is_Some; eexists).
  assert (Ld : length ds = length xs) by apply deltas_length. assert (Ld' : length ds' = length xs) by (unfold ds'; rewrite deltas_length; apply insert_length).
  assert (T1 : take i ds' = take i ds).
  { unfold ds, ds'. rewrite !take_deltas. by rewrite take_insert by lia. }
  assert (T2 : drop (Datatypes.S (Datatypes.S i)) ds' = drop (Datatypes.S (Datatypes.S i)) ds).
  { destruct (deltas_insert xs p i v x H) as (d & X). unfold ds'. rewrite X. fold ds. destruct (ds !! Datatypes.S i).
    - by rewrite !drop_insert_gt by lia.
    - by rewrite drop_insert_gt by lia. }
  split; [|split].
  - rewrite C, C'. intros g G1 G2. destruct (deltas_insert xs p i v x H) as (d & X). unfold ds'. rewrite X. fold ds. destruct (ds !! Datatypes.S i) as [y|] eqn:Y.
    + assert (Y' : <[Datatypes.S i := (default 0 (xs !! Datatypes.S i) - v) mod 2 ^ 32]> ds !! i = ds !! i) by (apply list_lookup_insert_ne; lia).
      destruct (lookup_lt_is_Some_2 ds i ltac:(lia)) as [z Z]. rewrite Z in Y'.
      destruct (enc_ctrls_insert _ i d z Y') as (b & _ & ->). destruct (enc_ctrls_insert ds (Datatypes.S i) ((default 0 (xs !! Datatypes.S i) - v) mod 2 ^ 32) y Y) as (b' & _ & ->).
      rewrite list_lookup_insert_ne by done. apply list_lookup_insert_ne. replace (Datatypes.S i) with (i + 1)%nat by lia. done.
    + destruct (lookup_lt_is_Some_2 ds i ltac:(lia)) as [z Z]. destruct (enc_ctrls_insert ds i d z Z) as (b & _ & ->). by apply list_lookup_insert_ne.
  - assert (Q : forall l : list Z, l = take i l ++ take 2 (drop i l) ++ drop (Datatypes.S (Datatypes.S i)) l).
    { intros l. rewrite <- (take_drop i l) at 1. f_equal. rewrite <- (take_drop 2 (drop i l)) at 1. f_equal. rewrite drop_drop. f_equal. lia. }
    exists (enc_data (take i ds)), (enc_data (drop (Datatypes.S (Datatypes.S i)) ds)), (enc_data (take 2 (drop i ds))), (enc_data (take 2 (drop i ds'))).
    assert (B : forall l, (length (enc_data (take 2 l)) <= 8)%nat).
    { intros l. rewrite enc_data_length. assert (X : (length (take 2 l) <= 2)%nat) by (rewrite take_length; lia).
      destruct (take 2 l) as [|a [|b [|]]]; cbn in X |- *; [lia|pose proof (nbytes_range a); lia|pose proof (nbytes_range a); pose proof (nbytes_range b); lia|lia]. }
    split; [rewrite D, (Q ds) at 1; by rewrite !enc_data_app|]. split; [rewrite D', (Q ds') at 1; rewrite T1, T2; by rewrite !enc_data_app|].
    split; [apply B|]. split; [apply B|]. rewrite enc_data_length. unfold ds. by rewrite take_deltas.
  - assert (Q : forall l, sum_nat (map nbytes l) = (sum_nat (map nbytes (take i l)) + sum_nat (map nbytes (take 2 (drop i l))) + sum_nat (map nbytes (drop (Datatypes.S (Datatypes.S i)) l)))%nat).
    { intros l. rewrite <- (take_drop i l) at 1. rewrite map_app, sum_nat_app. rewrite <- (take_drop 2 (drop i l)) at 1. rewrite map_app, sum_nat_app, drop_drop.
      replace (i + 2)%nat with (Datatypes.S (Datatypes.S i)) by lia. lia. }
    rewrite (Q ds) in L. rewrite (Q ds'), T1, T2 in L'. rewrite insert_length in L'.
    assert (B : forall a b : list Z, length a = length b -> (length a <= 2)%nat -> Z.abs (Z.of_nat (sum_nat (map nbytes a)) - Z.of_nat (sum_nat (map nbytes b))) <= 6).
    { intros [|a [|b [|]]] [|a' [|b' [|]]] La Lb; cbn in La, Lb; try lia; cbn [map sum_nat fold_right];
      try pose proof (nbytes_range a); try pose proof (nbytes_range b); try pose proof (nbytes_range a'); try pose proof (nbytes_range b'); lia. }
    specialize (B (take 2 (drop i ds')) (take 2 (drop i ds))). rewrite !take_length, !drop_length in B. lia.
Qed.
(** Another starting value: only the first number of the stream changes. *)
Theorem C61_start : forall c c' S S' p p', ready c -> ready c' -> c_prev c = Some p -> c_prev c' = Some p' ->
  writes c S -> writes c' S' -> numbers c' = numbers c ->
  (forall g, g <> 0%nat -> ctrls c' S' !! g = ctrls c S !! g) /\
  (exists D E E', data c S = E ++ D /\ data c' S' = E' ++ D /\ (length E <= 4)%nat /\ (length E' <= 4)%nat) /\
  Z.abs (Z.of_nat (length S') - Z.of_nat (length S)) <= 3.
Proof.
  intros c c' S S' p p' R R' P P' W W' E.
  pose proof (written_len c S R W) as L. pose proof (written_len c' S' R' W') as L'.
  destruct (cut_written c S R W) as [C D], (cut_written c' S' R' W') as [C' D']. rewrite P in *. rewrite P' in *. cbn [to_code] in *. rewrite E in *.
  rewrite C, C', D, D'. destruct (numbers c) as [|x xs].
  - split; [done|]. split; [exists [], [], []; cbn; repeat split; lia|]. cbn in *. lia.
  - cbn [deltas] in *. set (d := (x - p) mod 2 ^ 32) in *. set (d' := (x - p') mod 2 ^ 32) in *.
    split; [|split].
    + intros g G. assert (X : d' :: deltas x xs = <[0%nat := d']> (d :: deltas x xs)) by done. rewrite X.
      destruct (enc_ctrls_insert (d :: deltas x xs) 0 d' d eq_refl) as (b & _ & ->). by apply list_lookup_insert_ne.
    + exists (enc_data (deltas x xs)), (enc1 d), (enc1 d'). rewrite !enc1_length. pose proof (nbytes_range d). pose proof (nbytes_range d'). repeat split; lia.
    + cbn [map sum_nat fold_right] in L, L'. pose proof (nbytes_range d). pose proof (nbytes_range d'). lia.
Qed.
(** One more number at the end: the data bytes are continued, the control bytes of the full
    groups stay, and there is one more control byte exactly if 4 divides the length. *)
Theorem C61_append : forall c c' S S' v, ready c -> ready c' -> c_prev c' = c_prev c ->
  writes c S -> writes c' S' -> numbers c' = numbers c ++ [v] ->
  let n := length (numbers c) in
  let d := match c_prev c with None => v | Some p => (v - default p (last (numbers c))) mod 2 ^ 32 end in
  data c' S' = data c S ++ le (nbytes d) d /\
    take (n / 4) (ctrls c' S') = take (n / 4) (ctrls c S) /\
    length S' = (length S + nbytes d + (if n mod 4 =? 0 then 1 else 0))%nat /\ (length S + 1 <= length S' <= length S + 5)%nat.
Proof.
  intros c c' S S' v R R' P W W' E n d.
  pose proof (written_len c S R W) as L. pose proof (written_len c' S' R' W') as L'.
  destruct (cut_written c S R W) as [C D], (cut_written c' S' R' W') as [C' D']. rewrite P in *.
  assert (X : to_code (c_prev c) (numbers c') = to_code (c_prev c) (numbers c) ++ [d]).
  { rewrite E, to_code_app. unfold d. by destruct (c_prev c). }
  rewrite X in *. set (ys := to_code (c_prev c) (numbers c)) in *.
  assert (Ly : length ys = n) by apply to_code_len. rewrite E, app_length in L'. cbn [length] in L'. fold n in L, L'.
  rewrite map_app, sum_nat_app in L'. cbn [map sum_nat fold_right] in L'. unfold nctrl in *.
  split; [rewrite D, D', enc_data_app; cbn; by rewrite app_nil_r|]. split.
  - rewrite C, C'.
    assert (A : forall z, enc_ctrls (ys ++ z) = enc_ctrls (take (4 * (n / 4)) ys) ++ enc_ctrls (drop (4 * (n / 4)) ys ++ z)).
    { intros z. rewrite <- enc_ctrls_app; [by rewrite app_assoc, take_drop|]. rewrite take_length, Ly.
      rewrite Nat.min_l by (pose proof (Nat.div_mod n 4 ltac:(lia)); lia). rewrite Nat.mul_comm. apply Nat.mod_mul. lia. }
    rewrite <- (app_nil_r ys) at 2. rewrite !A.
    assert (Lc : length (enc_ctrls (take (4 * (n / 4)) ys)) = (n / 4)%nat).
    { rewrite enc_ctrls_length, take_length, Ly. unfold nctrl. pose proof (Nat.div_mod n 4 ltac:(lia)). rewrite Nat.min_l by lia.
      rewrite Nat.mul_comm, Nat.add_comm, Nat.div_add by lia. done. }
    rewrite !take_app_alt by done. done.
  - pose proof (nbytes_range d). assert (Q : ((n + 1 + 3) / 4 = (n + 3) / 4 + if n mod 4 =? 0 then 1 else 0)%nat).
    { destruct (Nat.eqb_spec (n mod 4) 0) as [Z|Z]; pose proof (Nat.div_mod n 4 ltac:(lia)); pose proof (Nat.mod_upper_bound n 4 ltac:(lia));
      pose proof (Nat.div_mod (n + 3) 4 ltac:(lia)); pose proof (Nat.mod_upper_bound (n + 3) 4 ltac:(lia)); pose proof (Nat.div_mod (n + 1 + 3) 4 ltac:(lia)); pose proof (Nat.mod_upper_bound (n + 1 + 3) 4 ltac:(lia)); lia. }
    destruct (n mod 4 =? 0)%nat; lia.
Qed.
(** The size of a stream does not depend on the order of its numbers, and larger numbers
    never make it shorter. *)
Theorem C61_order : forall c c' S S', ready c -> ready c' -> c_prev c = None -> c_prev c' = None -> writes c S -> writes c' S' ->
  Permutation (numbers c) (numbers c') -> length S = length S'.
Proof.
  intros c c' S S' R R' P P' W W' H. rewrite (written_len c S R W), (written_len c' S' R' W'), P, P'. cbn [to_code].
  rewrite (Permutation_length H). f_equal. clear - H. revert H. generalize (numbers c) (numbers c'). intros a b H. unfold sum_nat. induction H; cbn [map fold_right]; lia.
Qed.
Lemma nbytes_mono x y : x <= y -> (nbytes x <= nbytes y)%nat.
Proof. intros H. unfold nbytes. repeat match goal with |- context [?a <? ?b] => destruct (Z.ltb_spec a b) end; lia. Qed.
Theorem C61_monotone : forall c c' S S', ready c -> ready c' -> c_prev c = None -> c_prev c' = None -> writes c S -> writes c' S' ->
  Forall2 Z.le (numbers c) (numbers c') -> (length S <= length S')%nat.
Proof.
  intros c c' S S' R R' P P' W W' H. rewrite (written_len c S R W), (written_len c' S' R' W'), P, P'. cbn [to_code].
  rewrite (Forall2_length _ _ _ H). apply Nat.add_le_mono_l. clear - H. revert H. generalize (numbers c) (numbers c'). intros a b H.
  unfold sum_nat. induction H as [|x y xs ys Hx Hxs IH]; cbn [map fold_right]; [lia|]. pose proof (nbytes_mono x y Hx). lia.
Qed.
(** Every call that meets the conditions writes a stream, and only one. *)
Theorem C61_writes : forall c, ready c -> exists S, writes c S /\ forall S', writes c S' -> S' = S.
Proof. intros c R. exists (stream_of (to_code (c_prev c) (numbers c))). split; [by apply writes_iff|]. intros S' W. by apply writes_iff in W. Qed.

(** ** Concrete cases *)
(** The numbers of Witness.v, and the same with another number 5 *)
Definition ex_call (l : list Z) (p : option Z) (w : writer) : call :=
  Call w 9 ex_in p (Mem (mb ex_mem) (<[ 0%nat := [99; 98] ++ l ++ [97; 96] ]> {[ 1%nat := replicate 60 7 ]})).
Lemma ex_ready l p w : length l = 37%nat -> Forall is_u32 l -> prev_ok p -> ready (ex_call l p w) /\ numbers (ex_call l p w) = l.
Proof.
  intros L F P. split.
  - split; [|split; [|split; [done|exact P]]].
    + split; [exact (typed_b _ ex_typed)|]. cbn. intros b k. rewrite lookup_insert_Some, lookup_singleton_Some. intros [[<- <-]|[? [<- <-]]].
      * repeat (apply List.Forall_cons; [unfold is_u32; lia|]). apply Forall_app. split; [exact F|]. repeat (apply List.Forall_cons; [unfold is_u32; lia|]). apply List.Forall_nil.
      * repeat (apply List.Forall_cons; [unfold is_u32; lia|]). apply List.Forall_nil.
    + split; [|vm_compute; discriminate]. unfold fits, ex_in, ex_call. cbn [c_in c_mem mw s_blk s_off s_len s_cap]. rewrite lookup_insert. cbn. rewrite app_length, L. cbn. lia.
  - unfold numbers, words, contents, ex_in, ex_call. cbn [c_in c_mem mw s_blk s_off s_len s_cap]. rewrite lookup_insert. cbn [default from_option id].
    change (Z.to_nat (s_off ex_in)) with 2%nat. cbn [app drop]. replace (Z.to_nat (s_len ex_in)) with (length l) by (rewrite L; reflexivity). apply take_app.
Qed.
Definition ex_other : list Z := <[5%nat := 70000]> ex_nums.
Lemma ex_u32 : Forall is_u32 ex_nums /\ Forall is_u32 ex_other.
Proof. split; repeat (apply List.Forall_cons; [unfold is_u32; lia|]); apply List.Forall_nil. Qed.
Example C61_case : let c := ex_call ex_nums None WScalar in let c' := ex_call ex_other None WFast in
  ready c /\ ready c' /\ numbers c !! 5%nat = Some 255 /\ numbers c' = <[5%nat := 70000]> (numbers c) /\
  exists S S', writes c S /\ writes c' S' /\ length S = 83%nat /\ length S' = 85%nat /\
    firstn 2 S = [228; 80] /\ firstn 2 S' = [228; 88].
Proof.
  destruct ex_u32 as [U U']. destruct (ex_ready ex_nums None WScalar eq_refl U I) as [R N], (ex_ready ex_other None WFast eq_refl U' I) as [R' N'].
  cbv zeta. split; [exact R|]. split; [exact R'|]. rewrite N, N'. split; [done|]. split; [done|].
  exists (stream_of ex_nums), (stream_of ex_other). split; [apply writes_iff; [exact R|by rewrite N]|]. split; [apply writes_iff; [exact R'|by rewrite N']|]. vm_compute. done.
Qed.
Example C61_delta_case : let c := ex_call ex_nums (Some 100) (WDispatch OtherArch) in let c' := ex_call ex_other (Some 100) WFast in
  ready c /\ ready c' /\ numbers c' = <[5%nat := 70000]> (numbers c).
Proof.
  destruct ex_u32 as [U U']. assert (P : prev_ok (Some 100)) by (cbn; unfold is_u32; lia).
  destruct (ex_ready ex_nums (Some 100) (WDispatch OtherArch) eq_refl U P) as [R N], (ex_ready ex_other (Some 100) WFast eq_refl U' P) as [R' N'].
  cbv zeta. split; [exact R|]. split; [exact R'|]. by rewrite N, N'.
Qed.
(** The order matters for the size of a delta stream. *)
Theorem C61_order_delta_refuted : ~ forall c c' S S' p, ready c -> ready c' -> c_prev c = Some p -> c_prev c' = Some p -> writes c S -> writes c' S' ->
  Permutation (numbers c) (numbers c') -> length S = length S'.
Proof.
  intros H. assert (P : prev_ok (Some 0)) by (cbn; unfold is_u32; lia).
  set (l := replicate 37 0). set (a := <[36%nat := 1]> l). set (b := <[35%nat := 1]> l).
  assert (Fa : Forall is_u32 a) by (unfold a, l; cbn; repeat (apply List.Forall_cons; [unfold is_u32; lia|]); apply List.Forall_nil).
  assert (Fb : Forall is_u32 b) by (unfold b, l; cbn; repeat (apply List.Forall_cons; [unfold is_u32; lia|]); apply List.Forall_nil).
  destruct (ex_ready a (Some 0) WScalar eq_refl Fa P) as [R N], (ex_ready b (Some 0) WScalar eq_refl Fb P) as [R' N'].
  specialize (H _ _ (stream_of (deltas 0 a)) (stream_of (deltas 0 b)) 0 R R' eq_refl eq_refl).
  rewrite N, N' in H. assert (E : length (stream_of (deltas 0 a)) = length (stream_of (deltas 0 b))).
  { apply H; [apply writes_iff; [exact R|by rewrite N]|apply writes_iff; [exact R'|by rewrite N']|].
    unfold a, b, l. cbn. do 35 apply perm_skip. apply perm_swap. }
  vm_compute in E. discriminate E.
Qed.
(** One more number, another starting value, another order, larger numbers *)
Definition ex_short (p : option Z) : call := Call WFast 9 (Slice 0 2 36 38) p ex_mem.
Lemma ex_short_ready p : prev_ok p -> ready (ex_short p).
Proof. intros P. split; [exact ex_typed|]. split; [split; [unfold fits; vm_compute; intuition discriminate|vm_compute; discriminate]|done]. Qed.
Example C61_more_cases :
  (let c := ex_short (Some 7) in let c' := Call WScalar 9 ex_in (Some 7) ex_mem in
     ready c /\ ready c' /\ c_prev c' = c_prev c /\ numbers c' = numbers c ++ [2147483648] /\ exists S S', writes c S /\ writes c' S' /\ (length S + 5 = length S')%nat) /\
  (let c := ex_short (Some 7) in let c' := ex_short (Some 4294967295) in ready c /\ ready c' /\ numbers c' = numbers c) /\
  (let c := ex_call ex_nums None WScalar in let c' := ex_call (rev ex_nums) None WFast in ready c /\ ready c' /\ Permutation (numbers c) (numbers c') /\ numbers c <> numbers c') /\
  (let c := ex_call ex_nums None WScalar in let c' := ex_call ex_other None WFast in ready c /\ ready c' /\ Forall2 Z.le (numbers c) (numbers c')).
Proof.
  assert (P : prev_ok (Some 7)) by (cbn; unfold is_u32; lia). assert (P' : prev_ok (Some 4294967295)) by (cbn; unfold is_u32; lia).
  split; [|split; [|split]]; cbv zeta.
  - pose proof (ex_short_ready _ P) as R. assert (R' : ready (Call WScalar 9 ex_in (Some 7) ex_mem)) by (split; [exact ex_typed|]; split; [exact ex_in_valid|done]).
    split; [exact R|]. split; [exact R'|]. split; [done|]. split; [done|].
    eexists _, _. split; [apply (writes_iff _ _ R); reflexivity|]. split; [apply (writes_iff _ _ R'); reflexivity|]. vm_compute. done.
  - split; [exact (ex_short_ready _ P)|]. split; [exact (ex_short_ready _ P')|done].
  - destruct ex_u32 as [U _]. destruct (ex_ready ex_nums None WScalar eq_refl U I) as [R N].
    destruct (ex_ready (rev ex_nums) None WFast eq_refl (Forall_rev U) I) as [R' N'].
    split; [exact R|]. split; [exact R'|]. rewrite N, N'. split; [apply Permutation_rev|]. vm_compute. discriminate.
  - destruct ex_u32 as [U U']. destruct (ex_ready ex_nums None WScalar eq_refl U I) as [R N], (ex_ready ex_other None WFast eq_refl U' I) as [R' N'].
    split; [exact R|]. split; [exact R'|]. rewrite N, N'. unfold ex_nums, ex_other, ex_nums. cbn [insert list_insert]. repeat (apply List.Forall2_cons; [lia|]). apply List.Forall2_nil.
Qed.

(** ** C09, for the delta writers: the bytes between the length and the capacity are zero *)
Theorem C09_spare_capacity_is_zero_delta : forall w B inp prev m, typed m -> validW m inp -> mb m !! B = None -> is_u32 prev ->
  exists st m', returns (write_delta w B inp prev) m st m' /\
    forall i, s_len st <= i < s_cap st -> hget (mb m') B i = Some 0.
Proof.
  intros w B inp prev m Ht Hv Hf Hp. do 2 eexists. split; [by apply write_delta_run|]. cbn. intros i Hi.
  rewrite hget_blk. unfold blk. rewrite lookup_insert. cbn. unfold zlen in Hi.
  destruct (Z.leb_spec 0 i); [|lia]. rewrite lookup_app_r by lia. apply lookup_replicate. split; [done|].
  pose proof (wN_ge (deltas prev (words m inp))). lia.
Qed.
