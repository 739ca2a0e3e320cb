(** * What the memory accesses depend on: C53

    Two runs of the same function on two memories that differ in values only.  The
    sequence of the memory accesses and the outcome are the same if, for the
    encoders and the writers, the numbers (for the delta functions, the differences)
    have the same byte lengths, and, for the decoders and the readers, the control
    bytes are the same; nothing else in memory and no value passed as [prev] has an
    influence. *)
From stdpp Require Import prelude gmap list.
From Coq Require Import ZArith Lia.
From Verif Require Import Spec SpecLemmas GoSem Shared Tables Asm Encode Decode Writer Reader Wp Api ApiLemmas Witness C_Writer C_Reader C_Group8 Lockstep LockEncode LockWriter LockReader.
Local Open Scope Z_scope.

(** ** Statements *)
(** The same allocations, of the same sizes. *)
Definition same_sizes (h h' : gmap nat (list Z)) : Prop := forall b, option_map length (h !! b) = option_map length (h' !! b).
Definition same_shape (m m' : mem) : Prop := same_sizes (mb m) (mb m') /\ same_sizes (mw m) (mw m').
(** [p] on [m] and [q] on [m'] do the same accesses, in the same order, and end alike. *)
Definition indistinguishable {A} (p : prog A) (m : mem) (q : prog A) (m' : mem) : Prop :=
  trace (run p m) = trace (run q m') /\ result (run p m) = result (run q m').
(** Byte lengths. *)
Definition lens (xs : list Z) : list nat := map nbytes xs.
(** With and without [prev]. *)
Definition same_kind (prev prev' : option Z) : Prop := match prev, prev' with None, None | Some _, Some _ => True | _, _ => False end.

Lemma indist {A} VB VW (p q : prog A) m m' : sim VB VW eq p q -> paired VB VW m m' -> indistinguishable p m q m'.
Proof.
  intros H P. destruct (sim_run _ _ _ _ _ H _ _ P) as [H1 H2]. split; [done|].
  unfold same_end in H2. destruct (result _), (result _); try done. by subst.
Qed.
Lemma sizes_paired (V : nat -> Z -> Z -> Z -> Prop) h h' : same_sizes h h' ->
  (forall b l l' (i : nat) v v', h !! b = Some l -> h' !! b = Some l' -> l !! i = Some v -> l' !! i = Some v' -> V b (Z.of_nat i) v v') -> pairedH V h h'.
Proof.
  intros H HV b. specialize (H b). destruct (h !! b) as [l|] eqn:E, (h' !! b) as [l'|] eqn:E'; cbn in H; try done.
  split; [congruence|]. intros i v v' Hv Hv'. by eapply HV.
Qed.
Lemma sizes_paired_any h h' : same_sizes h h' -> pairedH anyV h h'.
Proof. intros H. apply sizes_paired; [done|]. done. Qed.

(** The two values at a place. *)
Definition both (m m' : mem) (b : nat) (i v v' : Z) : Prop := hget (mw m) b i = Some v /\ hget (mw m') b i = Some v'.
Lemma paired_both m m' : same_shape m m' -> paired anyV (both m m') m m'.
Proof.
  intros [H1 H2]. split; [by apply sizes_paired_any|]. apply sizes_paired; [done|]. intros b l l' i v v' E E' Hv Hv'.
  unfold both, hget. rewrite E, E', Nat2Z.id. rewrite (proj2 (Z.leb_le 0 (Z.of_nat i))) by lia. done.
Qed.
Lemma hget_words m s k v : fits (mw m) s -> 0 <= k < s_len s -> hget (mw m) (s_blk s) (s_off s + k) = Some v -> words m s !! Z.to_nat k = Some v.
Proof.
  intros (H1 & H2 & H3) Hk. unfold hget, words, contents. rewrite (proj2 (Z.leb_le 0 (s_off s + k))) by lia.
  destruct (mw m !! s_blk s) as [l|]; [|done]. cbn. intros E. rewrite lookup_take by lia. rewrite lookup_drop. rewrite <- E. f_equal. lia.
Qed.
Lemma words_u32 m s : typed m -> Forall is_u32 (words m s).
Proof.
  intros Ht. unfold words, contents. apply Forall_take, Forall_drop. destruct (mw m !! s_blk s) as [l|] eqn:E; [|by constructor].
  by eapply typed_w.
Qed.

Section words.
Context (m m' : mem) (inp : slice) (Ht : typed m) (Ht' : typed m') (Hv : fits (mw m) inp) (Hv' : fits (mw m') inp).
Lemma both_words k v v' : 0 <= k < s_len inp -> both m m' (s_blk inp) (s_off inp + k) v v' ->
  words m inp !! Z.to_nat k = Some v /\ words m' inp !! Z.to_nat k = Some v' /\ is_u32 v /\ is_u32 v'.
Proof.
  intros Hk [E E']. apply hget_words in E, E'; [|done..]. split; [done|]. split; [done|]. split.
  - by apply (Forall_lookup_1 _ _ _ _ (words_u32 m inp Ht) E).
  - by apply (Forall_lookup_1 _ _ _ _ (words_u32 m' inp Ht') E').
Qed.
Lemma alike_of_words n : n <= s_len inp -> lens (take (Z.to_nat n) (words m inp)) = lens (take (Z.to_nat n) (words m' inp)) ->
  alike_nums (both m m') (s_blk inp) (s_off inp) n.
Proof.
  intros Hn H k v v' Hk B. apply both_words in B as (E & E' & U & U'); [|lia]. split; [done|]. split; [done|].
  assert (G : lens (take (Z.to_nat n) (words m inp)) !! Z.to_nat k = lens (take (Z.to_nat n) (words m' inp)) !! Z.to_nat k) by (by rewrite H).
  unfold lens in G. rewrite !list_lookup_fmap, !lookup_take, E, E' in G by lia. cbn in G. congruence.
Qed.
Lemma lookup_deltas p xs k : deltas p xs !! k = (fun x => u32 (x - match k with O => p | S j => nth j xs 0 end)) <$> xs !! k.
Proof.
  revert p k. induction xs as [|x xs IH]; intros p k; [by destruct k|]. destruct k as [|k]; [done|].
  cbn [deltas lookup list_lookup]. rewrite IH. destruct (xs !! k); [|done]. cbn. by destruct k.
Qed.
Lemma alike_of_deltas n p p' : is_u32 p -> is_u32 p' -> n <= s_len inp ->
  lens (take (Z.to_nat n) (deltas p (words m inp))) = lens (take (Z.to_nat n) (deltas p' (words m' inp))) ->
  alike_deltas (both m m') (s_blk inp) (s_off inp) n p p'.
Proof.
  intros Up Up' Hn H k v v' Hk B. apply both_words in B as (E & E' & U & U'); [|lia]. split; [done|]. split; [done|].
  assert (G : lens (take (Z.to_nat n) (deltas p (words m inp))) !! Z.to_nat k = lens (take (Z.to_nat n) (deltas p' (words m' inp))) !! Z.to_nat k) by (by rewrite H).
  unfold lens in G. rewrite !list_lookup_fmap, !lookup_take, !lookup_deltas, E, E' in G by lia. cbn in G. injection G as G.
  intros q q'. unfold prevAt. destruct (k =? 0) eqn:Ek.
  - intros [-> ->]. apply Z.eqb_eq in Ek. subst k. cbn in G. done.
  - replace (s_off inp + k - 1) with (s_off inp + (k - 1)) by lia. intros B. apply both_words in B as (F & F' & Q & Q'); [|lia].
    split; [done|]. split; [done|]. replace (Z.to_nat k) with (S (Z.to_nat (k - 1))) in G by lia.
    rewrite (nth_lookup_Some _ _ _ _ F), (nth_lookup_Some _ _ _ _ F') in G. done.
Qed.
End words.
Lemma same_sizes_fits h h' s : same_sizes h h' -> fits h s -> fits h' s.
Proof. intros H (H1 & H2 & H3). split; [done|]. split; [done|]. specialize (H (s_blk s)). destruct (h !! s_blk s), (h' !! s_blk s); cbn in *; [injection H as H; lia|done..]. Qed.

(** ** Encoders and writers *)
Section encoders.
Context (m m' : mem) (inp : slice) (Ht : typed m) (Ht' : typed m') (Hv : validW m inp) (Hsh : same_shape m m').
Lemma fits' : fits (mw m') inp.
Proof. eapply same_sizes_fits; [apply Hsh|apply Hv]. Qed.

Theorem C53_write w B : lens (words m inp) = lens (words m' inp) -> indistinguishable (write w B inp) m (write w B inp) m'.
Proof.
  intros H. apply (indist anyV (both m m')); [|by apply paired_both]. destruct Hv as [F Hc]. pose proof F as (F1 & F2 & F3).
  assert (Hn : 0 <= s_len inp <= 2 ^ 52) by lia.
  assert (HA : alike_nums (both m m') (s_blk inp) (s_off inp) (s_len inp)).
  { apply alike_of_words; try done; [apply fits'|]. rewrite !firstn_all2; [done|..]; unfold words, contents; rewrite take_length; lia. }
  destruct w; [by apply sim_WriteAllScalar|by apply sim_WriteAllFast|by apply sim_WriteAll].
Qed.
Theorem C53_write_delta w B p p' : is_u32 p -> is_u32 p' -> lens (deltas p (words m inp)) = lens (deltas p' (words m' inp)) ->
  indistinguishable (write_delta w B inp p) m (write_delta w B inp p') m'.
Proof.
  intros Hp Hp' H. apply (indist anyV (both m m')); [|by apply paired_both]. destruct Hv as [F Hc]. pose proof F as (F1 & F2 & F3).
  assert (Hn : 0 <= s_len inp <= 2 ^ 52) by lia.
  assert (HA : alike_deltas (both m m') (s_blk inp) (s_off inp) (s_len inp) p p').
  { apply alike_of_deltas; try done; [apply fits'|]. rewrite !firstn_all2; [done|..]; rewrite deltas_length; unfold words, contents; rewrite take_length; lia. }
  destruct w; [by apply sim_WriteAllDeltaScalar|by apply sim_WriteAllDeltaFast|by apply sim_WriteAllDelta].
Qed.
(** Groups of four and eight, and the first [n] (at most four) numbers. *)
Theorem C53_put8 e prev prev' out : prev_ok prev -> prev_ok prev' -> same_kind prev prev' -> 8 <= s_len inp ->
  lens (take 8 (to_code prev (words m inp))) = lens (take 8 (to_code prev' (words m' inp))) ->
  indistinguishable (put8 e prev inp out) m (put8 e prev' inp out) m'.
Proof.
  intros Hp Hp' Hk Hl H. apply (indist anyV (both m m')); [|by apply paired_both]. destruct Hv as [F Hc].
  destruct prev as [p|], prev' as [p'|]; try done; cbn [to_code prev_ok] in *.
  - assert (HA : alike_deltas (both m m') (s_blk inp) (s_off inp) 8 p p') by (apply alike_of_deltas; try done; apply fits').
    destruct e as [| |a]; cbn [put8].
    + by apply sim_Put8Delta.
    + by apply sim_Put8DeltaAsm.
    + unfold Put8uint32Delta. destruct (encGetMode a); [by apply sim_Put8Delta|]. unfold Put8uint32DeltaFast. destruct a; [by apply sim_Put8DeltaAsm|constructor].
  - assert (HA : alike_nums (both m m') (s_blk inp) (s_off inp) 8) by (apply alike_of_words; try done; apply fits').
    destruct e as [| |a]; cbn [put8].
    + by apply sim_Put8.
    + by apply sim_Put8Asm.
    + unfold Put8uint32. destruct (encGetMode a); [by apply sim_Put8|]. unfold Put8uint32Fast. destruct a; [by apply sim_Put8Asm|constructor].
Qed.
Theorem C53_put4 out : 4 <= s_len inp -> lens (take 4 (words m inp)) = lens (take 4 (words m' inp)) ->
  indistinguishable (Put4uint32Scalar inp out) m (Put4uint32Scalar inp out) m'.
Proof.
  intros Hl H. apply (indist anyV (both m m')); [|by apply paired_both]. destruct Hv as [F Hc].
  apply sim_Put4. apply alike_of_words; try done; apply fits'.
Qed.
Theorem C53_put4_delta out p p' : is_u32 p -> is_u32 p' -> 4 <= s_len inp -> lens (take 4 (deltas p (words m inp))) = lens (take 4 (deltas p' (words m' inp))) ->
  indistinguishable (Put4uint32DeltaScalar inp out p) m (Put4uint32DeltaScalar inp out p') m'.
Proof.
  intros Hp Hp' Hl H. apply (indist anyV (both m m')); [|by apply paired_both]. destruct Hv as [F Hc].
  apply sim_Put4Delta. apply alike_of_deltas; try done; apply fits'.
Qed.
Theorem C53_put out n : Z.min 4 n <= s_len inp -> lens (take (Z.to_nat (Z.min 4 n)) (words m inp)) = lens (take (Z.to_nat (Z.min 4 n)) (words m' inp)) ->
  indistinguishable (PutUint32Scalar inp out n) m (PutUint32Scalar inp out n) m'.
Proof.
  intros Hl H. apply (indist anyV (both m m')); [|by apply paired_both]. destruct Hv as [F Hc].
  apply sim_Put. apply alike_of_words; try done; apply fits'.
Qed.
Theorem C53_put_delta out n p p' : is_u32 p -> is_u32 p' -> Z.min 4 n <= s_len inp ->
  lens (take (Z.to_nat (Z.min 4 n)) (deltas p (words m inp))) = lens (take (Z.to_nat (Z.min 4 n)) (deltas p' (words m' inp))) ->
  indistinguishable (PutUint32DeltaScalar inp out n p) m (PutUint32DeltaScalar inp out n p') m'.
Proof.
  intros Hp Hp' Hl H. apply (indist anyV (both m m')); [|by apply paired_both]. destruct Hv as [F Hc].
  apply sim_PutDelta. apply alike_of_deltas; try done; apply fits'.
Qed.
End encoders.

(** ** Decoders and readers *)
Lemma paired_any m m' : same_shape m m' -> paired anyV anyV m m'.
Proof. intros [H1 H2]. split; by apply sizes_paired_any. Qed.
Lemma paired_ctrl m m' st n : same_shape m m' -> fits (mb m) st -> 0 <= n -> Z.of_nat (nctrl (Z.to_nat n)) <= s_len st ->
  take (nctrl (Z.to_nat n)) (bytes m st) = take (nctrl (Z.to_nat n)) (bytes m' st) -> paired (same_ctrl st ((n + 3) / 4)) anyV m m'.
Proof.
  intros [H1 H2] (F1 & F2 & F3) Hn Hl H. split; [|by apply sizes_paired_any]. apply sizes_paired; [done|].
  intros b l l' i v v' E E' Hv Hv' -> Hi.
  assert (Hc : Z.of_nat (nctrl (Z.to_nat n)) = (n + 3) / 4) by (unfold nctrl; rewrite Nat2Z.inj_div, Nat2Z.inj_add, Z2Nat.id by lia; done).
  assert (G : take (nctrl (Z.to_nat n)) (bytes m st) !! (i - Z.to_nat (s_off st))%nat = take (nctrl (Z.to_nat n)) (bytes m' st) !! (i - Z.to_nat (s_off st))%nat) by (by rewrite H).
  unfold bytes, contents in G. rewrite E, E' in G. cbn [default] in G. unfold default, id in G.
  rewrite !lookup_take, !lookup_drop in G by lia.
  replace (Z.to_nat (s_off st) + (i - Z.to_nat (s_off st)))%nat with i in G by lia. congruence.
Qed.
(** Any stream that holds its control bytes: complete or not, and any output slice.
    ([2 ^ 62]: the count is not so large that n+3 overflows.) *)
Section readers.
Context (r : reader) (m m' : mem) (st out : slice) (n : Z) (Hs : validB m st) (Hsh : same_shape m m') (Hn : 0 <= n < 2 ^ 62).
Context (Hl : Z.of_nat (nctrl (Z.to_nat n)) <= s_len st)
  (H : take (nctrl (Z.to_nat n)) (bytes m st) = take (nctrl (Z.to_nat n)) (bytes m' st)).
Theorem C53_read : indistinguishable (read r n st out) m (read r n st out) m'.
Proof.
  apply (indist (same_ctrl st ((n + 3) / 4)) anyV); [|apply paired_ctrl; try done; [apply Hs|lia]].
  destruct r; [by apply sim_ReadAllScalar|by apply sim_ReadAllFast|by apply sim_ReadAll].
Qed.
Theorem C53_read_delta p p' : indistinguishable (read_delta r n st out p) m (read_delta r n st out p') m'.
Proof.
  apply (indist (same_ctrl st ((n + 3) / 4)) anyV); [|apply paired_ctrl; try done; [apply Hs|lia]].
  destruct r; [by apply sim_ReadAllDeltaScalar|by apply sim_ReadAllDeltaFast|by apply sim_ReadAllDelta].
Qed.
End readers.
Section decoders.
Context (m m' : mem) (inp out : slice) (c : Z) (Hsh : same_shape m m').
Theorem C53_get8 e prev prev' : same_kind prev prev' -> indistinguishable (get8 e prev inp out c) m (get8 e prev' inp out c) m'.
Proof.
  intros Hk. apply (indist anyV anyV); [|by apply paired_any]. destruct prev as [p|], prev' as [p'|]; try done; destruct e as [| |a]; cbn [get8].
  - apply sim_Get8Delta.
  - apply sim_Get8DeltaAsm.
  - unfold Get8uint32Delta. destruct (decGetMode a); [apply sim_Get8Delta|]. unfold Get8uint32DeltaFast. destruct a; [apply sim_Get8DeltaAsm|constructor].
  - apply sim_Get8.
  - apply sim_Get8Asm.
  - unfold Get8uint32. destruct (decGetMode a); [apply sim_Get8|]. unfold Get8uint32Fast. destruct a; [apply sim_Get8Asm|constructor].
Qed.
Theorem C53_get4 : indistinguishable (Get4uint32Scalar inp out c) m (Get4uint32Scalar inp out c) m'.
Proof. apply (indist anyV anyV); [apply sim_Get4|by apply paired_any]. Qed.
Theorem C53_get4_delta p p' : indistinguishable (Get4uint32DeltaScalar inp out c p) m (Get4uint32DeltaScalar inp out c p') m'.
Proof. apply (indist anyV anyV); [apply sim_Get4Delta|by apply paired_any]. Qed.
Theorem C53_get n : indistinguishable (GetUint32Scalar inp out c n) m (GetUint32Scalar inp out c n) m'.
Proof. apply (indist anyV anyV); [apply sim_Get|by apply paired_any]. Qed.
Theorem C53_get_delta n p p' : indistinguishable (GetUint32DeltaScalar inp out c n p) m (GetUint32DeltaScalar inp out c n p') m'.
Proof. apply (indist anyV anyV); [apply sim_GetDelta|by apply paired_any]. Qed.
End decoders.

(** ** Concrete cases
    The 37 numbers of [ex_mem] and 37 others of the same byte lengths; everything
    else in memory is different as well, the control bytes of [ex_st] excepted. *)
Definition other (x : Z) : Z :=
  if x <? 256 then 255 - x else if x <? 65536 then 65535 - (x - 256) else if x <? 16777216 then 65536 + (16777215 - x) else 16777216 + (4294967295 - x).
Definition c53_mem (nums : list Z) : mem :=
  Mem (<[ 5%nat := replicate 60 1 ]> {[ 6%nat := [228; 27] ++ replicate 24 77 ]})
      (<[ 0%nat := [1; 2] ++ nums ++ [3; 4] ]> {[ 1%nat := replicate 60 8 ]}).
Lemma c53_typed nums : Forall is_u32 nums -> typed (c53_mem nums).
Proof.
  intros H. split; cbn [c53_mem mb mw]; intros b l; rewrite lookup_insert_Some, lookup_singleton_Some.
  - intros [[<- <-]|[? [<- <-]]]; repeat constructor; lia.
  - intros [[<- <-]|[? [<- <-]]]; [|repeat constructor; lia].
    apply Forall_app. split; [repeat constructor; lia|]. apply Forall_app. split; [done|repeat constructor; lia].
Qed.
Lemma c53_shape nums : length nums = 37%nat -> same_shape ex_mem (c53_mem nums).
Proof.
  intros H. split; intros b; cbn [ex_mem c53_mem mb mw].
  - destruct (decide (b = 5%nat)) as [->|]; [by rewrite !lookup_insert|]. rewrite !lookup_insert_ne by done.
    destruct (decide (b = 6%nat)) as [->|]; [by rewrite !lookup_singleton|]. by rewrite !lookup_singleton_ne by done.
  - destruct (decide (b = 0%nat)) as [->|]; [rewrite !lookup_insert; cbn [option_map]; rewrite !app_length, H; done|]. rewrite !lookup_insert_ne by done.
    destruct (decide (b = 1%nat)) as [->|]; [by rewrite !lookup_singleton|]. by rewrite !lookup_singleton_ne by done.
Qed.
Definition c53_nums : list Z := map other ex_nums.
(** The differences to [shifted] from 1000000 are those of [ex_nums] from 0. *)
Definition c53_shifted : list Z := map (fun x => u32 (x + 1000000)) ex_nums.
Lemma c53_u32 : Forall is_u32 c53_nums /\ Forall is_u32 c53_shifted.
Proof. split; repeat (apply Forall_cons_2; [vm_compute; intuition discriminate|]); apply Forall_nil_2. Qed.

Example C53_example :
  words ex_mem ex_in <> words (c53_mem c53_nums) ex_in /\ lens (words ex_mem ex_in) = lens (words (c53_mem c53_nums) ex_in) /\
  (forall w, indistinguishable (write w 9 ex_in) ex_mem (write w 9 ex_in) (c53_mem c53_nums)) /\
  (forall w, indistinguishable (write_delta w 9 ex_in 0) ex_mem (write_delta w 9 ex_in 1000000) (c53_mem c53_shifted)) /\
  (forall e out, indistinguishable (put8 e None ex_in out) ex_mem (put8 e None ex_in out) (c53_mem c53_nums)) /\
  (forall e out, indistinguishable (put8 e (Some 0) ex_in out) ex_mem (put8 e (Some 1000000) ex_in out) (c53_mem c53_shifted)) /\
  (forall r out, indistinguishable (read r 8 ex_st out) ex_mem (read r 8 ex_st out) (c53_mem c53_nums)) /\
  (forall r out, indistinguishable (read_delta r 8 ex_st out 3) ex_mem (read_delta r 8 ex_st out 4) (c53_mem c53_nums)) /\
  (forall e, indistinguishable (get8 e (Some 0) ex_st ex_out 6372) ex_mem (get8 e (Some 1) ex_st ex_out 6372) (c53_mem c53_nums)).
Proof.
  pose proof ex_typed as T. pose proof ex_in_valid as V. pose proof (c53_shape c53_nums eq_refl) as S. pose proof (c53_shape c53_shifted eq_refl) as S'.
  destruct c53_u32 as [U U']. pose proof (c53_typed _ U) as T1. pose proof (c53_typed _ U') as T2.
  split; [vm_compute; discriminate|]. split; [vm_compute; reflexivity|]. repeat split_and; intros.
  - apply C53_write; try done.
  - apply C53_write_delta; try done.
  - apply C53_put8; try done.
  - apply C53_put8; try done.
  - apply C53_read; try done.
  - apply C53_read_delta; try done.
  - by apply C53_get8.
Qed.
(** The lengths do matter: a longer first number moves everything that follows. *)
Example C53_lengths_matter : let nums := 256 :: tail ex_nums in
  Forall (fun w => trace (run (write w 9 ex_in) ex_mem) <> trace (run (write w 9 ex_in) (c53_mem nums))) [WScalar; WFast].
Proof. repeat (apply Forall_cons_2; [vm_compute; discriminate|]). apply Forall_nil_2. Qed.
(** And the runs do something. *)
Example C53_trace_length : length (trace (run (write WFast 9 ex_in) (c53_mem c53_nums))) = length (trace (run (write WFast 9 ex_in) ex_mem)) /\
  (100 < length (trace (run (write WFast 9 ex_in) ex_mem)))%nat.
Proof. split; [vm_compute; reflexivity|]. apply Nat.ltb_lt. vm_compute. reflexivity. Qed.
