(** * Properties of the stream writers: C03, C04, C05, C08, C09, C11, C33 *)
From stdpp Require Import prelude gmap list.
From Coq Require Import ZArith Lia.
From Verif Require Import Spec SpecLemmas GoSem Shared Tables Asm Encode Wp Writer WriterProof WriterProof2 ReaderProof Api ApiLemmas Witness.
Local Open Scope Z_scope.

(** The implementations: portable Go, SIMD (on a CPU with AVX and AVX2), and the
    exported dispatcher on any machine. *)
Inductive writer := WScalar | WFast | WDispatch (a : arch).
Definition write (w : writer) (B : nat) (inp : slice) : prog slice :=
  match w with
  | WScalar => WriteAllScalar B inp
  | WFast => WriteAllFast (AMD64 true true) B inp
  | WDispatch a => WriteAll a B inp
  end.
Definition write_delta (w : writer) (B : nat) (inp : slice) (prev : Z) : prog slice :=
  match w with
  | WScalar => WriteAllDeltaScalar B inp prev
  | WFast => WriteAllDeltaFast (AMD64 true true) B inp prev
  | WDispatch a => WriteAllDelta a B inp prev
  end.

Section all.
Context (w : writer) (m : mem) (B : nat) (inp : slice).
Context (Ht : typed m) (Hv : validW m inp) (Hfr : mb m !! B = None).
Lemma write_run : let X := words m inp in
  returns (write w B inp) m (wret B X) (wmem m B X) /\ accesses (write w B inp) m (writer_may B (wN X) inp).
Proof. destruct w; [by apply WriteAllScalar_run|by apply WriteAllFast_run|by apply WriteAll_run]. Qed.
Lemma write_delta_run prev : is_u32 prev -> let X := deltas prev (words m inp) in
  returns (write_delta w B inp prev) m (wret B X) (wmem m B X) /\ accesses (write_delta w B inp prev) m (writer_may B (wN X) inp).
Proof. intros Hp. destruct w; [by apply WriteAllDeltaScalar_run|by apply WriteAllDeltaFast_run|by apply WriteAllDelta_run]. Qed.
End all.

Lemma wN_ge X : Z.of_nat (length (stream_of X)) <= wN X.
Proof.
  rewrite <- (wdp_end X : _ = Z.of_nat _). pose proof (zlen_nonneg X).
  pose proof (wdp_bounds X (zlen X) ltac:(lia)). unfold wN. lia.
Qed.
Lemma wblock_length X : Z.of_nat (length (stream_of X ++ replicate (Z.to_nat (wN X) - length (stream_of X)) 0)) = wN X.
Proof. rewrite app_length, replicate_length. pose proof (wN_ge X). lia. Qed.
Lemma wmem_bytes m B X : bytes (wmem m B X) (wret B X) = stream_of X.
Proof.
  unfold bytes, contents, wret, wmem. cbn. rewrite lookup_insert. cbn. unfold zlen. rewrite Nat2Z.id.
  by rewrite drop_0, take_app.
Qed.
Lemma wmem_fits m B X : fits (mb (wmem m B X)) (wret B X).
Proof.
  unfold fits, wret, wmem. cbn. rewrite lookup_insert. cbn. pose proof (wN_ge X). rewrite wblock_length. unfold zlen. lia.
Qed.

(** ** C03: exactly the bytes of the format *)
Theorem C03_written_bytes : forall w B inp m, typed m -> validW m inp -> mb m !! B = None ->
  exists st m', returns (write w B inp) m st m' /\ bytes m' st = stream_of (words m inp).
Proof.
  intros w B inp m Ht Hv Hf. do 2 eexists. split; [by apply write_run|]. apply wmem_bytes.
Qed.
Example C03_example :
  let r := run (WriteAll (AMD64 true true) 9 ex_in) ex_mem in
  match result r with
  | Ok st => bytes (final r) st = stream_of ex_nums /\ length (stream_of ex_nums) = 83%nat
             /\ take 3 (bytes (final r) st) = [228; 80; 58]
  | _ => False
  end.
Proof. vm_compute. done. Qed.

(** ** C04: delta writing is writing the differences *)
Theorem C04_delta_is_differences : forall w w' B B' inp inp' prev m m',
  typed m -> validW m inp -> mb m !! B = None -> is_u32 prev ->
  typed m' -> validW m' inp' -> mb m' !! B' = None ->
  words m' inp' = deltas prev (words m inp) ->
  exists st m1 st' m1',
    returns (write_delta w B inp prev) m st m1 /\ returns (write w' B' inp') m' st' m1' /\
    bytes m1 st = bytes m1' st' /\ s_len st = s_len st' /\ s_cap st = s_cap st'.
Proof.
  intros w w' B B' inp inp' prev m m' Ht Hv Hf Hp Ht' Hv' Hf' E.
  exists (wret B (deltas prev (words m inp))), (wmem m B (deltas prev (words m inp))), (wret B' (words m' inp')), (wmem m' B' (words m' inp')).
  split; [by apply write_delta_run|]. split; [by apply write_run|]. rewrite !wmem_bytes, E. done.
Qed.
Theorem C04_delta_bytes : forall w B inp prev m, typed m -> validW m inp -> mb m !! B = None -> is_u32 prev ->
  exists st m', returns (write_delta w B inp prev) m st m' /\ bytes m' st = stream_of (deltas prev (words m inp)).
Proof.
  intros w B inp prev m Ht Hv Hf Hp. do 2 eexists. split; [by apply write_delta_run|]. apply wmem_bytes.
Qed.
Example C04_example :
  let r := run (WriteAllDelta (AMD64 true true) 9 ex_in 100) ex_mem in
  match result r with
  | Ok st => bytes (final r) st = stream_of (deltas 100 ex_nums) /\ take 2 (deltas 100 ex_nums) = [4294967201; 295]
  | _ => False
  end.
Proof. vm_compute. done. Qed.

(** ** C05: which implementation wrote is not observable *)
Theorem C05_implementation_independent : forall w w' B inp m, typed m -> validW m inp -> mb m !! B = None ->
  result (run (write w B inp) m) = result (run (write w' B inp) m) /\
  final (run (write w B inp) m) = final (run (write w' B inp) m).
Proof.
  intros w w' B inp m Ht Hv Hf. destruct (write_run w m B inp Ht Hv Hf) as [[-> ->] _], (write_run w' m B inp Ht Hv Hf) as [[-> ->] _]. done.
Qed.
Theorem C05_implementation_independent_delta : forall w w' B inp prev m, typed m -> validW m inp -> mb m !! B = None -> is_u32 prev ->
  result (run (write_delta w B inp prev) m) = result (run (write_delta w' B inp prev) m) /\
  final (run (write_delta w B inp prev) m) = final (run (write_delta w' B inp prev) m).
Proof.
  intros w w' B inp prev m Ht Hv Hf Hp.
  destruct (write_delta_run w m B inp Ht Hv Hf prev Hp) as [[-> ->] _], (write_delta_run w' m B inp Ht Hv Hf prev Hp) as [[-> ->] _]. done.
Qed.
Example C05_example :
  result (run (WriteAllScalar 9 ex_in) ex_mem) = Ok (Slice 9 0 83 158) /\
  result (run (WriteAllFast (AMD64 true true) 9 ex_in) ex_mem) = Ok (Slice 9 0 83 158).
Proof. vm_compute. done. Qed.

(** ** C08: size of the stream *)
Theorem C08_size : forall w B inp m, typed m -> validW m inp -> mb m !! B = None ->
  exists st m', returns (write w B inp) m st m' /\
    let n := s_len inp in let c := (n + 3) / 4 in
    s_len st = c + Z.of_nat (sum_nat (map nbytes (words m inp))) /\
    c + n <= s_len st <= c + 4 * n /\ s_cap st = c + 4 * n.
Proof.
  intros w B inp m Ht Hv Hf. do 2 eexists. split; [by apply write_run|]. cbn.
  pose proof (contents_zlen _ _ (proj1 Hv)) as Hl. change (contents (mw m) inp) with (words m inp) in Hl.
  pose proof (stream_of_length (words m inp)) as Hs. pose proof (nctrl_div (length (words m inp))) as Hn.
  pose proof (enc_data_bounds (words m inp)) as Hb. rewrite enc_data_length in Hb.
  unfold wN. rewrite wcl_eq. unfold zlen in *. rewrite Hl in *. lia.
Qed.
Theorem C08_size_delta : forall w B inp prev m, typed m -> validW m inp -> mb m !! B = None -> is_u32 prev ->
  exists st m', returns (write_delta w B inp prev) m st m' /\
    let n := s_len inp in let c := (n + 3) / 4 in
    s_len st = c + Z.of_nat (sum_nat (map nbytes (deltas prev (words m inp)))) /\
    c + n <= s_len st <= c + 4 * n /\ s_cap st = c + 4 * n.
Proof.
  intros w B inp prev m Ht Hv Hf Hp. do 2 eexists. split; [by apply write_delta_run|]. cbn.
  pose proof (contents_zlen _ _ (proj1 Hv)) as Hl. change (contents (mw m) inp) with (words m inp) in Hl.
  pose proof (deltas_length prev (words m inp)) as Hd. set (X := deltas prev (words m inp)) in *.
  pose proof (stream_of_length X) as Hs. pose proof (nctrl_div (length X)) as Hn.
  pose proof (enc_data_bounds X) as Hb. rewrite enc_data_length in Hb.
  unfold wN. rewrite wcl_eq. unfold zlen in *. rewrite Hd in *. rewrite Hl in *. lia.
Qed.
Example C08_example :
  sum_nat (map nbytes ex_nums) = 73%nat /\ (37 + 3) / 4 + 73 = 83 /\ (37 + 3) / 4 + 4 * 37 = 158.
Proof. vm_compute. done. Qed.

(** ** C09: total, and the caller's memory is unchanged *)
Theorem C09_total_and_frame : forall w B inp m, typed m -> validW m inp -> mb m !! B = None ->
  exists st l, returns (write w B inp) m st (Mem (<[B := l]> (mb m)) (mw m)) /\
    s_blk st = B /\ s_off st = 0 /\ s_len st <= s_cap st /\ s_cap st = Z.of_nat (length l).
Proof.
  intros w B inp m Ht Hv Hf. do 2 eexists. split; [by apply write_run|]. cbn.
  split; [done|]. split; [done|]. split; [apply wN_ge|]. by rewrite wblock_length.
Qed.
Theorem C09_total_and_frame_delta : forall w B inp prev m, typed m -> validW m inp -> mb m !! B = None -> is_u32 prev ->
  exists st l, returns (write_delta w B inp prev) m st (Mem (<[B := l]> (mb m)) (mw m)) /\
    s_blk st = B /\ s_off st = 0 /\ s_len st <= s_cap st /\ s_cap st = Z.of_nat (length l).
Proof.
  intros w B inp prev m Ht Hv Hf Hp. do 2 eexists. split; [by apply write_delta_run|]. cbn.
  split; [done|]. split; [done|]. split; [apply wN_ge|]. by rewrite wblock_length.
Qed.
(** The bytes between the length and the capacity of the result are zero. *)
Theorem C09_spare_capacity_is_zero : forall w B inp m, typed m -> validW m inp -> mb m !! B = None ->
  exists st m', returns (write w B inp) m st m' /\
    forall i, s_len st <= i < s_cap st -> hget (mb m') B i = Some 0.
Proof.
  intros w B inp m Ht Hv Hf. do 2 eexists. split; [by apply write_run|]. cbn. intros i Hi.
  rewrite hget_blk. unfold blk. rewrite lookup_insert. cbn. unfold zlen in Hi.
  destruct (Z.leb_spec 0 i); [|lia]. rewrite lookup_app_r by lia. apply lookup_replicate. split; [done|].
  pose proof (wN_ge (words m inp)). lia.
Qed.
Example C09_example_empty :
  returns (WriteAll OtherArch 9 (Slice 77 0 0 0)) ex_mem (Slice 9 0 0 0) (Mem (<[9%nat := []]> (mb ex_mem)) (mw ex_mem)) /\
  validW ex_mem (Slice 77 0 0 0).
Proof. vm_compute. intuition discriminate. Qed.

(** ** C11: every access of the writers is inside in[0:len(in)] or the new allocation *)
Theorem C11_memory_safety : forall w B inp m, typed m -> validW m inp -> mb m !! B = None ->
  accesses (write w B inp) m (writer_may B ((s_len inp + 3) / 4 + 4 * s_len inp) inp).
Proof.
  intros w B inp m Ht Hv Hf. destruct (write_run w m B inp Ht Hv Hf) as [_ H].
  unfold wN in H. rewrite wcl_eq in H.
  assert (E : zlen (words m inp) = s_len inp) by (by apply contents_zlen, Hv). by rewrite E in H.
Qed.
Theorem C11_memory_safety_delta : forall w B inp prev m, typed m -> validW m inp -> mb m !! B = None -> is_u32 prev ->
  accesses (write_delta w B inp prev) m (writer_may B ((s_len inp + 3) / 4 + 4 * s_len inp) inp).
Proof.
  intros w B inp prev m Ht Hv Hf Hp. destruct (write_delta_run w m B inp Ht Hv Hf prev Hp) as [_ H].
  unfold wN in H. rewrite wcl_eq, zlen_deltas in H.
  assert (E : zlen (words m inp) = s_len inp) by (by apply contents_zlen, Hv). by rewrite E in H.
Qed.
(** The SIMD writer's stores do reach beyond the stream (74 bytes), within the allocation (141). *)
Example C11_example :
  let r := run (WriteAllFast (AMD64 true true) 9 (Slice 0 2 33 38)) ex_mem in
  result r = Ok (Slice 9 0 74 141) /\ In (EWrB 9 82) (trace r) /\ (33 + 3) / 4 + 4 * 33 = 141.
Proof. split; [|split]; [vm_compute; reflexivity| |reflexivity]. vm_compute. repeat (first [left; reflexivity|right]). Qed.

(** ** C33: minimality and injectivity *)
Lemma cut_forall2 ls d : Forall (fun n => (1 <= n <= 4)%nat) ls -> Forall is_byte d -> (sum_nat ls <= length d)%nat ->
  Forall2 (fun x n => (nbytes x <= n)%nat) (map le_val (cut ls d)) ls.
Proof.
  intros Hl. revert d. induction Hl as [|k ls Hk _ IH]; intros d Hd Hs; cbn [cut map]; [constructor|].
  cbn [sum_nat fold_right] in Hs. constructor.
  - apply nbytes_minimal; [done|]. pose proof (le_val_range (firstn k d) (Forall_take _ _ _ Hd)) as Hr.
    rewrite firstn_length_le in Hr by lia. lia.
  - apply IH; [by apply Forall_drop|]. unfold sum_nat. rewrite skipn_length. lia.
Qed.
Lemma forall2_sum xs ls : Forall2 (fun x n => (nbytes x <= n)%nat) xs ls -> (sum_nat (map nbytes xs) <= sum_nat ls)%nat.
Proof. induction 1; cbn in *; [lia|]. unfold sum_nat in *. lia. Qed.
Lemma decode_length n S : (nctrl n <= length S)%nat -> length (decode_stream n S) = n.
Proof.
  intros H. unfold decode_stream. rewrite map_length, cut_length. unfold stream_lens.
  rewrite firstn_length_le; [done|].
  assert (G : length (concat (map ctrl_lens (firstn (nctrl n) S))) = (4 * nctrl n)%nat).
  { rewrite <- (firstn_length_le S H) at 2. generalize (firstn (nctrl n) S). induction l as [|c l IH]; [done|].
    cbn [map concat]. rewrite app_length, IH. cbn. lia. }
  rewrite G. unfold nctrl. pose proof (Nat.div_mod (n + 3) 4 ltac:(lia)). pose proof (Nat.mod_upper_bound (n + 3) 4 ltac:(lia)). lia.
Qed.
Theorem C33_minimal : forall w B inp m (t : list Z), typed m -> validW m inp -> mb m !! B = None ->
  well_formed (length (words m inp)) t -> decode_stream (length (words m inp)) t = words m inp ->
  exists st m', returns (write w B inp) m st m' /\ (length (bytes m' st) <= stream_size (length (words m inp)) t <= length t)%nat.
Proof.
  intros w B inp m t Ht Hv Hf (Hb & Hc & Hs) Hd. do 2 eexists. split; [by apply write_run|].
  rewrite wmem_bytes, stream_of_length. split; [|done]. set (n := length (words m inp)) in *.
  rewrite <- Hd. unfold stream_size. apply Nat.add_le_mono_l, forall2_sum. unfold stream_size in Hs. unfold decode_stream.
  apply cut_forall2; [apply stream_lens_range|by apply Forall_drop|]. rewrite skipn_length. lia.
Qed.
(** Also in the number of control bytes: no other input, of any length, gives the same stream. *)
Lemma concat_prefix (a : list (list nat)) k : concat a = concat (take k a) ++ concat (drop k a).
Proof. by rewrite <- concat_app, take_drop. Qed.
Lemma stream_size_lt n n' S : (n < n')%nat -> (nctrl n' <= length S)%nat -> (stream_size n S < stream_size n' S)%nat.
Proof.
  intros Hn Hc. assert (Hm : (nctrl n <= nctrl n')%nat) by (unfold nctrl; apply Nat.div_le_mono; lia).
  pose proof (decode_length n' S Hc) as Hl'. unfold decode_stream in Hl'. rewrite map_length, cut_length in Hl'.
  pose proof (decode_length n S ltac:(lia)) as Hl. unfold decode_stream in Hl. rewrite map_length, cut_length in Hl.
  unfold stream_size.
  assert (E : take n (stream_lens n' S) = stream_lens n S).
  { unfold stream_lens. rewrite take_take, Nat.min_l by lia.
    rewrite (concat_prefix (map ctrl_lens (take (nctrl n') S)) (nctrl n)).
    rewrite <- firstn_map, take_take, Nat.min_l by lia. rewrite take_app_le; [by rewrite firstn_map|].
    unfold stream_lens in Hl. rewrite firstn_length in Hl. rewrite firstn_map. lia. }
  rewrite <- (take_drop n (stream_lens n' S)), sum_nat_app, E.
  assert (Hd : (1 <= sum_nat (drop n (stream_lens n' S)))%nat).
  { pose proof (stream_lens_range S n') as Hr. apply (Forall_drop _ n) in Hr.
    destruct (drop n (stream_lens n' S)) as [|k r] eqn:Ed.
    - apply (f_equal length) in Ed. rewrite drop_length in Ed. cbn in Ed. lia.
    - inversion_clear Hr. cbn. lia. }
  lia.
Qed.
Lemma stream_of_inj X Y : Forall is_u32 X -> Forall is_u32 Y -> stream_of X = stream_of Y -> X = Y.
Proof.
  intros HX HY E.
  pose proof (decode_written X [] HX) as DX. pose proof (decode_written Y [] HY) as DY. rewrite app_nil_r in DX, DY.
  pose proof (written_size X []) as SX. pose proof (written_size Y []) as SY. rewrite app_nil_r in SX, SY.
  pose proof (stream_of_length X) as LX. pose proof (stream_of_length Y) as LY.
  destruct (Nat.lt_total (length X) (length Y)) as [L|[L|L]].
  - pose proof (stream_size_lt _ _ (stream_of Y) L ltac:(lia)) as G. rewrite <- E in G at 1. rewrite SX, SY, E in G. lia.
  - rewrite <- DX, <- DY, L, E. done.
  - pose proof (stream_size_lt _ _ (stream_of X) L ltac:(lia)) as G. rewrite E in G at 1. rewrite SX, SY, E in G. lia.
Qed.
Theorem C33_injective : forall w w' B B' inp inp' m m' st st' m1 m1',
  typed m -> validW m inp -> mb m !! B = None -> typed m' -> validW m' inp' -> mb m' !! B' = None ->
  returns (write w B inp) m st m1 -> returns (write w' B' inp') m' st' m1' ->
  bytes m1 st = bytes m1' st' -> words m inp = words m' inp'.
Proof.
  intros w w' B B' inp inp' m m' st st' m1 m1' Ht Hv Hf Ht' Hv' Hf' R R' E.
  destruct (returns_det _ _ _ _ _ _ R (proj1 (write_run w m B inp Ht Hv Hf))) as [-> ->].
  destruct (returns_det _ _ _ _ _ _ R' (proj1 (write_run w' m' B' inp' Ht' Hv' Hf'))) as [-> ->].
  rewrite !wmem_bytes in E. apply stream_of_inj in E; [done|by apply typed_words..].
Qed.
Theorem C33_injective_delta : forall w w' B B' inp inp' prev m m' st st' m1 m1', is_u32 prev ->
  typed m -> validW m inp -> mb m !! B = None -> typed m' -> validW m' inp' -> mb m' !! B' = None ->
  returns (write_delta w B inp prev) m st m1 -> returns (write_delta w' B' inp' prev) m' st' m1' ->
  bytes m1 st = bytes m1' st' -> words m inp = words m' inp'.
Proof.
  intros w w' B B' inp inp' prev m m' st st' m1 m1' Hp Ht Hv Hf Ht' Hv' Hf' R R' E.
  destruct (returns_det _ _ _ _ _ _ R (proj1 (write_delta_run w m B inp Ht Hv Hf prev Hp))) as [-> ->].
  destruct (returns_det _ _ _ _ _ _ R' (proj1 (write_delta_run w' m' B' inp' Ht' Hv' Hf' prev Hp))) as [-> ->].
  rewrite !wmem_bytes in E. apply stream_of_inj in E; [|apply deltas_u32..].
  rewrite <- (running_sums_deltas prev (words m inp)), <- (running_sums_deltas prev (words m' inp')) by (by apply typed_words). by rewrite E.
Qed.
(** 1000 in four bytes: a well-formed stream decoding to the same number, but longer. *)
Example C33_example : let t := [3; 232; 3; 0; 0] in
  well_formed 1 t /\ decode_stream 1 t = [1000] /\ stream_of [1000] = [1; 232; 3].
Proof. cbn. split; [|done]. split; [repeat constructor; lia|]. vm_compute. lia. Qed.
