(** * Reading a stream and writing its numbers again: C59 *)
From stdpp Require Import prelude gmap list.
From Coq Require Import ZArith Lia.
From Verif Require Import Spec SpecLemmas GoSem Shared Tables Asm Wp Reader Writer WriterProof WriterProof2 ReaderProof Api ApiLemmas Witness C_Writer C_Reader.
Local Open Scope Z_scope.

(** ** Vocabulary *)
(** No redundant zero bytes in any number, unused slots of the last control byte are 0 (one byte),
    nothing after the stream. *)
Definition shortest (p : list Z) : Prop := length p = 1%nat \/ nth (length p - 1) p 0 <> 0.
Definition canonical (n : nat) (S : list Z) : Prop :=
  length S = stream_size n S /\
  Forall shortest (cut (stream_lens n S) (skipn (nctrl n) S)) /\
  Forall (fun l => l = 1%nat) (skipn n (concat (map ctrl_lens (firstn (nctrl n) S)))).
(** out[0:n] *)
Definition first (n : Z) (out : slice) : slice := Slice (s_blk out) (s_off out) n (s_cap out).

(** ** Lists *)
Lemma shortest_nbytes p : Forall is_byte p -> (1 <= length p <= 4)%nat -> (nbytes (le_val p) = length p <-> shortest p).
Proof.
  intros Hb Hl. unfold shortest, nbytes. change (2 ^ 8) with 256. change (2 ^ 16) with 65536. change (2 ^ 24) with 16777216.
  destruct p as [|a [|b [|c [|d [|]]]]]; cbn [length] in *; try lia; repeat (apply Forall_cons_1 in Hb as [? Hb]); unfold is_byte in *;
  cbn [le_val nth Nat.sub]; 
  repeat match goal with |- context [?x <? ?y] => destruct (Z.ltb_spec x y) end; split; intros; try lia.
Qed.
Lemma pieces : forall lens data, Forall is_byte data -> Forall (fun l => (1 <= l <= 4)%nat) lens -> (sum_nat lens = length data)%nat ->
  (enc_data (map le_val (cut lens data)) = data /\ map nbytes (map le_val (cut lens data)) = lens) <-> Forall shortest (cut lens data).
Proof.
  induction lens as [|l lens IH]; intros data Hb Hr Hs.
  - cbn in Hs. destruct data; [|discriminate]. cbn. split; [constructor|done].
  - cbn [sum_nat fold_right] in Hs. change (fold_right Nat.add 0%nat lens) with (sum_nat lens) in Hs.
    apply Forall_cons_1 in Hr as [Hl Hr]. cbn [cut map enc_data].
    assert (Ll : length (take l data) = l) by (rewrite take_length; lia).
    assert (Bl : Forall is_byte (take l data)) by (by apply Forall_take).
    specialize (IH (drop l data) ltac:(by apply Forall_drop) Hr ltac:(rewrite drop_length; lia)).
    pose proof (shortest_nbytes (take l data) Bl ltac:(lia)) as SN. rewrite Ll in SN.
    split.
    + intros [E1 E2]. apply (f_equal (fun x => match x with [] => 0%nat | a :: _ => a end)) in E2 as E3. cbn in E3.
      apply (f_equal (@tl nat)) in E2. cbn in E2. constructor; [by apply SN|]. apply IH. split; [|done].
      unfold enc1 in E1. rewrite E3 in E1. rewrite <- (take_drop l data) in E1 at 3. apply app_inj_1 in E1 as [_ E1]; [done|]. rewrite le_length. lia.
    + intros F. apply Forall_cons_1 in F as [F1 F2]. apply SN in F1. apply IH in F2 as [F2 F3]. rewrite F2, F3, F1. split; [|done].
      unfold enc1. rewrite F1, <- Ll at 1. rewrite le_le_val by done. apply take_drop.
Qed.
(** A control byte is determined by the lengths it announces. *)
Lemma ctrl_from_lens c xs : is_byte c -> (1 <= length xs <= 4)%nat -> Forall is_u32 xs ->
  (ctrl_of xs = c <-> firstn (length xs) (ctrl_lens c) = map nbytes xs /\ Forall (fun l => l = 1%nat) (skipn (length xs) (ctrl_lens c))).
Proof.
  intros Hc Hl Hx. split.
  - intros <-. split; [apply ctrl_lens_of; lia|]. destruct xs as [|x0 [|x1 [|x2 [|x3 [|]]]]]; cbn [length] in *; try lia;
    pose proof (nbytes_range x0); try pose proof (nbytes_range x1); try pose proof (nbytes_range x2); try pose proof (nbytes_range x3);
    unfold ctrl_lens; cbn [skipn ctrl_of]; repeat (apply List.Forall_cons || apply List.Forall_nil);
    try (Z.to_euclidean_division_equations; lia).
  - unfold ctrl_lens, is_byte in *.
    assert (R : c = c mod 4 + 4 * (c / 4 mod 4) + 16 * (c / 16 mod 4) + 64 * (c / 64 mod 4)) by (Z.to_euclidean_division_equations; lia).
    assert (R0 : 0 <= c mod 4 /\ 0 <= c / 4 mod 4 /\ 0 <= c / 16 mod 4 /\ 0 <= c / 64 mod 4) by (repeat split; apply Z.mod_pos_bound; lia).
    set (l0 := c mod 4) in *. set (l1 := c / 4 mod 4) in *. set (l2 := c / 16 mod 4) in *. set (l3 := c / 64 mod 4) in *. clearbody l0 l1 l2 l3.
    intros [E F]. destruct xs as [|x0 [|x1 [|x2 [|x3 [|]]]]]; cbn [length firstn skipn map ctrl_of] in *; try lia;
    injection E; clear E; intros; repeat (apply Forall_cons_1 in F as [? F]); lia.
Qed.
Lemma controls : forall cs xs, Forall is_byte cs -> Forall is_u32 xs -> length cs = nctrl (length xs) ->
  (enc_ctrls xs = cs <-> firstn (length xs) (concat (map ctrl_lens cs)) = map nbytes xs /\ Forall (fun l => l = 1%nat) (skipn (length xs) (concat (map ctrl_lens cs)))).
Proof.
  induction cs as [|c cs IH]; intros xs Hb Hx Hl.
  - destruct xs as [|a xs]; [cbn; repeat split; done|]. exfalso. unfold nctrl in Hl. cbn [length] in Hl.
    pose proof (Nat.div_le_lower_bound (S (length xs) + 3) 4 1 ltac:(lia) ltac:(lia)). lia.
  - apply Forall_cons_1 in Hb as [Hc Hb]. cbn [map concat].
    destruct (Nat.le_gt_cases (length xs) 4) as [Hs|Hs].
    + assert (N : xs <> []) by (intros ->; discriminate). assert (L1 : (1 <= length xs)%nat) by (destruct xs; [done|cbn; lia]).
      assert (cs = []) as ->.
      { destruct cs; [done|]. exfalso. unfold nctrl in Hl. cbn [length] in Hl. pose proof (Nat.div_le_mono (length xs + 3) 7 4 ltac:(lia) ltac:(lia)). change (7 / 4)%nat with 1%nat in *. lia. }
      cbn [map concat]. rewrite app_nil_r.
      assert (E : enc_ctrls xs = [ctrl_of xs]) by (destruct xs as [|x0 [|x1 [|x2 [|x3 [|]]]]]; cbn [length] in *; try lia; done).
      rewrite E, <- (ctrl_from_lens c xs Hc ltac:(lia) Hx). split; [by intros [= ->]|by intros ->].
    + destruct xs as [|x0 [|x1 [|x2 [|x3 xs]]]]; cbn [length] in Hs; try lia. clear Hs.
      change (enc_ctrls (x0 :: x1 :: x2 :: x3 :: xs)) with (ctrl_of [x0; x1; x2; x3] :: enc_ctrls xs).
      cbn [length] in Hl. rewrite nctrl_step in Hl. injection Hl as Hl.
      assert (Hx4 : Forall is_u32 [x0; x1; x2; x3]) by (by apply (Forall_take is_u32 4) in Hx). assert (Hxs : Forall is_u32 xs) by (by apply (Forall_drop is_u32 4) in Hx).
      specialize (IH xs Hb Hxs Hl). pose proof (ctrl_from_lens c [x0; x1; x2; x3] Hc ltac:(cbn; lia) Hx4) as C4. cbn [length] in C4.
      assert (L4 : length (ctrl_lens c) = 4%nat) by apply ctrl_lens_length.
      replace (length (x0 :: x1 :: x2 :: x3 :: xs)) with (4 + length xs)%nat by done.
      rewrite take_add_app by done. rewrite skipn_app, skipn_all2 by lia. rewrite L4. replace (4 + length xs - 4)%nat with (length xs) by lia. cbn [app].
      change (map nbytes (x0 :: x1 :: x2 :: x3 :: xs)) with (map nbytes [x0; x1; x2; x3] ++ map nbytes xs).
      rewrite firstn_all2, skipn_all2 in C4 by lia.
      split.
      * intros [= E1 E2]. apply C4 in E1 as [E1 _]. apply IH in E2 as [E2 E3]. by rewrite E1, E2.
      * intros [E1 E2]. apply app_inj_1 in E1 as [E1 E3]; [|done].
        f_equal; [apply C4; split; [done|constructor]|apply IH; done].
Qed.
Lemma stream_of_decode n S : well_formed n S -> (stream_of (decode_stream n S) = S <-> canonical n S).
Proof.
  intros (Hb & Hc & Hs). pose proof (decode_length n S Hc) as Hl.
  assert (Hx : Forall is_u32 (decode_stream n S)) by (by apply decode_u32).
  assert (Lc : length (take (nctrl n) S) = nctrl n) by (rewrite take_length; lia).
  pose proof (controls (take (nctrl n) S) (decode_stream n S) ltac:(by apply Forall_take) Hx ltac:(rewrite Hl; done)) as C. rewrite Hl in C.
  change (firstn n (concat (map ctrl_lens (take (nctrl n) S)))) with (stream_lens n S) in C.
  assert (Hp : length S = stream_size n S -> (enc_data (decode_stream n S) = skipn (nctrl n) S /\ map nbytes (decode_stream n S) = stream_lens n S) <-> Forall shortest (cut (stream_lens n S) (skipn (nctrl n) S))).
  { intros E. apply pieces; [by apply Forall_drop|apply stream_lens_range|]. rewrite skipn_length. unfold stream_size in E. lia. }
  unfold stream_of, canonical. split.
  - intros E.
    assert (L : length (enc_ctrls (decode_stream n S)) = nctrl n) by (rewrite enc_ctrls_length, Hl; done).
    assert (E1 : enc_ctrls (decode_stream n S) = take (nctrl n) S).
    { rewrite <- E at 2. rewrite take_app_alt by (rewrite L; done). done. }
    assert (E2 : enc_data (decode_stream n S) = drop (nctrl n) S).
    { rewrite <- E at 2. rewrite drop_app_alt by (rewrite L; done). done. }
    apply C in E1 as [E1 E3].
    assert (Z : length S = stream_size n S).
    { rewrite <- E at 1. rewrite app_length, L. unfold stream_size. rewrite E1, <- enc_data_length. done. }
    split; [done|]. split; [|done]. apply Hp; [done|]. split; [done|by rewrite E1].
  - intros (E1 & E2 & E3). apply Hp in E2 as [E2 E4]; [|done]. rewrite E2.
    assert (E5 : enc_ctrls (decode_stream n S) = take (nctrl n) S) by (apply C; split; [by rewrite E4|done]).
    rewrite E5. apply take_drop.
Qed.

(** ** The library *)
Lemma first_words n out m : fits (mw m) out -> 0 <= n <= s_len out -> words m (first n out) = take (Z.to_nat n) (words m out).
Proof.
  intros (H1 & H2 & H3) Hn. unfold words, contents, first. cbn [s_blk s_off s_len]. rewrite take_take. f_equal. lia.
Qed.
Lemma first_valid n out m : validW m out -> 0 <= n <= s_len out -> validW m (first n out).
Proof. intros [(H1 & H2 & H3) H4] Hn. split; [|exact H4]. unfold fits, first. cbn [s_blk s_off s_len s_cap]. lia. Qed.
(** Reading n numbers from a stream and writing them again gives a stream of at most the same size
    that reads the same; it is the same stream exactly if that was canonical. *)
Theorem C59_rewrite : forall r w n st out B m, typed m -> validB m st -> validW m out -> 0 <= n <= s_len out ->
  well_formed (Z.to_nat n) (bytes m st) -> room r n st m -> mb m !! B = None ->
  exists m1 st' m2, returns (read r n st out) m tt m1 /\ returns (write w B (first n out)) m1 st' m2 /\
    (length (bytes m2 st') <= stream_size (Z.to_nat n) (bytes m st))%nat /\
    decode_stream (Z.to_nat n) (bytes m2 st') = decode_stream (Z.to_nat n) (bytes m st) /\
    (bytes m2 st' = bytes m st <-> canonical (Z.to_nat n) (bytes m st)).
Proof.
  intros r w n st out B m Ht Hs Ho Hn Hwf Hr HB.
  set (D := decode_stream (Z.to_nat n) (bytes m st)).
  assert (L : zlen D = n) by (by apply dec_zlen with (out := out)).
  assert (HD : Forall is_u32 D) by (apply decode_u32, Hwf).
  assert (E : words (rmem m out D) (first n out) = D).
  { rewrite first_words; [by apply rmem_take; [apply Ho|done|lia]| |done].
    apply (rmem_validW m out D out); [apply Ho|destruct Ho as [(? & ? & ?) ?]; lia|done]. }
  assert (V : validW (rmem m out D) (first n out)).
  { apply first_valid; [|done]. apply rmem_validW; [apply Ho|destruct Ho as [(? & ? & ?) ?]; lia|done]. }
  assert (T : typed (rmem m out D)) by (by apply rmem_typed).
  assert (F : mb (rmem m out D) !! B = None) by done.
  exists (rmem m out D). pose proof (proj1 (write_run w _ B _ T V F)) as W. cbv zeta in W. rewrite E in W.
  eexists _, _. split; [by apply read_run|]. split; [exact W|]. rewrite wmem_bytes.
  assert (LD : length D = Z.to_nat n) by (unfold zlen in L; lia).
  split; [|split].
  - destruct Hwf as (Hb & Hc & Hsz). rewrite stream_of_length. unfold D. rewrite decode_length by done. unfold stream_size. apply Nat.add_le_mono_l, forall2_sum.
    unfold decode_stream. apply cut_forall2; [apply stream_lens_range|by apply Forall_drop|]. unfold stream_size in Hsz. rewrite skipn_length. lia.
  - rewrite <- LD. pose proof (decode_written D [] HD) as DW. by rewrite app_nil_r in DW.
  - by apply stream_of_decode.
Qed.
(** Canonical streams are those the writers produce. *)
Theorem C59_written : forall w B inp m, typed m -> validW m inp -> mb m !! B = None ->
  exists st m', returns (write w B inp) m st m' /\ canonical (length (words m inp)) (bytes m' st).
Proof.
  intros w B inp m Ht Hv HB. do 2 eexists. split; [by apply write_run|]. rewrite wmem_bytes.
  set (X := words m inp). assert (HX : Forall is_u32 X) by (by apply typed_words).
  assert (W : well_formed (length X) (stream_of X)).
  { pose proof (written_size X []) as SX. rewrite app_nil_r in SX. split; [|split].
    - unfold stream_of. apply Forall_app. split; [|apply enc_data_bytes]. apply enc_ctrls_bytes.
    - rewrite stream_of_length. lia.
    - rewrite SX. done. }
  apply stream_of_decode; [done|]. pose proof (decode_written X [] HX) as DW. rewrite app_nil_r in DW. by rewrite DW.
Qed.
(** Two canonical streams with the same numbers are the same. *)
Theorem C59_unique : forall n S S', well_formed n S -> well_formed n S' -> canonical n S -> canonical n S' ->
  decode_stream n S = decode_stream n S' -> S = S'.
Proof.
  intros n S S' W W' C C' E. apply stream_of_decode in C; [|done]. apply stream_of_decode in C'; [|done]. congruence.
Qed.
(** A stream with a redundant byte; one with a used slot too many; one with a byte after the end. *)
Example C59_example :
  canonical 5 (stream_of [1; 300; 70000; 5; 16777216]) /\
  ~ canonical 1 [1; 7; 0] /\ stream_of (decode_stream 1 [1; 7; 0]) = [0; 7] /\
  ~ canonical 1 [4; 7] /\ stream_of (decode_stream 1 [4; 7]) = [0; 7] /\
  ~ canonical 1 [0; 7; 9] /\ stream_of (decode_stream 1 [0; 7; 9]) = [0; 7].
Proof.
  assert (B : forall l, Forall is_byte l -> forall n, (nctrl n <= length l)%nat -> (stream_size n l <= length l)%nat -> well_formed n l) by (intros; split; [done|split; done]).
  split; [apply stream_of_decode; [|vm_compute; reflexivity]; apply B; [|vm_compute; lia|vm_compute; lia]; vm_compute; repeat (apply List.Forall_cons; [unfold is_byte; split; [discriminate|reflexivity]|]); apply List.Forall_nil|].
  split; [|split; [vm_compute; reflexivity|split; [|split; [vm_compute; reflexivity|split; [|vm_compute; reflexivity]]]]].
  - intros H. apply stream_of_decode in H; [vm_compute in H; discriminate|]. apply B; [repeat (apply List.Forall_cons; [unfold is_byte; lia|]); apply List.Forall_nil|vm_compute; lia|vm_compute; lia].
  - intros H. apply stream_of_decode in H; [vm_compute in H; discriminate|]. apply B; [repeat (apply List.Forall_cons; [unfold is_byte; lia|]); apply List.Forall_nil|vm_compute; lia|vm_compute; lia].
  - intros H. apply stream_of_decode in H; [vm_compute in H; discriminate|]. apply B; [repeat (apply List.Forall_cons; [unfold is_byte; lia|]); apply List.Forall_nil|vm_compute; lia|vm_compute; lia].
Qed.
(** The stream of C07_example, which is canonical, read and written. *)
Example C59_case :
  let m1 := final (run (read (RFast true) 18 ex7_st ex_out) ex7_mem) in
  let p := run (write WFast 9 (first 18 ex_out)) m1 in
  match result p with
  | Ok st' => length (bytes (final p) st') = 44%nat /\ bytes (final p) st' = bytes ex7_mem ex7_st
  | _ => False
  end.
Proof. vm_compute. split; reflexivity. Qed.
