(** * Rules for the execution of tests: the functions under test *)
From Coq Require Import ZArith String Lia.
From stdpp Require Import prelude gmap list sorting.
From Verif Require Import Spec SpecLemmas Shared Tables TableProof Asm IntOps Encode Decode Writer Reader Util GoSyntax GoInterp AsmText GoProgram GoSource SourceBase.
From Verif Require Import GoSem Api ApiLemmas EncodeProof EncodeProof2 WriterProof WriterProof2 ReaderProof ReaderProof2 Wp UtilSpec UtilProof Total C_Prims C_Group8 C_Compose C_Writer C_Reader C_RoundTrip C_Util C_Simd C_Text TestText TestInterp TestRules.
Local Open Scope string_scope.
Local Open Scope list_scope.
Local Open Scope Z_scope.

(** A call: [q b] is what the function does if make gets the allocation [b]. *)
Lemma passes_executes {A} a user p f vs k m may ws (q : nat -> prog A) out :
  here p f = false -> (exists fn, declared (p_decls (source a)) p f = Some (DFunc fn) /\ conform a p (f_params fn) vs = Some ws) ->
  (forall b, executes a b p f ws (q b) out) ->
  (forall b, mb m !! b = None -> exists v m', returns (q b) m v m' /\ passes may (k (out v)) m') ->
  passes may (invoke a user p f vs k) m.
Proof.
  intros H1 (fn & H2 & H3) H4 H5. rewrite (invoke_call _ _ _ _ _ _ _ _ H1 H2 H3). intros b Hb.
  destruct (H5 b Hb) as (v & m' & R & P). exists (out v), m'. split; [|exact P]. exact (executes_returns _ _ _ _ _ _ _ _ _ _ (H4 b) R).
Qed.
(** Find the declaration of the function called. *)
Ltac decl := match goal with |- exists fn, declared (p_decls (source ?a)) ?p ?f = Some (DFunc fn) /\ _ =>
  let F := eval vm_compute in (fnOf (source a) p f) in
  exists F; split; [vm_compute; reflexivity|reflexivity] end.
Ltac called := eapply passes_executes; [reflexivity|match goal with |- context [source ?a] => first [is_var a; destruct a; decl|decl] end| |].

(** ** Memory *)
Lemma typed_newB m b l : typed m -> Forall is_byte l -> typed (Mem (<[ b := l ]> (mb m)) (mw m)).
Proof.
  intros [H1 H2] H. split; [|exact H2]. cbn. intros c l'. destruct (decide (b = c)) as [->|N];
    [rewrite lookup_insert; by intros [= <-]|rewrite lookup_insert_ne by done; apply H1].
Qed.
Lemma typed_newW m b l : typed m -> Forall is_u32 l -> typed (Mem (mb m) (<[ b := l ]> (mw m))).
Proof.
  intros [H1 H2] H. split; [exact H1|]. cbn. intros c l'. destruct (decide (b = c)) as [->|N];
    [rewrite lookup_insert; by intros [= <-]|rewrite lookup_insert_ne by done; apply H2].
Qed.
Lemma bytes_at m b l n c : mb m !! b = Some l -> bytes m (Slice b 0 n c) = take (Z.to_nat n) l.
Proof. intros H. unfold bytes, contents. cbn [s_blk s_off s_len]. by rewrite H. Qed.
Lemma words_at m b l n c : mw m !! b = Some l -> words m (Slice b 0 n c) = take (Z.to_nat n) l.
Proof. intros H. unfold words, contents. cbn [s_blk s_off s_len]. by rewrite H. Qed.
Lemma validB_at m b l n c : mb m !! b = Some l -> 0 <= n <= c -> c <= Z.of_nat (length l) -> c <= 2 ^ 55 -> validB m (Slice b 0 n c).
Proof. intros H ? ? ?. unfold validB, fits. cbn [s_blk s_off s_len s_cap]. rewrite H. cbn. lia. Qed.
Lemma validW_at m b l n c : mw m !! b = Some l -> 0 <= n <= c -> c <= Z.of_nat (length l) -> c <= 2 ^ 52 -> validW m (Slice b 0 n c).
Proof. intros H ? ? ?. unfold validW, fits. cbn [s_blk s_off s_len s_cap]. rewrite H. cbn. lia. Qed.

(** The parts of C49 used below. *)
Section parts.
Context (a : arch) (b : nat) (w o : slice).
Lemma x_Put4 : executes a b "encode" "Put4uint32Scalar" [VWords w; VBytes o] (Put4uint32Scalar w o) u8v.
Proof. destruct (C49_encode a b w o) as (_ & H & _). exact H. Qed.
Lemma x_Put8 : executes a b "encode" "Put8uint32Scalar" [VWords w; VBytes o] (Put8uint32Scalar w o) u16v.
Proof. destruct (C49_encode a b w o) as (_ & _ & H & _). exact H. Qed.
Lemma x_Put8Fast : executes a b "encode" "Put8uint32Fast" [VWords w; VBytes o] (Put8uint32Fast a w o) u16v.
Proof. destruct (C49_encode a b w o) as (_ & _ & _ & H & _). exact H. Qed.
Lemma x_Put c : executes a b "encode" "PutUint32Scalar" [VWords w; VBytes o; VInt INT c] (PutUint32Scalar w o c) u8v.
Proof. destruct (C49_encode a b w o) as (_ & _ & _ & _ & _ & H & _). apply H. Qed.
Lemma x_Put8Delta p : executes a b "encode" "Put8uint32DeltaScalar" [VWords w; VBytes o; VInt U32 p] (Put8uint32DeltaScalar w o p) u16v.
Proof. destruct (C49_encode a b w o) as (_ & _ & _ & _ & _ & _ & H). apply H. Qed.
Lemma x_Put8DeltaFast p : executes a b "encode" "Put8uint32DeltaFast" [VWords w; VBytes o; VInt U32 p] (Put8uint32DeltaFast a w o p) u16v.
Proof. destruct (C49_encode a b w o) as (_ & _ & _ & _ & _ & _ & H). destruct (H p) as (_ & _ & H' & _). exact H'. Qed.
Lemma x_PutDelta c p : executes a b "encode" "PutUint32DeltaScalar" [VWords w; VBytes o; VInt INT c; VInt U32 p] (PutUint32DeltaScalar w o c p) u8v.
Proof. destruct (C49_encode a b w o) as (_ & _ & _ & _ & _ & _ & H). destruct (H p) as (_ & _ & _ & _ & H'). apply H'. Qed.
Lemma x_Get c n : executes a b "decode" "GetUint32Scalar" [VBytes o; VWords w; VInt U8 c; VInt INT n] (GetUint32Scalar o w c n) int.
Proof. destruct (C49_decode a b o w) as (_ & _ & H & _). apply H. Qed.
Lemma x_Get8 c : executes a b "decode" "Get8uint32Scalar" [VBytes o; VWords w; VInt U16 c] (Get8uint32Scalar o w c) nothing.
Proof. destruct (C49_decode a b o w) as (_ & _ & _ & H & _). apply H. Qed.
Lemma x_Get8Fast c : executes a b "decode" "Get8uint32Fast" [VBytes o; VWords w; VInt U16 c] (Get8uint32Fast a o w c) nothing.
Proof. destruct (C49_decode a b o w) as (_ & _ & _ & _ & H & _). apply H. Qed.
Lemma x_GetDelta c n p : executes a b "decode" "GetUint32DeltaScalar" [VBytes o; VWords w; VInt U8 c; VInt INT n; VInt U32 p] (GetUint32DeltaScalar o w c n p) int.
Proof. destruct (C49_decode a b o w) as (_ & _ & _ & _ & _ & _ & H). destruct (H c p) as (_ & H' & _). apply H'. Qed.
Lemma x_Get8Delta c p : executes a b "decode" "Get8uint32DeltaScalar" [VBytes o; VWords w; VInt U16 c; VInt U32 p] (Get8uint32DeltaScalar o w c p) nothing.
Proof. destruct (C49_decode a b o w) as (_ & _ & _ & _ & _ & _ & H). destruct (H c p) as (_ & _ & H' & _). exact H'. Qed.
Lemma x_Get8DeltaFast c p : executes a b "decode" "Get8uint32DeltaFast" [VBytes o; VWords w; VInt U16 c; VInt U32 p] (Get8uint32DeltaFast a o w c p) nothing.
Proof. destruct (C49_decode a b o w) as (_ & _ & _ & _ & _ & _ & H). destruct (H c p) as (_ & _ & _ & H' & _). exact H'. Qed.
End parts.

(** The implementations by name.  (Written in the direction that is fast to check.) *)
Section names.
Context (i o : slice) (p c : Z) (avx2 : bool).
Lemma put8_s : put8 Scalar None i o = Put8uint32Scalar i o. Proof. reflexivity. Qed.
Lemma put8_sd : put8 Scalar (Some p) i o = Put8uint32DeltaScalar i o p. Proof. reflexivity. Qed.
Lemma put8_f : put8 Simd None i o = Put8uint32Fast (AMD64 true true) i o. Proof. reflexivity. Qed.
Lemma put8_fd : put8 Simd (Some p) i o = Put8uint32DeltaFast (AMD64 true true) i o p. Proof. reflexivity. Qed.
Lemma get8_s : get8 Scalar None i o c = Get8uint32Scalar i o c. Proof. reflexivity. Qed.
Lemma get8_sd : get8 Scalar (Some p) i o c = Get8uint32DeltaScalar i o c p. Proof. reflexivity. Qed.
Lemma get8_f : get8 (Dispatch (AMD64 true avx2)) None i o c = Get8uint32Fast (AMD64 true avx2) i o c. Proof. reflexivity. Qed.
Lemma get8_fd : get8 (Dispatch (AMD64 true avx2)) (Some p) i o c = Get8uint32DeltaFast (AMD64 true avx2) i o c p. Proof. reflexivity. Qed.
Lemma write_s b : write WScalar b i = WriteAllScalar b i. Proof. reflexivity. Qed.
Lemma write_f b : write WFast b i = WriteAllFast (AMD64 true true) b i. Proof. reflexivity. Qed.
Lemma write_sd b : write_delta WScalar b i p = WriteAllDeltaScalar b i p. Proof. reflexivity. Qed.
Lemma write_fd b : write_delta WFast b i p = WriteAllDeltaFast (AMD64 true true) b i p. Proof. reflexivity. Qed.
Lemma read_s : read RScalar c i o = ReadAllScalar c i o. Proof. reflexivity. Qed.
Lemma read_f : read (RFast avx2) c i o = ReadAllFast (AMD64 true avx2) c i o. Proof. reflexivity. Qed.
Lemma read_sd : read_delta RScalar c i o p = ReadAllDeltaScalar c i o p. Proof. reflexivity. Qed.
Lemma read_fd : read_delta (RFast avx2) c i o p = ReadAllDeltaFast (AMD64 true avx2) c i o p. Proof. reflexivity. Qed.
Lemma putv : put_varint None i o = PutVarint i o. Proof. reflexivity. Qed.
Lemma putv_d : put_varint (Some p) i o = PutDeltaVarint i o p. Proof. reflexivity. Qed.
Lemma getv : get_varint true None i o = GetVarint true i o. Proof. reflexivity. Qed.
Lemma getv_d : get_varint true (Some p) i o = GetDeltaVarint true i o p. Proof. reflexivity. Qed.
End names.

Section calls.
Context (may : bool) (m : mem) (Ht : typed m).
Lemma passes_makeB z k : 0 <= z ->
  (forall b, mb m !! b = None -> typed (Mem (<[ b := replicate (Z.to_nat z) 0 ]> (mb m)) (mw m)) ->
    passes may (k (Slice b 0 z z)) (Mem (<[ b := replicate (Z.to_nat z) 0 ]> (mb m)) (mw m))) ->
  passes may (NewB (replicate (Z.to_nat z) 0) k) m.
Proof.
  intros Hz H. apply passes_newB. intros b Hb. rewrite replicate_length, Z2Nat.id by lia. apply H; [done|].
  apply typed_newB; [done|]. apply Forall_replicate. unfold is_byte. lia.
Qed.
Lemma passes_makeW z k : 0 <= z ->
  (forall b, mw m !! b = None -> typed (Mem (mb m) (<[ b := replicate (Z.to_nat z) 0 ]> (mw m))) ->
    passes may (k (Slice b 0 z z)) (Mem (mb m) (<[ b := replicate (Z.to_nat z) 0 ]> (mw m)))) ->
  passes may (NewW (replicate (Z.to_nat z) 0) k) m.
Proof.
  intros Hz H. apply passes_newW. intros b Hb. rewrite replicate_length, Z2Nat.id by lia. apply H; [done|].
  apply typed_newW; [done|]. apply Forall_replicate. unfold is_u32. lia.
Qed.
(** s[:h] *)
Lemma passes_sliceB b n c h k : 0 <= h <= c -> passes may (k [VBytes (Slice b 0 h c)]) m ->
  passes may (Invoke (fun _ _ => bind (slice_to (Slice b 0 n c) h) (fun t => Ret [VBytes t])) k) m.
Proof.
  intros Hh H. unfold slice_to, slice_range. cbn [s_cap s_blk s_off]. rewrite (proj2 (Z.leb_le 0 h)), (proj2 (Z.leb_le h c)) by lia.
  cbn. apply passes_ret. by rewrite !Z.sub_0_r.
Qed.
Lemma passes_sliceW b n c h k : 0 <= h <= c -> passes may (k [VWords (Slice b 0 h c)]) m ->
  passes may (Invoke (fun _ _ => bind (slice_to (Slice b 0 n c) h) (fun t => Ret [VWords t])) k) m.
Proof.
  intros Hh H. unfold slice_to, slice_range. cbn [s_cap s_blk s_off]. rewrite (proj2 (Z.leb_le 0 h)), (proj2 (Z.leb_le h c)) by lia.
  cbn. apply passes_ret. by rewrite !Z.sub_0_r.
Qed.

Context (a : arch) (user : string -> string -> list value -> (list value -> tst) -> tst).
(** ** pkg/shared, GetMode *)
Lemma passes_encMode k : passes may (k (modev (encGetMode a))) m -> passes may (invoke a user "encode" "GetMode" [] k) m.
Proof. intros H. called; [intros b; apply (C49_shared a b)|]. intros b _. do 2 eexists. split; [split; reflexivity|]. exact H. Qed.
Lemma passes_decMode k : passes may (k (modev (decGetMode a))) m -> passes may (invoke a user "decode" "GetMode" [] k) m.
Proof. intros H. called; [intros b; apply (C49_shared a b)|]. intros b _. do 2 eexists. split; [split; reflexivity|]. exact H. Qed.
Lemma passes_size c k : passes may (k [VInt INT (ControlByteToSize c)]) m -> passes may (invoke a user "shared" "ControlByteToSize" [VInt U8 c] k) m.
Proof. intros H. called; [intros b; apply (C49_shared a b)|]. intros b _. do 2 eexists. split; [split; reflexivity|]. exact H. Qed.
Lemma passes_size8 ys k : length ys = 8%nat -> passes may (k [VInt INT (Z.of_nat (length (enc_data ys)))]) m ->
  passes may (invoke a user "shared" "ControlByteToSizeTwo" [VInt U16 (ctrl8_of ys)] k) m.
Proof.
  intros L H. called; [intros b; apply (C49_shared a b); by apply ctrl8_of_u16|].
  intros b _. do 2 eexists. split; [split; reflexivity|]. rewrite size_ctrl8 by done. exact H.
Qed.

(** ** Groups of eight *)
Lemma put8_at e prev i xs o buf : mw m !! i = Some xs -> length xs = 8%nat -> mb m !! o = Some buf -> length buf = 32%nat -> prev_ok prev ->
  exists buf', returns (put8 e prev (Slice i 0 8 8) (Slice o 0 32 32)) m (ctrl8_of (to_code prev xs)) (Mem (<[ o := buf' ]> (mb m)) (mw m)) /\
    typed (Mem (<[ o := buf' ]> (mb m)) (mw m)) /\ length buf' = 32%nat /\
    take (length (enc_data (to_code prev xs))) buf' = enc_data (to_code prev xs).
Proof.
  intros Hi Li Ho Lo Hp. assert (E : take 8 (words m (Slice i 0 8 8)) = xs) by (rewrite (words_at _ _ _ _ _ Hi), take_take; apply firstn_all2; lia).
  destruct (C15_put8 e prev (Slice i 0 8 8) (Slice o 0 32 32) m) as (m' & R & S & L & _);
    [done|eapply validW_at; [done|lia|lia|lia]|eapply validB_at; [done|lia|lia|lia]|done|cbn; lia|cbn; lia|].
  rewrite E in *. set (ys := to_code prev xs) in *. set (D := enc_data ys ++ replicate (pad e ys) 0) in *.
  assert (HD : (length D <= 32)%nat) by (unfold D; rewrite app_length, replicate_length; lia).
  pose proof (stored_bytes _ _ _ _ _ _ _ _ _ R S Ho ltac:(lia) ltac:(lia)) as ->. exists (D ++ drop (length D) buf). split; [exact R|].
  assert (Bb : Forall is_byte buf) by (eapply typed_b; done).
  split; [|split].
  - apply typed_newB; [done|]. apply Forall_app. split; [|by apply Forall_drop]. unfold D. apply Forall_app. split; [apply enc_data_bytes|].
    apply Forall_replicate. unfold is_byte. lia.
  - rewrite app_length, drop_length. lia.
  - unfold D. rewrite <- app_assoc. by rewrite take_app.
Qed.
Lemma get8_at e prev i buf (xs : list Z) o out : mb m !! i = Some buf -> length buf = 32%nat -> mw m !! o = Some out -> length out = 8%nat -> prev_ok prev ->
  Forall is_u32 xs -> length xs = 8%nat -> let D := enc_data (to_code prev xs) in take (length D) buf = D ->
  returns (get8 e prev (Slice i 0 32 32) (Slice o 0 8 8) (ctrl8_of (to_code prev xs))) m tt (Mem (mb m) (<[ o := xs ]> (mw m))) /\
  typed (Mem (mb m) (<[ o := xs ]> (mw m))).
Proof.
  intros Hi Li Ho Lo Hp Hx Lx D HD. set (ys := to_code prev xs) in *. assert (Ly : length ys = 8%nat) by (unfold ys; by rewrite to_code_length).
  pose proof (enc_data_bounds ys) as Hb.
  destruct (C17_get8_inverts e prev xs (Slice i 0 32 32) (Slice o 0 8 8) m) as (m' & R & S);
    [done|eapply validB_at; [done|lia|lia|lia]|eapply validW_at; [done|lia|lia|lia]|done|done|done| | |cbn; lia|].
  - fold ys. fold D. rewrite (bytes_at _ _ _ _ _ Hi), take_take, Nat.min_l by (unfold D; lia). exact HD.
  - fold ys. unfold get_room. cbn [s_off s_blk]. rewrite Hi. cbn [default]. pose proof (looks_12 e (ctrl8_of ys)) as L12.
    unfold looks in *. destruct (get_simd e).
    + pose proof (sum_ctrl_lens_range (ctrl8_of ys mod 256)). unfold from_option, id. lia.
    + rewrite ctrl8_lens_of, <- enc_data_length by done. unfold from_option, id. lia.
  - pose proof (stored_words _ _ _ _ _ _ _ _ _ R S Ho ltac:(lia) ltac:(lia)) as ->.
    assert (E : xs ++ drop (length xs) out = xs) by (rewrite drop_ge by lia; apply app_nil_r). rewrite E in *. split; [exact R|]. by apply typed_newW.
Qed.
(** ** Scalar encoders of up to four numbers *)
Lemma encodes_run p inp n o buf no c D : encodes p inp n (Slice o 0 no no) m c D -> n <= s_len inp -> mb m !! o = Some buf ->
  Z.of_nat (length buf) = no -> Z.of_nat (length D) <= no -> Forall is_byte D ->
  exists buf', returns p m c (Mem (<[ o := buf' ]> (mb m)) (mw m)) /\ typed (Mem (<[ o := buf' ]> (mb m)) (mw m)) /\
    length buf' = length buf /\ take (length D) buf' = D.
Proof.
  intros (H & _) Hn Ho Lo LD HD. destruct H as (m' & R & S); [cbn [s_len]; lia|].
  pose proof (stored_bytes _ _ _ _ _ _ _ _ _ R S Ho ltac:(lia) ltac:(lia)) as ->. exists (D ++ drop (length D) buf). split; [exact R|].
  split; [|split].
  - apply typed_newB; [done|]. apply Forall_app. split; [done|]. apply Forall_drop. eapply typed_b; done.
  - rewrite app_length, drop_length. lia.
  - apply take_app.
Qed.
Section put.
Context (i : nat) (l : list Z) (ci : Z) (o : nat) (buf : list Z).
Context (Hi : mw m !! i = Some l) (Li : ci <= Z.of_nat (length l)) (Mi : ci <= 2 ^ 52) (Ho : mb m !! o = Some buf).
Notation after k ys := (forall buf', length buf' = length buf -> take (length (enc_data ys)) buf' = enc_data ys ->
  typed (Mem (<[ o := buf' ]> (mb m)) (mw m)) -> passes may (k [VInt U8 (ctrl_of ys)]) (Mem (<[ o := buf' ]> (mb m)) (mw m))).
Local Ltac put_call E T H N :=
  called; [intros b; apply E|]; intros b _;
  match type of T with encodes _ _ _ _ _ (ctrl_of ?ys) _ =>
    destruct (encodes_run _ _ _ _ _ _ _ _ T N Ho) as (buf' & R & Ty & Lb' & D'); [lia| |apply enc_data_bytes|];
    [pose proof (enc_data_bounds ys) as Eb|exists (ctrl_of ys); eexists; split; [exact R|]; apply H; assumption] end.
Lemma passes_Put4 k : 4 <= ci -> length buf = 16%nat -> after k (take 4 l) ->
  passes may (invoke a user "encode" "Put4uint32Scalar" [VWords (Slice i 0 4 ci); VBytes (Slice o 0 16 16)] k) m.
Proof.
  intros H4 Lb H. assert (V : validW m (Slice i 0 4 ci)) by (eapply validW_at; [done|lia|lia|lia]). assert (V' : validB m (Slice o 0 16 16)) by (eapply validB_at; [done|lia|lia|lia]).
  pose proof (C21_Put4 (Slice i 0 4 ci) (Slice o 0 16 16) m Ht V V') as T.
  assert (E : take 4 (words m (Slice i 0 4 ci)) = take 4 l) by (by rewrite (words_at _ _ _ _ _ Hi), take_take). rewrite E in T.
  assert (N : 4 <= s_len (Slice i 0 4 ci)) by done. put_call x_Put4 T H N. rewrite take_length in Eb. lia.
Qed.
Section part.
Context (n : Z) (Hn : 1 <= n <= 4) (Hc : n <= ci) (Lb : Z.of_nat (length buf) = 4 * n).
Lemma passes_Put k : after k (take (Z.to_nat n) l) ->
  passes may (invoke a user "encode" "PutUint32Scalar" [VWords (Slice i 0 n ci); VBytes (Slice o 0 (4 * n) (4 * n)); VInt INT n] k) m.
Proof.
  intros H. assert (V : validW m (Slice i 0 n ci)) by (eapply validW_at; [done|lia|lia|lia]). assert (V' : validB m (Slice o 0 (4 * n) (4 * n))) by (eapply validB_at; [done|lia|lia|lia]).
  pose proof (C20_Put (Slice i 0 n ci) (Slice o 0 (4 * n) (4 * n)) m Ht V V' n) as T.
  assert (Ec : clipped n = n) by (unfold clipped; lia). rewrite Ec in T.
  assert (E : take (Z.to_nat n) (words m (Slice i 0 n ci)) = take (Z.to_nat n) l) by (by rewrite (words_at _ _ _ _ _ Hi), take_take, Nat.min_id). rewrite E in T.
  assert (N : n <= s_len (Slice i 0 n ci)) by (cbn; lia). put_call x_Put T H N. rewrite take_length in Eb. lia.
Qed.
Lemma passes_PutDelta k : after k (deltas 0 (take (Z.to_nat n) l)) ->
  passes may (invoke a user "encode" "PutUint32DeltaScalar" [VWords (Slice i 0 n ci); VBytes (Slice o 0 (4 * n) (4 * n)); VInt INT n; VConst 0] k) m.
Proof.
  intros H. assert (V : validW m (Slice i 0 n ci)) by (eapply validW_at; [done|lia|lia|lia]). assert (V' : validB m (Slice o 0 (4 * n) (4 * n))) by (eapply validB_at; [done|lia|lia|lia]).
  pose proof (C20_PutDelta (Slice i 0 n ci) (Slice o 0 (4 * n) (4 * n)) m V V' n 0) as T.
  assert (Ec : clipped n = n) by (unfold clipped; lia). rewrite Ec in T.
  assert (E : take (Z.to_nat n) (words m (Slice i 0 n ci)) = take (Z.to_nat n) l) by (by rewrite (words_at _ _ _ _ _ Hi), take_take, Nat.min_id). rewrite E in T.
  assert (N : n <= s_len (Slice i 0 n ci)) by (cbn; lia). put_call x_PutDelta T H N. rewrite deltas_length, take_length in Eb. lia.
Qed.
End part.
End put.
Section getn.
Context (i : nat) (buf : list Z) (o : nat) (out : list Z) (xs : list Z) (n : Z).
Context (Hi : mb m !! i = Some buf) (Li : Z.of_nat (length buf) = 4 * n) (Ho : mw m !! o = Some out) (Lo : Z.of_nat (length out) = n).
Context (Hx : Forall is_u32 xs) (Lx : Z.of_nat (length xs) = n) (Hn : 1 <= n <= 4).
Notation after k ys := (typed (Mem (mb m) (<[ o := xs ]> (mw m))) -> passes may (k [VInt INT (Z.of_nat (length (enc_data ys)))]) (Mem (mb m) (<[ o := xs ]> (mw m)))).
Notation holds ys := (take (length (enc_data ys)) buf = enc_data ys).
Local Ltac get_call T ys :=
  edestruct T as (m' & R & S);
  [exact Ht|eapply validB_at; [exact Hi|lia|lia|lia]|eapply validW_at; [exact Ho|lia|lia|lia]|exact Hx|lia
  |rewrite (bytes_at _ _ _ _ _ Hi), take_take, Nat.min_l; [assumption|pose proof (enc_data_bounds ys) as Eb; rewrite ?deltas_length in Eb; lia]
  |cbn [s_len]; lia|instantiate (1 := n); unfold clipped; lia|];
  pose proof (stored_words _ _ _ _ _ _ _ _ _ R S Ho ltac:(lia) ltac:(lia)) as ->;
  assert (E : xs ++ drop (length xs) out = xs) by (rewrite drop_ge by lia; apply app_nil_r); rewrite E in *; do 2 eexists; split; [exact R|].
Lemma passes_Get k : holds xs -> after k xs ->
  passes may (invoke a user "decode" "GetUint32Scalar" [VBytes (Slice i 0 (4 * n) (4 * n)); VWords (Slice o 0 n n); VInt U8 (ctrl_of xs); VInt INT n] k) m.
Proof.
  intros D H. called; [intros b; apply x_Get|]. intros b _.
  get_call (C20_Get_inverts xs (Slice i 0 (4 * n) (4 * n)) (Slice o 0 n n) m) xs. apply H. by apply typed_newW.
Qed.
Lemma passes_GetDelta k : holds (deltas 0 xs) -> after k (deltas 0 xs) ->
  passes may (invoke a user "decode" "GetUint32DeltaScalar" [VBytes (Slice i 0 (4 * n) (4 * n)); VWords (Slice o 0 n n); VInt U8 (ctrl_of (deltas 0 xs)); VInt INT n; VConst 0] k) m.
Proof.
  intros D H. called; [intros b; apply x_GetDelta|]. intros b _.
  get_call (C20_GetDelta_inverts 0 xs (Slice i 0 (4 * n) (4 * n)) (Slice o 0 n n) m) (deltas 0 xs). apply H. by apply typed_newW.
Qed.
End getn.
Section put8.
Context (i : nat) (xs : list Z) (o : nat) (buf : list Z).
Context (Hi : mw m !! i = Some xs) (Li : length xs = 8%nat) (Ho : mb m !! o = Some buf) (Lo : length buf = 32%nat).
Notation after k ys := (forall buf', length buf' = 32%nat -> take (length (enc_data ys)) buf' = enc_data ys ->
  typed (Mem (<[ o := buf' ]> (mb m)) (mw m)) -> passes may (k [VInt U16 (ctrl8_of ys)]) (Mem (<[ o := buf' ]> (mb m)) (mw m))).
Local Ltac put8_call e prev E H :=
  called; [intros b; apply E|]; intros b _; destruct (put8_at e prev i xs o buf Hi Li Ho Lo) as (buf' & R & T & L & D);
  [first [exact I | unfold prev_ok, is_u32; lia]|]; rewrite ?put8_s, ?put8_sd, ?put8_f, ?put8_fd in R; exists (ctrl8_of (to_code prev xs)); eexists; split; [exact R|]; apply H; assumption.
Lemma passes_Put8Scalar k : after k xs -> passes may (invoke a user "encode" "Put8uint32Scalar" [VWords (Slice i 0 8 8); VBytes (Slice o 0 32 32)] k) m.
Proof. intros H. put8_call Scalar (@None Z) x_Put8 H. Qed.
Lemma passes_Put8DeltaScalar k : after k (deltas 0 xs) ->
  passes may (invoke a user "encode" "Put8uint32DeltaScalar" [VWords (Slice i 0 8 8); VBytes (Slice o 0 32 32); VConst 0] k) m.
Proof. intros H. put8_call Scalar (Some 0) x_Put8Delta H. Qed.
Lemma passes_Put8Fast k : a = AMD64 true true -> after k xs ->
  passes may (invoke a user "encode" "Put8uint32Fast" [VWords (Slice i 0 8 8); VBytes (Slice o 0 32 32)] k) m.
Proof. intros -> H. put8_call Simd (@None Z) x_Put8Fast H. Qed.
Lemma passes_Put8DeltaFast k : a = AMD64 true true -> after k (deltas 0 xs) ->
  passes may (invoke a user "encode" "Put8uint32DeltaFast" [VWords (Slice i 0 8 8); VBytes (Slice o 0 32 32); VConst 0] k) m.
Proof. intros -> H. put8_call Simd (Some 0) x_Put8DeltaFast H. Qed.
End put8.
Section get8.
Context (i : nat) (buf : list Z) (o : nat) (out : list Z) (xs : list Z).
Context (Hi : mb m !! i = Some buf) (Li : length buf = 32%nat) (Ho : mw m !! o = Some out) (Lo : length out = 8%nat) (Hx : Forall is_u32 xs) (Lx : length xs = 8%nat).
Notation after k := (typed (Mem (mb m) (<[ o := xs ]> (mw m))) -> passes may (k []) (Mem (mb m) (<[ o := xs ]> (mw m)))).
Notation holds ys := (take (length (enc_data ys)) buf = enc_data ys).
Local Ltac get8_call e prev E D H :=
  called; [intros b; apply E|]; intros b _; destruct (get8_at e prev i buf xs o out Hi Li Ho Lo) as (R & T);
  [first [exact I | unfold prev_ok, is_u32; lia]|assumption|assumption|exact D|]; rewrite ?get8_s, ?get8_sd, ?get8_f, ?get8_fd in R; exists tt; eexists; split; [exact R|]; apply H; assumption.
Lemma passes_Get8Scalar k : holds xs -> after k ->
  passes may (invoke a user "decode" "Get8uint32Scalar" [VBytes (Slice i 0 32 32); VWords (Slice o 0 8 8); VInt U16 (ctrl8_of xs)] k) m.
Proof. intros D H. get8_call Scalar (@None Z) x_Get8 D H. Qed.
Lemma passes_Get8DeltaScalar k : holds (deltas 0 xs) -> after k ->
  passes may (invoke a user "decode" "Get8uint32DeltaScalar" [VBytes (Slice i 0 32 32); VWords (Slice o 0 8 8); VInt U16 (ctrl8_of (deltas 0 xs)); VConst 0] k) m.
Proof. intros D H. get8_call Scalar (Some 0) x_Get8Delta D H. Qed.
Lemma passes_Get8Fast avx2 k : a = AMD64 true avx2 -> holds xs -> after k ->
  passes may (invoke a user "decode" "Get8uint32Fast" [VBytes (Slice i 0 32 32); VWords (Slice o 0 8 8); VInt U16 (ctrl8_of xs)] k) m.
Proof. intros -> D H. get8_call (Dispatch (AMD64 true avx2)) (@None Z) x_Get8Fast D H. Qed.
Lemma passes_Get8DeltaFast avx2 k : a = AMD64 true avx2 -> holds (deltas 0 xs) -> after k ->
  passes may (invoke a user "decode" "Get8uint32DeltaFast" [VBytes (Slice i 0 32 32); VWords (Slice o 0 8 8); VInt U16 (ctrl8_of (deltas 0 xs)); VConst 0] k) m.
Proof. intros -> D H. get8_call (Dispatch (AMD64 true avx2)) (Some 0) x_Get8DeltaFast D H. Qed.
End get8.

(** ** pkg/util *)
Section util.
Context (i : nat) (xs : list Z) (n ci : Z).
Context (Hi : mw m !! i = Some xs) (Li : 0 <= n <= ci) (Lc : ci <= Z.of_nat (length xs)) (Mi : ci <= 2 ^ 52).
Notation inp := (Slice i 0 n ci).
Notation nums := (take (Z.to_nat n) xs).
Let Vi : validW m inp.
Proof. by eapply validW_at. Qed.
Let Si : sane inp.
Proof. by eapply validW_sane. Qed.
Let Wi : words m inp = nums.
Proof. by apply words_at. Qed.
Let Ui : Forall is_u32 nums.
Proof. rewrite <- Wi. by apply typed_words. Qed.
Let Ni : Z.of_nat (length nums) = n.
Proof. rewrite take_length. lia. Qed.
Lemma passes_Delta o out k : mw m !! o = Some out -> Z.of_nat (length out) = n -> o <> i ->
  (typed (Mem (mb m) (<[ o := deltas 0 nums ]> (mw m))) -> passes may (k []) (Mem (mb m) (<[ o := deltas 0 nums ]> (mw m)))) ->
  passes may (invoke a user "util" "Delta" [VWords inp; VWords (Slice o 0 n n)] k) m.
Proof.
  intros Ho Lo N H. called; [intros b; apply (proj1 (C49_util a b inp (Slice 0 0 0 0) Si))|]. intros b _.
  destruct (C28_delta_partial inp (Slice o 0 n n) m Ht Vi) as (G & _); [eapply validW_at; [exact Ho|lia|lia|lia]|by left|].
  destruct G as (m' & R & S); [cbn; lia|]. rewrite Wi in S.
  pose proof (stored_words _ _ _ _ _ _ _ _ _ R S Ho ltac:(rewrite deltas_length; lia) ltac:(lia)) as ->.
  assert (E : deltas 0 nums ++ drop (length (deltas 0 nums)) out = deltas 0 nums) by (rewrite drop_ge by (rewrite deltas_length; lia); apply app_nil_r).
  rewrite E in *. do 2 eexists. split; [exact R|]. apply H. apply typed_newW; [done|]. apply deltas_u32.
Qed.
Notation venc ys := (concat (map varint ys)).
Section put.
Context (o : nat) (buf : list Z) (Ho : mb m !! o = Some buf) (Lo : Z.of_nat (length buf) = 5 * n).
Notation after k ys := (forall buf', length buf' = length buf -> take (length (venc ys)) buf' = venc ys -> Nat.le (length (venc ys)) (length buf) ->
  typed (Mem (<[ o := buf' ]> (mb m)) (mw m)) -> passes may (k [VInt INT (Z.of_nat (length (venc ys)))]) (Mem (<[ o := buf' ]> (mb m)) (mw m))).
Lemma put_at prev : let E := venc (coded prev nums) in
  exists buf', returns (put_varint prev inp (Slice o 0 (5 * n) (5 * n))) m (Z.of_nat (length E)) (Mem (<[ o := buf' ]> (mb m)) (mw m)) /\
    length buf' = length buf /\ take (length E) buf' = E /\ (length E <= length buf)%nat /\ typed (Mem (<[ o := buf' ]> (mb m)) (mw m)).
Proof.
  intros E. destruct (C29_put prev inp (Slice o 0 (5 * n) (5 * n)) m Ht Vi) as (G & _ & L & _); [eapply validB_at; [exact Ho|lia|lia|lia]|].
  rewrite Wi in *. fold E in G, L. destruct G as (m' & R & S); [cbn [s_len]; lia|].
  pose proof (stored_bytes _ _ _ _ _ _ _ _ _ R S Ho ltac:(lia) ltac:(lia)) as ->. eexists. split; [exact R|].
  split; [rewrite app_length, drop_length; lia|]. split; [apply take_app|]. split; [lia|]. apply typed_newB; [done|]. apply Forall_app.
  split; [apply varints_bytes, coded_u32, Ui|]. apply Forall_drop. eapply typed_b; done.
Qed.
Lemma passes_PutVarint k : after k nums -> passes may (invoke a user "util" "PutVarint" [VWords inp; VBytes (Slice o 0 (5 * n) (5 * n))] k) m.
Proof.
  intros H. called; [intros b; apply (C49_util a b inp _ Si)|]. intros b _. destruct (put_at None) as (buf' & R & T1 & T2 & T3 & T4).
  rewrite putv in R. do 2 eexists. split; [exact R|]. apply H; assumption.
Qed.
Lemma passes_PutDeltaVarint k : after k (deltas 0 nums) ->
  passes may (invoke a user "util" "PutDeltaVarint" [VWords inp; VBytes (Slice o 0 (5 * n) (5 * n)); VConst 0] k) m.
Proof.
  intros H. called; [intros b; apply (C49_util a b inp _ Si)|]. intros b _. destruct (put_at (Some 0)) as (buf' & R & T1 & T2 & T3 & T4).
  rewrite putv_d in R. do 2 eexists. split; [exact R|]. apply H; assumption.
Qed.
End put.
Section getv.
Context (b0 : nat) (buf : list Z) (nb cb : Z) (Hb : mb m !! b0 = Some buf) (Lb : 0 <= nb <= cb) (Cb : cb <= Z.of_nat (length buf)) (Mb : cb <= 2 ^ 55).
Context (ys : list Z) (Uy : Forall is_u32 ys) (Ly : Z.of_nat (length ys) = n) (En : ci = n) (Lx : Z.of_nat (length xs) = n).
Notation data := (Slice b0 0 nb cb).
Notation after k := (typed (Mem (mb m) (<[ i := ys ]> (mw m))) -> passes may (k [VInt INT nb]) (Mem (mb m) (<[ i := ys ]> (mw m)))).
Lemma get_at prev : take (Z.to_nat nb) buf = venc (coded prev ys) ->
  returns (get_varint true prev data inp) m nb (Mem (mb m) (<[ i := ys ]> (mw m))) /\ typed (Mem (mb m) (<[ i := ys ]> (mw m))).
Proof.
  intros E. destruct (C30_decides true prev data inp m Ht) as (G & _); [by eapply validB_at|exact Vi|].
  destruct (G (coded prev ys)) as (m' & R & S); [rewrite (bytes_at _ _ _ _ _ Hb), E; apply varints_enc; by apply coded_u32|rewrite coded_length; cbn [s_len]; lia|].
  assert (EU : map (fun v => v mod 2 ^ 32) (coded prev ys) = coded prev ys).
  { pose proof (coded_u32 prev ys Uy) as Hc. clear -Hc. induction Hc as [|x c Hx _ IH]; [done|]. cbn [map]. rewrite IH. f_equal. apply Z.mod_small, Hx. }
  rewrite EU, decoded_coded in S by done. pose proof (stored_words _ _ _ _ _ _ _ _ _ R S Hi ltac:(lia) ltac:(lia)) as ->.
  assert (E' : ys ++ drop (length ys) xs = ys) by (rewrite drop_ge by lia; apply app_nil_r). rewrite E' in *. split; [exact R|]. by apply typed_newW.
Qed.
Lemma passes_GetVarint k : take (Z.to_nat nb) buf = venc ys -> after k -> passes may (invoke a user "util" "GetVarint" [VBytes data; VWords inp] k) m.
Proof.
  intros E H. called; [intros b; apply (C49_util a b inp data Si)|]. intros b _. destruct (get_at None E) as (R & T).
  rewrite getv in R. do 2 eexists. split; [exact R|]. by apply H.
Qed.
Lemma passes_GetDeltaVarint k : take (Z.to_nat nb) buf = venc (deltas 0 ys) -> after k ->
  passes may (invoke a user "util" "GetDeltaVarint" [VBytes data; VWords inp; VConst 0] k) m.
Proof.
  intros E H. called; [intros b; apply (C49_util a b inp data Si)|]. intros b _. destruct (get_at (Some 0) E) as (R & T).
  rewrite getv_d in R. do 2 eexists. split; [exact R|]. by apply H.
Qed.
End getv.
End util.

(** ** Streams *)
Section writers.
Context (i : nat) (xs : list Z) (n : Z) (Hi : mw m !! i = Some xs) (Li : Z.of_nat (length xs) = n) (Mi : n <= 2 ^ 52).
Notation inp := (Slice i 0 n n).
Let Vi : validW m inp.
Proof. eapply validW_at; [done|lia|lia|lia]. Qed.
Let Si : sane inp.
Proof. by eapply validW_sane. Qed.
Let Wi : words m inp = xs.
Proof. rewrite (words_at _ _ _ _ _ Hi). apply firstn_all2. lia. Qed.
Notation after k ys := (forall b, mb m !! b = None -> typed (wmem m b ys) -> passes may (k [VBytes (wret b ys)]) (wmem m b ys)).
Lemma passes_WriteAllScalar k : after k xs -> passes may (invoke a user "writer" "WriteAllScalar" [VWords inp] k) m.
Proof.
  intros H. called; [intros b; apply (C49_writer a b inp Si)|]. intros b Hb. destruct (write_run WScalar m b inp Ht Vi Hb) as (R & _).
  rewrite Wi in R. rewrite write_s in R. do 2 eexists. split; [exact R|]. apply H; [done|]. by apply wmem_typed.
Qed.
Lemma passes_WriteAllFast k : a = AMD64 true true -> after k xs -> passes may (invoke a user "writer" "WriteAllFast" [VWords inp] k) m.
Proof.
  intros -> H. called; [intros b; apply (C49_writer (AMD64 true true) b inp Si)|]. intros b Hb. destruct (write_run WFast m b inp Ht Vi Hb) as (R & _).
  rewrite Wi in R. rewrite write_f in R. do 2 eexists. split; [exact R|]. apply H; [done|]. by apply wmem_typed.
Qed.
Lemma passes_WriteAllDeltaScalar k : after k (deltas 0 xs) -> passes may (invoke a user "writer" "WriteAllDeltaScalar" [VWords inp; VConst 0] k) m.
Proof.
  intros H. called; [intros b; apply (C49_writer a b inp Si)|]. intros b Hb. destruct (write_delta_run WScalar m b inp Ht Vi Hb 0) as (R & _); [unfold is_u32; lia|].
  rewrite Wi in R. rewrite write_sd in R. do 2 eexists. split; [exact R|]. apply H; [done|]. by apply wmem_typed.
Qed.
Lemma passes_WriteAllDeltaFast k : a = AMD64 true true -> after k (deltas 0 xs) ->
  passes may (invoke a user "writer" "WriteAllDeltaFast" [VWords inp; VConst 0] k) m.
Proof.
  intros -> H. called; [intros b; apply (C49_writer (AMD64 true true) b inp Si); discriminate|]. intros b Hb. destruct (write_delta_run WFast m b inp Ht Vi Hb 0) as (R & _); [unfold is_u32; lia|].
  rewrite Wi in R. rewrite write_fd in R. do 2 eexists. split; [exact R|]. apply H; [done|]. by apply wmem_typed.
Qed.
End writers.
Section readers.
Context (s : nat) (ys : list Z) (o : nat) (out : list Z) (n : Z).
Context (Hs : mb m !! s = mb (wmem m s ys) !! s) (Ly : Z.of_nat (length ys) = n) (Mn : n <= 2 ^ 52).
Context (Ho : mw m !! o = Some out) (Lo : Z.of_nat (length out) = n).
Notation st := (wret s ys).
Notation outs := (Slice o 0 n n).
Let Vs : validB m st.
Proof. pose proof (wmem_validB m s ys ltac:(unfold zlen; lia)) as [H H']. split; [|exact H']. unfold fits, wret in *. cbn [s_blk s_off s_len s_cap] in *. by rewrite Hs. Qed.
Let Vo : validW m outs.
Proof. eapply validW_at; [done|lia|lia|lia]. Qed.
Let Bs : bytes m st = stream_of ys.
Proof. pose proof (wmem_bytes m s ys) as E. unfold bytes, contents, wret in *. cbn [s_blk s_off s_len] in *. by rewrite Hs. Qed.
Let Wf : well_formed (Z.to_nat n) (bytes m st).
Proof.
  rewrite Bs. assert (E : Z.to_nat n = length ys) by lia. rewrite E. pose proof (written_well_formed ys [] ltac:(constructor)) as G. by rewrite app_nil_r in G.
Qed.
Let Cs : (n + 3) / 4 + 4 * n <= s_cap st.
Proof. cbn. unfold wN. rewrite wcl_eq. unfold zlen. rewrite Ly. lia. Qed.
Lemma read_into {A} (p : prog A) v xs : Z.of_nat (length xs) = n -> Forall is_u32 xs -> returns p m v (rmem m outs xs) ->
  returns p m v (Mem (mb m) (<[ o := xs ]> (mw m))) /\ typed (Mem (mb m) (<[ o := xs ]> (mw m))).
Proof.
  intros L U R. assert (E : rmem m outs xs = Mem (mb m) (<[ o := xs ]> (mw m))).
  { pose proof (rmem_stores m outs xs (proj1 Vo) ltac:(unfold zlen; cbn [s_len]; lia)) as S.
    rewrite (stored_words _ _ _ _ _ _ _ _ _ R S Ho) by lia. do 2 f_equal. rewrite drop_ge by lia. apply app_nil_r. }
  rewrite E in R. split; [exact R|]. by apply typed_newW.
Qed.
Lemma read_at r : Forall is_u32 ys -> returns (read r n st outs) m tt (Mem (mb m) (<[ o := ys ]> (mw m))) /\ typed (Mem (mb m) (<[ o := ys ]> (mw m))).
Proof.
  intros U. destruct (read_cap_run r m st outs n Ht Vs Vo ltac:(cbn [s_len]; lia) Wf Cs) as (R & _).
  assert (E : decode_stream (Z.to_nat n) (bytes m st) = ys).
  { rewrite Bs. assert (E : Z.to_nat n = length ys) by lia. rewrite E. pose proof (decode_written ys []) as G. rewrite app_nil_r in G. by apply G. }
  rewrite E in R. by apply read_into.
Qed.
Lemma read_delta_at r xs : ys = deltas 0 xs -> Forall is_u32 xs ->
  returns (read_delta r n st outs 0) m tt (Mem (mb m) (<[ o := xs ]> (mw m))) /\ typed (Mem (mb m) (<[ o := xs ]> (mw m))).
Proof.
  intros Ey U. destruct (read_delta_cap_run r m st outs n Ht Vs Vo ltac:(cbn [s_len]; lia) Wf Cs 0 ltac:(unfold is_u32; lia)) as (R & _).
  assert (E : decode_stream_delta (Z.to_nat n) (bytes m st) 0 = xs).
  { unfold decode_stream_delta. rewrite Bs. assert (E : Z.to_nat n = length ys) by lia. rewrite E. pose proof (decode_written ys []) as G. rewrite app_nil_r in G.
    rewrite G by (rewrite Ey; apply deltas_u32). rewrite Ey. by apply running_sums_deltas. }
  rewrite E in R. apply read_into; [|done|done]. rewrite <- Ly, Ey, deltas_length. done.
Qed.
Notation after k xs := (typed (Mem (mb m) (<[ o := xs ]> (mw m))) -> passes may (k []) (Mem (mb m) (<[ o := xs ]> (mw m)))).
Notation args := [VInt INT n; VBytes st; VWords outs].
Let Ss : sane st.
Proof. by eapply validB_sane. Qed.
Let So : sane outs.
Proof. by eapply validW_sane. Qed.
Lemma passes_ReadAllScalar k : Forall is_u32 ys -> after k ys -> passes may (invoke a user "reader" "ReadAllScalar" args k) m.
Proof.
  intros U H. called; [intros b; apply (C49_reader a b n st outs Ss So)|]. intros b _. destruct (read_at RScalar U) as (R & T).
  rewrite read_s in R. do 2 eexists. split; [exact R|]. by apply H.
Qed.
Lemma passes_ReadAllFast avx2 k : a = AMD64 true avx2 -> Forall is_u32 ys -> after k ys -> passes may (invoke a user "reader" "ReadAllFast" args k) m.
Proof.
  intros -> U H. called; [intros b; apply (C49_reader (AMD64 true avx2) b n st outs Ss So)|]. intros b _. destruct (read_at (RFast avx2) U) as (R & T).
  rewrite read_f in R. do 2 eexists. split; [exact R|]. by apply H.
Qed.
Lemma passes_ReadAllDeltaScalar xs k : ys = deltas 0 xs -> Forall is_u32 xs -> after k xs ->
  passes may (invoke a user "reader" "ReadAllDeltaScalar" (args ++ [VConst 0]) k) m.
Proof.
  intros E U H. cbn [app]. called; [intros b; apply (C49_reader a b n st outs Ss So)|]. intros b _. destruct (read_delta_at RScalar xs E U) as (R & T).
  rewrite read_sd in R. do 2 eexists. split; [exact R|]. by apply H.
Qed.
Lemma passes_ReadAllDeltaFast xs avx2 k : a = AMD64 true avx2 -> ys = deltas 0 xs -> Forall is_u32 xs -> after k xs ->
  passes may (invoke a user "reader" "ReadAllDeltaFast" (args ++ [VConst 0]) k) m.
Proof.
  intros -> E U H. cbn [app]. called; [intros b; apply (C49_reader (AMD64 true avx2) b n st outs Ss So); discriminate|]. intros b _.
  destruct (read_delta_at (RFast avx2) xs E U) as (R & T).
  rewrite read_fd in R. do 2 eexists. split; [exact R|]. by apply H.
Qed.
End readers.
End calls.
