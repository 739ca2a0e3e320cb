(** * Theorems: platforms whose int has 32 bits (C51)

    The model has ints of 64 bits.  On the targets where int has 32 bits (386, arm, mips,
    ...; all use the portable files) the Go text does the same for every slice below 2 GiB.
    WriteAll of an input whose stream could not be addressed panics before it touches memory. *)
From stdpp Require Import prelude gmap list.
From Coq Require Import ZArith String Lia.
From Verif Require Import SourceText GoSyntax GoInterp AsmText GoProgram GoSource GoRefine Total.
From Verif Require Import SourceEncode SourceDecode SourceWriter SourceReader SourceUtil.
From Verif Require Import Spec GoSem Tables Shared Asm Encode Decode Writer Reader Util IntOps IntSize IntAlike IntSame Api C_Text.
Local Open Scope string_scope.
Local Open Scope list_scope.
Local Open Scope Z_scope.

(** The text executed with an int of [w] bits, on a memory whose elements are bytes and
    uint32, has the outcome of [p]: result or panic, memory, accesses in order; it stops. *)
Definition executesN {A} (w : Z) (blk : nat) (pkg f : string) (args : list value) (p : prog A) (out : A -> list value) : Prop :=
  exists N, forall n m, (N <= n)%nat -> typed m ->
    run (call w OtherArch (source OtherArch) blk n pkg f args) m = shows out (run p m) /\ result (run p m) <> Diverged.

Lemma typed_words_are (T : Z -> Prop) m : (forall x, is_u32 x -> T x) -> typed m -> wordsAre T m.
Proof. intros E H b l L. pose proof (typed_w _ H _ _ L) as F. eapply Forall_impl; [exact F | exact E]. Qed.
Lemma executesN_alike {A} w blk pkg f args (p q : prog A) out N (T : Z -> Prop) Q :
  (forall n, (N <= n)%nat -> ref (bind q (fun z => Ret (out z))) (callWith w OtherArch (source OtherArch) (glob w OtherArch (source OtherArch)) blk n pkg f args)) ->
  alike T Q q p -> (forall x, is_u32 x -> T x) -> total tt1 p -> executesN w blk pkg f args p out.
Proof.
  intros H S E D. exists N. intros n m L Hm. pose proof (total_run _ _ D m) as Dm. split; [|exact Dm].
  pose proof (alike_run _ _ _ _ S m (typed_words_are T m E Hm)) as R.
  unfold call. rewrite (ref_run _ _ (H n L) m); [by rewrite run_shows, R|]. rewrite run_shows, R.
  unfold result, shows in *. destruct (run p m) as [[[]]]; simpl in *; congruence.
Qed.
Local Ltac by_size R S E D := eapply executesN_alike;
  [intros ? ?; apply R; first [eassumption | lia] | rewrite <- E; apply S; first [assumption | lia] | intros; first [assumption | exact I] | apply D; assumption].
(** Functions without int arithmetic *)
Local Ltac by_plain R D := eapply executesN_alike;
  [intros ? ?; apply R; first [eassumption | lia] | apply al_refl | intros; exact I | apply D; assumption].

(** ** C51 *)
(** pkg/shared and pkg/encode, for all slices and counts *)
Theorem C51_encode : forall w blk inp out, 32 <= w ->
  (forall c, executesN w blk "shared" "ControlByteToSize" [VInt U8 c] (Ret (ControlByteToSize c)) int) /\
  (forall c, 0 <= c < 65536 -> executesN w blk "shared" "ControlByteToSizeTwo" [VInt U16 c] (Ret (ControlByteToSizeTwo c)) int) /\
  (forall x, is_u32 x -> executesN w blk "encode" "encodeOne" [VInt U32 x; VBytes out] (encodeOne x out) int) /\
  executesN w blk "encode" "Put4uint32Scalar" [VWords inp; VBytes out] (Put4uint32Scalar inp out) u8v /\
  executesN w blk "encode" "Put8uint32Scalar" [VWords inp; VBytes out] (Put8uint32Scalar inp out) u16v /\
  executesN w blk "encode" "Put8uint32" [VWords inp; VBytes out] (Put8uint32 OtherArch inp out) u16v /\
  (forall count, executesN w blk "encode" "PutUint32Scalar" [VWords inp; VBytes out; VInt INT count] (PutUint32Scalar inp out count) u8v) /\
  forall prev,
  executesN w blk "encode" "Put4uint32DeltaScalar" [VWords inp; VBytes out; VInt U32 prev] (Put4uint32DeltaScalar inp out prev) u8v /\
  executesN w blk "encode" "Put8uint32DeltaScalar" [VWords inp; VBytes out; VInt U32 prev] (Put8uint32DeltaScalar inp out prev) u16v /\
  executesN w blk "encode" "Put8uint32Delta" [VWords inp; VBytes out; VInt U32 prev] (Put8uint32Delta OtherArch inp out prev) u16v /\
  forall count, executesN w blk "encode" "PutUint32DeltaScalar" [VWords inp; VBytes out; VInt INT count; VInt U32 prev] (PutUint32DeltaScalar inp out count prev) u8v.
Proof.
  intros w blk inp out Hw.
  split; [|split; [|split; [|split; [|split; [|split; [|split]]]]]]; [intros c|intros c Hc|intros x Hx| | | |intros c|intros p; split; [|split; [|split]]; [| | |intros c]].
  - exists 1%nat. intros n m L _. unfold call. rewrite s_ControlByteToSize by lia. split; [reflexivity | discriminate].
  - exists 1%nat. intros n m L _. unfold call. rewrite s_ControlByteToSizeTwo by lia. split; [reflexivity | discriminate].
  - by_size s_encodeOne al_encodeOne encodeOneN_64 total_encodeOne.
  - by_size s_Put4uint32Scalar al_Put4uint32Scalar Put4uint32ScalarN_64 total_Put4uint32Scalar.
  - by_size s_Put8uint32Scalar al_Put8uint32Scalar Put8uint32ScalarN_64 total_Put8uint32Scalar.
  - by_size s_Put8uint32 al_Put8uint32Scalar Put8uint32N_64 total_Put8uint32.
  - by_size s_PutUint32Scalar al_PutUint32Scalar PutUint32ScalarN_64 total_PutUint32Scalar.
  - by_size s_Put4uint32DeltaScalar al_Put4uint32DeltaScalar Put4uint32DeltaScalarN_64 total_Put4uint32DeltaScalar.
  - by_size s_Put8uint32DeltaScalar al_Put8uint32DeltaScalar Put8uint32DeltaScalarN_64 total_Put8uint32DeltaScalar.
  - by_size s_Put8uint32Delta al_Put8uint32DeltaScalar Put8uint32DeltaN_64 total_Put8uint32Delta.
  - by_size s_PutUint32DeltaScalar al_PutUint32DeltaScalar PutUint32DeltaScalarN_64 total_PutUint32DeltaScalar.
Qed.

(** pkg/decode, for all slices, control bytes and counts *)
Theorem C51_decode : forall w blk inp out ctrl prev, 32 <= w ->
  executesN w blk "decode" "decodeOne" [VBytes inp; VInt U8 ctrl] (decodeOne inp ctrl) u32v /\
  executesN w blk "decode" "Get4uint32Scalar" [VBytes inp; VWords out; VInt U8 ctrl] (Get4uint32Scalar inp out ctrl) nothing /\
  executesN w blk "decode" "Get8uint32Scalar" [VBytes inp; VWords out; VInt U16 ctrl] (Get8uint32Scalar inp out ctrl) nothing /\
  executesN w blk "decode" "Get8uint32" [VBytes inp; VWords out; VInt U16 ctrl] (Get8uint32 OtherArch inp out ctrl) nothing /\
  executesN w blk "decode" "Get4uint32DeltaScalar" [VBytes inp; VWords out; VInt U8 ctrl; VInt U32 prev] (Get4uint32DeltaScalar inp out ctrl prev) nothing /\
  executesN w blk "decode" "Get8uint32DeltaScalar" [VBytes inp; VWords out; VInt U16 ctrl; VInt U32 prev] (Get8uint32DeltaScalar inp out ctrl prev) nothing /\
  executesN w blk "decode" "Get8uint32Delta" [VBytes inp; VWords out; VInt U16 ctrl; VInt U32 prev] (Get8uint32Delta OtherArch inp out ctrl prev) nothing /\
  forall count,
  executesN w blk "decode" "GetUint32Scalar" [VBytes inp; VWords out; VInt U8 ctrl; VInt INT count] (GetUint32Scalar inp out ctrl count) int /\
  executesN w blk "decode" "GetUint32DeltaScalar" [VBytes inp; VWords out; VInt U8 ctrl; VInt INT count; VInt U32 prev] (GetUint32DeltaScalar inp out ctrl count prev) int.
Proof.
  intros w blk inp out ctrl prev Hw. split; [|split; [|split; [|split; [|split; [|split; [|split; [|intros count; split]]]]]]].
  - by_plain s_decodeOne total_decodeOne.
  - by_plain s_Get4uint32Scalar total_Get4uint32Scalar.
  - by_plain s_Get8uint32Scalar total_Get8uint32Scalar.
  - by_plain s_Get8uint32 total_Get8uint32.
  - by_plain s_Get4uint32DeltaScalar total_Get4uint32DeltaScalar.
  - by_plain s_Get8uint32DeltaScalar total_Get8uint32DeltaScalar.
  - by_plain s_Get8uint32Delta total_Get8uint32Delta.
  - by_size s_GetUint32Scalar al_GetUint32Scalar GetUint32ScalarN_64 total_GetUint32Scalar.
  - by_size s_GetUint32DeltaScalar al_GetUint32DeltaScalar GetUint32DeltaScalarN_64 total_GetUint32DeltaScalar.
Qed.

(** pkg/stream/writer: inputs of [n] numbers for which 4n bytes of data and the control
    bytes together are below 2 GiB *)
Theorem C51_writer : forall w blk inp, 32 <= w -> sane inp -> 4 * s_len inp + (s_len inp + 3) / 4 < 2 ^ 31 ->
  executesN w blk "writer" "WriteAll" [VWords inp] (WriteAll OtherArch blk inp) slicev /\
  executesN w blk "writer" "WriteAllScalar" [VWords inp] (WriteAllScalar blk inp) slicev /\
  forall prev,
  executesN w blk "writer" "WriteAllDelta" [VWords inp; VInt U32 prev] (WriteAllDelta OtherArch blk inp prev) slicev /\
  executesN w blk "writer" "WriteAllDeltaScalar" [VWords inp; VInt U32 prev] (WriteAllDeltaScalar blk inp prev) slicev.
Proof.
  intros w blk inp Hw Hs H. assert (Hn : writable (s_len inp)) by (split; [destruct Hs; lia | exact H]).
  split; [|split; [|intros p; split]].
  - by_size s_WriteAll al_WriteAllScalar WriteAllN_64 total_WriteAll.
  - by_size s_WriteAllScalar al_WriteAllScalar WriteAllScalarN_64 total_WriteAllScalar.
  - by_size s_WriteAllDelta al_WriteAllDeltaScalar WriteAllDeltaN_64 total_WriteAllDelta.
  - by_size s_WriteAllDeltaScalar al_WriteAllDeltaScalar WriteAllDeltaScalarN_64 total_WriteAllDeltaScalar.
Qed.
Lemma ref_GoPanic {A} (p q : prog A) : ref p q -> p = GoPanic -> q = GoPanic.
Proof. intros H ->. by inversion H. Qed.
(** and longer ones: with 32 bits the length computed for make is negative.  (2^32 bytes of
    stream would belong to 3.8 GiB of input.) *)
Theorem C51_writer_too_long : forall blk inp prev, 0 <= s_len inp -> 2 ^ 31 <= 4 * s_len inp + (s_len inp + 3) / 4 < 2 ^ 32 ->
  exists N, forall n m, (N <= n)%nat ->
    run (call 32 OtherArch (source OtherArch) blk n "writer" "WriteAll" [VWords inp]) m = (Panicked, m, []) /\
    run (call 32 OtherArch (source OtherArch) blk n "writer" "WriteAllDelta" [VWords inp; VInt U32 prev]) m = (Panicked, m, []).
Proof.
  intros blk inp prev H0 H. set (l := s_len inp) in *.
  assert (Hl : l + 3 < 2 ^ 31) by (pose proof (Z.div_mod (l + 3) 4); pose proof (Z.mod_pos_bound (l + 3) 4); lia).
  assert (K : iaddN 32 (idivN 32 (iaddN 32 l 3) 4) (imulN 32 MaxBytesPerNum l) <? 0 = true).
  { apply Z.ltb_lt. rewrite (addN 32 l 3) by lia. assert (Hq : Z.quot (l + 3) 4 = (l + 3) / 4) by (apply Z.quot_div_nonneg; lia).
    pose proof (Z.div_mod (l + 3) 4). pose proof (Z.mod_pos_bound (l + 3) 4).
    rewrite divN by lia. rewrite Hq. unfold iaddN, imulN, MaxBytesPerNum, iN. change (32 - 1) with 31.
    set (c := (l + 3) / 4) in *. clearbody c.
    assert (E : (c + ((4 * l + 2 ^ 31) mod 2 ^ 32 - 2 ^ 31) + 2 ^ 31) mod 2 ^ 32 = 4 * l + c - 2 ^ 31).
    { replace (c + ((4 * l + 2 ^ 31) mod 2 ^ 32 - 2 ^ 31) + 2 ^ 31) with (c + (4 * l + 2 ^ 31) mod 2 ^ 32) by lia.
      rewrite Zplus_mod_idemp_r. symmetry. apply Zmod_unique with 1; lia. }
    rewrite E. lia. }
  exists (wfuel inp + 11)%nat. intros n m L. unfold call. split.
  - assert (E : callWith 32 OtherArch (source OtherArch) (glob 32 OtherArch (source OtherArch)) blk n "writer" "WriteAll" [VWords inp] = GoPanic).
    { apply (ref_GoPanic _ _ (s_WriteAll 32 ltac:(lia) OtherArch blk n inp L)). unfold WriteAllN. simpl encGetMode. cbv iota.
      unfold WriteAllScalarN, makeB. fold l. rewrite K. reflexivity. }
    by rewrite E.
  - assert (E : callWith 32 OtherArch (source OtherArch) (glob 32 OtherArch (source OtherArch)) blk n "writer" "WriteAllDelta" [VWords inp; VInt U32 prev] = GoPanic).
    { apply (ref_GoPanic _ _ (s_WriteAllDelta 32 ltac:(lia) OtherArch blk n inp prev L)). unfold WriteAllDeltaN. simpl encGetMode. cbv iota.
      unfold WriteAllDeltaScalarN, makeB. fold l. rewrite K. reflexivity. }
    by rewrite E.
Qed.

(** pkg/stream/reader: slices up to 2 GiB less 256 bytes, every count of 32 bits but the
    last three *)
Theorem C51_reader : forall w blk count stream out, 32 <= w -> - 2 ^ 31 <= count < 2 ^ 31 - 3 -> addressable stream -> addressable out ->
  executesN w blk "reader" "ReadAll" [VInt INT count; VBytes stream; VWords out] (ReadAll OtherArch count stream out) nothing /\
  executesN w blk "reader" "ReadAllScalar" [VInt INT count; VBytes stream; VWords out] (ReadAllScalar count stream out) nothing /\
  forall prev,
  executesN w blk "reader" "ReadAllDelta" [VInt INT count; VBytes stream; VWords out; VInt U32 prev] (ReadAllDelta OtherArch count stream out prev) nothing /\
  executesN w blk "reader" "ReadAllDeltaScalar" [VInt INT count; VBytes stream; VWords out; VInt U32 prev] (ReadAllDeltaScalar count stream out prev) nothing.
Proof.
  intros w blk count stream out Hw Hc Hs Ho.
  assert (sane stream) by (destruct Hs; split; lia). assert (sane out) by (destruct Ho; split; lia).
  split; [|split; [|intros p; split]].
  - by_size s_ReadAll al_ReadAllScalar ReadAllN_64 total_ReadAll.
  - by_size s_ReadAllScalar al_ReadAllScalar ReadAllScalarN_64 total_ReadAllScalar.
  - by_size s_ReadAllDelta al_ReadAllDeltaScalar ReadAllDeltaN_64 total_ReadAllDelta.
  - by_size s_ReadAllDeltaScalar al_ReadAllDeltaScalar ReadAllDeltaScalarN_64 total_ReadAllDeltaScalar.
Qed.

(** pkg/util *)
Theorem C51_util : forall w blk nums buf, 32 <= w -> addressable nums -> addressable buf ->
  (forall out, executesN w blk "util" "Delta" [VWords nums; VWords out] (Delta nums out) nothing) /\
  executesN w blk "util" "PutVarint" [VWords nums; VBytes buf] (PutVarint nums buf) int /\
  executesN w blk "util" "GetVarint" [VBytes buf; VWords nums] (GetVarint true buf nums) int /\
  forall prev,
  executesN w blk "util" "PutDeltaVarint" [VWords nums; VBytes buf; VInt U32 prev] (PutDeltaVarint nums buf prev) int /\
  executesN w blk "util" "GetDeltaVarint" [VBytes buf; VWords nums; VInt U32 prev] (GetDeltaVarint true buf nums prev) int.
Proof.
  intros w blk nums buf Hw Hn Hb. assert (sane nums) by (destruct Hn; split; lia).
  split; [intros out|split; [|split; [|intros p; split]]].
  - by_size s_Delta al_Delta DeltaN_64 total_Delta.
  - by_size s_PutVarint al_PutVarint PutVarintN_64 total_PutVarint.
  - by_size s_GetVarint al_GetVarint GetVarintN_64 total_GetVarint.
  - by_size s_PutDeltaVarint al_PutDeltaVarint PutDeltaVarintN_64 total_PutDeltaVarint.
  - by_size s_GetDeltaVarint al_GetDeltaVarint GetDeltaVarintN_64 total_GetDeltaVarint.
Qed.

(** The three counts left: count+3 overflows, the first position is negative. *)
Theorem C51_reader_last_counts : forall blk count stream out prev,
  0 <= s_len stream -> 0 <= s_cap out -> 2 ^ 31 - 3 <= count < 2 ^ 31 ->
  exists N, forall n m, (N <= n)%nat ->
    run (call 32 OtherArch (source OtherArch) blk n "reader" "ReadAll" [VInt INT count; VBytes stream; VWords out]) m = (Panicked, m, []) /\
    run (call 32 OtherArch (source OtherArch) blk n "reader" "ReadAllDelta" [VInt INT count; VBytes stream; VWords out; VInt U32 prev]) m = (Panicked, m, []).
Proof.
  intros blk count stream out prev HS HO H. exists (rfuel stream out + 11)%nat. intros n m L. unfold call.
  assert (F : rfuel stream out = S (Z.to_nat (s_len stream + s_cap out + 1))) by (unfold rfuel; lia).
  assert (K : count = 2 ^ 31 - 3 \/ count = 2 ^ 31 - 2 \/ count = 2 ^ 31 - 1) by lia.
  split.
  - assert (E : callWith 32 OtherArch (source OtherArch) (glob 32 OtherArch (source OtherArch)) blk n "reader" "ReadAll" [VInt INT count; VBytes stream; VWords out] = GoPanic).
    { apply (ref_GoPanic _ _ (s_ReadAll 32 ltac:(lia) OtherArch blk n count stream out L)). unfold ReadAllN. simpl decGetMode. cbv iota.
      unfold ReadAllScalarN. rewrite F. destruct K as [-> | [-> | ->]]; reflexivity. }
    by rewrite E.
  - assert (E : callWith 32 OtherArch (source OtherArch) (glob 32 OtherArch (source OtherArch)) blk n "reader" "ReadAllDelta" [VInt INT count; VBytes stream; VWords out; VInt U32 prev] = GoPanic).
    { apply (ref_GoPanic _ _ (s_ReadAllDelta 32 ltac:(lia) OtherArch blk n count stream out prev L)). unfold ReadAllDeltaN. simpl decGetMode. cbv iota.
      unfold ReadAllDeltaScalarN. rewrite F. destruct K as [-> | [-> | ->]]; reflexivity. }
    by rewrite E.
Qed.

(** The text run with 32 bits: eleven numbers written and read back. *)
Example C51_example :
  let inp := Slice 1 0 11 11 in let out := Slice 2 0 11 11 in
  let go := let! r := call 32 OtherArch (source OtherArch) 7 60 "writer" "WriteAll" [VWords inp] in
            match r with
            | [VBytes st] => call 32 OtherArch (source OtherArch) 0 60 "reader" "ReadAll" [VInt INT 11; VBytes st; VWords out]
            | _ => Fault
            end in
  let x := run go C49_mem in
  result x = Ok [] /\ words (final x) out = words C49_mem inp /\ sane inp /\ addressable out /\ typed C49_mem.
Proof.
  split; [vm_compute; reflexivity|]. split; [vm_compute; reflexivity|]. split; [split; simpl; lia|]. split; [split; simpl; lia|].
  split; intros b l E; simpl in E.
  - by rewrite lookup_empty in E.
  - apply lookup_insert_Some in E as [[<- <-] | [_ E]]; [repeat constructor; lia|].
    apply lookup_singleton_Some in E as [<- <-]. repeat constructor; lia.
Qed.
(** 505290271 numbers: with 64 bits the stream is allocated, with 32 bits WriteAll panics. *)
Example C51_boundary : forall m, mb m !! 7%nat = None ->
  let n := 505290271 in let inp := Slice 1 0 n n in
  2 ^ 31 <= 4 * n + (n + 3) / 4 < 2 ^ 32 /\ 4 * (n - 2) + (n - 2 + 3) / 4 < 2 ^ 31 /\
  (exists r, trace (run (WriteAll OtherArch 7 inp) m) = EAlB 7 :: r) /\ run (WriteAllN 32 OtherArch 7 inp) m = (Panicked, m, []).
Proof.
  intros m F n inp. split; [vm_compute; split; [discriminate | reflexivity]|]. split; [vm_compute; reflexivity|].
  split; [|unfold WriteAllN, WriteAllScalarN, makeB; reflexivity].
  unfold WriteAll, WriteAllScalar, makeB. simpl encGetMode. cbv iota zeta.
  change (iadd _ _ <? 0) with false. cbv iota. cbn [bind run]. rewrite F.
  match goal with |- context [run ?p ?m'] => destruct (run p m') as [[r m2] t] end. by exists t.
Qed.
