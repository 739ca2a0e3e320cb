(** * Theorems: what the Go text does (C49)

    The bodies of the Go functions, executed statement by statement as written in the
    source files, do what the model of each function does; so every theorem about the
    model is a theorem about the text. *)
From stdpp Require Import prelude gmap list.
From Coq Require Import ZArith String Lia.
From Verif Require Import SourceText GoSyntax GoInterp AsmText GoProgram GoSource GoRefine Total.
From Verif Require Import SourceEncode SourceDecode SourceWriter SourceReader SourceUtil.
From Verif Require Import Spec GoSem Tables Shared Asm Encode Decode Writer Reader Util IntOps IntSize Api C_RoundTrip.
Local Open Scope string_scope.
Local Open Scope list_scope.
Local Open Scope Z_scope.

(** The outcome of a run, with the returned value shown as a list of Go values. *)
Definition shows {A} (out : A -> list value) (r : res A * mem * list event) : res (list value) * mem * list event :=
  let '(x, m, t) := r in
  (match x with Ok v => Ok (out v) | Panicked => Panicked | Faulted => Faulted | Illegal => Illegal | Diverged => Diverged end, m, t).

(** Executing function [f] of package [pkg] on machine [a] (memory allocated by make has
    the id [blk]), with enough fuel, has the outcome of [p] on every memory: the same
    result or panic, the same memory afterwards, the same memory accesses in the same
    order; and it stops. *)
Definition executes {A} (a : arch) (blk : nat) (pkg f : string) (args : list value) (p : prog A) (out : A -> list value) : Prop :=
  exists N, forall n m, (N <= n)%nat ->
    run (call 64 a (source a) blk n pkg f args) m = shows out (run p m) /\ result (run p m) <> Diverged.

Lemma run_shows {A} (out : A -> list value) p : forall m, run (bind p (fun z => Ret (out z))) m = shows out (run p m).
Proof.
  induction p as [v| | | | |b i k IH|b i v k IH|b i k IH|b i v k IH|b n k IH]; intros m; simpl; try reflexivity.
  - destruct (hget (mb m) b i) as [v|]; [|reflexivity]. rewrite IH. by destruct (run (k v) m) as [[? ?] ?].
  - destruct (hput (mb m) b i v) as [h|]; [|reflexivity]. rewrite IH. by destruct (run k _) as [[? ?] ?].
  - destruct (hget (mw m) b i) as [v|]; [|reflexivity]. rewrite IH. by destruct (run (k v) m) as [[? ?] ?].
  - destruct (hput (mw m) b i v) as [h|]; [|reflexivity]. rewrite IH. by destruct (run k _) as [[? ?] ?].
  - destruct (mb m !! b); [reflexivity|]. rewrite IH. by destruct (run k _) as [[? ?] ?].
Qed.
Lemma executes_ref {A} a blk pkg f args (p : prog A) out N :
  (forall n, (N <= n)%nat -> ref (bind p (fun z => Ret (out z))) (callWith 64 a (source a) (glob 64 a (source a)) blk n pkg f args)) ->
  total tt1 p -> executes a blk pkg f args p out.
Proof.
  intros H T. exists N. intros n m L. pose proof (total_run _ _ T m) as D. split; [|exact D].
  unfold call. rewrite (ref_run _ _ (H n L) m); [apply run_shows|]. rewrite run_shows.
  unfold result, shows in *. destruct (run p m) as [[[]]]; simpl in *; congruence.
Qed.
Definition int (z : Z) : list value := [VInt INT z].
Definition u8v (z : Z) : list value := [VInt U8 z].
Definition u16v (z : Z) : list value := [VInt U16 z].
Definition u32v (z : Z) : list value := [VInt U32 z].
Definition slicev (s : slice) : list value := [VBytes s].
Definition nothing (_ : unit) : list value := [].
Definition modev (x : PerformanceMode) : list value := [VInt INT (match x with Normal => 0 | Fast => 1 end)].

Local Ltac by_ref R T := eapply executes_ref; [intros ? ?; apply R; first [eassumption | lia] | apply T; assumption].
(** The same for a function that computes with ints, which have 64 bits. *)
Local Ltac by_int R T E := eapply executes_ref; [rewrite <- E; intros ? ?; apply R; first [eassumption | lia] | apply T; assumption].

(** ** C49 *)
(** pkg/shared/tables.go, pkg/shared/mode.go, GetMode *)
Theorem C49_shared : forall a blk,
  (forall c, executes a blk "shared" "ControlByteToSize" [VInt U8 c] (Ret (ControlByteToSize c)) int) /\
  (forall c, 0 <= c < 65536 -> executes a blk "shared" "ControlByteToSizeTwo" [VInt U16 c] (Ret (ControlByteToSizeTwo c)) int) /\
  executes a blk "encode" "GetMode" [] (Ret (encGetMode a)) modev /\
  executes a blk "decode" "GetMode" [] (Ret (decGetMode a)) modev.
Proof.
  intros a blk. split; [|split; [|split]].
  - intros c. exists 1%nat. intros n m L. unfold call. rewrite s_ControlByteToSize by lia. split; [reflexivity | discriminate].
  - intros c H. exists 1%nat. intros n m L. unfold call. rewrite s_ControlByteToSizeTwo by lia. split; [reflexivity | discriminate].
  - exists 1%nat. intros n m L. unfold call. rewrite e_encGetMode by lia. split; [destruct (encGetMode a); reflexivity | discriminate].
  - exists 1%nat. intros n m L. unfold call. rewrite e_decGetMode by lia. split; [destruct (decGetMode a); reflexivity | discriminate].
Qed.

(** pkg/encode, for all slices, also too short or overlapping ones *)
Theorem C49_encode : forall a blk inp out,
  (forall x, executes a blk "encode" "encodeOne" [VInt U32 x; VBytes out] (encodeOne x out) int) /\
  executes a blk "encode" "Put4uint32Scalar" [VWords inp; VBytes out] (Put4uint32Scalar inp out) u8v /\
  executes a blk "encode" "Put8uint32Scalar" [VWords inp; VBytes out] (Put8uint32Scalar inp out) u16v /\
  executes a blk "encode" "Put8uint32Fast" [VWords inp; VBytes out] (Put8uint32Fast a inp out) u16v /\
  executes a blk "encode" "Put8uint32" [VWords inp; VBytes out] (Put8uint32 a inp out) u16v /\
  (forall count, executes a blk "encode" "PutUint32Scalar" [VWords inp; VBytes out; VInt INT count] (PutUint32Scalar inp out count) u8v) /\
  forall prev,
  executes a blk "encode" "Put4uint32DeltaScalar" [VWords inp; VBytes out; VInt U32 prev] (Put4uint32DeltaScalar inp out prev) u8v /\
  executes a blk "encode" "Put8uint32DeltaScalar" [VWords inp; VBytes out; VInt U32 prev] (Put8uint32DeltaScalar inp out prev) u16v /\
  executes a blk "encode" "Put8uint32DeltaFast" [VWords inp; VBytes out; VInt U32 prev] (Put8uint32DeltaFast a inp out prev) u16v /\
  executes a blk "encode" "Put8uint32Delta" [VWords inp; VBytes out; VInt U32 prev] (Put8uint32Delta a inp out prev) u16v /\
  forall count, executes a blk "encode" "PutUint32DeltaScalar" [VWords inp; VBytes out; VInt INT count; VInt U32 prev] (PutUint32DeltaScalar inp out count prev) u8v.
Proof.
  intros a blk inp out. split; [|split; [|split; [|split; [|split; [|split]]]]]; [intros x| | | | |intros c|intros p; split; [|split; [|split; [|split]]]; [| | | |intros c]].
  - by_int s_encodeOne total_encodeOne encodeOneN_64.
  - by_int s_Put4uint32Scalar total_Put4uint32Scalar Put4uint32ScalarN_64.
  - by_int s_Put8uint32Scalar total_Put8uint32Scalar Put8uint32ScalarN_64.
  - by_ref s_Put8uint32Fast total_Put8uint32Fast.
  - by_int s_Put8uint32 total_Put8uint32 Put8uint32N_64.
  - by_int s_PutUint32Scalar total_PutUint32Scalar PutUint32ScalarN_64.
  - by_int s_Put4uint32DeltaScalar total_Put4uint32DeltaScalar Put4uint32DeltaScalarN_64.
  - by_int s_Put8uint32DeltaScalar total_Put8uint32DeltaScalar Put8uint32DeltaScalarN_64.
  - by_ref s_Put8uint32DeltaFast total_Put8uint32DeltaFast.
  - by_int s_Put8uint32Delta total_Put8uint32Delta Put8uint32DeltaN_64.
  - by_int s_PutUint32DeltaScalar total_PutUint32DeltaScalar PutUint32DeltaScalarN_64.
Qed.

(** pkg/decode *)
Theorem C49_decode : forall a blk inp out,
  (forall size, executes a blk "decode" "decodeOne" [VBytes inp; VInt U8 size] (decodeOne inp size) u32v) /\
  (forall ctrl, executes a blk "decode" "Get4uint32Scalar" [VBytes inp; VWords out; VInt U8 ctrl] (Get4uint32Scalar inp out ctrl) nothing) /\
  (forall ctrl count, executes a blk "decode" "GetUint32Scalar" [VBytes inp; VWords out; VInt U8 ctrl; VInt INT count] (GetUint32Scalar inp out ctrl count) int) /\
  (forall ctrl, executes a blk "decode" "Get8uint32Scalar" [VBytes inp; VWords out; VInt U16 ctrl] (Get8uint32Scalar inp out ctrl) nothing) /\
  (forall ctrl, executes a blk "decode" "Get8uint32Fast" [VBytes inp; VWords out; VInt U16 ctrl] (Get8uint32Fast a inp out ctrl) nothing) /\
  (forall ctrl, executes a blk "decode" "Get8uint32" [VBytes inp; VWords out; VInt U16 ctrl] (Get8uint32 a inp out ctrl) nothing) /\
  forall ctrl prev,
  executes a blk "decode" "Get4uint32DeltaScalar" [VBytes inp; VWords out; VInt U8 ctrl; VInt U32 prev] (Get4uint32DeltaScalar inp out ctrl prev) nothing /\
  (forall count, executes a blk "decode" "GetUint32DeltaScalar" [VBytes inp; VWords out; VInt U8 ctrl; VInt INT count; VInt U32 prev] (GetUint32DeltaScalar inp out ctrl count prev) int) /\
  executes a blk "decode" "Get8uint32DeltaScalar" [VBytes inp; VWords out; VInt U16 ctrl; VInt U32 prev] (Get8uint32DeltaScalar inp out ctrl prev) nothing /\
  executes a blk "decode" "Get8uint32DeltaFast" [VBytes inp; VWords out; VInt U16 ctrl; VInt U32 prev] (Get8uint32DeltaFast a inp out ctrl prev) nothing /\
  executes a blk "decode" "Get8uint32Delta" [VBytes inp; VWords out; VInt U16 ctrl; VInt U32 prev] (Get8uint32Delta a inp out ctrl prev) nothing.
Proof.
  intros a blk inp out. split; [|split; [|split; [|split; [|split; [|split]]]]]; [intros x|intros x|intros x c|intros x|intros x|intros x|intros x p; split; [|split; [|split; [|split]]]; [|intros c| | |]].
  - by_ref s_decodeOne total_decodeOne.
  - by_ref s_Get4uint32Scalar total_Get4uint32Scalar.
  - by_int s_GetUint32Scalar total_GetUint32Scalar GetUint32ScalarN_64.
  - by_ref s_Get8uint32Scalar total_Get8uint32Scalar.
  - by_ref s_Get8uint32Fast total_Get8uint32Fast.
  - by_ref s_Get8uint32 total_Get8uint32.
  - by_ref s_Get4uint32DeltaScalar total_Get4uint32DeltaScalar.
  - by_int s_GetUint32DeltaScalar total_GetUint32DeltaScalar GetUint32DeltaScalarN_64.
  - by_ref s_Get8uint32DeltaScalar total_Get8uint32DeltaScalar.
  - by_ref s_Get8uint32DeltaFast total_Get8uint32DeltaFast.
  - by_ref s_Get8uint32Delta total_Get8uint32Delta.
Qed.

(** pkg/stream/writer, for every slice that can exist *)
Theorem C49_writer : forall a blk inp, sane inp ->
  executes a blk "writer" "WriteAll" [VWords inp] (WriteAll a blk inp) slicev /\
  executes a blk "writer" "WriteAllScalar" [VWords inp] (WriteAllScalar blk inp) slicev /\
  executes a blk "writer" "WriteAllFast" [VWords inp] (WriteAllFast a blk inp) slicev /\
  forall prev,
  executes a blk "writer" "WriteAllDelta" [VWords inp; VInt U32 prev] (WriteAllDelta a blk inp prev) slicev /\
  executes a blk "writer" "WriteAllDeltaScalar" [VWords inp; VInt U32 prev] (WriteAllDeltaScalar blk inp prev) slicev /\
  (a <> OtherArch -> executes a blk "writer" "WriteAllDeltaFast" [VWords inp; VInt U32 prev] (WriteAllDeltaFast a blk inp prev) slicev).
Proof.
  intros a blk inp H. split; [|split; [|split; [|intros p; split; [|split; [|intros N]]]]].
  - by_int s_WriteAll total_WriteAll WriteAllN_64.
  - by_int s_WriteAllScalar total_WriteAllScalar WriteAllScalarN_64.
  - by_int s_WriteAllFast total_WriteAllFast WriteAllFastN_64.
  - by_int s_WriteAllDelta total_WriteAllDelta WriteAllDeltaN_64.
  - by_int s_WriteAllDeltaScalar total_WriteAllDeltaScalar WriteAllDeltaScalarN_64.
  - destruct a as [b c|]; [|by destruct N]. by_int s_WriteAllDeltaFast_amd64 total_WriteAllDeltaFast WriteAllDeltaFastN_64.
Qed.

(** pkg/stream/reader, for every count, also negative or too large *)
Theorem C49_reader : forall a blk count stream out, sane stream -> sane out ->
  executes a blk "reader" "ReadAll" [VInt INT count; VBytes stream; VWords out] (ReadAll a count stream out) nothing /\
  executes a blk "reader" "ReadAllScalar" [VInt INT count; VBytes stream; VWords out] (ReadAllScalar count stream out) nothing /\
  executes a blk "reader" "ReadAllFast" [VInt INT count; VBytes stream; VWords out] (ReadAllFast a count stream out) nothing /\
  forall prev,
  executes a blk "reader" "ReadAllDelta" [VInt INT count; VBytes stream; VWords out; VInt U32 prev] (ReadAllDelta a count stream out prev) nothing /\
  executes a blk "reader" "ReadAllDeltaScalar" [VInt INT count; VBytes stream; VWords out; VInt U32 prev] (ReadAllDeltaScalar count stream out prev) nothing /\
  (a <> OtherArch -> executes a blk "reader" "ReadAllDeltaFast" [VInt INT count; VBytes stream; VWords out; VInt U32 prev] (ReadAllDeltaFast a count stream out prev) nothing).
Proof.
  intros a blk count stream out H H'. split; [|split; [|split; [|intros p; split; [|split; [|intros N]]]]].
  - by_int s_ReadAll total_ReadAll ReadAllN_64.
  - by_int s_ReadAllScalar total_ReadAllScalar ReadAllScalarN_64.
  - by_int s_ReadAllFast total_ReadAllFast ReadAllFastN_64.
  - by_int s_ReadAllDelta total_ReadAllDelta ReadAllDeltaN_64.
  - by_int s_ReadAllDeltaScalar total_ReadAllDeltaScalar ReadAllDeltaScalarN_64.
  - destruct a as [b c|]; [|by destruct N]. by_int s_ReadAllDeltaFast_amd64 total_ReadAllDeltaFast ReadAllDeltaFastN_64.
Qed.

(** pkg/util; encoding/binary as in Go 1.15.1 and later *)
Theorem C49_util : forall a blk nums buf, sane nums ->
  (forall out, executes a blk "util" "Delta" [VWords nums; VWords out] (Delta nums out) nothing) /\
  executes a blk "util" "PutVarint" [VWords nums; VBytes buf] (PutVarint nums buf) int /\
  executes a blk "util" "GetVarint" [VBytes buf; VWords nums] (GetVarint true buf nums) int /\
  forall prev,
  executes a blk "util" "PutDeltaVarint" [VWords nums; VBytes buf; VInt U32 prev] (PutDeltaVarint nums buf prev) int /\
  executes a blk "util" "GetDeltaVarint" [VBytes buf; VWords nums; VInt U32 prev] (GetDeltaVarint true buf nums prev) int.
Proof.
  intros a blk nums buf H. split; [intros out|split; [|split; [|intros p; split]]].
  - by_int s_Delta total_Delta DeltaN_64.
  - by_int s_PutVarint total_PutVarint PutVarintN_64.
  - by_int s_GetVarint total_GetVarint GetVarintN_64.
  - by_int s_PutDeltaVarint total_PutDeltaVarint PutDeltaVarintN_64.
  - by_int s_GetDeltaVarint total_GetDeltaVarint GetDeltaVarintN_64.
Qed.

(** So C01 and C02 hold of the text: written on machine [a], read on machine [b]. *)
Lemma validW_sane m s : validW m s -> sane s.
Proof. intros [(_ & H & _) H']. unfold sane. lia. Qed.
Lemma validB_sane m s : validB m s -> sane s.
Proof. intros [(_ & H & _) H']. unfold sane. lia. Qed.
Lemma executes_returns {A} a blk pkg f args (p : prog A) out m v m' : executes a blk pkg f args p out -> returns p m v m' ->
  exists N, forall n, (N <= n)%nat -> returns (call 64 a (source a) blk n pkg f args) m (out v) m'.
Proof.
  intros [N H] [R1 R2]. exists N. intros n L. destruct (H n m L) as [E _]. unfold returns. rewrite E.
  unfold result, final, shows in *. destruct (run p m) as [[x y] z]. simpl in *. subst. done.
Qed.
Theorem C49_round_trip : forall a b B inp m, typed m -> validW m inp -> mb m !! B = None ->
  exists st m1, (exists N, forall n, (N <= n)%nat -> returns (call 64 a (source a) B n "writer" "WriteAll" [VWords inp]) m [VBytes st] m1) /\ validB m1 st /\
  forall m2 out, typed m2 -> validB m2 st -> bytes m2 st = bytes m1 st -> validW m2 out -> s_len inp <= s_len out ->
  exists m3, (exists N, forall n, (N <= n)%nat -> returns (call 64 b (source b) 0 n "reader" "ReadAll" [VInt INT (s_len inp); VBytes st; VWords out]) m2 [] m3) /\
    take (Z.to_nat (s_len inp)) (words m3 out) = words m inp.
Proof.
  intros a b B inp m Ht Hv Hf. destruct (C01_round_trip (C_Writer.WDispatch a) (C_Reader.RDispatch b) B inp m Ht Hv Hf) as (st & m1 & R & Hb & H).
  exists st, m1. split; [|split; [exact Hb|]].
  - apply (executes_returns _ _ _ _ _ _ _ _ _ _ (proj1 (C49_writer a B inp (validW_sane _ _ Hv))) R).
  - intros m2 out Ht2 Hb2 E Ho L. destruct (H m2 out Ht2 Hb2 E Ho L) as (m3 & R3 & E3 & _). exists m3. split; [|exact E3].
    apply (executes_returns _ _ _ _ _ _ _ _ _ _ (proj1 (C49_reader b 0%nat (s_len inp) st out (validB_sane _ _ Hb2) (validW_sane _ _ Ho))) R3).
Qed.
Theorem C49_delta_round_trip : forall a b B inp prev m, typed m -> validW m inp -> mb m !! B = None -> is_u32 prev ->
  exists st m1, (exists N, forall n, (N <= n)%nat -> returns (call 64 a (source a) B n "writer" "WriteAllDelta" [VWords inp; VInt U32 prev]) m [VBytes st] m1) /\ validB m1 st /\
  forall m2 out, typed m2 -> validB m2 st -> bytes m2 st = bytes m1 st -> validW m2 out -> s_len inp <= s_len out ->
  exists m3, (exists N, forall n, (N <= n)%nat -> returns (call 64 b (source b) 0 n "reader" "ReadAllDelta" [VInt INT (s_len inp); VBytes st; VWords out; VInt U32 prev]) m2 [] m3) /\
    take (Z.to_nat (s_len inp)) (words m3 out) = words m inp.
Proof.
  intros a b B inp prev m Ht Hv Hf Hp. destruct (C02_delta_round_trip (C_Writer.WDispatch a) (C_Reader.RDispatch b) B inp prev m Ht Hv Hf Hp) as (st & m1 & R & Hb & H).
  exists st, m1. split; [|split; [exact Hb|]].
  - destruct (C49_writer a B inp (validW_sane _ _ Hv)) as (_ & _ & _ & X). apply (executes_returns _ _ _ _ _ _ _ _ _ _ (proj1 (X prev)) R).
  - intros m2 out Ht2 Hb2 E Ho L. destruct (H m2 out Ht2 Hb2 E Ho L) as (m3 & R3 & E3 & _). exists m3. split; [|exact E3].
    destruct (C49_reader b 0%nat (s_len inp) st out (validB_sane _ _ Hb2) (validW_sane _ _ Ho)) as (_ & _ & _ & X).
    apply (executes_returns _ _ _ _ _ _ _ _ _ _ (proj1 (X prev)) R3).
Qed.

(** The text, run: eleven numbers written on a machine with AVX2 and one without AVX, the
    stream read back on the other one. *)
Definition C49_mem : mem := Mem ∅ {[ 1%nat := [1; 300; 70000; 2 ^ 32 - 1; 0; 5; 6; 7; 2 ^ 24; 9; 1000]; 2%nat := replicate 11 0 ]}.
Example C49_example :
  let inp := Slice 1 0 11 11 in let out := Slice 2 0 11 11 in
  let go a b := let! r := call 64 a (source a) 7 60 "writer" "WriteAll" [VWords inp] in
                match r with
                | [VBytes st] => call 64 b (source b) 0 60 "reader" "ReadAll" [VInt INT 11; VBytes st; VWords out]
                | _ => Fault
                end in
  let x := run (go (AMD64 true true) (AMD64 false false)) C49_mem in
  let y := run (go OtherArch (AMD64 true false)) C49_mem in
  result x = Ok [] /\ words (final x) out = words C49_mem inp /\ result y = Ok [] /\ words (final y) out = words C49_mem inp.
Proof. vm_compute. repeat split. Qed.
