(** * C54: the tests of the repository pass *)
From Coq Require Import ZArith String Lia.
From stdpp Require Import prelude gmap list sorting.
From Verif Require Import Spec SpecLemmas Shared Tables TableProof Asm IntOps Encode Decode Writer Reader Util GoSyntax GoInterp AsmText GoProgram GoSource SourceBase.
From Verif Require Import Wp GoSem Api UtilSpec WriterProof WriterProof2 C_RoundTrip C_Writer C_Group8 C_Compose C_Text TestText TestInterp TestFiles TestRules TestCalls.
Local Open Scope string_scope.
Local Open Scope list_scope.
Local Open Scope Z_scope.

Lemma runTest_body a n pk ls x f t b : parse ls = Some f -> findTest x f = Some (t, b) ->
  runTest a n pk ls x = sts a pk (user a n 4) n b [(t, handle)] (fun _ => Pass) (fun _ => Pass).
Proof. intros H1 H2. unfold runTest. by rewrite (testBody_parsed _ _ _ H1), H2. Qed.
Ltac start P := erewrite runTest_body; [|exact P|vm_compute; reflexivity].
(** x := util.GenUint32(count), util.SortUint32(x), make([]byte, n), make([]uint32, n): the new
    memory is typed ([T]), and the new allocation differs from the older ones. *)
Ltac distinct H := cbn [mb mw] in H; repeat (apply lookup_insert_None in H; let N := fresh "N" in destruct H as [H N]).
Ltac gen b l Hl Ll T :=
  let Hb := fresh "Hb" in
  rewrite invoke_user by reflexivity; apply passes_GenUint32; [lia|lia|]; intros b l Hb Hl Ll; distinct Hb;
  match goal with |- passes _ _ ?M => assert (T : typed M) by (apply typed_newW; assumption) end.
Ltac find := cbn [mb mw]; repeat first [rewrite lookup_insert|rewrite lookup_insert_ne by congruence]; first [reflexivity|eassumption].
Ltac natural := match goal with |- context [if ?z <? 0 then _ else _] => destruct (Z.ltb_spec z 0); [lia|] end.
Ltac makeB T b T' := let Hb := fresh "Hb" in natural; apply passes_makeB; [exact T|lia|]; intros b Hb T'; distinct Hb.
Ltac makeW T b T' := let Hb := fresh "Hb" in natural; apply passes_makeW; [exact T|lia|]; intros b Hb T'; distinct Hb.
Ltac sorted l s Hs Ls T :=
  rewrite invoke_user by reflexivity; eapply passes_SortUint32; [find|lia|]; 
  match goal with |- passes _ _ ?M => assert (T : typed M) by (apply typed_newW; [assumption|rewrite merge_sort_Permutation; assumption]) end;
  assert (Hs : Forall is_u32 (merge_sort Z.le l)) by (rewrite merge_sort_Permutation; assumption);
  assert (Ls : length (merge_sort Z.le l) = length l) by (apply Permutation_length, merge_sort_Permutation);
  set (s := merge_sort Z.le l) in *; clearbody s.
(** reflect.DeepEqual of whole blocks *)
Ltac sameW := apply passes_equalW; [|tstep; exact I]; erewrite !words_at by find; rewrite ?firstn_all2 by lia; reflexivity.

(** s[i] *)
Lemma passes_getW may m b nn c l i v k : mw m !! b = Some l -> 0 <= i < nn -> nn <= Z.of_nat (length l) -> l !! Z.to_nat i = Some v ->
  passes may (k [VInt U32 v]) m -> passes may (Invoke (fun _ _ => bind (getW (Slice b 0 nn c) i) (fun v => Ret [VInt U32 v])) k) m.
Proof.
  intros Hl Hi Hn Hv H b' _. exists [VInt U32 v], m. split; [|exact H]. exists 0%nat. intros n _.
  unfold getW, check_idx. cbn [s_len s_blk s_off]. rewrite (proj2 (Z.leb_le 0 i)), (proj2 (Z.ltb_lt i nn)) by lia.
  unfold returns, result, final. cbn. unfold hget. rewrite (proj2 (Z.leb_le 0 (0 + i))), Hl by lia. rewrite Z.add_0_l. cbn. rewrite Hv. done.
Qed.
(** append: the new slice is in the old block or in a new one. *)
Lemma passes_append may m b nn c l z k : typed m -> mw m !! b = Some l -> is_u32 z -> 0 <= nn <= c -> c = Z.of_nat (length l) ->
  (forall b' c' l', typed (Mem (mb m) (<[ b' := l' ]> (mw m))) -> nn + 1 <= c' -> c' = Z.of_nat (length l') -> c' <= Z.max c (nn + 1 + 2 ^ 51) ->
    take (Z.to_nat (nn + 1)) l' = take (Z.to_nat nn) l ++ [z] -> passes may (k (Slice b' 0 (nn + 1) c')) (Mem (mb m) (<[ b' := l' ]> (mw m)))) ->
  passes may (AppendW (Slice b 0 nn c) z k) m.
Proof.
  intros T Hl Hz Hn Hc H. assert (Ul : Forall is_u32 l) by (destruct T as [_ T]; by eapply T). cbn [passes s_len s_cap s_blk s_off]. destruct (Z.ltb_spec nn c) as [G|G].
  - unfold overwrite. cbn [s_blk s_off]. rewrite Hl. set (l' := take (Z.to_nat (0 + nn)) l ++ [z] ++ drop (Z.to_nat (0 + nn) + length [z]) l).
    assert (Ll : length l' = length l) by (unfold l'; rewrite !app_length, take_length, drop_length; cbn [length]; lia).
    apply H; [|lia|lia|lia|].
    + apply typed_newW; [exact T|]. unfold l'. apply Forall_app. split; [by apply Forall_take|]. apply Forall_app. split; [by apply Forall_cons|by apply Forall_drop].
    + unfold l'. rewrite app_assoc. rewrite Z.add_0_l. apply take_app_alt. rewrite app_length, take_length. cbn [length]. lia.
  - intros b' spare Hb' Hs. assert (E : words m (Slice b 0 nn c) = l) by (rewrite (words_at _ _ _ _ _ Hl); apply firstn_all2; lia). rewrite E.
    apply H; [|lia| |lia|].
    + apply typed_newW; [exact T|]. apply Forall_app. split; [exact Ul|]. apply Forall_app. split; [by apply Forall_cons|]. apply Forall_replicate. unfold is_u32. lia.
    + rewrite !app_length, replicate_length. cbn [length]. lia.
    + rewrite (firstn_all2 (n := Z.to_nat nn)) by lia. rewrite app_assoc. apply take_app_alt. rewrite app_length. cbn [length]. lia.
Qed.
(** reflect.DeepEqual of the encoded bytes; equal control bytes *)
Ltac sameB Eh E E' := apply passes_equalB; [|tstep; exact I]; erewrite !bytes_at by find; rewrite Eh, Nat2Z.id, E, E'; reflexivity.
Ltac same_ctrl := rewrite Z.eqb_refl; cbv iota.
(** The CPU has the instructions the fast functions need. *)
Definition fast_decode (a : arch) : bool := match a with AMD64 avx _ => avx | OtherArch => false end.
Definition fast_encode (a : arch) : bool := match a with AMD64 avx avx2 => avx && avx2 | OtherArch => false end.
Lemma dec_mode a : modev (decGetMode a) = [VInt INT (if fast_decode a then 1 else 0)].
Proof. by destruct a as [[] ?|]. Qed.
Lemma enc_mode a : modev (encGetMode a) = [VInt INT (if fast_encode a then 1 else 0)].
Proof. by destruct a as [[] []|]. Qed.
Lemma dec_fast a : fast_decode a = true -> exists avx2, a = AMD64 true avx2.
Proof. destruct a as [[] b|]; intros H; [by exists b|discriminate|discriminate]. Qed.
Lemma enc_fast a : fast_encode a = true -> a = AMD64 true true.
Proof. destruct a as [[] []|]; intros H; [done|discriminate|discriminate|discriminate|discriminate]. Qed.

Lemma enc_zeros xs k : enc_data (xs ++ replicate k 0) = enc_data xs ++ replicate k 0.
Proof. rewrite enc_data_app. f_equal. induction k as [|k IH]; [done|]. cbn [replicate]. change (enc_data (0 :: ?r)) with (enc1 0 ++ enc_data r). rewrite IH. reflexivity. Qed.
Lemma deltas_last xs k v : last xs = Some v -> deltas 0 (xs ++ replicate k v) = deltas 0 xs ++ replicate k 0.
Proof.
  intros H. rewrite deltas_app, H. f_equal. cbn [default from_option id]. induction k as [|k IH]; [done|]. cbn [replicate deltas]. rewrite Z.sub_diag. by rewrite IH.
Qed.
Lemma size_short xs c : Z.of_nat (length xs) = c -> 1 <= c <= 4 -> isubN 64 (ControlByteToSize (ctrl_of xs)) (isubN 64 4 c) = Z.of_nat (length (enc_data xs)).
Proof.
  intros L H. rewrite ControlByteToSize_short by lia. pose proof (enc_data_bounds xs). unfold zlen. rewrite (isubN_small 4 c) by lia. rewrite isubN_small by lia. lia.
Qed.
Lemma size_padded xs c : Z.of_nat (length xs) = c -> 1 <= c <= 4 ->
  isubN 64 (ControlByteToSize (ctrl_of (xs ++ replicate (Z.to_nat (4 - c)) 0))) (isubN 64 4 c) = Z.of_nat (length (enc_data xs)).
Proof.
  intros L H. rewrite ControlByteToSize_ctrl_of by (rewrite app_length, replicate_length; lia). pose proof (enc_data_bounds xs). unfold zlen. rewrite enc_zeros, app_length, replicate_length.
  rewrite (isubN_small 4 c) by lia. rewrite isubN_small by lia. lia.
Qed.

(** The block WriteAll allocates. *)
Definition wbuf (X : list Z) : list Z := stream_of X ++ replicate (Z.to_nat (wN X) - length (stream_of X)) 0.
Lemma wmem_eq m B X : wmem m B X = Mem (<[ B := wbuf X ]> (mb m)) (mw m).
Proof. reflexivity. Qed.
Lemma wret_bytes m s X : mb m !! s = Some (wbuf X) -> bytes m (wret s X) = stream_of X.
Proof. intros H. rewrite <- (wmem_bytes m s X). unfold bytes, contents, wret, wmem. cbn [s_blk s_off s_len mb]. by rewrite H, lookup_insert. Qed.
(** The loop of the stream tests: six rounds, each with a random count below 1e6. *)
Ltac rounds T c Hc IH :=
  tstep; tstep; tstep;
  match goal with |- passes ?may (loop _ ?C ?B _ ?K') _ =>
    let L := fresh "L" in
    assert (L : forall f i m, 0 <= i <= 6 -> 6 - i < Z.of_nat f -> typed m -> passes may (loop f C B [("i", VInt INT i); ("t", handle)] K') m);
    [let f := fresh "f" in let i := fresh "i" in let m := fresh "m" in let Hi := fresh "Hi" in let Hf := fresh "Hf" in let E := fresh "E" in let z := fresh "z" in let Hz := fresh "Hz" in
     intros f; induction f as [|f IH]; intros i m Hi Hf T; [lia|]; rewrite loop_S; eval_test; tret;
     destruct (Z.ltb_spec i 6) as [E|E]; [|tstep; tstep; exact I];
     tstep; rewrite invoke_user by reflexivity; apply passes_RandUint32; intros z Hz; eval_test; tret;
     pose proof (Z.mod_pos_bound z 1000000 ltac:(lia)) as Hc; rewrite iN_small by lia; set (c := z mod 1000000) in *; clearbody c
    |apply L; [lia|lia|assumption]] end.
Ltac again IH T := tret; rewrite iaddN_small by lia; tstep; apply IH; [lia|lia|exact T].
Ltac written L T s T' := let Hb := fresh "Hb" in eapply L; [exact T|find|lia|lia|]; intros s Hb T'; distinct Hb; rewrite wmem_eq in T' |- *.
Ltac writtenD T s T' := let Hb := fresh "Hb" in eapply passes_WriteAllScalar; [exact T|find|rewrite deltas_length; lia|lia|]; intros s Hb T'; distinct Hb; rewrite wmem_eq in T' |- *.
Ltac streams := apply passes_equalB; [erewrite !wret_bytes by find; reflexivity|].
Ltac writtenF L A T s T' := let Hb := fresh "Hb" in eapply L; [exact T|find|lia|lia|exact A|]; intros s Hb T'; distinct Hb; rewrite wmem_eq in T' |- *.
Section all.
Context (a : arch) (n : nat) (m : mem) (Ht : typed m).
Lemma t_Get8uint32Scalar : (10 <= n)%nat -> passes false (runTest a n "decode" decode_test_go "TestGet8uint32Scalar") m.
Proof.
  intros Hn. start parse_decode.
  tstep. tstep. gen b l Hl Ll T1. 
  tstep. tret. change (imulN 64 8 4) with 32. makeB T1 i T2.
  tstep. eapply passes_Put8Scalar; [exact T2|find|lia|find|reflexivity|]. intros buf Lb Eb T3.
  tstep. makeW T3 o T4.
  tstep. eapply passes_Get8Scalar; [exact T4|find|exact Lb|find|reflexivity|exact Hl|lia|exact Eb|]. intros T5.
  tstep. sameW.
Qed.
Lemma t_Get8uint32DeltaScalar : (10 <= n)%nat -> passes false (runTest a n "decode" decode_test_go "TestGet8uint32DeltaScalar") m.
Proof.
  intros Hn. start parse_decode.
  tstep. tstep. gen b l Hl Ll T1. tstep. sorted l s Hs Ls T1'.
  tstep. tret. change (imulN 64 8 4) with 32. makeB T1' i T2.
  tstep. eapply passes_Put8DeltaScalar; [exact T2|find|lia|find|reflexivity|]. intros buf Lb Eb T3.
  tstep. makeW T3 o T4.
  tstep. eapply passes_Get8DeltaScalar; [exact T4|find|exact Lb|find|reflexivity|exact Hs|lia|exact Eb|]. intros T5.
  tstep. sameW.
Qed.
Lemma t_Get8uint32Fast : (10 <= n)%nat -> passes (negb (fast_decode a)) (runTest a n "decode" decode_test_go "TestGet8uint32Fast") m.
Proof.
  intros Hn. remember (negb (fast_decode a)) as may eqn:Em. start parse_decode.
  tstep. apply passes_decMode. rewrite dec_mode.
  destruct (fast_decode a) eqn:A; tret; [change (1 =? 0) with false; cbv iota|tstep; apply passes_skip; exact Em]. apply dec_fast in A as [avx2 A].
  tstep. tstep. gen b l Hl Ll T1. 
  tstep. tret. change (imulN 64 8 4) with 32. makeB T1 i T2.
  tstep. eapply passes_Put8Scalar; [exact T2|find|lia|find|reflexivity|]. intros buf Lb Eb T3.
  tstep. makeW T3 o T4.
  tstep. eapply passes_Get8Fast; [exact T4|find|exact Lb|find|reflexivity|exact Hl|lia|exact A|exact Eb|]. intros T5.
  tstep. sameW.
Qed.
Lemma t_Get8uint32DeltaFast : (10 <= n)%nat -> passes (negb (fast_decode a)) (runTest a n "decode" decode_test_go "TestGet8uint32DeltaFast") m.
Proof.
  intros Hn. remember (negb (fast_decode a)) as may eqn:Em. start parse_decode.
  tstep. apply passes_decMode. rewrite dec_mode.
  destruct (fast_decode a) eqn:A; tret; [change (1 =? 0) with false; cbv iota|tstep; apply passes_skip; exact Em]. apply dec_fast in A as [avx2 A].
  tstep. tstep. gen b l Hl Ll T1. tstep. sorted l s Hs Ls T1'.
  tstep. tret. change (imulN 64 8 4) with 32. makeB T1' i T2.
  tstep. eapply passes_Put8DeltaScalar; [exact T2|find|lia|find|reflexivity|]. intros buf Lb Eb T3.
  tstep. makeW T3 o T4.
  tstep. eapply passes_Get8DeltaFast; [exact T4|find|exact Lb|find|reflexivity|exact Hs|lia|exact A|exact Eb|]. intros T5.
  tstep. sameW.
Qed.
Lemma t_GetUint32Scalar : (10 <= n)%nat -> passes false (runTest a n "decode" decode_test_go "TestGetUint32Scalar") m.
Proof.
  intros Hn. start parse_decode.
  tstep. apply passes_draw. intros z Hz. tret. rewrite iaddN_small by lia. set (c := z + 1) in *. assert (Hc : 1 <= c <= 4) by (unfold c; lia). clearbody c. clear z Hz.
  tstep. gen b l Hl Ll T1.
  tstep. tret. rewrite imulN_small by lia. rewrite (Z.mul_comm c 4). makeB T1 i T2.
  tstep. eapply passes_Put; [exact T2|find|lia|lia|find|lia|lia|rewrite replicate_length; lia|]. rewrite firstn_all2 by lia. rewrite replicate_length. intros buf Lb Eb T3.
  tstep. makeW T3 o T4.
  tstep. eapply passes_Get; [exact T4|find|lia|find|rewrite replicate_length; lia|exact Hl|lia|lia|exact Eb|]. intros T5.
  tstep. sameW.
Qed.
Lemma t_GetUint32DeltaScalar : (10 <= n)%nat -> passes false (runTest a n "decode" decode_test_go "TestGetUint32DeltaScalar") m.
Proof.
  intros Hn. start parse_decode.
  tstep. apply passes_draw. intros z Hz. tret. rewrite iaddN_small by lia. set (c := z + 1) in *. assert (Hc : 1 <= c <= 4) by (unfold c; lia). clearbody c. clear z Hz.
  tstep. gen b l Hl Ll T1. tstep. sorted l s Hs Ls T1'.
  tstep. tret. rewrite imulN_small by lia. rewrite (Z.mul_comm c 4). makeB T1' i T2. tstep. makeW T2 d T2'.
  tstep. eapply passes_Delta; [exact T2'|find|lia|lia|lia|find|rewrite replicate_length; lia|congruence|]. rewrite firstn_all2 by lia. intros T2''.
  tstep. eapply passes_Put; [exact T2''|find|rewrite deltas_length; lia|lia|find|lia|lia|rewrite replicate_length; lia|]. rewrite firstn_all2 by (rewrite deltas_length; lia). rewrite replicate_length. intros buf Lb Eb T3.
  tstep. makeW T3 o T4.
  tstep. eapply passes_GetDelta; [exact T4|find|lia|find|rewrite replicate_length; lia|exact Hs|lia|lia|exact Eb|]. intros T5.
  tstep. sameW.
Qed.
Lemma t_Put8uint32Scalar : (10 <= n)%nat -> passes false (runTest a n "encode" encode_test_go "TestPut8uint32Scalar") m.
Proof.
  intros Hn. start parse_encode.
  tstep. change (forallb _ _) with true. cbv iota. apply passes_newW. intros i Hi. change (Z.of_nat (length _)) with 8.
  match goal with |- passes _ _ ?M => assert (T1 : typed M) by (apply typed_newW; [exact Ht|repeat (apply Forall_cons; split; [unfold is_u32; lia|]); apply Forall_nil; exact I]) end.
  tstep. change (forallb _ _) with true. cbv iota. apply passes_newB. intros x Hx. change (Z.of_nat (length _)) with 13. cbn [mb mw] in Hx.
  match goal with |- passes _ _ ?M => assert (T2 : typed M) by (apply typed_newB; [exact T1|repeat (apply Forall_cons; split; [unfold is_byte; lia|]); apply Forall_nil; exact I]) end.
  tstep. tret. change (u16 17153) with 17153. tstep. makeB T2 o T3.
  tstep. eapply passes_Put8Scalar; [exact T3|find|reflexivity|find|reflexivity|]. intros buf Lb Eb T4.
  match goal with |- context [ctrl8_of ?l] => change (ctrl8_of l) with 17153 end.
  tstep. tret. same_ctrl. tstep. apply passes_sliceB; [lia|]. tstep.
  apply passes_equalB; [|tstep; exact I]. erewrite !bytes_at by find. symmetry. exact Eb.
Qed.
Lemma t_Put8uint32DeltaScalar : (10 <= n)%nat -> passes false (runTest a n "encode" encode_test_go "TestPut8uint32DeltaScalar") m.
Proof.
  intros Hn. start parse_encode.
  tstep. tstep. gen b l Hl Ll T1. tstep. sorted l s Hs Ls T1'. tstep. makeW T1' d T2.
  tstep. change (Z.to_nat 8) with 8%nat in *. eapply passes_Delta; [exact T2|find|lia|lia|lia|find|reflexivity|congruence|]. rewrite firstn_all2 by lia. intros T2'.
  tstep. tret. change (imulN 64 8 4) with 32. makeB T2' x T3.
  tstep. eapply passes_Put8Scalar; [exact T3|find|rewrite deltas_length; lia|find|reflexivity|]. intros buf Lb Eb T4.
  tstep. apply passes_size8; [rewrite deltas_length; lia|]. pose proof (enc_data_bounds (deltas 0 s)) as Eb0. rewrite deltas_length in Eb0. remember (Z.of_nat (length (enc_data (deltas 0 s)))) as h eqn:Eh. eval_test. apply passes_sliceB; [lia|].
  tstep. tret. change (imulN 64 8 4) with 32. makeB T4 o T5.
  tstep. eapply passes_Put8DeltaScalar; [exact T5|find|lia|find|reflexivity|]. intros buf' Lb' Eb' T6.
  tstep. tret. same_ctrl. tstep. apply passes_size8; [rewrite deltas_length; lia|]. rewrite <- Eh. eval_test. apply passes_sliceB; [lia|].
  tstep. sameB Eh Eb Eb'.
Qed.
Lemma t_Put8uint32Fast : (10 <= n)%nat -> passes (negb (fast_encode a)) (runTest a n "encode" encode_test_go "TestPut8uint32Fast") m.
Proof.
  intros Hn. remember (negb (fast_encode a)) as may eqn:Em. start parse_encode.
  tstep. apply passes_encMode. rewrite enc_mode.
  destruct (fast_encode a) eqn:A; tret; [change (1 =? 0) with false; cbv iota|tstep; apply passes_skip; exact Em].
  apply enc_fast in A.
  tstep. tstep. gen b l Hl Ll T1. 
  tstep. tret. change (imulN 64 4 8) with 32. makeB T1 x T3.
  tstep. eapply passes_Put8Scalar; [exact T3|find|lia|find|reflexivity|]. intros buf Lb Eb T4.
  tstep. apply passes_size8; [lia|]. pose proof (enc_data_bounds l) as Eb0. remember (Z.of_nat (length (enc_data l))) as h eqn:Eh. eval_test. apply passes_sliceB; [lia|].
  tstep. tret. change (imulN 64 4 8) with 32. makeB T4 o T5.
  tstep. eapply passes_Put8Fast; [exact T5|find|lia|find|reflexivity|exact A|]. intros buf' Lb' Eb' T6.
  tstep. apply passes_size8; [lia|]. rewrite <- Eh. eval_test. apply passes_sliceB; [lia|].
  tstep. tret. same_ctrl. 
  tstep. sameB Eh Eb Eb'.
Qed.
Lemma t_Put8uint32DeltaFast : (10 <= n)%nat -> passes (negb (fast_encode a)) (runTest a n "encode" encode_test_go "TestPut8uint32DeltaFast") m.
Proof.
  intros Hn. remember (negb (fast_encode a)) as may eqn:Em. start parse_encode.
  tstep. apply passes_encMode. rewrite enc_mode.
  destruct (fast_encode a) eqn:A; tret; [change (1 =? 0) with false; cbv iota|tstep; apply passes_skip; exact Em].
  apply enc_fast in A.
  tstep. tstep. gen b l Hl Ll T1. tstep. sorted l s Hs Ls T1'.
  tstep. tret. change (imulN 64 4 8) with 32. makeB T1' x T3.
  tstep. eapply passes_Put8DeltaScalar; [exact T3|find|lia|find|reflexivity|]. intros buf Lb Eb T4.
  tstep. apply passes_size8; [rewrite deltas_length; lia|]. pose proof (enc_data_bounds (deltas 0 s)) as Eb0. rewrite deltas_length in Eb0. remember (Z.of_nat (length (enc_data (deltas 0 s)))) as h eqn:Eh. eval_test. apply passes_sliceB; [lia|].
  tstep. tret. change (imulN 64 4 8) with 32. makeB T4 o T5.
  tstep. eapply passes_Put8DeltaFast; [exact T5|find|lia|find|reflexivity|exact A|]. intros buf' Lb' Eb' T6.
  tstep. apply passes_size8; [rewrite deltas_length; lia|]. rewrite <- Eh. eval_test. apply passes_sliceB; [lia|].
  tstep. tret. same_ctrl. 
  tstep. sameB Eh Eb Eb'.
Qed.
Lemma t_PutUint32Scalar : (10 <= n)%nat -> passes false (runTest a n "encode" encode_test_go "TestPutUint32Scalar") m.
Proof.
  intros Hn. start parse_encode.
  tstep. apply passes_draw. intros z Hz. tret. rewrite iaddN_small by lia. set (c := z + 1) in *. assert (Hc : 1 <= c <= 4) by (unfold c; lia). clearbody c. clear z Hz.
  tstep. gen b xs Hl Ll T1.
  tstep. tret. rewrite isubN_small by lia. tstep.
  match goal with |- passes _ (loop _ ?C ?B _ ?K') _ =>
    assert (L : forall f r b q l m, 0 <= r -> r <= 4 - c -> r < Z.of_nat f -> typed m -> mw m !! b = Some l -> 4 - r <= q -> q = Z.of_nat (length l) -> q <= 4 - r + 2 ^ 51 ->
      take (Z.to_nat (4 - r)) l = xs ++ replicate (Z.to_nat (4 - r - c)) 0 ->
      passes false (loop f C B [("i", VInt INT r); ("nums", VWords (Slice b 0 (4 - r) q)); ("count", VInt INT c); ("t", VStr "testing.T")] K') m) end.
  { clear b T1 Hb m Ht. intros f. induction f as [|f IH]; intros r b q l m Hr1 Hr2 Hf T Hb Hq1 Hq2 Hq3 E; [lia|]. rewrite loop_S. eval_test. tret.
    destruct (Z.ltb_spec 0 r) as [G|G].
    - tstep. change (isU32 0) with true. cbv iota. eapply passes_append; [exact T|exact Hb|unfold is_u32; lia|lia|lia|]. intros b' q' l' T' W1 W2 W3 W4.
      tstep. tret. rewrite isubN_small by lia. tstep. replace (4 - r + 1) with (4 - (r - 1)) by lia. eapply IH; [lia|lia|lia|exact T'|find|lia|lia|lia|].
      replace (4 - (r - 1)) with (4 - r + 1) by lia. rewrite W4, E. rewrite <- app_assoc. f_equal. replace (Z.to_nat (4 - r + 1 - c)) with (Z.to_nat (4 - r - c) + 1)%nat by lia.
      by rewrite replicate_add.
    - assert (r = 0) as -> by lia. clear IH. change (4 - 0) with 4 in *. change (Z.to_nat 4) with 4%nat in *.
      tstep. tret. change (4 * 4) with 16 in *. makeB T o T2.
      tstep. eapply passes_Put4; [exact T2|find|lia|lia|find|lia|reflexivity|]. rewrite E. rewrite replicate_length. intros buf Lb Eb T3.
      tstep. apply passes_size. tstep. tret. rewrite size_padded by lia. pose proof (enc_data_bounds xs) as Bx. remember (Z.of_nat (length (enc_data xs))) as h eqn:Eh.
      tstep. apply passes_sliceB; [lia|]. tstep. tret. rewrite imulN_small by lia. rewrite (Z.mul_comm c 4). makeB T3 o' T4.
      tstep. apply passes_sliceW; [lia|]. assert (Ex : take (Z.to_nat c) l = xs).
      { apply (f_equal (take (Z.to_nat c))) in E. rewrite take_take, Nat.min_l, take_app_alt in E by lia. exact E. }
      eval_test. eapply passes_Put; [exact T4|find|lia|lia|find|lia|lia|rewrite replicate_length; lia|]. rewrite Ex. rewrite replicate_length. intros buf' Lb' Eb' T5.
      tstep. apply passes_size. tstep. tret. rewrite size_short, <- Eh by lia. tstep. apply passes_sliceB; [lia|]. tstep.
      assert (Eb2 : take (length (enc_data xs)) buf = enc_data xs).
      { rewrite enc_zeros in Eb. apply (f_equal (take (length (enc_data xs)))) in Eb. rewrite take_take, Nat.min_l, take_app in Eb by (rewrite app_length; lia). exact Eb. }
      sameB Eh Eb2 Eb'.
  }
  assert (E0 : 4 - (4 - c) = c) by lia. specialize (L n (4 - c) b c xs _ ltac:(lia) ltac:(lia) ltac:(lia) T1). rewrite E0, Z.sub_diag in L. apply L; [find|lia|lia|lia|].
  cbn [Z.to_nat replicate]. rewrite app_nil_r. apply firstn_all2. lia.
Qed.
Lemma t_PutUint32DeltaScalar : (10 <= n)%nat -> passes false (runTest a n "encode" encode_test_go "TestPutUint32DeltaScalar") m.
Proof.
  intros Hn. start parse_encode.
  tstep. apply passes_draw. intros z Hz. tret. rewrite iaddN_small by lia. set (c := z + 1) in *. assert (Hc : 1 <= c <= 4) by (unfold c; lia). clearbody c. clear z Hz.
  tstep. gen b l0 Hl Ll T1'. tstep. sorted l0 xs Hs Ls T1. destruct (lookup_lt_is_Some_2 xs (Z.to_nat (c - 1)) ltac:(lia)) as [v Hv].
  assert (Uv : is_u32 v) by (eapply Forall_lookup_1 in Hs; eassumption). assert (Lc : Z.of_nat (length xs) = c) by lia. clear Hl Ll Ls.
  tstep. tret. rewrite isubN_small by lia. tstep.
  match goal with |- passes _ (loop _ ?C ?B _ ?K') _ =>
    assert (L : forall f r b q l m, 0 <= r -> r <= 4 - c -> r < Z.of_nat f -> typed m -> mw m !! b = Some l -> 4 - r <= q -> q = Z.of_nat (length l) -> q <= 4 - r + 2 ^ 51 ->
      take (Z.to_nat (4 - r)) l = xs ++ replicate (Z.to_nat (4 - r - c)) v ->
      passes false (loop f C B [("i", VInt INT r); ("nums", VWords (Slice b 0 (4 - r) q)); ("count", VInt INT c); ("t", VStr "testing.T")] K') m) end.
  { clear m Ht b l0 Hb T1 T1'. intros f. induction f as [|f IH]; intros r b q l m Hr1 Hr2 Hf T Hb Hq1 Hq2 Hq3 E; [lia|]. rewrite loop_S. eval_test. tret.
    destruct (Z.ltb_spec 0 r) as [G|G].
    - tstep. tret. rewrite isubN_small by lia. eapply passes_getW; [exact Hb|lia|lia| |].
      { assert (Hv' : take (Z.to_nat (4 - r)) l !! Z.to_nat (c - 1) = Some v) by (rewrite E; by apply lookup_app_l_Some). rewrite lookup_take in Hv' by lia. exact Hv'. }
      eval_test. eapply passes_append; [exact T|exact Hb|exact Uv|lia|lia|]. intros b' q' l' T' W1 W2 W3 W4.
      tstep. tret. rewrite isubN_small by lia. tstep. replace (4 - r + 1) with (4 - (r - 1)) by lia. eapply IH; [lia|lia|lia|exact T'|find|lia|lia|lia|].
      replace (4 - (r - 1)) with (4 - r + 1) by lia. rewrite W4, E. rewrite <- app_assoc. f_equal. replace (Z.to_nat (4 - r + 1 - c)) with (Z.to_nat (4 - r - c) + 1)%nat by lia.
      by rewrite replicate_add.
    - assert (r = 0) as -> by lia. clear IH. change (4 - 0) with 4 in *. change (Z.to_nat 4) with 4%nat in *.
      tstep. makeW T d T2. change (Z.to_nat 4) with 4%nat in *. tstep.
      eapply passes_Delta; [exact T2|find|lia|lia|lia|find|reflexivity|congruence|]. change (Z.to_nat 4) with 4%nat. rewrite E. rewrite (deltas_last _ _ v) by (rewrite last_lookup; replace (Init.Nat.pred (length xs)) with (Z.to_nat (c - 1)) by lia; exact Hv).
      intros T3'. tstep. tret. change (4 * 4) with 16 in *. makeB T3' o T4'.
      assert (Ld : length (deltas 0 xs) = length xs) by apply deltas_length.
      tstep. eapply passes_Put4; [exact T4'|find|rewrite app_length, replicate_length; lia|lia|find|lia|reflexivity|]. rewrite firstn_all2 by (rewrite app_length, replicate_length; lia). rewrite replicate_length. intros buf Lb Eb T3.
      tstep. apply passes_size. tstep. tret. rewrite size_padded by lia. pose proof (enc_data_bounds (deltas 0 xs)) as Bx. remember (Z.of_nat (length (enc_data (deltas 0 xs)))) as h eqn:Eh.
      tstep. apply passes_sliceB; [lia|]. tstep. tret. rewrite imulN_small by lia. rewrite (Z.mul_comm c 4). makeB T3 o' T4.
      tstep. apply passes_sliceW; [lia|]. assert (Ex : take (Z.to_nat c) l = xs).
      { apply (f_equal (take (Z.to_nat c))) in E. rewrite take_take, Nat.min_l, take_app_alt in E by lia. exact E. }
      eval_test. eapply passes_PutDelta; [exact T4|find|lia|lia|find|lia|lia|rewrite replicate_length; lia|]. rewrite Ex. rewrite replicate_length. intros buf' Lb' Eb' T5.
      tstep. apply passes_size. tstep. tret. rewrite size_short, <- Eh by lia. tstep. apply passes_sliceB; [lia|]. tstep.
      assert (Eb2 : take (length (enc_data (deltas 0 xs))) buf = enc_data (deltas 0 xs)).
      { rewrite enc_zeros in Eb. apply (f_equal (take (length (enc_data (deltas 0 xs))))) in Eb. rewrite take_take, Nat.min_l, take_app in Eb by (rewrite app_length; lia). exact Eb. }
      sameB Eh Eb2 Eb'.
  }
  assert (E0 : 4 - (4 - c) = c) by lia. specialize (L n (4 - c) b c xs _ ltac:(lia) ltac:(lia) ltac:(lia) T1). rewrite E0, Z.sub_diag in L. apply L; [find|lia|lia|lia|].
  cbn [Z.to_nat replicate]. rewrite app_nil_r. apply firstn_all2. lia.
Qed.
Lemma passes_Get8Scalar13 may m' user i buf o out xs k : typed m' -> mb m' !! i = Some buf -> length buf = 32%nat -> mw m' !! o = Some out -> length out = 8%nat ->
  Forall is_u32 xs -> length (enc_data xs) = 13%nat /\ ctrl8_of xs = 17153 /\ length xs = 8%nat -> take (length (enc_data xs)) buf = enc_data xs ->
  (typed (Mem (mb m') (<[ o := xs ]> (mw m'))) -> passes may (k []) (Mem (mb m') (<[ o := xs ]> (mw m')))) ->
  passes may (invoke a user "decode" "Get8uint32Scalar" [VBytes (Slice i 0 13 32); VWords (Slice o 0 8 8); VInt U16 17153] k) m'.
Proof.
  intros T Hi Li Ho Lo Hx (LD & EC & Lx) HD H. called; [intros b; apply x_Get8|]. intros b _.
  destruct (C17_get8_inverts Scalar None xs (Slice i 0 13 32) (Slice o 0 8 8) m') as (m2 & R & S);
    [done|eapply validB_at; [done|lia|lia|lia]|eapply validW_at; [done|lia|lia|lia]|exact I|done|done| | |cbn; lia|].
  - cbn [to_code]. rewrite (bytes_at _ _ _ _ _ Hi), take_take, Nat.min_l by lia. exact HD.
  - cbn [to_code]. unfold get_room. cbn [s_off s_blk]. rewrite Hi. cbn [default]. unfold looks. cbn [get_simd]. rewrite ctrl8_lens_of, <- enc_data_length by done. unfold from_option, id. lia.
  - cbn [to_code] in R. rewrite EC in R. pose proof (stored_words _ _ _ _ _ _ _ _ _ R S Ho ltac:(lia) ltac:(lia)) as ->.
    assert (E : xs ++ drop (length xs) out = xs) by (rewrite drop_ge by lia; apply app_nil_r). rewrite E in *. rewrite get8_s in R. exists tt. eexists. split; [exact R|]. apply H. by apply typed_newW.
Qed.
Lemma t_RoundTripScalar : (10 <= n)%nat -> passes false (runTest a n "pkg" pkg_test_go "TestRoundTripScalar") m.
Proof.
  intros Hn. assert (Hl : Forall is_u32 [1024; 3; 2; 1; 1073741824; 10; 12; 1024]) by (repeat (apply Forall_cons; split; [unfold is_u32; lia|]); apply Forall_nil; exact I). start parse_pkg.
  tstep. change (forallb _ _) with true. cbv iota. apply passes_newW. intros i Hi. change (Z.of_nat (length _)) with 8.
  match goal with |- passes _ _ ?M => assert (T1 : typed M) by (apply typed_newW; [exact Ht|exact Hl]) end.
  tstep. change (forallb _ _) with true. cbv iota. apply passes_newB. intros x Hx. change (Z.of_nat (length _)) with 13. cbn [mb mw] in Hx.
  match goal with |- passes _ _ ?M => assert (T2 : typed M) by (apply typed_newB; [exact T1|repeat (apply Forall_cons; split; [unfold is_byte; lia|]); apply Forall_nil; exact I]) end.
  tstep. tret. change (u16 17153) with 17153. tstep. makeB T2 o T3.
  tstep. eapply passes_Put8Scalar; [exact T3|find|reflexivity|find|reflexivity|]. intros buf Lb Eb T4.
  match goal with |- context [ctrl8_of ?l] => change (ctrl8_of l) with 17153 end.
  tstep. tret. same_ctrl. tstep. apply passes_sliceB; [lia|]. tstep.
  apply passes_equalB; [erewrite !bytes_at by find; symmetry; exact Eb|].
  tstep. tstep. makeW T4 d T5.
  tstep. eapply passes_Get8Scalar13; [exact T5|find|exact Lb|find|reflexivity|exact Hl|split; [reflexivity|split; reflexivity]|exact Eb|]. intros T6.
  tstep. sameW.
Qed.
Lemma t_VarintRoundTrip : (10 <= n)%nat -> passes false (runTest a n "util" varint_test_go "TestVarintRoundTrip") m.
Proof.
  intros Hn. start parse_varint.
  tstep. tstep. gen b l Hl Ll T1.
  tstep. tret. change (imulN 64 8 5) with (5 * 8). makeB T1 o T2.
  tstep. eapply passes_PutVarint; [exact T2|find|lia|lia|lia|find|reflexivity|]. rewrite firstn_all2 by lia. intros buf Lb Eb Le T3.
  rewrite replicate_length in *. remember (Z.of_nat (length (concat (map varint l)))) as h eqn:Eh.
  tstep. apply passes_sliceB; [lia|]. tstep. makeW T3 x T4.
  tstep. eapply passes_GetVarint; [exact T4|find|lia|rewrite replicate_length; lia|lia|find|lia|lia|lia|exact Hl|lia|reflexivity|rewrite Eh, Nat2Z.id; exact Eb|]. intros T5.
  tstep. tret. same_ctrl. tstep. sameW.
Qed.
Lemma t_VarintDeltaRoundTrip : (10 <= n)%nat -> passes false (runTest a n "util" varint_test_go "TestVarintDeltaRoundTrip") m.
Proof.
  intros Hn. start parse_varint.
  tstep. tstep. gen b l Hl Ll T1. tstep. sorted l s Hs Ls T1'.
  tstep. tret. change (imulN 64 8 5) with (5 * 8). makeB T1' o T2.
  tstep. eapply passes_PutDeltaVarint; [exact T2|find|lia|lia|lia|find|reflexivity|]. rewrite firstn_all2 by lia. intros buf Lb Eb Le T3.
  rewrite replicate_length in *. remember (Z.of_nat (length (concat (map varint (deltas 0 s))))) as h eqn:Eh.
  tstep. apply passes_sliceB; [lia|]. tstep. makeW T3 x T4.
  tstep. eapply passes_GetDeltaVarint; [exact T4|find|lia|rewrite replicate_length; lia|lia|find|lia|lia|lia|exact Hs|lia|reflexivity|rewrite Eh, Nat2Z.id; exact Eb|]. intros T5.
  tstep. tret. same_ctrl. tstep. sameW.
Qed.
Lemma t_ReadAllScalar : (1000001 <= Z.of_nat n) -> passes false (runTest a n "reader" reader_test_go "TestReadAllScalar") m.
Proof.
  intros Hn. start parse_reader. rounds T0 c Hc IH.
  tstep. gen b l Hl Ll T1.
  tstep. written passes_WriteAllScalar T1 s T2.
  tstep. tstep. makeW T2 o T3.
  tstep. eapply passes_ReadAllScalar; [exact T3|rewrite wmem_eq; find|lia|lia|find|rewrite replicate_length; lia|exact Hl|]. intros T4.
  tstep. apply passes_equalW; [erewrite !words_at by find; reflexivity|].
  tstep. again IH T4.
Qed.
Lemma t_ReadAllDeltaScalar : (1000001 <= Z.of_nat n) -> passes false (runTest a n "reader" reader_test_go "TestReadAllDeltaScalar") m.
Proof.
  intros Hn. start parse_reader. rounds T0 c Hc IH.
  tstep. gen b l Hl Ll T1. tstep. sorted l x Hx Lx T1'.
  tstep. written passes_WriteAllDeltaScalar T1' s T2.
  tstep. tstep. makeW T2 o T3.
  tstep. eapply (passes_ReadAllDeltaScalar _ _ T3 _ _ s (deltas 0 x) o _ c); [rewrite wmem_eq; find|rewrite deltas_length; lia|lia|find|rewrite replicate_length; lia|reflexivity|exact Hx|]. intros T4.
  tstep. apply passes_equalW; [erewrite !words_at by find; reflexivity|].
  tstep. again IH T4.
Qed.
Lemma t_ReadAllFast : (1000001 <= Z.of_nat n) -> passes (negb (fast_decode a)) (runTest a n "reader" reader_test_go "TestReadAllFast") m.
Proof.
  intros Hn. remember (negb (fast_decode a)) as may eqn:Em. start parse_reader. tstep. apply passes_decMode. rewrite dec_mode.
  destruct (fast_decode a) eqn:A; tret; [change (1 =? 0) with false; cbv iota|tstep; apply passes_skip; exact Em]. apply dec_fast in A as [avx2 A].
  tstep. rounds T0 c Hc IH.
  tstep. gen b l Hl Ll T1.
  tstep. written passes_WriteAllScalar T1 s T2.
  tstep. tstep. makeW T2 o T3.
  tstep. eapply passes_ReadAllFast; [exact T3|rewrite wmem_eq; find|lia|lia|find|rewrite replicate_length; lia|exact A|exact Hl|]. intros T4.
  tstep. apply passes_equalW; [erewrite !words_at by find; reflexivity|].
  tstep. again IH T4.
Qed.
Lemma t_ReadAllDeltaFast : (1000001 <= Z.of_nat n) -> passes (negb (fast_decode a)) (runTest a n "reader" reader_test_go "TestReadAllDeltaFast") m.
Proof.
  intros Hn. remember (negb (fast_decode a)) as may eqn:Em. start parse_reader. tstep. apply passes_decMode. rewrite dec_mode.
  destruct (fast_decode a) eqn:A; tret; [change (1 =? 0) with false; cbv iota|tstep; apply passes_skip; exact Em]. apply dec_fast in A as [avx2 A].
  tstep. rounds T0 c Hc IH.
  tstep. gen b l Hl Ll T1. tstep. sorted l x Hx Lx T1'.
  tstep. makeW T1' d T2. tstep. eapply passes_Delta; [exact T2|find|lia|lia|lia|find|rewrite replicate_length; lia|congruence|]. rewrite firstn_all2 by lia. intros T3.
  tstep. writtenD T3 s T4.
  tstep. tstep. makeW T4 o T5.
  tstep. eapply (passes_ReadAllDeltaFast _ _ T5 _ _ s (deltas 0 x) o _ c); [rewrite wmem_eq; find|rewrite deltas_length; lia|lia|find|rewrite replicate_length; lia|exact A|reflexivity|exact Hx|]. intros T6.
  tstep. apply passes_equalW; [erewrite !words_at by find; reflexivity|].
  tstep. again IH T6.
Qed.
Lemma t_WriteAllScalar : (1000001 <= Z.of_nat n) -> passes false (runTest a n "writer" writer_test_go "TestWriteAllScalar") m.
Proof.
  intros Hn. start parse_writer. rounds T0 c Hc IH.
  tstep. gen b l Hl Ll T1.
  tstep. written passes_WriteAllScalar T1 s T2.
  tstep. tstep. makeW T2 o T3.
  tstep. eapply passes_ReadAllScalar; [exact T3|rewrite wmem_eq; find|lia|lia|find|rewrite replicate_length; lia|exact Hl|]. intros T4.
  tstep. apply passes_equalW; [erewrite !words_at by find; reflexivity|].
  tstep. again IH T4.
Qed.
Lemma t_WriteAllDeltaScalar : (1000001 <= Z.of_nat n) -> passes false (runTest a n "writer" writer_test_go "TestWriteAllDeltaScalar") m.
Proof.
  intros Hn. start parse_writer. rounds T0 c Hc IH.
  tstep. gen b l Hl Ll T1. tstep. sorted l x Hx Lx T1'.
  tstep. makeW T1' d T2. tstep. eapply passes_Delta; [exact T2|find|lia|lia|lia|find|rewrite replicate_length; lia|congruence|]. rewrite firstn_all2 by lia. intros T3.
  tstep. writtenD T3 s T4.
  tstep. tstep. written passes_WriteAllDeltaScalar T4 u T5.
  tstep. streams. tstep. again IH T5.
Qed.
Lemma t_WriteAllFast : (1000001 <= Z.of_nat n) -> passes (negb (fast_encode a)) (runTest a n "writer" writer_test_go "TestWriteAllFast") m.
Proof.
  intros Hn. remember (negb (fast_encode a)) as may eqn:Em. start parse_writer. tstep. apply passes_encMode. rewrite enc_mode.
  destruct (fast_encode a) eqn:A; tret; [change (1 =? 0) with false; cbv iota|tstep; apply passes_skip; exact Em]. apply enc_fast in A.
  tstep. rounds T0 c Hc IH.
  tstep. gen b l Hl Ll T1.
  tstep. written passes_WriteAllScalar T1 s T2.
  tstep. tstep. writtenF passes_WriteAllFast A T2 u T3.
  tstep. streams. tstep. again IH T3.
Qed.
Lemma t_WriteAllDeltaFast : (1000001 <= Z.of_nat n) -> passes (negb (fast_encode a)) (runTest a n "writer" writer_test_go "TestWriteAllDeltaFast") m.
Proof.
  intros Hn. remember (negb (fast_encode a)) as may eqn:Em. start parse_writer. tstep. apply passes_encMode. rewrite enc_mode.
  destruct (fast_encode a) eqn:A; tret; [change (1 =? 0) with false; cbv iota|tstep; apply passes_skip; exact Em]. apply enc_fast in A.
  tstep. rounds T0 c Hc IH.
  tstep. gen b l Hl Ll T1. tstep. sorted l x Hx Lx T1'.
  tstep. makeW T1' d T2. tstep. eapply passes_Delta; [exact T2|find|lia|lia|lia|find|rewrite replicate_length; lia|congruence|]. rewrite firstn_all2 by lia. intros T3.
  tstep. writtenD T3 s T4.
  tstep. tstep. writtenF passes_WriteAllDeltaFast A T4 u T5.
  tstep. streams. tstep. again IH T5.
Qed.
End all.

(** ** C54 *)
(** What a test asks of the CPU: the tests of the fast functions skip themselves if it has
    not got the instructions. *)
Inductive needs := NoneNeeded | FastEncode | FastDecode.
Definition available (a : arch) (d : needs) : bool :=
  match d with NoneNeeded => true | FastEncode => fast_encode a | FastDecode => fast_decode a end.
(** Package, test file, test function. *)
Definition suite : list (string * list string * string * needs) :=
  [("pkg", pkg_test_go, "TestRoundTripScalar", NoneNeeded);
   ("encode", encode_test_go, "TestPut8uint32Scalar", NoneNeeded);
   ("encode", encode_test_go, "TestPut8uint32DeltaScalar", NoneNeeded);
   ("encode", encode_test_go, "TestPut8uint32Fast", FastEncode);
   ("encode", encode_test_go, "TestPut8uint32DeltaFast", FastEncode);
   ("encode", encode_test_go, "TestPutUint32Scalar", NoneNeeded);
   ("encode", encode_test_go, "TestPutUint32DeltaScalar", NoneNeeded);
   ("decode", decode_test_go, "TestGet8uint32Scalar", NoneNeeded);
   ("decode", decode_test_go, "TestGet8uint32DeltaScalar", NoneNeeded);
   ("decode", decode_test_go, "TestGet8uint32Fast", FastDecode);
   ("decode", decode_test_go, "TestGet8uint32DeltaFast", FastDecode);
   ("decode", decode_test_go, "TestGetUint32Scalar", NoneNeeded);
   ("decode", decode_test_go, "TestGetUint32DeltaScalar", NoneNeeded);
   ("writer", writer_test_go, "TestWriteAllScalar", NoneNeeded);
   ("writer", writer_test_go, "TestWriteAllDeltaScalar", NoneNeeded);
   ("writer", writer_test_go, "TestWriteAllFast", FastEncode);
   ("writer", writer_test_go, "TestWriteAllDeltaFast", FastEncode);
   ("reader", reader_test_go, "TestReadAllScalar", NoneNeeded);
   ("reader", reader_test_go, "TestReadAllDeltaScalar", NoneNeeded);
   ("reader", reader_test_go, "TestReadAllFast", FastDecode);
   ("reader", reader_test_go, "TestReadAllDeltaFast", FastDecode);
   ("util", varint_test_go, "TestVarintRoundTrip", NoneNeeded);
   ("util", varint_test_go, "TestVarintDeltaRoundTrip", NoneNeeded)].
(** Every test passes: whatever numbers are drawn and wherever memory is allocated.  [n]
    bounds the rounds of loops of the tests; no test has more than a million. *)
Theorem C54_tests_pass : forall a n m pk ls x d, In (pk, ls, x, d) suite -> 1000001 <= Z.of_nat n -> typed m ->
  passes (negb (available a d)) (runTest a n pk ls x) m.
Proof.
  intros a n m pk ls x d H Hn Ht. assert (H10 : (10 <= n)%nat) by lia. unfold suite in H.
  repeat (destruct H as [H|H]; [injection H as <- <- <- <-; cbn [available negb]|]); [..|destruct H].
  - by apply t_RoundTripScalar.
  - by apply t_Put8uint32Scalar.
  - by apply t_Put8uint32DeltaScalar.
  - by apply t_Put8uint32Fast.
  - by apply t_Put8uint32DeltaFast.
  - by apply t_PutUint32Scalar.
  - by apply t_PutUint32DeltaScalar.
  - by apply t_Get8uint32Scalar.
  - by apply t_Get8uint32DeltaScalar.
  - by apply t_Get8uint32Fast.
  - by apply t_Get8uint32DeltaFast.
  - by apply t_GetUint32Scalar.
  - by apply t_GetUint32DeltaScalar.
  - by apply t_WriteAllScalar.
  - by apply t_WriteAllDeltaScalar.
  - by apply t_WriteAllFast.
  - by apply t_WriteAllDeltaFast.
  - by apply t_ReadAllScalar.
  - by apply t_ReadAllDeltaScalar.
  - by apply t_ReadAllFast.
  - by apply t_ReadAllDeltaFast.
  - by apply t_VarintRoundTrip.
  - by apply t_VarintDeltaRoundTrip.
Qed.
(** [suite] is all the test functions of the test files. *)
Definition isTest (d : decl) : list string :=
  match d with DFunc f => if String.prefix "Test" (f_name f) then [f_name f] else [] | _ => [] end.
Theorem C54_all_tests : forall pk ls,
  In (pk, ls) [("pkg", pkg_test_go); ("encode", encode_test_go); ("decode", decode_test_go); ("writer", writer_test_go); ("reader", reader_test_go); ("util", varint_test_go)] ->
  exists f, parse ls = Some f /\ package f = pk /\
    flat_map isTest (decls f) = flat_map (fun '(p, _, x, _) => if String.eqb p pk then [x] else []) suite.
Proof.
  intros pk ls H. repeat (destruct H as [H|H]; [injection H as <- <-|]); [..|destruct H].
  - exists t_pkg. split; [exact parse_pkg|]. vm_compute. split; reflexivity.
  - exists t_encode. split; [exact parse_encode|]. vm_compute. split; reflexivity.
  - exists t_decode. split; [exact parse_decode|]. vm_compute. split; reflexivity.
  - exists t_writer. split; [exact parse_writer|]. vm_compute. split; reflexivity.
  - exists t_reader. split; [exact parse_reader|]. vm_compute. split; reflexivity.
  - exists t_varint. split; [exact parse_varint|]. vm_compute. split; reflexivity.
Qed.
(** A test with a wrong expectation does not pass. *)
Definition wrong_test : list string :=
  ["package shared"; "";
   "func TestSize(t *testing.T) {";
   "	if ControlByteToSize(0) != 5 {";
   "		t.Fatalf(""four numbers of one byte"")";
   "	}";
   "}"].
Example C54_example_fails : forall a n, ~ passes false (runTest a n "shared" wrong_test "TestSize") (Mem ∅ ∅).
Proof.
  intros a n H. erewrite runTest_body in H; [|vm_compute; reflexivity|vm_compute; reflexivity].
  assert (G : exists fn, declared (p_decls (source a)) "shared" "ControlByteToSize" = Some (DFunc fn) /\ conform a "shared" (f_params fn) [VConst 0] = Some [VInt U8 0]).
  { destruct a; (eexists; split; [vm_compute; reflexivity|reflexivity]). }
  destruct G as (fn & D & C). rewrite sts_cons, st_if in H. cbn [ev evs one] in H. change (basic "ControlByteToSize") with (@None kind) in H. cbn iota in H.
  change (String.eqb "ControlByteToSize" "append") with false in H. cbn iota in H.
  rewrite (invoke_call _ _ _ _ _ _ _ _ (eq_refl : here "shared" "ControlByteToSize" = false) D C) in H.
  destruct (H 0%nat ltac:(reflexivity)) as (vs & m' & (N & R) & P).
  destruct (executes_returns a 0 "shared" "ControlByteToSize" [VInt U8 0] (Ret (ControlByteToSize 0)) (fun z => [VInt INT z]) (Mem ∅ ∅) _ _ (proj1 (C49_shared a 0) 0) (conj eq_refl eq_refl)) as (N' & R').
  specialize (R (N + N')%nat ltac:(lia)). specialize (R' (N + N')%nat ltac:(lia)). destruct R as [R1 R2], R' as [R1' R2']. rewrite R1 in R1'. rewrite R2 in R2'. injection R1' as ->. clear R1 R2. rewrite R2' in P. clear R2' m'.
  change (final (run (Ret (ControlByteToSize 0)) (Mem ∅ ∅))) with (Mem ∅ ∅) in P. cbn [one] in P. change (binary 64 "!=" (VInt INT (ControlByteToSize 0)) (VConst 5) (λ v : value, Ret [v])) with (@Ret R [VBool true]) in P.
  destruct (P 1%nat ltac:(reflexivity)) as (ws & m2 & (N2 & Q) & P2). destruct (Q N2 ltac:(lia)) as [Q1 Q2]. injection Q1 as <-. exact P2.
Qed.
(** One execution: numbers drawn from a linear congruence, allocations in order. *)
Fixpoint sim (t : tst) (m : mem) (nb : nat) (seed : Z) : option tst :=
  match t with
  | Pass => Some Pass | Skip => Some Skip | Fail => Some Fail | Wrong => Some Wrong
  | Draw lo hi k => let s' := (seed * 6364136223846793005 + 1442695040888963407) mod 2^64 in sim (k (lo + (s' / 2^20) mod (hi - lo))) m nb s'
  | Invoke p k => match run (p nb 3000%nat) m with ((Ok vs, m'), _) => sim (k vs) m' (S nb) seed | _ => None end
  | NewW l k => sim (k (Slice nb 0 (Z.of_nat (length l)) (Z.of_nat (length l)))) (Mem (mb m) (<[ nb := l ]> (mw m))) (S nb) seed
  | NewB l k => sim (k (Slice nb 0 (Z.of_nat (length l)) (Z.of_nat (length l)))) (Mem (<[ nb := l ]> (mb m)) (mw m)) (S nb) seed
  | AppendW s z k =>
      if s_len s <? s_cap s
      then sim (k (Slice (s_blk s) (s_off s) (s_len s + 1) (s_cap s)))
             (Mem (mb m) (overwrite (mw m) (Slice (s_blk s) (s_off s + s_len s) 1 1) [z])) nb seed
      else sim (k (Slice nb 0 (s_len s + 1) (s_len s + 1 + 2)))
             (Mem (mb m) (<[ nb := words m s ++ [z] ++ replicate 2 0 ]> (mw m))) (S nb) seed
  | CopyW d s k => sim k (Mem (mb m) (overwrite (mw m) d (take (Z.to_nat (s_len d)) (words m s)))) nb seed
  | SortW s k => sim k (Mem (mb m) (overwrite (mw m) s (merge_sort Z.le (words m s)))) nb seed
  | EqualW s t k => sim (k (bool_decide (words m s = words m t))) m nb seed
  | EqualB s t k => sim (k (bool_decide (bytes m s = bytes m t))) m nb seed
  end.
Example C54_example :
  (forall x, In x [("encode", encode_test_go, "TestPutUint32DeltaScalar"); ("encode", encode_test_go, "TestPut8uint32DeltaFast"); ("decode", decode_test_go, "TestGet8uint32Fast");
                   ("pkg", pkg_test_go, "TestRoundTripScalar"); ("util", varint_test_go, "TestVarintDeltaRoundTrip")] ->
    let '(pk, ls, f) := x in
    sim (runTest (AMD64 true true) 3000 pk ls f) (Mem ∅ ∅) 0 12345 = Some Pass) /\
  sim (runTest (AMD64 true false) 3000 "encode" encode_test_go "TestPut8uint32DeltaFast") (Mem ∅ ∅) 0 12345 = Some Skip /\
  sim (runTest OtherArch 3000 "decode" decode_test_go "TestGet8uint32Fast") (Mem ∅ ∅) 0 12345 = Some Skip /\
  typed (Mem ∅ ∅).
Proof.
  split; [|split; [vm_compute; reflexivity|split; [vm_compute; reflexivity|split; intros b l; cbn; rewrite lookup_empty; discriminate]]].
  intros x H. repeat (destruct H as [<-|H]; [vm_compute; reflexivity|]). destruct H.
Qed.
