(** * C56: the benchmarks of the repository run to their end *)
From Coq Require Import ZArith String Lia.
From stdpp Require Import prelude gmap list sorting.
From Verif Require Import Spec SpecLemmas Shared Tables TableProof Asm IntOps Encode Decode Writer Reader Util GoSyntax GoInterp AsmText GoProgram GoSource SourceBase.
From Verif Require Import Wp GoSem Api UtilSpec WriterProof WriterProof2 C_RoundTrip C_Writer C_Group8 C_Compose C_Text TestText TestInterp TestFiles TestRules TestCalls C_Tests.
Local Open Scope string_scope.
Local Open Scope list_scope.
Local Open Scope Z_scope.

Lemma runBenchmark_body a n N pk ls x f b body : parse ls = Some f -> findBenchmark x f = Some (b, body) ->
  runBenchmark a n N pk ls x = sts a pk (user a n 4) n body (enterB b N (sinks a pk (decls f))) (fun _ => Pass) (fun _ => Pass).
Proof. intros H1 H2. unfold runBenchmark. by rewrite H1, H2. Qed.
(** The package variables of the test files. *)
Definition variables (a : arch) (pk : string) (f : file) (s : env) : Prop := sinks a pk (decls f) = s.
Lemma v_pkg a : sinks a "pkg" (decls t_pkg) = [].
Proof. destruct a; vm_compute; reflexivity. Qed.
Lemma v_encode a : sinks a "encode" (decls t_encode) =
  [("writeSinkA", VInt U16 0); ("writeSinkB", VInt U16 0); ("writeSinkC", VInt U16 0); ("writeSinkD", VInt U16 0); ("writeSinkE", VInt INT 0); ("writeSinkF", VInt INT 0)].
Proof. destruct a; vm_compute; reflexivity. Qed.
Notation words6 := [("readSinkA", VWords nilslice); ("readSinkB", VWords nilslice); ("readSinkC", VWords nilslice); ("readSinkD", VWords nilslice); ("readSinkE", VWords nilslice); ("readSinkF", VWords nilslice)].
Lemma v_decode a : sinks a "decode" (decls t_decode) = words6.
Proof. destruct a; vm_compute; reflexivity. Qed.
Lemma v_reader a : sinks a "reader" (decls t_reader) = words6.
Proof. destruct a; vm_compute; reflexivity. Qed.
Lemma v_writer a : sinks a "writer" (decls t_writer) =
  [("readSinkA", VBytes nilslice); ("readSinkB", VBytes nilslice); ("readSinkC", VBytes nilslice); ("readSinkD", VBytes nilslice); ("readSinkE", VInt INT 0); ("readSinkF", VInt INT 0)].
Proof. destruct a; vm_compute; reflexivity. Qed.

(** ** Loops *)
(** The loop for i := 0; i < N; i++: [I] holds of the other variables and of memory. *)
Lemma passes_times may C B k (I : env -> mem -> Prop) N :
  (forall i s m k', I s m -> passes may (k' (i <? N)) m -> passes may (C (("i", VInt INT i) :: s) k') m) ->
  (forall i s m k', 0 <= i < N -> I s m -> (forall s' m', I s' m' -> passes may (k' (("i", VInt INT (i + 1)) :: s')) m') ->
    passes may (B (("i", VInt INT i) :: s) k') m) ->
  (forall i s m, I s m -> passes may (k (("i", VInt INT i) :: s)) m) ->
  forall f i s m, 0 <= i <= N -> N - i < Z.of_nat f -> I s m -> passes may (loop f C B (("i", VInt INT i) :: s) k) m.
Proof.
  intros HC HB Hk f. induction f as [|f IH]; intros i s m Hi Hf HI; [lia|]. rewrite loop_S. apply HC; [exact HI|].
  destruct (Z.ltb_spec i N) as [E|E]; [|by apply Hk]. apply HB; [lia|exact HI|]. intros s' m' HI'. apply IH; [lia|lia|exact HI'].
Qed.
(** b.Run *)
Lemma passes_runs may n body k (I : env -> mem -> Prop) :
  (forall N s m k', 1 <= N < Z.of_nat n -> N < 2 ^ 63 -> I s m -> (forall s' m', I s' m' -> passes may (k' s') m') -> passes may (body N s k') m) ->
  (forall s m, I s m -> passes may (k s) m) ->
  forall r s m, I s m -> passes may (runs n r body s k) m.
Proof.
  intros HB Hk r. induction r as [|r IH]; intros s m HI; [by apply Hk|]. cbn [runs]. apply passes_draw. intros N HN.
  apply HB; [lia|lia|exact HI|]. intros s' m' HI'. by apply IH.
Qed.

Ltac startB P V := erewrite runBenchmark_body; [|exact P|vm_compute; reflexivity]; rewrite V; cbv [enterB].

(** The same variables, with other values of the variables [vs]. *)
Fixpoint changed (vs : list string) (s s' : env) : Prop :=
  match s, s' with
  | [], [] => True
  | (x, v) :: r, (x', v') :: r' => x' = x /\ (existsb (String.eqb x) vs = true \/ v' = v) /\ changed vs r r'
  | _, _ => False
  end.
Lemma changed_var vs x v r s : changed vs ((x, v) :: r) s -> existsb (String.eqb x) vs = true -> exists v' r', s = (x, v') :: r' /\ changed vs r r'.
Proof. destruct s as [|[x' v'] r']; [done|]. intros (-> & _ & H) _. by exists v', r'. Qed.
Lemma changed_fix vs x v r s : changed vs ((x, v) :: r) s -> existsb (String.eqb x) vs = false -> exists r', s = (x, v) :: r' /\ changed vs r r'.
Proof. destruct s as [|[x' v'] r']; [done|]. intros (-> & [H'| ->] & H) E; [by rewrite H' in E|]. by exists r'. Qed.
Lemma changed_nil vs s : changed vs [] s -> s = [].
Proof. by destruct s. Qed.
Lemma change_var vs x v v' r r' : existsb (String.eqb x) vs = true -> changed vs r r' -> changed vs ((x, v) :: r) ((x, v') :: r').
Proof. intros H1 H2. split; [done|]. split; [by left|done]. Qed.
Lemma change_fix vs x v r r' : changed vs r r' -> changed vs ((x, v) :: r) ((x, v) :: r').
Proof. intros H2. split; [done|]. split; [by right|done]. Qed.
(** Write the variables [s] out; show that only variables [vs] have changed. *)
Ltac open H :=
  repeat match type of H with changed ?vs (_ :: _) ?s =>
    let r := fresh "r" in let v := fresh "v" in
    first [apply changed_fix in H; [destruct H as (r & -> & H)|reflexivity]|apply changed_var in H; [destruct H as (v & r & -> & H)|reflexivity]] end;
  apply changed_nil in H as ->.
Ltac close :=
  repeat match goal with
  | |- changed _ ((?x, ?v) :: _) ((?x, ?v) :: _) => simple apply change_fix
  | |- changed _ (_ :: _) (_ :: _) => simple apply change_var; [reflexivity|]
  end; exact I.

(** b.SetBytes(int64(...)); b.ResetTimer(); for i := 0; i < b.N; i++ *)
Ltac setup := tstep; tret; tstep; tstep; tstep.
(** A loop: [Q] holds of memory in all rounds. *)
Ltac repeats N vs T Q :=
  match goal with |- passes ?may (loop _ ?C ?B (_ :: ?e) ?k) _ =>
    apply (passes_times may C B k (fun e' mm => changed vs e e' /\ typed mm /\ Q mm) N);
    [let HE := fresh "HE" in let HK := fresh "HK" in intros ? ? ? ? (HE & _ & _) HK; open HE; eval_test; tret; exact HK
    | | |lia|lia|split; [close|split; [exact T|]]] end.
Ltac next HK T := tstep; tret; rewrite iaddN_small by lia; tstep; apply HK; split; [close|split; [exact T|]].
Ltac finish := let HE := fresh "HE" in let T := fresh "T" in intros ? ? ? (HE & T & _); open HE; tstep; tstep; exact I.
Definition results : list string := ["readSinkA"; "readSinkB"; "readSinkC"; "readSinkD"; "readSinkE"; "readSinkF"].
Definition streams : list string := ["stream"; "written"; "readSinkA"; "readSinkB"; "readSinkC"; "readSinkD"; "readSinkE"; "readSinkF"].
Definition outputs : list string := ["ctrl"; "written"; "writeSinkA"; "writeSinkB"; "writeSinkC"; "writeSinkD"; "writeSinkE"; "writeSinkF"].
Lemma passes_copy may m d dl b l c k : mw m !! d = Some dl -> mw m !! b = Some l -> Z.of_nat (length dl) = c -> Z.of_nat (length l) = c ->
  passes may k (Mem (mb m) (<[ d := l ]> (mw m))) -> passes may (CopyW (Slice d 0 c c) (Slice b 0 c c) k) m.
Proof.
  intros Hd Hb Ld Ll H. cbn [passes s_len]. rewrite (words_at _ _ _ _ _ Hb), take_take, Nat.min_id, firstn_all2 by lia.
  unfold overwrite. cbn [s_blk s_off]. rewrite Hd. cbn [Z.to_nat take app]. rewrite drop_ge, app_nil_r by lia. exact H.
Qed.
(** b.Run: in all calls of the function literal [Q] holds of memory before and after. *)
Ltac sub vs T Q :=
  apply passes_draw; intros ? _;
  match goal with |- passes ?may (runs ?n _ ?B ?e ?k) _ =>
    apply (passes_runs may n B k (fun e' mm => changed vs e e' /\ typed mm /\ Q mm)); [| |split; [close|split; [exact T|]]] end.
Lemma pow10 i : 0 <= i < 8 -> 1 <= 10 ^ i <= 10000000.
Proof. intros H. split; [apply (Z.pow_le_mono_r 10 0 i); lia|apply (Z.pow_le_mono_r 10 i 7); lia]. Qed.
(** for i := 0; i < 8; i++ { count := int(math.Pow10(i)) *)
Ltac counts vs T c Hc HK T0 :=
  tstep; tstep; tstep; repeats 8 vs T (fun _ : mem => True);
  [let i := fresh "i" in let Hi := fresh "Hi" in let HE := fresh "HE" in
   intros i ? ? ? Hi (HE & T0 & _) HK; open HE; tstep; rewrite (proj2 (Z.leb_le 0 i)), (proj2 (Z.leb_le i 18)) by lia; cbv iota;
   pose proof (pow10 i Hi) as Hc; set (c := 10 ^ i) in *; clearbody c
  |let HE := fresh "HE" in intros ? ? ? (HE & _); open HE; tstep; tstep; exact I
  |exact I].
Ltac outer HK := let HE := fresh "HE" in let T := fresh "T" in intros ? ? (HE & T & _); open HE; next HK T; exact I.
Section all.
Context (a : arch) (n : nat) (N : Z) (m : mem) (Ht : typed m) (Hn : 10000001 <= Z.of_nat n) (HN : 1 <= N < Z.of_nat n) (HM : N < 2 ^ 63).
Notation put8Q b l o := (fun m => mw m !! b = Some l /\ exists buf, mb m !! o = Some buf /\ length buf = 32%nat).
Ltac put8 R Ll := intros i s m' k' Hi (HE & T & Lb & buf & Lo & L32) HK; open HE;
    tstep; eapply R; [exact T|exact Lb|lia|exact Lo|exact L32|..]; 
    [..|let L := fresh in intros buf' L _ T'; next HK T'; split; [exact Lb|]; exists buf'; split; [find|exact L]].
Lemma b_Put8uint32Scalar : passes false (runBenchmark a n N "encode" encode_test_go "BenchmarkPut8uint32Scalar") m.
Proof.
  startB parse_encode v_encode.
  tstep. tstep. tret. change (imulN 64 8 4) with 32. makeB Ht o T1. tstep. gen b l Hl Ll T2.
  tstep. setup. repeats N outputs T2 (put8Q b l o); [put8 passes_Put8Scalar Ll|finish|].
  split; [find|]. eexists. split; [find|reflexivity].
Qed.
Lemma b_Put8uint32DeltaScalar : passes false (runBenchmark a n N "encode" encode_test_go "BenchmarkPut8uint32DeltaScalar") m.
Proof.
  startB parse_encode v_encode.
  tstep. tstep. tret. change (imulN 64 8 4) with 32. makeB Ht o T1. tstep. gen b l Hl Ll T2. tstep. sorted l x Hx Lx T3.
  tstep. setup. repeats N outputs T3 (put8Q b x o); [put8 passes_Put8DeltaScalar Lx|finish|].
  split; [find|]. eexists. split; [find|reflexivity].
Qed.
Lemma b_Put8uint32Fast : passes (negb (fast_encode a)) (runBenchmark a n N "encode" encode_test_go "BenchmarkPut8uint32Fast") m.
Proof.
  remember (negb (fast_encode a)) as may eqn:Em. startB parse_encode v_encode. tstep. apply passes_encMode. rewrite enc_mode.
  destruct (fast_encode a) eqn:A; tret; [change (1 =? 0) with false; cbv iota|tstep; apply passes_skip; exact Em]. apply enc_fast in A.
  tstep. tstep. tret. change (imulN 64 8 4) with 32. makeB Ht o T1. tstep. gen b l Hl Ll T2.
  tstep. setup. repeats N outputs T2 (put8Q b l o); [put8 passes_Put8Fast Ll; exact A|finish|].
  split; [find|]. eexists. split; [find|reflexivity].
Qed.
Lemma b_Put8uint32DeltaFast : passes (negb (fast_encode a)) (runBenchmark a n N "encode" encode_test_go "BenchmarkPut8uint32DeltaFast") m.
Proof.
  remember (negb (fast_encode a)) as may eqn:Em. startB parse_encode v_encode. tstep. apply passes_encMode. rewrite enc_mode.
  destruct (fast_encode a) eqn:A; tret; [change (1 =? 0) with false; cbv iota|tstep; apply passes_skip; exact Em]. apply enc_fast in A.
  tstep. tstep. tret. change (imulN 64 8 4) with 32. makeB Ht o T1. tstep. gen b l Hl Ll T2. tstep. sorted l x Hx Lx T3.
  tstep. setup. repeats N outputs T3 (put8Q b x o); [put8 passes_Put8DeltaFast Lx; exact A|finish|].
  split; [find|]. eexists. split; [find|reflexivity].
Qed.
Notation varintQ b l o c := (fun m => mw m !! b = Some l /\ exists buf, mb m !! o = Some buf /\ Z.of_nat (length buf) = 5 * c).
Ltac putv R :=
  let HE := fresh "HE" in let T := fresh "T" in let Lb := fresh "Lb" in let buf := fresh "buf" in let Lo := fresh "Lo" in let L := fresh "L" in let HK := fresh "HK" in
  intros ? ? ? ? ? (HE & T & Lb & buf & Lo & L) HK; open HE;
  tstep; eapply R; [exact T|exact Lb|lia|lia|lia|exact Lo|exact L|];
  let buf' := fresh "buf" in let L' := fresh "L" in let T' := fresh "T" in
  intros buf' L' _ _ T'; next HK T'; split; [exact Lb|]; exists buf'; split; [find|rewrite L'; exact L].
Lemma b_Put8uint32Varint : passes false (runBenchmark a n N "encode" encode_test_go "BenchmarkPut8uint32Varint") m.
Proof.
  startB parse_encode v_encode.
  tstep. tstep. tret. change (imulN 64 8 5) with (5 * 8). makeB Ht o T1. tstep. gen b l Hl Ll T2.
  tstep. setup. repeats N outputs T2 (varintQ b l o 8); [putv passes_PutVarint|finish|].
  split; [find|]. eexists. split; [find|reflexivity].
Qed.
Lemma b_Put8uint32DeltaVarint : passes false (runBenchmark a n N "encode" encode_test_go "BenchmarkPut8uint32DeltaVarint") m.
Proof.
  startB parse_encode v_encode.
  tstep. tstep. tret. change (imulN 64 8 5) with (5 * 8). makeB Ht o T1. tstep. gen b l Hl Ll T2. tstep. sorted l x Hx Lx T3.
  tstep. setup. repeats N outputs T3 (varintQ b x o 8); [putv passes_PutDeltaVarint|finish|].
  split; [find|]. eexists. split; [find|reflexivity].
Qed.
(** pkg/decode *)
Notation get8Q d buf o := (fun m => mb m !! d = Some buf /\ exists out, mw m !! o = Some out /\ length out = 8%nat).
Ltac get8 R Lb U Eb := intros i s m' k' Hi (HE & T & Ld & out & Lo & L8) HK; open HE;
    tstep; eapply R; [exact T|exact Ld|exact Lb|exact Lo|exact L8|exact U|lia|..];
    [..|exact Eb|let T' := fresh "T" in intros T'; next HK T'; split; [exact Ld|]; eexists; split; [find|lia]].
Lemma b_Get8uint32Scalar : passes false (runBenchmark a n N "decode" decode_test_go "BenchmarkGet8uint32Scalar") m.
Proof.
  startB parse_decode v_decode.
  tstep. tstep. makeW Ht o T1. tstep. gen b l Hl Ll T2.
  tstep. tret. change (imulN 64 8 4) with 32. makeB T2 d T4. tstep. eapply passes_Put8Scalar; [exact T4|find|lia|find|reflexivity|]. intros buf Lb Eb T5.
  setup. repeats N results T5 (get8Q d buf o); [get8 passes_Get8Scalar Lb Hl Eb|finish|].
  split; [find|]. eexists. split; [find|reflexivity].
Qed.
Lemma b_Get8uint32Fast : passes (negb (fast_decode a)) (runBenchmark a n N "decode" decode_test_go "BenchmarkGet8uint32Fast") m.
Proof.
  remember (negb (fast_decode a)) as may eqn:Em. startB parse_decode v_decode. tstep. apply passes_decMode. rewrite dec_mode.
  destruct (fast_decode a) eqn:A; tret; [change (1 =? 0) with false; cbv iota|tstep; apply passes_skip; exact Em]. apply dec_fast in A as [avx2 A].
  tstep. tstep. makeW Ht o T1. tstep. gen b l Hl Ll T2.
  tstep. tret. change (imulN 64 8 4) with 32. makeB T2 d T4. tstep. eapply passes_Put8Scalar; [exact T4|find|lia|find|reflexivity|]. intros buf Lb Eb T5.
  setup. repeats N results T5 (get8Q d buf o); [get8 passes_Get8Fast Lb Hl Eb; exact A|finish|].
  split; [find|]. eexists. split; [find|reflexivity].
Qed.
Lemma b_Get8uint32DeltaScalar : passes false (runBenchmark a n N "decode" decode_test_go "BenchmarkGet8uint32DeltaScalar") m.
Proof.
  startB parse_decode v_decode.
  tstep. tstep. makeW Ht o T1. tstep. gen b l Hl Ll T2. tstep. sorted l x Hx Lx T3.
  tstep. tret. change (imulN 64 8 4) with 32. makeB T3 d T4. tstep. eapply passes_Put8DeltaScalar; [exact T4|find|lia|find|reflexivity|]. intros buf Lb Eb T5.
  setup. repeats N results T5 (get8Q d buf o); [get8 passes_Get8DeltaScalar Lb Hx Eb|finish|].
  split; [find|]. eexists. split; [find|reflexivity].
Qed.
Lemma b_Get8uint32DeltaFast : passes (negb (fast_decode a)) (runBenchmark a n N "decode" decode_test_go "BenchmarkGet8uint32DeltaFast") m.
Proof.
  remember (negb (fast_decode a)) as may eqn:Em. startB parse_decode v_decode. tstep. apply passes_decMode. rewrite dec_mode.
  destruct (fast_decode a) eqn:A; tret; [change (1 =? 0) with false; cbv iota|tstep; apply passes_skip; exact Em]. apply dec_fast in A as [avx2 A].
  tstep. tstep. makeW Ht o T1. tstep. gen b l Hl Ll T2. tstep. sorted l x Hx Lx T3.
  tstep. tret. change (imulN 64 8 4) with 32. makeB T3 d T4. tstep. eapply passes_Put8DeltaScalar; [exact T4|find|lia|find|reflexivity|]. intros buf Lb Eb T5.
  setup. repeats N results T5 (get8Q d buf o); [get8 passes_Get8DeltaFast Lb Hx Eb; exact A|finish|].
  split; [find|]. eexists. split; [find|reflexivity].
Qed.
Lemma b_Get8uint32Varint : passes false (runBenchmark a n N "decode" decode_test_go "BenchmarkGet8uint32Varint") m.
Proof.
  startB parse_decode v_decode.
  tstep. tstep. makeW Ht o T1. tstep. tret. change (imulN 64 5 8) with (5 * 8). makeB T1 d T2.
  tstep. gen b l Hl Ll T3. eval_test. eapply passes_PutVarint; [exact T3|find|lia|lia|lia|find|reflexivity|]. rewrite firstn_all2 by lia. intros buf Lb Eb Le T4.
  rewrite replicate_length in *. remember (Z.of_nat (length (concat (map varint l)))) as h eqn:Eh.
  tstep. apply passes_sliceB; [lia|]. setup. repeats N results T4 (get8Q d buf o); [|finish|].
  { intros i s m' k' Hi (HE & T & Ld & out & Lo & L8) HK. open HE.
    tstep. eapply passes_GetVarint; [exact T|exact Lo|lia|lia|lia|exact Ld|lia|lia|lia|exact Hl|lia|lia|rewrite Eh, Nat2Z.id; exact Eb|]. intros T'.
    next HK T'. split; [exact Ld|]. eexists. split; [find|lia]. }
  split; [find|]. eexists. split; [find|reflexivity].
Qed.
Lemma b_Get8uint32DeltaVarint : passes false (runBenchmark a n N "decode" decode_test_go "BenchmarkGet8uint32DeltaVarint") m.
Proof.
  startB parse_decode v_decode.
  tstep. tstep. makeW Ht o T1. tstep. tret. change (imulN 64 5 8) with (5 * 8). makeB T1 d T2.
  tstep. gen b l Hl Ll T3. eval_test. eapply passes_PutDeltaVarint; [exact T3|find|lia|lia|lia|find|reflexivity|]. rewrite firstn_all2 by lia. intros buf Lb Eb Le T4.
  rewrite replicate_length in *. remember (Z.of_nat (length (concat (map varint (deltas 0 l))))) as h eqn:Eh.
  tstep. apply passes_sliceB; [lia|]. setup. repeats N results T4 (get8Q d buf o); [|finish|].
  { intros i s m' k' Hi (HE & T & Ld & out & Lo & L8) HK. open HE.
    tstep. eapply passes_GetDeltaVarint; [exact T|exact Lo|lia|lia|lia|exact Ld|lia|lia|lia|exact Hl|lia|lia|rewrite Eh, Nat2Z.id; exact Eb|]. intros T'.
    next HK T'. split; [exact Ld|]. eexists. split; [find|lia]. }
  split; [find|]. eexists. split; [find|reflexivity].
Qed.
(** pkg *)
Lemma b_MemCopy8Uint32 : passes false (runBenchmark a n N "pkg" pkg_test_go "BenchmarkMemCopy8Uint32") m.
Proof.
  startB parse_pkg v_pkg.
  tstep. tstep. makeW Ht b T1. tstep. tstep. 
  repeats 8 ([] : list string) T1 (fun m => exists l, mw m !! b = Some l /\ length l = 8%nat).
  { intros i s m' k' Hi (HE & T & l & Hl & Ll) HK. open HE. tstep. rewrite invoke_user by reflexivity. apply passes_RandUint32. intros z Hz. eval_test.
    eapply passes_setW; cbn [mw mb s_blk s_off s_len]; [exact Hl|lia|lia|lia|].
    assert (T' : typed (Mem (mb m') (<[ b := <[ Z.to_nat (0 + i) := z ]> l ]> (mw m')))).
    { apply typed_newW; [exact T|]. apply Forall_insert; [|exact Hz]. destruct T as [_ T]. by eapply T. }
    next HK T'. eexists. split; [find|by rewrite insert_length]. }
  { intros i s m' (HE & T & l & Hl & Ll). open HE. tstep. makeW T o T2. setup.
    repeats N ([] : list string) T2 (fun m => exists l dl, mw m !! b = Some l /\ length l = 8%nat /\ mw m !! o = Some dl /\ length dl = 8%nat).
    { intros i' s m2 k' Hi' (HE & T' & l' & dl & Hl' & Ll' & Hd & Ld) HK. open HE. tstep. eapply passes_copy; [exact Hd|exact Hl'|lia|lia|].
      assert (T3 : typed (Mem (mb m2) (<[ o := l' ]> (mw m2)))) by (apply typed_newW; [exact T'|]; destruct T' as [_ T']; by eapply T').
      next HK T3. exists l', l'. split; [destruct (decide (o = b)) as [->|]; find|]. split; [exact Ll'|]. split; [find|exact Ll']. }
    { finish. }
    exists l, (replicate (Z.to_nat 8) 0). split; [find|]. split; [exact Ll|]. split; [find|reflexivity]. }
  eexists. split; [find|reflexivity].
Qed.
(** pkg/stream/writer *)
Ltac write R HQ Lx :=
  let N' := fresh "N" in let HE := fresh "HE" in let T := fresh "T" in let Lb := fresh "Lb" in let HK := fresh "HK" in
  intros N' ? ? ? ? ? (HE & T & Lb) HK; open HE; cbv [enterB field String.append]; tstep; setup; repeats N' streams T HQ;
  [let HE := fresh "HE" in let T := fresh "T" in let Lb := fresh "Lb" in let HK := fresh "HK" in let T' := fresh "T'" in
   intros ? ? ? ? ? (HE & T & Lb) HK; open HE; tstep; eapply R; [exact T|exact Lb|lia|lia|..];
   [..|intros ? ? T'; next HK T'; exact Lb]
  |let HE := fresh "HE" in let T := fresh "T" in let Lb := fresh "Lb" in
   intros ? ? ? (HE & T & Lb); open HE; tstep; tstep; apply HK; split; [close|split; [exact T|exact Lb]]
  |exact Lb].
Notation writeQ b l := (fun m => mw m !! b = Some l).
Lemma b_WriteAllScalar : passes false (runBenchmark a n N "writer" writer_test_go "BenchmarkWriteAllScalar") m.
Proof.
  startB parse_writer v_writer.
  counts streams Ht c Hc HK T0. tstep. gen b l Hl Ll T1. tstep. sorted l x Hx Lx T2.
  tstep. sub streams T2 (writeQ b x); [write passes_WriteAllScalar (writeQ b x) Lx|outer HK|find].
Qed.
Lemma b_WriteAllDeltaScalar : passes false (runBenchmark a n N "writer" writer_test_go "BenchmarkWriteAllDeltaScalar") m.
Proof.
  startB parse_writer v_writer.
  counts streams Ht c Hc HK T0. tstep. gen b l Hl Ll T1. tstep. sorted l x Hx Lx T2.
  tstep. sub streams T2 (writeQ b x); [write passes_WriteAllDeltaScalar (writeQ b x) Lx|outer HK|find].
Qed.
Lemma b_WriteAllFast : passes (negb (fast_encode a)) (runBenchmark a n N "writer" writer_test_go "BenchmarkWriteAllFast") m.
Proof.
  remember (negb (fast_encode a)) as may eqn:Em. startB parse_writer v_writer. tstep. apply passes_encMode. rewrite enc_mode.
  destruct (fast_encode a) eqn:A; tret; [change (1 =? 0) with false; cbv iota|tstep; apply passes_skip; exact Em]. apply enc_fast in A. tstep.
  counts streams Ht c Hc HK T0. tstep. gen b l Hl Ll T1.
  tstep. sub streams T1 (writeQ b l); [write passes_WriteAllFast (writeQ b l) Ll; exact A|outer HK|find].
Qed.
Lemma b_WriteAllDeltaFast : passes (negb (fast_encode a)) (runBenchmark a n N "writer" writer_test_go "BenchmarkWriteAllDeltaFast") m.
Proof.
  remember (negb (fast_encode a)) as may eqn:Em. startB parse_writer v_writer. tstep. apply passes_encMode. rewrite enc_mode.
  destruct (fast_encode a) eqn:A; tret; [change (1 =? 0) with false; cbv iota|tstep; apply passes_skip; exact Em]. apply enc_fast in A. tstep.
  counts streams Ht c Hc HK T0. tstep. gen b l Hl Ll T1. tstep. sorted l x Hx Lx T2.
  tstep. sub streams T2 (writeQ b x); [write passes_WriteAllDeltaFast (writeQ b x) Lx; exact A|outer HK|find].
Qed.
Lemma b_WriteAllVarint : passes false (runBenchmark a n N "writer" writer_test_go "BenchmarkWriteAllVarint") m.
Proof.
  startB parse_writer v_writer. counts streams Ht c Hc HK T0. tstep. gen b l Hl Ll T1. tstep. sorted l x Hx Lx T2.
  tstep. tret. rewrite imulN_small by lia. replace (c * 5) with (5 * c) by lia. makeB T2 o T3. tstep.
  tstep. sub streams T3 (varintQ b x o c); [|outer HK|].
  { intros N' s m2 k2 HN' HM' (HE & T & HQ) HK'. open HE. cbv [enterB field String.append]. setup. repeats N' streams T (varintQ b x o c); [putv passes_PutVarint| |exact HQ].
    intros i' s m3 (HE & T' & HQ'). open HE. tstep. tstep. apply HK'. split; [close|]. split; [exact T'|exact HQ']. }
  split; [find|]. eexists. split; [find|rewrite replicate_length; lia].
Qed.
Lemma b_WriteAllDeltaVarint : passes false (runBenchmark a n N "writer" writer_test_go "BenchmarkWriteAllDeltaVarint") m.
Proof.
  startB parse_writer v_writer. counts streams Ht c Hc HK T0. tstep. gen b l Hl Ll T1. tstep. sorted l x Hx Lx T2.
  tstep. tret. rewrite imulN_small by lia. replace (c * 5) with (5 * c) by lia. makeB T2 o T3. tstep.
  tstep. sub streams T3 (varintQ b x o c); [|outer HK|].
  { intros N' s m2 k2 HN' HM' (HE & T & HQ) HK'. open HE. cbv [enterB field String.append]. setup. repeats N' streams T (varintQ b x o c); [putv passes_PutDeltaVarint| |exact HQ].
    intros i' s m3 (HE & T' & HQ'). open HE. tstep. tstep. apply HK'. split; [close|]. split; [exact T'|exact HQ']. }
  split; [find|]. eexists. split; [find|rewrite replicate_length; lia].
Qed.
(** pkg/stream/reader *)
Notation readQ s ys o c := (fun m => mb m !! s = Some (wbuf ys) /\ exists out, mw m !! o = Some out /\ Z.of_nat (length out) = c).
Lemma b_ReadAllScalar : passes false (runBenchmark a n N "reader" reader_test_go "BenchmarkReadAllScalar") m.
Proof.
  startB parse_reader v_reader.
  counts results Ht c Hc HK T0. tstep. gen b l Hl Ll T1. tstep. sorted l x Hx Lx T2.
  tstep. written passes_WriteAllScalar T2 s T3. tstep. makeW T3 o T4.
  tstep. sub results T4 (readQ s x o c); [|outer HK|split; [find|]; eexists; split; [find|rewrite replicate_length; lia]].
  intros N' s' m2 k2 HN' HM' (HE & T & HQ) HK2. open HE. cbv [enterB field String.append]. setup. repeats N' results T (readQ s x o c); [| |exact HQ].
  - intros i' s' m3 k3 Hi' (HE & T' & Es & out & Eo & Lo) HK3. open HE.
    tstep. eapply (passes_ReadAllScalar _ _ T' _ _ s x o _ c); [rewrite wmem_eq; cbn [mb]; rewrite lookup_insert; exact Es|lia|lia|exact Eo|exact Lo|exact Hx|].
    intros T5. next HK3 T5. split; [exact Es|]. eexists. split; [find|lia].
  - intros i' s' m3 (HE & T' & HQ'). open HE. tstep. tstep. apply HK2. split; [close|]. split; [exact T'|exact HQ'].
Qed.
Lemma b_ReadAllDeltaScalar : passes false (runBenchmark a n N "reader" reader_test_go "BenchmarkReadAllDeltaScalar") m.
Proof.
  startB parse_reader v_reader.
  counts results Ht c Hc HK T0. tstep. gen b l Hl Ll T1. tstep. sorted l x Hx Lx T2.
  tstep. written passes_WriteAllDeltaScalar T2 s T3. tstep. makeW T3 o T4.
  tstep. sub results T4 (readQ s (deltas 0 x) o c); [|outer HK|split; [find|]; eexists; split; [find|rewrite replicate_length; lia]].
  intros N' s' m2 k2 HN' HM' (HE & T & HQ) HK2. open HE. cbv [enterB field String.append]. setup. repeats N' results T (readQ s (deltas 0 x) o c); [| |exact HQ].
  - intros i' s' m3 k3 Hi' (HE & T' & Es & out & Eo & Lo) HK3. open HE.
    tstep. eapply (passes_ReadAllDeltaScalar _ _ T' _ _ s (deltas 0 x) o _ c); [rewrite wmem_eq; cbn [mb]; rewrite lookup_insert; exact Es|rewrite deltas_length; lia|lia|exact Eo|exact Lo|reflexivity|exact Hx|].
    intros T5. next HK3 T5. split; [exact Es|]. eexists. split; [find|lia].
  - intros i' s' m3 (HE & T' & HQ'). open HE. tstep. tstep. apply HK2. split; [close|]. split; [exact T'|exact HQ'].
Qed.
Lemma b_ReadAllFast : passes (negb (fast_decode a)) (runBenchmark a n N "reader" reader_test_go "BenchmarkReadAllFast") m.
Proof.
  remember (negb (fast_decode a)) as may eqn:Em. startB parse_reader v_reader. tstep. apply passes_decMode. rewrite dec_mode.
  destruct (fast_decode a) eqn:A; tret; [change (1 =? 0) with false; cbv iota|tstep; apply passes_skip; exact Em]. apply dec_fast in A as [avx2 A]. tstep.
  counts results Ht c Hc HK T0. tstep. gen b l Hl Ll T1.
  tstep. written passes_WriteAllScalar T1 s T3. tstep. makeW T3 o T4.
  tstep. sub results T4 (readQ s l o c); [|outer HK|split; [find|]; eexists; split; [find|rewrite replicate_length; lia]].
  intros N' s' m2 k2 HN' HM' (HE & T & HQ) HK2. open HE. cbv [enterB field String.append]. setup. repeats N' results T (readQ s l o c); [| |exact HQ].
  - intros i' s' m3 k3 Hi' (HE & T' & Es & out & Eo & Lo) HK3. open HE.
    tstep. eapply (passes_ReadAllFast _ _ T' _ _ s l o _ c); [rewrite wmem_eq; cbn [mb]; rewrite lookup_insert; exact Es|lia|lia|exact Eo|exact Lo|exact A|exact Hl|].
    intros T5. next HK3 T5. split; [exact Es|]. eexists. split; [find|lia].
  - intros i' s' m3 (HE & T' & HQ'). open HE. tstep. tstep. apply HK2. split; [close|]. split; [exact T'|exact HQ'].
Qed.
Lemma b_ReadAllDeltaFast : passes (negb (fast_decode a)) (runBenchmark a n N "reader" reader_test_go "BenchmarkReadAllDeltaFast") m.
Proof.
  remember (negb (fast_decode a)) as may eqn:Em. startB parse_reader v_reader. tstep. apply passes_decMode. rewrite dec_mode.
  destruct (fast_decode a) eqn:A; tret; [change (1 =? 0) with false; cbv iota|tstep; apply passes_skip; exact Em]. apply dec_fast in A as [avx2 A]. tstep.
  counts results Ht c Hc HK T0. tstep. gen b l Hl Ll T1. tstep. sorted l x Hx Lx T2.
  tstep. written passes_WriteAllDeltaScalar T2 s T3. tstep. makeW T3 o T4.
  tstep. sub results T4 (readQ s (deltas 0 x) o c); [|outer HK|split; [find|]; eexists; split; [find|rewrite replicate_length; lia]].
  intros N' s' m2 k2 HN' HM' (HE & T & HQ) HK2. open HE. cbv [enterB field String.append]. setup. repeats N' results T (readQ s (deltas 0 x) o c); [| |exact HQ].
  - intros i' s' m3 k3 Hi' (HE & T' & Es & out & Eo & Lo) HK3. open HE.
    tstep. eapply (passes_ReadAllDeltaFast _ _ T' _ _ s (deltas 0 x) o _ c); [rewrite wmem_eq; cbn [mb]; rewrite lookup_insert; exact Es|rewrite deltas_length; lia|lia|exact Eo|exact Lo|exact A|reflexivity|exact Hx|].
    intros T5. next HK3 T5. split; [exact Es|]. eexists. split; [find|lia].
  - intros i' s' m3 (HE & T' & HQ'). open HE. tstep. tstep. apply HK2. split; [close|]. split; [exact T'|exact HQ'].
Qed.
Notation readvQ d buf o c := (fun m => mb m !! d = Some buf /\ exists out, mw m !! o = Some out /\ Z.of_nat (length out) = c).
Lemma b_ReadAllVarint : passes false (runBenchmark a n N "reader" reader_test_go "BenchmarkReadAllVarint") m.
Proof.
  startB parse_reader v_reader. counts results Ht c Hc HK T0. tstep. makeW T0 o T1. tstep. tret. rewrite imulN_small by lia. makeB T1 d T2.
  tstep. gen b l Hl Ll T3. tstep. sorted l x Hx Lx T4.
  tstep. eapply passes_PutVarint; [exact T4|find|lia|lia|lia|find|rewrite replicate_length; lia|]. rewrite firstn_all2 by lia. intros buf Lb Eb Le T5.
  rewrite replicate_length in *. remember (Z.of_nat (length (concat (map varint x)))) as h eqn:Eh.
  tstep. apply passes_sliceB; [lia|]. tstep. sub results T5 (readvQ d buf o c); [|outer HK|split; [find|]; eexists; split; [find|rewrite replicate_length; lia]].
  intros N' s' m2 k2 HN' HM' (HE & T & HQ) HK2. open HE. cbv [enterB field String.append]. setup. repeats N' results T (readvQ d buf o c); [| |exact HQ].
  - intros i' s' m3 k3 Hi' (HE & T' & Es & out & Eo & Lo) HK3. open HE.
    tstep. eapply passes_GetVarint; [exact T'|exact Eo|lia|lia|lia|exact Es|lia|lia|lia|exact Hx|lia|lia|rewrite Eh, Nat2Z.id; exact Eb|].
    intros T6. next HK3 T6. split; [exact Es|]. eexists. split; [find|lia].
  - intros i' s' m3 (HE & T' & HQ'). open HE. tstep. tstep. apply HK2. split; [close|]. split; [exact T'|exact HQ'].
Qed.
Lemma b_ReadAllDeltaVarint : passes false (runBenchmark a n N "reader" reader_test_go "BenchmarkReadAllDeltaVarint") m.
Proof.
  startB parse_reader v_reader. counts results Ht c Hc HK T0. tstep. makeW T0 o T1. tstep. tret. rewrite imulN_small by lia. makeB T1 d T2.
  tstep. gen b l Hl Ll T3. tstep. sorted l x Hx Lx T4.
  tstep. eapply passes_PutDeltaVarint; [exact T4|find|lia|lia|lia|find|rewrite replicate_length; lia|]. rewrite firstn_all2 by lia. intros buf Lb Eb Le T5.
  rewrite replicate_length in *. remember (Z.of_nat (length (concat (map varint (deltas 0 x))))) as h eqn:Eh.
  tstep. apply passes_sliceB; [lia|]. tstep. sub results T5 (readvQ d buf o c); [|outer HK|split; [find|]; eexists; split; [find|rewrite replicate_length; lia]].
  intros N' s' m2 k2 HN' HM' (HE & T & HQ) HK2. open HE. cbv [enterB field String.append]. setup. repeats N' results T (readvQ d buf o c); [| |exact HQ].
  - intros i' s' m3 k3 Hi' (HE & T' & Es & out & Eo & Lo) HK3. open HE.
    tstep. eapply passes_GetDeltaVarint; [exact T'|exact Eo|lia|lia|lia|exact Es|lia|lia|lia|exact Hx|lia|lia|rewrite Eh, Nat2Z.id; exact Eb|].
    intros T6. next HK3 T6. split; [exact Es|]. eexists. split; [find|lia].
  - intros i' s' m3 (HE & T' & HQ'). open HE. tstep. tstep. apply HK2. split; [close|]. split; [exact T'|exact HQ'].
Qed.
End all.

(** ** C56 *)
Definition benchmarks : list (string * list string * string * needs) :=
  [("pkg", pkg_test_go, "BenchmarkMemCopy8Uint32", NoneNeeded);
   ("encode", encode_test_go, "BenchmarkPut8uint32Fast", FastEncode);
   ("encode", encode_test_go, "BenchmarkPut8uint32DeltaFast", FastEncode);
   ("encode", encode_test_go, "BenchmarkPut8uint32Scalar", NoneNeeded);
   ("encode", encode_test_go, "BenchmarkPut8uint32DeltaScalar", NoneNeeded);
   ("encode", encode_test_go, "BenchmarkPut8uint32Varint", NoneNeeded);
   ("encode", encode_test_go, "BenchmarkPut8uint32DeltaVarint", NoneNeeded);
   ("decode", decode_test_go, "BenchmarkGet8uint32Fast", FastDecode);
   ("decode", decode_test_go, "BenchmarkGet8uint32DeltaFast", FastDecode);
   ("decode", decode_test_go, "BenchmarkGet8uint32Scalar", NoneNeeded);
   ("decode", decode_test_go, "BenchmarkGet8uint32DeltaScalar", NoneNeeded);
   ("decode", decode_test_go, "BenchmarkGet8uint32Varint", NoneNeeded);
   ("decode", decode_test_go, "BenchmarkGet8uint32DeltaVarint", NoneNeeded);
   ("writer", writer_test_go, "BenchmarkWriteAllFast", FastEncode);
   ("writer", writer_test_go, "BenchmarkWriteAllDeltaFast", FastEncode);
   ("writer", writer_test_go, "BenchmarkWriteAllScalar", NoneNeeded);
   ("writer", writer_test_go, "BenchmarkWriteAllDeltaScalar", NoneNeeded);
   ("writer", writer_test_go, "BenchmarkWriteAllVarint", NoneNeeded);
   ("writer", writer_test_go, "BenchmarkWriteAllDeltaVarint", NoneNeeded);
   ("reader", reader_test_go, "BenchmarkReadAllFast", FastDecode);
   ("reader", reader_test_go, "BenchmarkReadAllDeltaFast", FastDecode);
   ("reader", reader_test_go, "BenchmarkReadAllScalar", NoneNeeded);
   ("reader", reader_test_go, "BenchmarkReadAllDeltaScalar", NoneNeeded);
   ("reader", reader_test_go, "BenchmarkReadAllVarint", NoneNeeded);
   ("reader", reader_test_go, "BenchmarkReadAllDeltaVarint", NoneNeeded)].
(** Every benchmark runs to its end, with no panic and no access outside memory: for every
    b.N, whatever numbers are drawn, wherever memory is allocated, and however often b.Run
    calls its function.  It is skipped only if the CPU has not got the instructions.
    [n] bounds b.N and the number of calls by b.Run, and is otherwise arbitrary. *)
Theorem C56_benchmarks_run : forall a n N m pk ls x d, In (pk, ls, x, d) benchmarks ->
  10000001 <= Z.of_nat n -> 1 <= N < Z.of_nat n -> N < 2 ^ 63 -> typed m ->
  passes (negb (available a d)) (runBenchmark a n N pk ls x) m.
Proof.
  intros a n N m pk ls x d H Hn HN HM Ht. unfold benchmarks in H.
  repeat (destruct H as [H|H]; [injection H as <- <- <- <-; cbn [available negb]|]); [..|destruct H].
  - by apply b_MemCopy8Uint32.
  - by apply b_Put8uint32Fast.
  - by apply b_Put8uint32DeltaFast.
  - by apply b_Put8uint32Scalar.
  - by apply b_Put8uint32DeltaScalar.
  - by apply b_Put8uint32Varint.
  - by apply b_Put8uint32DeltaVarint.
  - by apply b_Get8uint32Fast.
  - by apply b_Get8uint32DeltaFast.
  - by apply b_Get8uint32Scalar.
  - by apply b_Get8uint32DeltaScalar.
  - by apply b_Get8uint32Varint.
  - by apply b_Get8uint32DeltaVarint.
  - by apply b_WriteAllFast.
  - by apply b_WriteAllDeltaFast.
  - by apply b_WriteAllScalar.
  - by apply b_WriteAllDeltaScalar.
  - by apply b_WriteAllVarint.
  - by apply b_WriteAllDeltaVarint.
  - by apply b_ReadAllFast.
  - by apply b_ReadAllDeltaFast.
  - by apply b_ReadAllScalar.
  - by apply b_ReadAllDeltaScalar.
  - by apply b_ReadAllVarint.
  - by apply b_ReadAllDeltaVarint.
Qed.
(** For every b.N there is such an [n]. *)
Theorem C56_every_N : forall a N m pk ls x d, In (pk, ls, x, d) benchmarks -> 1 <= N < 2 ^ 63 -> typed m ->
  exists n0, forall n, (n0 <= n)%nat -> passes (negb (available a d)) (runBenchmark a n N pk ls x) m.
Proof.
  intros a N m pk ls x d H HN Ht. exists (Z.to_nat (10000001 + N)). intros n Hn. assert (10000001 + N <= Z.of_nat n) by lia.
  apply C56_benchmarks_run; [exact H|lia|lia|lia|exact Ht].
Qed.
(** [benchmarks] is all the benchmarks of the test files. *)
Definition isBenchmark (d : decl) : list string :=
  match d with DFunc f => if String.prefix "Benchmark" (f_name f) then [f_name f] else [] | _ => [] end.
Theorem C56_all_benchmarks : forall pk ls,
  In (pk, ls) [("pkg", pkg_test_go); ("encode", encode_test_go); ("decode", decode_test_go); ("writer", writer_test_go); ("reader", reader_test_go); ("util", varint_test_go)] ->
  exists f, parse ls = Some f /\ package f = pk /\
    flat_map isBenchmark (decls f) = flat_map (fun '(p, _, x, _) => if String.eqb p pk then [x] else []) benchmarks.
Proof.
  intros pk ls H. repeat (destruct H as [H|H]; [injection H as <- <-|]); [..|destruct H].
  - exists t_pkg. split; [exact parse_pkg|]. vm_compute. split; reflexivity.
  - exists t_encode. split; [exact parse_encode|]. vm_compute. split; reflexivity.
  - exists t_decode. split; [exact parse_decode|]. vm_compute. split; reflexivity.
  - exists t_writer. split; [exact parse_writer|]. vm_compute. split; reflexivity.
  - exists t_reader. split; [exact parse_reader|]. vm_compute. split; reflexivity.
  - exists t_varint. split; [exact parse_varint|]. vm_compute. split; reflexivity.
Qed.
(** One execution of some benchmarks, with b.N = 3. *)
Example C56_example :
  (forall x, In x [("encode", encode_test_go, "BenchmarkPut8uint32DeltaFast"); ("encode", encode_test_go, "BenchmarkPut8uint32DeltaVarint");
                   ("decode", decode_test_go, "BenchmarkGet8uint32Fast"); ("decode", decode_test_go, "BenchmarkGet8uint32DeltaVarint"); ("pkg", pkg_test_go, "BenchmarkMemCopy8Uint32")] ->
    let '(pk, ls, f) := x in
    sim (runBenchmark (AMD64 true true) 3000 3 pk ls f) (Mem ∅ ∅) 0 12345 = Some Pass) /\
  sim (runBenchmark (AMD64 true false) 3000 3 "encode" encode_test_go "BenchmarkPut8uint32DeltaFast") (Mem ∅ ∅) 0 12345 = Some Skip.
Proof.
  split; [|vm_compute; reflexivity]. intros x H. repeat (destruct H as [<-|H]; [vm_compute; reflexivity|]). destruct H.
Qed.
(** A benchmark that gives Put8uint32Scalar a short buffer does not run to its end. *)
Definition wrong_benchmark : list string :=
  ["package encode"; "";
   "func BenchmarkShort(b *testing.B) {";
   "	nums := []uint32{1, 2, 3, 4, 5, 6, 7, 70000}";
   "	out := make([]byte, 9)";
   "	for i := 0; i < b.N; i++ {";
   "		Put8uint32Scalar(nums, out)";
   "	}";
   "}"].
Example C56_example_wrong :
  sim (runBenchmark OtherArch 3000 3 "encode" wrong_benchmark "BenchmarkShort") (Mem ∅ ∅) 0 12345 = None.
Proof. vm_compute. reflexivity. Qed.
