(** * Theorems: other orders of evaluation (C65)

    A compiler may evaluate the operands of an expression in an order other than the one
    of GoInterp.v, and interleave their memory accesses.  For the functions of this
    repository that makes no difference. *)
From stdpp Require Import prelude gmap list.
From Coq Require Import ZArith String Bool Lia.
From Verif Require Import SourceText GoSyntax GoInterp AsmText GoProgram GoSource GoOrder.
From Verif Require Import Spec GoSem Tables Shared Asm Encode Decode Writer Reader Util IntOps Api ApiLemmas C_RoundTrip C_Text OrderProof OrderExpr OrderStmt.
Local Open Scope string_scope.
Local Open Scope list_scope.
Local Open Scope Z_scope.

(** The checks of GoOrder.v, on the whole text. *)
Lemma text_checked a : forallb (checkedFunction silentIn) (p_decls (source a)) = true.
Proof. destruct a; vm_compute; reflexivity. Qed.
Lemma silent_names p f : silentIn p f = true ->
  In (p, f) [("decode", "decodeOne"); ("decode", "GetMode"); ("encode", "GetMode"); ("encode", "max"); ("shared", "ControlByteToSize"); ("shared", "ControlByteToSizeTwo"); ("bits", "LeadingZeros32")].
Proof.
  unfold silentIn, GoSyntax.mem, existsb. intros H. revert H.
  repeat (match goal with |- context [String.eqb p ?x] => destruct (String.eqb_spec p x) as [->|_] end; [cbv beta iota|]); [..|discriminate];
  repeat match goal with |- context [String.eqb f ?x] => destruct (String.eqb_spec f x) as [->|_] end; try discriminate; cbn; tauto.
Qed.
Lemma silent_glob w a p f : silentIn p f = true -> glob w a (source a) p f = None.
Proof.
  intros H. apply silent_names in H. cbn in H.
  repeat (destruct H as [H|H]; [injection H as <- <-; destruct a as [[|] [|]|]; vm_compute; reflexivity|]). done.
Qed.
Lemma silent_extern p f args q : silentIn p f = true -> extern p f args = Some q -> quiet q.
Proof.
  intros H. apply silent_names in H. cbn in H.
  repeat (destruct H as [H|H]; [injection H as <- <-; try discriminate|]); [|done].
  destruct args as [|[] [|]]; try discriminate; try (destruct k; discriminate). destruct k; try discriminate. intros [= <-]. constructor.
Qed.

(** Function [f] of package [p], compiled with the order [pick]; int has [w] bits. *)
Definition callOn (pick : order) (w : Z) (a : arch) (blk n : nat) (p f : string) (args : list value) : prog R :=
  callAny pick w a (source a) (glob w a (source a)) blk n p f args.
Definition callIn (pick : order) : arch -> nat -> nat -> string -> string -> list value -> prog R := callOn pick 64.

(** ** C65 *)
Theorem C65_any_order : forall pick w a blk n p f args m,
  let r := run (call w a (source a) blk n p f args) m in
  let r' := run (callOn pick w a blk n p f args) m in
  (forall vs, result r = Ok vs -> result r' = Ok vs /\ final r' = final r) /\
  (result r = Panicked -> (forall vs, result r' <> Ok vs) /\ (result r' = Panicked -> final r' = final r)).
Proof.
  intros pick w a blk n p f args m. cbv zeta. pose proof (proj1 (calls_agree pick w a (source a) (glob w a (source a)) blk silentIn (silent_glob w a) silent_extern (text_checked a) n) p f args m) as H.
  unfold agree, out in H. unfold call, callOn.
  destruct (result (run (callWith _ _ _ _ _ _ _ _ _) m)) as [vs| | | |]; split; try discriminate.
  - intros vs' [= <-]. by injection H as -> ->.
  - intros _. destruct (result (run (callAny _ _ _ _ _ _ _ _ _ _) m)); split; try done.
Qed.

(** So everything C49 says holds in any order; how much fuel is enough does not depend on it. *)
Theorem C65_executes : forall A a blk pkg f args (p : prog A) out, executes a blk pkg f args p out ->
  exists N, forall n pick m, (N <= n)%nat ->
    (forall v m', returns p m v m' -> returns (callIn pick a blk n pkg f args) m (out v) m') /\
    (result (run p m) = Panicked -> (forall vs, result (run (callIn pick a blk n pkg f args) m) <> Ok vs) /\
       (result (run (callIn pick a blk n pkg f args) m) = Panicked -> final (run (callIn pick a blk n pkg f args) m) = final (run p m))).
Proof.
  intros A a blk pkg f args p out [N H]. exists N. intros n pick m L. destruct (H n m L) as [E _].
  destruct (C65_any_order pick 64 a blk n pkg f args m) as [H1 H2]. rewrite E in H1, H2.
  unfold result, final, shows, returns in *. destruct (run p m) as [[x y] z]. cbn [fst snd] in *. split.
  - intros v m' [E1 E2]. unfold result, final in E1, E2. cbn [fst snd] in E1, E2. subst x y. apply (H1 _ eq_refl).
  - intros ->. apply (H2 eq_refl).
Qed.

(** What is written in one order is read in another. *)
Theorem C65_round_trip : forall a b B inp m, typed m -> validW m inp -> mb m !! B = None ->
  exists st m1, (exists N, forall n pick, (N <= n)%nat -> returns (callIn pick a B n "writer" "WriteAll" [VWords inp]) m [VBytes st] m1) /\ validB m1 st /\
  forall m2 out, typed m2 -> validB m2 st -> bytes m2 st = bytes m1 st -> validW m2 out -> s_len inp <= s_len out ->
  exists m3, (exists N, forall n pick, (N <= n)%nat -> returns (callIn pick b 0 n "reader" "ReadAll" [VInt INT (s_len inp); VBytes st; VWords out]) m2 [] m3) /\
    take (Z.to_nat (s_len inp)) (words m3 out) = words m inp.
Proof.
  intros a b B inp m Ht Hv Hf. destruct (C49_round_trip a b B inp m Ht Hv Hf) as (st & m1 & [N R] & Hb & H). exists st, m1. split; [|split; [exact Hb|]].
  - exists N. intros n pick L. destruct (R n L) as [R1 R2]. destruct (C65_any_order pick 64 a B n "writer" "WriteAll" [VWords inp] m) as [X _]. destruct (X _ R1) as [X1 X2]. split; [exact X1|rewrite <- R2; exact X2].
  - intros m2 out Ht2 Hb2 E Ho L. destruct (H m2 out Ht2 Hb2 E Ho L) as (m3 & [N3 R3] & E3). exists m3. split; [|exact E3].
    exists N3. intros n pick Ln. destruct (R3 n Ln) as [R1 R2]. destruct (C65_any_order pick 64 b 0%nat n "reader" "ReadAll" [VInt INT (s_len inp); VBytes st; VWords out] m2) as [X _]. destruct (X _ R1) as [X1 X2]. split; [exact X1|rewrite <- R2; exact X2].
Qed.
Theorem C65_delta_round_trip : forall a b B inp prev m, typed m -> validW m inp -> mb m !! B = None -> is_u32 prev ->
  exists st m1, (exists N, forall n pick, (N <= n)%nat -> returns (callIn pick a B n "writer" "WriteAllDelta" [VWords inp; VInt U32 prev]) m [VBytes st] m1) /\ validB m1 st /\
  forall m2 out, typed m2 -> validB m2 st -> bytes m2 st = bytes m1 st -> validW m2 out -> s_len inp <= s_len out ->
  exists m3, (exists N, forall n pick, (N <= n)%nat -> returns (callIn pick b 0 n "reader" "ReadAllDelta" [VInt INT (s_len inp); VBytes st; VWords out; VInt U32 prev]) m2 [] m3) /\
    take (Z.to_nat (s_len inp)) (words m3 out) = words m inp.
Proof.
  intros a b B inp prev m Ht Hv Hf Hp. destruct (C49_delta_round_trip a b B inp prev m Ht Hv Hf Hp) as (st & m1 & [N R] & Hb & H). exists st, m1. split; [|split; [exact Hb|]].
  - exists N. intros n pick L. destruct (R n L) as [R1 R2]. destruct (C65_any_order pick 64 a B n "writer" "WriteAllDelta" [VWords inp; VInt U32 prev] m) as [X _]. destruct (X _ R1) as [X1 X2]. split; [exact X1|rewrite <- R2; exact X2].
  - intros m2 out Ht2 Hb2 E Ho L. destruct (H m2 out Ht2 Hb2 E Ho L) as (m3 & [N3 R3] & E3). exists m3. split; [|exact E3].
    exists N3. intros n pick Ln. destruct (R3 n Ln) as [R1 R2]. destruct (C65_any_order pick 64 b 0%nat n "reader" "ReadAllDelta" [VInt INT (s_len inp); VBytes st; VWords out; VInt U32 prev] m2) as [X _]. destruct (X _ R1) as [X1 X2]. split; [exact X1|rewrite <- R2; exact X2].
Qed.

(** From right to left the bytes of a number are read in the opposite order, which gives
    the same number; and when the slice is too short the panic comes without any read. *)
Definition rightFirst : order := fun _ _ _ _ => false.
Definition leftFirst : order := fun _ _ _ _ => true.
Definition C65_mem : mem := Mem {[ 1%nat := [1; 2; 3; 4] ]} {[ 1%nat := [1; 300; 70000; 2 ^ 32 - 1; 0; 5; 6; 7; 2 ^ 24; 9; 1000]; 2%nat := replicate 11 0 ]}.
Example C65_reads :
  let go pick len := run (callIn pick OtherArch 9 20 "decode" "decodeOne" [VBytes (Slice 1 0 len len); VInt U8 3]) C65_mem in
  result (go leftFirst 4) = Ok [VInt U32 0x030201] /\ result (go rightFirst 4) = Ok [VInt U32 0x030201] /\
  trace (go leftFirst 4) = rev (trace (go rightFirst 4)) /\ trace (go leftFirst 4) <> trace (go rightFirst 4) /\
  result (go leftFirst 2) = Panicked /\ result (go rightFirst 2) = Panicked /\ List.length (trace (go leftFirst 2)) <> List.length (trace (go rightFirst 2)).
Proof. vm_compute. repeat split; discriminate. Qed.
(** Eleven numbers written from right to left, and read in an order that alternates. *)
Definition alternating : order := fun es s p q => Nat.odd (List.length es + List.length s) || match p, q with ReadB _ i _, ReadB _ j _ => Z.odd (i + j) | ReadW _ i _, _ => Z.odd i | _, _ => false end.
Example C65_example :
  let inp := Slice 1 0 11 11 in let out := Slice 2 0 11 11 in
  let go a b := let! r := callIn rightFirst a 7 60 "writer" "WriteAll" [VWords inp] in
                match r with
                | [VBytes st] => callIn alternating b 0 60 "reader" "ReadAll" [VInt INT 11; VBytes st; VWords out]
                | _ => Fault
                end in
  let x := run (go (AMD64 true true) (AMD64 false false)) C65_mem in
  let y := run (go OtherArch (AMD64 true false)) C65_mem in
  result x = Ok [] /\ words (final x) out = words C65_mem inp /\ result y = Ok [] /\ words (final y) out = words C65_mem inp.
Proof. vm_compute. repeat split. Qed.
(** Not every program is so.  encodeOne(7, data) + int(data[0]) has two values; the check
    that the theorems rest on rejects it. *)
Example C65_matters :
  let e := EBin "+" (ECall (EId "encodeOne") [EInt 7; EId "data"]) (ECall (EId "int") [EIdx (EId "data") (EInt 0)]) in
  let s := [("data", VBytes (Slice 1 0 4 4))] in
  let P := source OtherArch in
  let go pick := run (ev2 64 pick "encode" (types P) (glob 64 OtherArch P) (callIn pick OtherArch 9 20) 9 e s) C65_mem in
  result (go leftFirst) = Ok [VInt INT 8] /\ result (go rightFirst) = Ok [VInt INT 2] /\ ordered silentIn "encode" e = false.
Proof. vm_compute. repeat split. Qed.
