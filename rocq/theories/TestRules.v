(** * Rules for the execution of tests: steps, calls, random numbers *)
From Coq Require Import ZArith String Lia.
From stdpp Require Import prelude gmap list sorting.
From Verif Require Import Spec SpecLemmas Shared Asm IntOps Encode Decode Writer Reader Util GoSyntax GoInterp AsmText GoProgram GoSource SourceBase.
From Verif Require Import GoSem Api TestText TestInterp.
Local Open Scope string_scope.
Local Open Scope list_scope.
Local Open Scope Z_scope.

Section rules.
Context (may : bool) (m : mem).
Notation passes := (passes may).
Lemma passes_ret vs k : passes (k vs) m -> passes (Invoke (fun _ _ => Ret vs) k) m.
Proof. intros H b _. exists vs, m. split; [|done]. exists 0%nat. intros n _. split; done. Qed.
Lemma passes_newW l k : (forall b, mw m !! b = None -> passes (k (Slice b 0 (Z.of_nat (length l)) (Z.of_nat (length l)))) (Mem (mb m) (<[ b := l ]> (mw m)))) ->
  passes (NewW l k) m.
Proof. done. Qed.
Lemma passes_newB l k : (forall b, mb m !! b = None -> passes (k (Slice b 0 (Z.of_nat (length l)) (Z.of_nat (length l)))) (Mem (<[ b := l ]> (mb m)) (mw m))) ->
  passes (NewB l k) m.
Proof. done. Qed.
Lemma passes_draw lo hi k : (forall z, lo <= z < hi -> passes (k z) m) -> passes (Draw lo hi k) m.
Proof. done. Qed.
Lemma passes_sort s k : passes k (Mem (mb m) (overwrite (mw m) s (merge_sort Z.le (words m s)))) -> passes (SortW s k) m.
Proof. done. Qed.
Lemma passes_equalW s t k : words m s = words m t -> passes (k true) m -> passes (EqualW s t k) m.
Proof. intros E H. cbn [TestInterp.passes]. by rewrite bool_decide_true. Qed.
Lemma passes_equalB s t k : bytes m s = bytes m t -> passes (k true) m -> passes (EqualB s t k) m.
Proof. intros E H. cbn [TestInterp.passes]. by rewrite bool_decide_true. Qed.
Lemma passes_skip : may = true -> passes Skip m.
Proof. done. Qed.
End rules.

(** ** The interpreter, one statement at a time *)
Section steps.
Variables (a : arch) (pk : string) (user : string -> string -> list value -> (list value -> tst) -> tst) (fuel : nat).
Notation sts := (sts a pk user fuel).
Notation st := (st a pk user fuel).
Notation ev := (ev a pk user).
Lemma sts_nil s k kr : sts [] s k kr = k s.
Proof. reflexivity. Qed.
Lemma sts_cons x r s k kr : sts (x :: r) s k kr = st x s (fun s' => sts r s' k kr) kr.
Proof. reflexivity. Qed.
Lemma st_if c x y s k kr : st (SIf c x y) s k kr =
  ev c s (one (boolean (fun t => if t then sts x s (fun s' => k (leave s s')) kr else sts y s (fun s' => k (leave s s')) kr))).
Proof. reflexivity. Qed.
Lemma st_block b s k kr : st (SBlock b) s k kr = sts b s (fun s' => k (leave s s')) kr.
Proof. reflexivity. Qed.
Lemma st_for c post body s k kr : st (SFor (Some c) post body) s k kr =
  loop fuel (fun s k => ev c s (one (boolean k))) (fun s k => sts body s (fun s' => sts post (leave s s') k kr) kr) s k.
Proof. reflexivity. Qed.
Lemma st_run t e t' ty body s k kr : isHandle s t = true ->
  st (SExpr (ECall (ESel (EId t) "Run") [e; EFunc [(t', ty)] [] body])) s k kr =
  ev e s (fun _ => sts body ((t', handle) :: s) (fun s' => k (leave s s')) (fun _ => Wrong)).
Proof. intros H. cbn [TestInterp.st]. by rewrite H. Qed.
Lemma st_bench t e t' ty body s k kr : isHandle s t = false -> isTimer s t = true ->
  st (SExpr (ECall (ESel (EId t) "Run") [e; EFunc [(t', ty)] [] body])) s k kr =
  ev e s (fun _ => Draw 0 (Z.of_nat fuel) (fun r =>
    runs fuel (Z.to_nat r) (fun N s k => sts body (enterB t' N s) (fun s' => k (leave s s')) (fun _ => Wrong)) s k)).
Proof. intros H H'. cbn [TestInterp.st]. by rewrite H, H'. Qed.
Lemma invoke_user p f vs k : here p f = true -> invoke a user p f vs k = user p f vs k.
Proof. unfold invoke. by intros ->. Qed.
Lemma invoke_call p f vs k fn ws : here p f = false -> declared (p_decls (source a)) p f = Some (DFunc fn) ->
  conform a p (f_params fn) vs = Some ws ->
  invoke a user p f vs k = Invoke (fun b n => GoProgram.call 64 a (source a) b n p f ws) k.
Proof. unfold invoke. by intros -> -> ->. Qed.
End steps.
Lemma user_func a fuel n p f args k fn b s : declared (p_decls (source a)) p f = Some (DFunc fn) -> f_body fn = Some b ->
  bindParams p (types (source a)) (f_params fn) args = Some s ->
  user a fuel (S n) p f args k =
  (let give vs := match bindResults p (types (source a)) (f_results fn) vs with Some ws => k ws | None => Wrong end in
   sts a p (user a fuel n) fuel b s (fun _ => give []) give).
Proof. intros H1 H2 H3. cbn [user]. by rewrite H1, H2, H3. Qed.
Lemma user_var a fuel n p f v z k x t e es : declared (p_decls (source a)) p f = Some (DVar x t (Some (ELit e es))) -> num v = Some z ->
  user a fuel (S n) p f [v] k = pick z es 0 (fun b => sts a p (user a fuel n) fuel b [] (fun _ => Wrong) k).
Proof. intros H1 H2. cbn [user]. by rewrite H1, H2. Qed.

(** Evaluate the interpreter, keeping arithmetic, calls and the primitives of GoSem. *)
Ltac eval_test :=
  cbv [bindParams bindResults typed_as kindOf basic f_name f_params f_results f_body
       st evs ev name assign store one boolean prim binary iop idivide cop isShift isDiv ishift convert num
       index slicing lookup update like leave dflt declare wrap kind_eqb option_map isHandle handle isTimer timer field String.append enterB nilslice zero library literal allSome map pick
       String.eqb Ascii.eqb Bool.eqb andb negb orb List.length List.skipn Nat.sub fst snd] in |- *.
(** The next statement: [K] hides the statements behind it. *)
Ltac tglobals := rewrite ?g_Normal, ?g_MaxBytesPerNum.
Ltac tstep :=
  cbv beta; rewrite ?sts_nil; cbv beta; cbv [leave List.length List.skipn Nat.sub];
  lazymatch goal with
  | |- passes _ (sts _ _ _ _ (SFor _ _ _ :: _) _ _ _) _ => rewrite sts_cons, st_for
  | |- passes _ (sts _ _ _ _ (SBlock _ :: _) _ _ _) _ => rewrite sts_cons, st_block; tstep
  | |- passes _ (sts _ _ _ _ (SIf _ _ _ :: _) _ _ _) _ =>
      rewrite sts_cons, st_if;
      match goal with |- passes _ (ev _ _ _ _ _ (one (boolean ?F))) _ =>
        let K := fresh "K" in set (K := F); eval_test; tglobals; eval_test; subst K; cbv beta end
  | |- passes _ (sts _ _ _ _ (SExpr (ECall (ESel (EId _) "Run") _) :: _) _ _ _) _ =>
      rewrite sts_cons; first [rewrite st_run by reflexivity|rewrite st_bench by reflexivity]; eval_test
  | |- passes _ (sts ?a ?pk ?u ?n (_ :: ?r) _ ?k ?kr) _ =>
      rewrite sts_cons;
      let K := fresh "K" in set (K := fun s' => sts a pk u n r s' k kr); eval_test; tglobals; eval_test
  | |- passes _ (loop _ _ _ _ _) _ => idtac
  | |- passes _ (?K _) _ => is_var K; tryif subst K then tstep else idtac
  | |- passes _ _ _ => eval_test
  end.

Ltac tret := repeat (lazymatch goal with |- passes _ (Invoke _ _) _ => apply passes_ret; eval_test end).
(** Enter a function of pkg/util. *)
Ltac enter D F := erewrite user_func; [|exact D|reflexivity|reflexivity]; cbv zeta; unfold F; cbv [f_results].

(** ** Random numbers: pkg/util/rand.go *)
Definition f_range : func := Eval vm_compute in fnOf amd64 "util" "randUint32Range".
Lemma d_range a : declared (p_decls (source a)) "util" "randUint32Range" = Some (DFunc f_range).
Proof. destruct a; vm_compute; reflexivity. Qed.
Lemma passes_range a fuel n may low high k m : 0 <= low <= high -> high - low + 1 < 2 ^ 32 -> high < 2 ^ 32 ->
  (forall z, low <= z <= high -> passes may (k [VInt U32 z]) m) ->
  passes may (user a fuel (S n) "util" "randUint32Range" [VConst low; VConst high] k) m.
Proof.
  intros H1 H2 H3 H. enter (d_range a) f_range.
  tstep. apply passes_draw. intros z Hz. eval_test. tret.
  assert (E : u32 (u32 (high - low) + 1) = high - low + 1) by (unfold u32; rewrite (Z.mod_small (high - low)) by lia; apply Z.mod_small; lia).
  rewrite E. destruct (Z.eqb_spec (high - low + 1) 0); [lia|]. tret.
  pose proof (Z.mod_pos_bound z (high - low + 1) ltac:(lia)). unfold u32. rewrite Z.mod_small by lia. apply H. lia.
Qed.
Definition f_RandUint32 : func := Eval vm_compute in fnOf amd64 "util" "RandUint32".
Lemma d_RandUint32 a : declared (p_decls (source a)) "util" "RandUint32" = Some (DFunc f_RandUint32).
Proof. destruct a; vm_compute; reflexivity. Qed.
Definition v_generators : decl := Eval vm_compute in match declared (p_decls amd64) "util" "generators" with Some d => d | None => DType "" (TyName "") end.
Lemma d_generators a : declared (p_decls (source a)) "util" "generators" = Some v_generators.
Proof. destruct a; vm_compute; reflexivity. Qed.
Lemma passes_RandUint32 a fuel n may k m : (forall z, is_u32 z -> passes may (k [VInt U32 z]) m) ->
  passes may (user a fuel (S (S (S n))) "util" "RandUint32" [] k) m.
Proof.
  intros H. enter (d_RandUint32 a) f_RandUint32. tstep. apply passes_draw. intros z Hz. eval_test. tret.
  assert (E : iN 64 (Z.rem z 4) = z mod 4).
  { rewrite Z.rem_mod_nonneg by lia. unfold iN. pose proof (Z.mod_pos_bound z 4 ltac:(lia)). change (2 ^ (64 - 1)) with (2 ^ 63).
    rewrite (Z.mod_small (z mod 4 + 2 ^ 63)) by lia. lia. }
  rewrite E. erewrite user_var; [|exact (d_generators a)|reflexivity].
  pose proof (Z.mod_pos_bound z 4 ltac:(lia)) as Hr. set (r := z mod 4) in *. clearbody r.
  cbv [pick].
  destruct (Z.eqb_spec r 0); [|destruct (Z.eqb_spec r (0 + 1)); [|destruct (Z.eqb_spec r (0 + 1 + 1)); [|destruct (Z.eqb_spec r (0 + 1 + 1 + 1)); [|lia]]]];
    tstep; tret; rewrite invoke_user by reflexivity; 
    (apply passes_range; [vm_compute; intuition discriminate|vm_compute; reflexivity|vm_compute; reflexivity|intros v Hv; eval_test; apply H]);
    unfold is_u32; (split; [|eapply Z.le_lt_trans; [apply Hv|vm_compute; reflexivity]]); (eapply Z.le_trans; [|apply Hv]); vm_compute; discriminate.
Qed.

(** ** pkg/util/util.go *)
Lemma loop_S n c body s k : loop (S n) c body s k = c s (fun t => if t then body s (fun s' => loop n c body s' k) else k s).
Proof. reflexivity. Qed.
Lemma iN_small z : - 2 ^ 63 <= z < 2 ^ 63 -> iN 64 z = z.
Proof. intros H. unfold iN. change (2 ^ (64 - 1)) with (2 ^ 63). rewrite Z.mod_small by lia. lia. Qed.
Lemma iaddN_small a b : - 2 ^ 63 <= a + b < 2 ^ 63 -> iaddN 64 a b = a + b.
Proof. apply iN_small. Qed.
Lemma isubN_small a b : - 2 ^ 63 <= a - b < 2 ^ 63 -> isubN 64 a b = a - b.
Proof. apply iN_small. Qed.
Lemma imulN_small a b : - 2 ^ 63 <= a * b < 2 ^ 63 -> imulN 64 a b = a * b.
Proof. apply iN_small. Qed.
(** s[i] = v *)
Lemma passes_setW may m s i v l k : mw m !! s_blk s = Some l -> 0 <= i < s_len s -> 0 <= s_off s -> s_off s + s_len s <= Z.of_nat (length l) ->
  passes may (k []) (Mem (mb m) (<[ s_blk s := <[ Z.to_nat (s_off s + i) := v ]> l ]> (mw m))) ->
  passes may (Invoke (fun _ _ => bind (setW s i v) (fun _ => Ret [])) k) m.
Proof.
  intros Hl Hi Ho Hc H b _. exists [], (Mem (mb m) (<[ s_blk s := <[ Z.to_nat (s_off s + i) := v ]> l ]> (mw m))). split; [|done].
  exists 0%nat. intros n _. unfold setW, check_idx. rewrite (proj2 (Z.leb_le 0 i)), (proj2 (Z.ltb_lt i (s_len s))) by lia.
  unfold returns, result, final. cbn. unfold hput. rewrite (proj2 (Z.leb_le 0 (s_off s + i))), Hl by lia.
  rewrite (proj2 (Nat.ltb_lt (Z.to_nat (s_off s + i)) (length l))) by lia. done.
Qed.
Definition f_GenUint32 : func := Eval vm_compute in fnOf amd64 "util" "GenUint32".
Lemma d_GenUint32 a : declared (p_decls (source a)) "util" "GenUint32" = Some (DFunc f_GenUint32).
Proof. destruct a; vm_compute; reflexivity. Qed.
Lemma passes_GenUint32 a fuel n may c k m : 0 <= c < Z.of_nat fuel -> c < 2 ^ 62 ->
  (forall b l, mw m !! b = None -> Forall is_u32 l -> Z.of_nat (length l) = c -> passes may (k [VWords (Slice b 0 c c)]) (Mem (mb m) (<[ b := l ]> (mw m)))) ->
  passes may (user a fuel (S (S (S (S n)))) "util" "GenUint32" [VInt INT c] k) m.
Proof.
  intros Hc Hc' H. enter (d_GenUint32 a) f_GenUint32. tstep. destruct (Z.ltb_spec c 0); [lia|].
  apply passes_newW. intros b Hb. rewrite replicate_length, Z2Nat.id by lia. tstep. tstep.
  match goal with |- passes _ (loop _ ?C ?B _ ?K') _ =>
    assert (L : forall f j l, 0 <= j <= c -> c - j < Z.of_nat f -> Forall is_u32 l -> Z.of_nat (length l) = c ->
      passes may (loop f C B [("i", VInt INT j); ("nums", VWords (Slice b 0 c c)); ("n", VInt INT c)] K') (Mem (mb m) (<[ b := l ]> (mw m)))) end.
  { intros f. induction f as [|f IH]; intros j l Hj Hf Hl Hn; [lia|]. rewrite loop_S. eval_test. tret.
    destruct (Z.ltb_spec j c) as [E|E].
    - tstep. rewrite invoke_user by reflexivity. apply passes_RandUint32. intros z Hz. eval_test.
      eapply passes_setW; cbn [mw mb s_blk s_off s_len]; [apply lookup_insert|lia|lia|lia|].
      tstep. tret. rewrite iaddN_small by lia. rewrite insert_insert. tstep.
      apply IH; [lia|lia|by apply Forall_insert|by rewrite insert_length].
    - tstep. apply H; done. }
  apply L; [lia|lia|apply Forall_replicate; unfold is_u32; lia|rewrite replicate_length; lia].
Qed.
Definition f_SortUint32 : func := Eval vm_compute in fnOf amd64 "util" "SortUint32".
Lemma d_SortUint32 a : declared (p_decls (source a)) "util" "SortUint32" = Some (DFunc f_SortUint32).
Proof. destruct a; vm_compute; reflexivity. Qed.
Lemma passes_SortUint32 a fuel n may b l c k m : mw m !! b = Some l -> Z.of_nat (length l) = c ->
  passes may (k []) (Mem (mb m) (<[ b := merge_sort Z.le l ]> (mw m))) ->
  passes may (user a fuel (S n) "util" "SortUint32" [VWords (Slice b 0 c c)] k) m.
Proof.
  intros Hl Hc H. enter (d_SortUint32 a) f_SortUint32. tstep. apply passes_sort. tstep. eval_test.
  assert (E : words m (Slice b 0 c c) = l) by (unfold words, contents; cbn [s_blk s_off s_len]; rewrite Hl; subst c; rewrite Nat2Z.id; apply firstn_all).
  rewrite E. unfold overwrite. cbn [s_blk s_off]. rewrite Hl. cbn [Z.to_nat take].
  rewrite (Permutation_length (merge_sort_Permutation Z.le l)), Nat.add_0_l, drop_all, app_nil_l, app_nil_r. exact H.
Qed.

(** ** What calls do to memory *)
(** Allocations do not disappear. *)
Lemma run_keeps {A} (p : prog A) : forall m b, (is_Some (mb m !! b) -> is_Some (mb (final (run p m)) !! b)) /\ (is_Some (mw m !! b) -> is_Some (mw (final (run p m)) !! b)).
Proof.
  assert (P : forall h b0 i v h' b, hput h b0 i v = Some h' -> is_Some (h !! b) -> is_Some (h' !! b)).
  { intros h b0 i v h' b. unfold hput. destruct (0 <=? i); [|done]. destruct (h !! b0) as [l|] eqn:E; [|done].
    destruct (Nat.ltb _ _); [|done]. intros [= <-] H. destruct (decide (b0 = b)) as [->|N]; [by rewrite lookup_insert|by rewrite lookup_insert_ne]. }
  induction p as [v| | | | |b0 i k IH|b0 i v k IH|b0 i k IH|b0 i v k IH|b0 n k IH]; intros m b; unfold final in *; simpl; try done.
  - destruct (hget (mb m) b0 i) as [v|]; [|done]. specialize (IH v m b). by destruct (run (k v) m) as [[? ?] ?].
  - destruct (hput (mb m) b0 i v) as [h|] eqn:E; [|done]. specialize (IH (Mem h (mw m)) b). destruct (run k _) as [[? ?] ?]. cbn in *. split; [|apply IH].
    intros H. apply IH. by eapply P.
  - destruct (hget (mw m) b0 i) as [v|]; [|done]. specialize (IH v m b). by destruct (run (k v) m) as [[? ?] ?].
  - destruct (hput (mw m) b0 i v) as [h|] eqn:E; [|done]. specialize (IH (Mem (mb m) h) b). destruct (run k _) as [[? ?] ?]. cbn in *. split; [apply IH|].
    intros H. apply IH. by eapply P.
  - destruct (mb m !! b0) eqn:E; [done|]. match goal with |- context [run k ?M] => specialize (IH M b) end. destruct (run k _) as [[? ?] ?]. cbn in *.
    split; [|apply IH]. intros H. apply IH. destruct (decide (b0 = b)) as [->|N]; [by rewrite lookup_insert|by rewrite lookup_insert_ne].
Qed.
Lemma stored (h h' : gmap nat (list Z)) b l D n : h !! b = Some l -> is_Some (h' !! b) -> same_except h h' b 0 (Z.of_nat (length D)) ->
  take (length D) (contents h' (Slice b 0 n n)) = D -> Z.of_nat (length D) <= n -> n <= Z.of_nat (length l) ->
  h' = <[ b := D ++ drop (length D) l ]> h.
Proof.
  intros Hl [l' Hl'] (S1 & S2 & S3) T L1 L2. apply map_eq. intros c. destruct (decide (c = b)) as [->|N]; [|rewrite lookup_insert_ne by done; by apply S1].
  rewrite lookup_insert, Hl'. f_equal. rewrite Hl, Hl' in S2. cbn in S2. unfold contents in T. cbn [s_blk s_off s_len] in T. rewrite Hl' in T. cbn in T.
  rewrite take_take, Nat.min_l in T by lia. rewrite <- (take_drop (length D) l'). f_equal; [exact T|].
  apply list_eq. intros i. rewrite !lookup_drop. specialize (S3 (Z.of_nat (length D + i)) ltac:(lia)). unfold hget in S3.
  rewrite (proj2 (Z.leb_le 0 _)), Hl, Hl', Nat2Z.id in S3 by lia. exact S3.
Qed.
Lemma stored_bytes {A} (p : prog A) m v m' b l D n c : returns p m v m' -> stores_bytes m m' (Slice b 0 n c) D -> mb m !! b = Some l ->
  Z.of_nat (length D) <= n -> n <= Z.of_nat (length l) -> m' = Mem (<[ b := D ++ drop (length D) l ]> (mb m)) (mw m).
Proof.
  intros [_ R] (S1 & S2 & S3) Hl L1 L2. destruct m' as [h w]. cbn in *. f_equal; [|exact S1]. apply (stored _ _ _ l _ n); [exact Hl| |exact S2|exact S3|exact L1|exact L2].
  pose proof (proj1 (run_keeps p m b)) as K. rewrite R in K. apply K. by rewrite Hl.
Qed.
Lemma stored_words {A} (p : prog A) m v m' b l D n c : returns p m v m' -> stores_words m m' (Slice b 0 n c) D -> mw m !! b = Some l ->
  Z.of_nat (length D) <= n -> n <= Z.of_nat (length l) -> m' = Mem (mb m) (<[ b := D ++ drop (length D) l ]> (mw m)).
Proof.
  intros [_ R] (S1 & S2 & S3) Hl L1 L2. destruct m' as [h w]. cbn in *. f_equal; [exact S1|]. apply (stored _ _ _ l _ n); [exact Hl| |exact S2|exact S3|exact L1|exact L2].
  pose proof (proj2 (run_keeps p m b)) as K. rewrite R in K. apply K. by rewrite Hl.
Qed.
