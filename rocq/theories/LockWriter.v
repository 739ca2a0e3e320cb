(** * Writers in lock step *)
From stdpp Require Import prelude gmap list.
From Coq Require Import ZArith Lia.
From Verif Require Import Spec SpecLemmas GoSem Tables Shared Asm Encode Writer Wp IntSame Lockstep LockEncode.
Local Open Scope Z_scope.

Lemma andnot31 a : iandnot a 31 = 32 * (a / 32).
Proof. change 31 with (2 ^ 5 - 1). rewrite iandnot_pow2 by lia. change (2 ^ 5) with 32. lia. Qed.
Section writers.
Context (VW : nat -> Z -> Z -> Z -> Prop).
Notation esim := (sim anyV VW).
Lemma nums_at b o n o' k : alike_nums VW b o n -> o <= o' -> o' + k <= o + n -> alike_nums VW b o' k.
Proof. intros H H1 H2. replace o' with (o + (o' - o)) by lia. apply (alike_nums_at VW b o n); [done|lia|lia]. Qed.
Lemma deltas_at b o n p p' o' k q q' : alike_deltas VW b o n p p' -> o <= o' -> o' + k <= o + n ->
  prevAt VW b o (o' - o) p p' q q' -> alike_deltas VW b o' k q q'.
Proof. intros H H1 H2 Hq. replace o' with (o + (o' - o)) by lia. by apply (alike_deltas_at VW b o n p p'); [|lia|lia|]. Qed.
Lemma prevAt_VW b o j p p' e q q' : VW b e q q' -> e = o + j - 1 -> 0 < j -> prevAt VW b o j p p' q q'.
Proof. intros H -> Hj. unfold prevAt. replace (j =? 0) with false by lia. exact H. Qed.
Lemma prevAt_eq b o j j' p p' q q' : prevAt VW b o j p p' q q' -> j = j' -> prevAt VW b o j' p p' q q'.
Proof. by intros H <-. Qed.

Section one.
Context (blk : nat) (inp : slice) (Hn : 0 <= s_len inp <= 2 ^ 52).
Lemma ctrlLen_w : idiv (iadd (s_len inp) 3) 4 = (s_len inp + 3) / 4 /\ s_len inp <= 4 * ((s_len inp + 3) / 4) <= s_len inp + 3.
Proof.
  rewrite iadd_small by lia. rewrite idiv_pos by lia. split; [done|]. pose proof (Z.div_mod (s_len inp + 3) 4). pose proof (Z.mod_pos_bound (s_len inp + 3) 4). lia.
Qed.

Section plain.
Context (HA : alike_nums VW (s_blk inp) (s_off inp) (s_len inp)).
Ltac nums := lazymatch goal with
  | |- sim _ _ _ (bind (Put4uint32Scalar _ _) _) _ => eapply sim_bind; [apply sim_Put4|intros ? ? <-]
  | |- sim _ _ _ (bind (PutUint32Scalar _ _ _) _) _ => eapply sim_bind; [apply sim_Put|intros ? ? <-]
  | |- sim _ _ _ (bind (Put8uint32FastAsm _ _ _ _ _) _) _ => eapply sim_bind; [apply sim_Put8Asm|intros ? ? <-]
  | |- alike_nums _ _ _ _ => eapply nums_at; [exact HA|cbn [s_off]; lia|cbn [s_off]; lia]
  | _ => sim1 end; cbn [s_len s_cap s_blk s_off]; cbv zeta.
Lemma sim_WriteAllScalar : esim eq (WriteAllScalar blk inp) (WriteAllScalar blk inp).
Proof.
  unfold WriteAllScalar. cbv zeta. unfold jump. change jumpCtrl with 4. change (isub 16 1) with 15. rewrite andnot15, andnot3.
  destruct ctrlLen_w as [-> Hc]. set (n := s_len inp) in *. set (cl := (n + 3) / 4) in *.
  assert (H16 : 0 <= 16 * (n / 16) <= n) by (pose proof (Z.div_mod n 16); pose proof (Z.mod_pos_bound n 16); lia).
  assert (H4 : 0 <= 4 * (n / 4) <= n /\ n <= 4 * (n / 4) + 3) by (pose proof (Z.div_mod n 4); pose proof (Z.mod_pos_bound n 4); lia).
  sim1. clearbody cl.
  eapply sim_bind.
  { apply (sim_while _ _ (fun st st' => st = st' /\ let '(d, c, e) := st in exists k, e = 16 * k /\ 0 <= k <= n / 16)).
    - intros [[d c] e] ? [<- _]. done.
    - intros [[d c] e] ? [<- (k & -> & Hk)] Hi. rewrite (iadd_small (16 * k) 16) by lia. repeat nums.
      split; [done|]. exists (k + 1). lia.
    - split; [done|]. exists 0. lia. }
  intros [[d c] e] ? [[<- (k & -> & Hk)] _].
  eapply sim_bind.
  { apply (sim_while _ _ (fun st st' => st = st' /\ let '(d, c, e) := st in exists k, e = 4 * k /\ 0 <= 4 * k <= n)).
    - intros [[d' c'] e] ? [<- _]. done.
    - intros [[d' c'] e] ? [<- (j & -> & Hj)] Hi. rewrite (iadd_small (4 * j) 4) by lia. repeat nums.
      split; [done|]. exists (j + 1). lia.
    - split; [done|]. exists (4 * k). lia. }
  intros [[d' c'] e] ? [[<- (j & -> & Hj)] Hd]. cbn beta iota in Hd.
  destruct (negb _) eqn:En.
  - rewrite isub_small by lia. repeat nums. done.
  - repeat nums. done.
Qed.
Lemma sim_WriteAllFast a : esim eq (WriteAllFast a blk inp) (WriteAllFast a blk inp).
Proof.
  destruct a as [avx avx2|]; [|constructor]. unfold WriteAllFast. cbv zeta.
  destruct ctrlLen_w as [-> Hc]. set (n := s_len inp) in *. set (cl := (n + 3) / 4) in *. clearbody cl.
  rewrite (isub_small cl 3), (isub_small cl 2), (imul_small (cl - 3) 4) by lia. rewrite andnot31.
  assert (H32 : 32 * ((cl - 3) * 4 / 32) <= 4 * cl - 12) by (pose proof (Z.div_mod ((cl - 3) * 4) 32); pose proof (Z.mod_pos_bound ((cl - 3) * 4) 32); lia).
  sim1.
  eapply sim_bind.
  { apply (sim_while _ _ (fun st st' => st = st' /\ let '(d, c, e) := st in exists k, e = 32 * k /\ c = 8 * k /\ 0 <= k <= Z.max 0 ((cl - 3) * 4 / 32))).
    - intros [[d c] e] ? [<- _]. done.
    - intros [[d c] e] ? [<- (k & -> & -> & Hk)] Hi. rewrite (iadd_small (32 * k) 32), (iadd_small (8 * k) 8) by lia. repeat nums.
      split; [done|]. exists (k + 1). lia.
    - split; [done|]. exists 0. lia. }
  intros [[d c] e] ? [[<- (k & -> & -> & Hk)] _].
  eapply sim_bind.
  { apply (sim_while _ _ (fun st st' => st = st' /\ let '(d, c, e) := st in e = 4 * c /\ 0 <= c <= cl /\ 4 * c <= n)).
    - intros [[d' c'] e] ? [<- _]. done.
    - intros [[d' c'] e] ? [<- (-> & Hj)] Hi. rewrite (iadd_small (4 * c') 8), (iadd_small c' 2) by lia. repeat nums.
      split; [done|]. lia.
    - split; [done|]. lia. }
  intros [[d' c'] e] ? [[<- (-> & Hj)] _].
  eapply sim_bind.
  { apply (sim_while _ _ (fun st st' => st = st' /\ let '(d, c, e) := st in 0 <= c <= cl /\ (c = cl /\ e = n \/ e = 4 * c /\ e <= n))).
    - intros [[d'' c''] e] ? [<- _]. done.
    - intros [[d'' c''] e] ? [<- (Hj' & [He|He])] Hi; [lia|]. destruct He as [-> He].
      rewrite (isub_small n) by lia. set (x := if 4 <? _ then _ else _).
      assert (Hx : x = Z.min 4 (n - 4 * c'')) by (subst x; destruct (4 <? _) eqn:?; lia). clearbody x.
      rewrite (iadd_small (4 * c'')), (iadd_small c'') by lia. repeat nums.
      split; [done|]. lia.
    - split; [done|]. lia. }
  intros [[d'' c''] e] ? [[<- _] _]. repeat nums. done.
Qed.
Lemma sim_WriteAll a : esim eq (WriteAll a blk inp) (WriteAll a blk inp).
Proof. unfold WriteAll. destruct (encGetMode a); [apply sim_WriteAllScalar|apply sim_WriteAllFast]. Qed.
End plain.

Section delta.
Context (p p' : Z) (HA : alike_deltas VW (s_blk inp) (s_off inp) (s_len inp) p p').
Ltac prevs := cbn [s_off s_blk s_len s_cap fst snd] in *; first
  [ eapply prevAt_eq; [eassumption|lia]
  | match goal with V : VW _ ?e ?q ?q' |- prevAt _ _ _ _ _ _ ?q ?q' => apply (prevAt_VW _ _ _ _ _ e); [exact V|lia|lia] end ].
Ltac nums := lazymatch goal with
  | |- sim _ _ _ (bind (Put4uint32DeltaScalar _ _ _) _) _ => eapply sim_bind; [apply sim_Put4Delta|intros ? ? <-]
  | |- sim _ _ _ (bind (PutUint32DeltaScalar _ _ _ _) _) _ => eapply sim_bind; [apply sim_PutDelta|intros ? ? <-]
  | |- sim _ _ _ (bind (Put8uint32DeltaFastAsm _ _ _ _ _ _) _) _ => eapply sim_bind; [apply sim_Put8DeltaAsm|intros ? ? <-]
  | |- alike_deltas _ _ _ _ _ _ => eapply deltas_at; [exact HA|cbn [s_off]; lia|cbn [s_off]; lia|prevs]
  | _ => sim1 end; cbn [s_len s_cap s_blk s_off]; cbv zeta.
Lemma sim_WriteAllDeltaScalar : esim eq (WriteAllDeltaScalar blk inp p) (WriteAllDeltaScalar blk inp p').
Proof.
  unfold WriteAllDeltaScalar. cbv zeta. unfold jump. change jumpCtrl with 4. change (isub 16 1) with 15. rewrite andnot15, andnot3.
  destruct ctrlLen_w as [-> Hc]. set (n := s_len inp) in *. set (cl := (n + 3) / 4) in *.
  assert (H16 : 0 <= 16 * (n / 16) <= n) by (pose proof (Z.div_mod n 16); pose proof (Z.mod_pos_bound n 16); lia).
  assert (H4 : 0 <= 4 * (n / 4) <= n /\ n <= 4 * (n / 4) + 3) by (pose proof (Z.div_mod n 4); pose proof (Z.mod_pos_bound n 4); lia).
  sim1. clearbody cl.
  eapply sim_bind.
  { apply (sim_while _ _ (fun st st' => st.1 = st'.1 /\ let '(d, c, e, q) := st in prevAt VW (s_blk inp) (s_off inp) e p p' q (st'.2) /\ exists k, e = 16 * k /\ 0 <= k <= n / 16)).
    - intros [[[d c] e] q] [? q'] [[= <-] _]. done.
    - intros [[[d c] e] q] [? q'] [[= <-] (Hq & k & -> & Hk)] Hi. cbn [snd] in Hq. rewrite (iadd_small (16 * k) 16) by lia. repeat nums.
      split; [done|]. split; [prevs|]. exists (k + 1). lia.
    - split; [done|]. split; [split; reflexivity|]. exists 0. lia. }
  intros [[[d c] e] q] [? q'] [[[= <-] (Hq & k & -> & Hk)] _]. cbn [snd] in Hq.
  eapply sim_bind.
  { apply (sim_while _ _ (fun st st' => st.1 = st'.1 /\ let '(d, c, e, q) := st in prevAt VW (s_blk inp) (s_off inp) e p p' q (st'.2) /\ exists k, e = 4 * k /\ 0 <= 4 * k <= n)).
    - intros [[[d' c'] e] r] [? r'] [[= <-] _]. done.
    - intros [[[d' c'] e] r] [? r'] [[= <-] (Hr & j & -> & Hj)] Hi. cbn [snd] in Hr. rewrite (iadd_small (4 * j) 4), (iadd_small (4 * j) 3) by lia. repeat nums.
      split; [done|]. split; [prevs|]. exists (j + 1). lia.
    - split; [done|]. split; [done|]. exists (4 * k). lia. }
  intros [[[d' c'] e] r] [? r'] [[[= <-] (Hr & j & -> & Hj)] Hd]. cbn [snd] in Hr. cbn beta iota in Hd.
  destruct (negb _) eqn:En.
  - rewrite isub_small by lia. repeat nums. done.
  - repeat nums. done.
Qed.
Lemma sim_WriteAllDeltaFast a : esim eq (WriteAllDeltaFast a blk inp p) (WriteAllDeltaFast a blk inp p').
Proof.
  destruct a as [avx avx2|]; [|constructor]. unfold WriteAllDeltaFast. cbv zeta.
  destruct ctrlLen_w as [-> Hc]. set (n := s_len inp) in *. set (cl := (n + 3) / 4) in *. clearbody cl.
  rewrite (isub_small cl 3), (isub_small cl 2), (imul_small (cl - 3) 4) by lia. rewrite andnot31.
  assert (H32 : 32 * ((cl - 3) * 4 / 32) <= 4 * cl - 12) by (pose proof (Z.div_mod ((cl - 3) * 4) 32); pose proof (Z.mod_pos_bound ((cl - 3) * 4) 32); lia).
  sim1.
  eapply sim_bind.
  { apply (sim_while _ _ (fun st st' => st.1 = st'.1 /\ let '(d, c, e, q) := st in prevAt VW (s_blk inp) (s_off inp) e p p' q (st'.2) /\
      exists k, e = 32 * k /\ c = 8 * k /\ 0 <= k <= Z.max 0 ((cl - 3) * 4 / 32))).
    - intros [[[d c] e] q] [? q'] [[= <-] _]. done.
    - intros [[[d c] e] q] [? q'] [[= <-] (Hq & k & -> & -> & Hk)] Hi. cbn [snd] in Hq.
      rewrite (iadd_small (32 * k) 32), (iadd_small (8 * k) 8) by lia. repeat nums.
      split; [done|]. split; [prevs|]. exists (k + 1). lia.
    - split; [done|]. split; [split; reflexivity|]. exists 0. lia. }
  intros [[[d c] e] q] [? q'] [[[= <-] (Hq & k & -> & -> & Hk)] _]. cbn [snd] in Hq.
  eapply sim_bind.
  { apply (sim_while _ _ (fun st st' => st.1 = st'.1 /\ let '(d, c, e, q) := st in prevAt VW (s_blk inp) (s_off inp) e p p' q (st'.2) /\ e = 4 * c /\ 0 <= c <= cl /\ 4 * c <= n)).
    - intros [[[d' c'] e] r] [? r'] [[= <-] _]. done.
    - intros [[[d' c'] e] r] [? r'] [[= <-] (Hr & -> & Hj)] Hi. cbn [snd] in Hr.
      rewrite (iadd_small (4 * c') 8), (iadd_small c' 2), (isub_small (4 * c' + 8)) by lia. repeat nums.
      split; [done|]. split; [prevs|]. lia.
    - split; [done|]. split; [cbn [snd]; prevs|]. lia. }
  intros [[[d' c'] e] r] [? r'] [[[= <-] (Hr & -> & Hj)] _]. cbn [snd] in Hr.
  eapply sim_bind.
  { apply (sim_while _ _ (fun st st' => st.1 = st'.1 /\ let '(d, c, e, q) := st in 0 <= c <= cl /\
      (c = cl /\ e = n \/ e = 4 * c /\ e <= n /\ prevAt VW (s_blk inp) (s_off inp) e p p' q (st'.2)))).
    - intros [[[d'' c''] e] s] [? s'] [[= <-] _]. done.
    - intros [[[d'' c''] e] s] [? s'] [[= <-] (Hj' & [He|He])] Hi; [lia|]. destruct He as (-> & He & Hs). cbn [snd] in Hs.
      rewrite (isub_small n) by lia. set (x := if 4 <? _ then _ else _).
      assert (Hx : x = Z.min 4 (n - 4 * c'')) by (subst x; destruct (4 <? _) eqn:?; lia). clearbody x.
      rewrite (iadd_small (4 * c'')), (iadd_small c''), (isub_small (4 * c'' + x)) by lia. repeat nums.
      split; [done|]. split; [lia|]. destruct (decide (x = 4)) as [->|]; [right|left; lia]. split; [lia|]. split; [lia|]. cbn [snd]. prevs.
    - split; [done|]. split; [lia|]. right. split; [done|]. split; [lia|]. cbn [snd]. prevs. }
  intros [[[d'' c''] e] s] [? s'] [[[= <-] _] _]. repeat nums. done.
Qed.
Lemma sim_WriteAllDelta a : esim eq (WriteAllDelta a blk inp p) (WriteAllDelta a blk inp p').
Proof. unfold WriteAllDelta. destruct (encGetMode a); [apply sim_WriteAllDeltaScalar|apply sim_WriteAllDeltaFast]. Qed.
End delta.
End one.
End writers.
