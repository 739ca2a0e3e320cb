(** * Decoders and readers in lock step: the same control bytes *)
From stdpp Require Import prelude gmap list.
From Coq Require Import ZArith Lia.
From Verif Require Import Spec SpecLemmas GoSem Tables Shared Asm AsmProgs AsmProof Encode Decode Reader Wp IntSame Lockstep LockEncode LockWriter.
Local Open Scope Z_scope.

Definition whatever {A} (_ _ : A) : Prop := True.

Section decode.
Context (VB : nat -> Z -> Z -> Z -> Prop).
Notation dsim := (sim VB anyV).
Lemma sim_decodeOne b size : dsim whatever (decodeOne b size) (decodeOne b size).
Proof. unfold decodeOne. repeat sim1; done. Qed.
Ltac dec := lazymatch goal with
  | |- sim _ _ _ (bind (decodeOne _ _) _) _ => eapply sim_bind; [apply sim_decodeOne|intros ? ? _]
  | _ => sim1 end.
Lemma sim_Get4 inp out c : dsim eq (Get4uint32Scalar inp out c) (Get4uint32Scalar inp out c).
Proof. unfold Get4uint32Scalar. cbv zeta. repeat dec. done. Qed.
Lemma sim_Get4Delta inp out c p p' : dsim eq (Get4uint32DeltaScalar inp out c p) (Get4uint32DeltaScalar inp out c p').
Proof. unfold Get4uint32DeltaScalar. cbv zeta. repeat dec. done. Qed.
Lemma sim_Get8 inp out c : dsim eq (Get8uint32Scalar inp out c) (Get8uint32Scalar inp out c).
Proof. unfold Get8uint32Scalar. cbv zeta. eapply sim_bind; [apply sim_Get4|]. intros _ _ _. repeat sim1. apply sim_Get4. Qed.
Lemma sim_Get8Delta inp out c p p' : dsim eq (Get8uint32DeltaScalar inp out c p) (Get8uint32DeltaScalar inp out c p').
Proof. unfold Get8uint32DeltaScalar. cbv zeta. eapply sim_bind; [apply sim_Get4Delta|]. intros _ _ _. repeat sim1. apply sim_Get4Delta. Qed.
Lemma sim_Get inp out c n : dsim eq (GetUint32Scalar inp out c n) (GetUint32Scalar inp out c n).
Proof.
  unfold GetUint32Scalar. destruct (n =? 0); [by constructor|]. cbv zeta. eapply sim_bind.
  - apply (sim_while _ _ eq).
    + intros ? ? <-. done.
    + intros [[i shift] total] ? <- _. repeat dec. done.
    + done.
  - intros [[i shift] total] ? [<- _]. by constructor.
Qed.
Lemma sim_GetDelta inp out c n p p' : dsim eq (GetUint32DeltaScalar inp out c n p) (GetUint32DeltaScalar inp out c n p').
Proof.
  unfold GetUint32DeltaScalar. destruct (n =? 0); [by constructor|]. cbv zeta. eapply sim_bind.
  - apply (sim_while _ _ (fun st st' => st.1 = st'.1)).
    + intros [[[i shift] total] q] [? q'] [= <-]. done.
    + intros [[[i shift] total] q] [? q'] [= <-] _. repeat dec. done.
    + done.
  - intros [[[i shift] total] q] [? q'] [[= <-] _]. by constructor.
Qed.

Lemma bytes32_len l : length (bytes32 l) = (4 * length l)%nat.
Proof. induction l as [|w l IH]; [done|]. cbn [bytes32]. rewrite app_length, IH. cbn. lia. Qed.
Lemma map2_len {A B C} (f : A -> B -> C) l k : length (map2 f l k) = Nat.min (length l) (length k).
Proof. revert k. induction l as [|a l IH]; intros [|b k]; cbn; [done..|]. by rewrite IH. Qed.
Lemma paddd_len a b : length a = 16%nat -> length b = 16%nat -> length (paddd a b) = 16%nat.
Proof. intros Ha Hb. unfold paddd. rewrite bytes32_len, map2_len, !(lanes32_length _ 4) by done. done. Qed.
Lemma pslldq_len n a : length a = 16%nat -> length (pslldq n a) = 16%nat.
Proof. intros Ha. unfold pslldq. rewrite take_length, app_length, replicate_length. lia. Qed.
Lemma pshufd_len n a : length (pshufd n a) = 16%nat.
Proof. unfold pshufd. by rewrite bytes32_len, map_length. Qed.
Lemma splat_len z : length (bytes32 (replicate 4 z)) = 16%nat.
Proof. done. Qed.
Ltac len16 := repeat first [assumption | apply paddd_len | apply pslldq_len | apply pshufd_len | apply splat_len | rewrite pshufb_length].

(** decode_amd64.s:5-31 *)
Lemma sim_Get8Asm a inp out c : dsim eq (Get8uint32FastAsm a inp out c DecodeShuffleTable PerControlLenTable) (Get8uint32FastAsm a inp out c DecodeShuffleTable PerControlLenTable).
Proof.
  unfold Get8uint32FastAsm, without_result, call_asm.
  change (layout 0 _) with ([(0, C64 (PB (s_blk inp) (s_off inp))); (8, C64 (VI (s_len inp))); (16, C64 (VI (s_cap inp)));
    (24, C64 (PW (s_blk out) (4 * s_off out))); (32, C64 (VI (s_len out))); (40, C64 (VI (s_cap out)));
    (48, C16 c);
    (56, C64 (PT (concat DecodeShuffleTable) 0)); (64, C64 (PT PerControlLenTable 0))], 72).
  cbv beta iota. apply sim_assoc. eapply (sim_bind _ _ whatever); [|intros s s' _; constructor; done].
  unfold Get8uint32FastAsm_code, astate0.
  do 14 lstep.
  lstep; [apply sim_load8_T|]. intros ? ? <-. apply si_ret. lnext. lstep.
  lstep; [apply sim_load128_B|]. intros ? ? [E1 E1']. apply si_ret. lnext.
  lstep; [apply sim_load128_B|]. intros ? ? [E2 E2']. apply si_ret. lnext.
  lstep; [apply sim_load128_T|]. intros ? ? [<- E3]. apply si_ret. lnext.
  lstep; [apply sim_load128_T|]. intros ? ? [<- E4]. apply si_ret. lnext.
  lstep.
  lstep; [apply (sim_store128_W _ _ _ _ _ _ _ whatever); [done|len16|len16|done]|]. intros _ _ _. apply si_ret.
  lstep; [apply (sim_store128_W _ _ _ _ _ _ _ whatever); [done|len16|len16|done]|]. intros _ _ _. apply si_ret.
  apply si_ret. done.
Qed.
(** decode_amd64.s:33-71 *)
Lemma sim_Get8DeltaAsm a inp out c p p' :
  dsim eq (Get8uint32DeltaFastAsm a inp out c p DecodeShuffleTable PerControlLenTable) (Get8uint32DeltaFastAsm a inp out c p' DecodeShuffleTable PerControlLenTable).
Proof.
  unfold Get8uint32DeltaFastAsm, without_result, call_asm.
  change (layout 0 [argB inp; argW out; PU16 c; PU32 p; _; _]) with ([(0, C64 (PB (s_blk inp) (s_off inp))); (8, C64 (VI (s_len inp))); (16, C64 (VI (s_cap inp)));
    (24, C64 (PW (s_blk out) (4 * s_off out))); (32, C64 (VI (s_len out))); (40, C64 (VI (s_cap out)));
    (48, C16 c); (52, C32 p);
    (56, C64 (PT (concat DecodeShuffleTable) 0)); (64, C64 (PT PerControlLenTable 0))], 72).
  change (layout 0 [argB inp; argW out; PU16 c; PU32 p'; _; _]) with ([(0, C64 (PB (s_blk inp) (s_off inp))); (8, C64 (VI (s_len inp))); (16, C64 (VI (s_cap inp)));
    (24, C64 (PW (s_blk out) (4 * s_off out))); (32, C64 (VI (s_len out))); (40, C64 (VI (s_cap out)));
    (48, C16 c); (52, C32 p');
    (56, C64 (PT (concat DecodeShuffleTable) 0)); (64, C64 (PT PerControlLenTable 0))], 72).
  cbv beta iota. apply sim_assoc. eapply (sim_bind _ _ whatever); [|intros s s' _; constructor; done].
  unfold Get8uint32DeltaFastAsm_code, astate0.
  do 14 lstep.
  lstep; [apply sim_load8_T|]. intros ? ? <-. apply si_ret. lnext. lstep.
  lstep; [apply sim_load128_B|]. intros ? ? [E1 E1']. apply si_ret. lnext.
  lstep; [apply sim_load128_B|]. intros ? ? [E2 E2']. apply si_ret. lnext.
  lstep; [apply sim_load128_T|]. intros ? ? [<- E3]. apply si_ret. lnext.
  lstep; [apply sim_load128_T|]. intros ? ? [<- E4]. apply si_ret. lnext.
  do 13 lstep.
  lstep; [apply (sim_store128_W _ _ _ _ _ _ _ whatever); [done|len16|len16|done]|]. intros _ _ _. apply si_ret.
  lstep; [apply (sim_store128_W _ _ _ _ _ _ _ whatever); [done|len16|len16|done]|]. intros _ _ _. apply si_ret.
  apply si_ret. done.
Qed.
End decode.

(** Control bytes are the same: the first [cl] bytes of [st]. *)
Definition same_ctrl (st : slice) (cl : Z) (b : nat) (i v v' : Z) : Prop :=
  b = s_blk st -> s_off st <= i < s_off st + cl -> v = v'.

Section readers.
Context (n : Z) (st out : slice) (Hn : 0 <= n < 2 ^ 62).
Notation cl := ((n + 3) / 4).
Notation rsim := (sim (same_ctrl st cl) anyV).
Lemma ctrlLen_r : idiv (iadd n 3) 4 = cl /\ n <= 4 * cl <= n + 3.
Proof.
  rewrite iadd_small by lia. rewrite idiv_pos by lia. split; [done|]. pose proof (Z.div_mod (n + 3) 4). pose proof (Z.mod_pos_bound (n + 3) 4). lia.
Qed.
Ltac same := match goal with V : same_ctrl _ _ _ _ ?v ?v' |- _ =>
  let E := fresh in assert (E : v = v') by (apply V; [reflexivity|cbn [s_off]; lia]); clear V; subst v' end.
Ltac rd := lazymatch goal with
  | |- sim _ _ _ (bind (Get4uint32Scalar _ _ _) _) _ => eapply sim_bind; [apply sim_Get4|intros _ _ _]
  | |- sim _ _ _ (bind (Get4uint32DeltaScalar _ _ _ _) _) _ => eapply sim_bind; [apply sim_Get4Delta|intros _ _ _]
  | |- sim _ _ _ (bind (GetUint32Scalar _ _ _ _) _) _ => eapply sim_bind; [apply sim_Get|intros ? ? <-]
  | |- sim _ _ _ (bind (GetUint32DeltaScalar _ _ _ _ _) _) _ => eapply sim_bind; [apply sim_GetDelta|intros ? ? <-]
  | |- sim _ _ _ (bind (Get8uint32FastAsm _ _ _ _ _ _) _) _ => eapply sim_bind; [apply sim_Get8Asm|intros _ _ _]
  | |- sim _ _ _ (bind (Get8uint32DeltaFastAsm _ _ _ _ _ _ _) _) _ => eapply sim_bind; [apply sim_Get8DeltaAsm|intros _ _ _]
  | |- sim _ _ _ (bind (getB _ _) _) _ => sim1; same
  | _ => sim1 end; cbn [s_len s_cap s_blk s_off]; cbv zeta.
Lemma sim_ReadAllScalar : rsim eq (ReadAllScalar n st out) (ReadAllScalar n st out).
Proof.
  unfold ReadAllScalar. cbv zeta. unfold jump. change jumpCtrl with 4. change (isub 16 1) with 15. rewrite andnot15, andnot3.
  destruct ctrlLen_r as [-> Hc]. set (c0 := cl) in *.
  assert (H16 : 0 <= 16 * (n / 16) <= n) by (pose proof (Z.div_mod n 16); pose proof (Z.mod_pos_bound n 16); lia).
  assert (H4 : 0 <= 4 * (n / 4) <= n /\ n <= 4 * (n / 4) + 3) by (pose proof (Z.div_mod n 4); pose proof (Z.mod_pos_bound n 4); lia).
  clearbody c0.
  eapply sim_bind.
  { apply (sim_while _ _ (fun s s' => s = s' /\ let '(d, c, e) := s in exists k, e = 16 * k /\ c = 4 * k /\ 0 <= k <= n / 16)).
    - intros [[d c] e] ? [<- _]. done.
    - intros [[d c] e] ? [<- (k & -> & -> & Hk)] Hi. rewrite (iadd_small (16 * k) 16), (iadd_small (4 * k) 4) by lia. repeat rd.
      split; [done|]. exists (k + 1). lia.
    - split; [done|]. exists 0. lia. }
  intros [[d c] e] ? [[<- (k & -> & -> & Hk)] _].
  eapply sim_bind.
  { apply (sim_while _ _ (fun s s' => s = s' /\ let '(d, c, e) := s in e = 4 * c /\ 0 <= 4 * c <= n)).
    - intros [[d' c'] e] ? [<- _]. done.
    - intros [[d' c'] e] ? [<- (-> & Hj)] Hi. rewrite (iadd_small (4 * c') 4), (iadd_small c' 1) by lia. repeat rd.
      split; [done|]. lia.
    - split; [done|]. lia. }
  intros [[d' c'] e] ? [[<- (-> & Hj)] Hd]. cbn beta iota in Hd.
  destruct (negb _) eqn:En.
  - repeat rd. done.
  - repeat rd. done.
Qed.
Lemma sim_ReadAllDeltaScalar p p' : rsim eq (ReadAllDeltaScalar n st out p) (ReadAllDeltaScalar n st out p').
Proof.
  unfold ReadAllDeltaScalar. cbv zeta. unfold jump. change jumpCtrl with 4. change (isub 16 1) with 15. rewrite andnot15, andnot3.
  destruct ctrlLen_r as [-> Hc]. set (c0 := cl) in *.
  assert (H16 : 0 <= 16 * (n / 16) <= n) by (pose proof (Z.div_mod n 16); pose proof (Z.mod_pos_bound n 16); lia).
  assert (H4 : 0 <= 4 * (n / 4) <= n /\ n <= 4 * (n / 4) + 3) by (pose proof (Z.div_mod n 4); pose proof (Z.mod_pos_bound n 4); lia).
  clearbody c0.
  eapply sim_bind.
  { apply (sim_while _ _ (fun s s' => s.1 = s'.1 /\ let '(d, c, e, _) := s in exists k, e = 16 * k /\ c = 4 * k /\ 0 <= k <= n / 16)).
    - intros [[[d c] e] q] [? q'] [[= <-] _]. done.
    - intros [[[d c] e] q] [? q'] [[= <-] (k & -> & -> & Hk)] Hi. rewrite (iadd_small (16 * k) 16), (iadd_small (4 * k) 4) by lia. repeat rd.
      split; [done|]. exists (k + 1). lia.
    - split; [done|]. exists 0. lia. }
  intros [[[d c] e] q] [? q'] [[[= <-] (k & -> & -> & Hk)] _].
  eapply sim_bind.
  { apply (sim_while _ _ (fun s s' => s.1 = s'.1 /\ let '(d, c, e, _) := s in e = 4 * c /\ 0 <= 4 * c <= n)).
    - intros [[[d' c'] e] r] [? r'] [[= <-] _]. done.
    - intros [[[d' c'] e] r] [? r'] [[= <-] (-> & Hj)] Hi. rewrite (iadd_small (4 * c') 4), (iadd_small c' 1) by lia. repeat rd.
      split; [done|]. lia.
    - split; [done|]. lia. }
  intros [[[d' c'] e] r] [? r'] [[[= <-] (-> & Hj)] Hd]. cbn beta iota in Hd.
  destruct (negb _) eqn:En.
  - repeat rd. done.
  - repeat rd. done.
Qed.
Lemma sim_ReadAllFast a : rsim eq (ReadAllFast a n st out) (ReadAllFast a n st out).
Proof.
  destruct a as [avx avx2|]; [|constructor]. unfold ReadAllFast. cbv zeta.
  destruct ctrlLen_r as [-> Hc]. set (c0 := cl) in *. clearbody c0.
  rewrite (isub_small c0 3), (isub_small c0 4), (imul_small (c0 - 3) 4) by lia. rewrite andnot31.
  assert (H32 : 32 * ((c0 - 3) * 4 / 32) <= 4 * c0 - 12) by (pose proof (Z.div_mod ((c0 - 3) * 4) 32); pose proof (Z.mod_pos_bound ((c0 - 3) * 4) 32); lia).
  eapply sim_bind.
  { apply (sim_while _ _ (fun s s' => s = s' /\ let '(d, c, e) := s in exists k, e = 32 * k /\ c = 8 * k /\ 0 <= k <= Z.max 0 ((c0 - 3) * 4 / 32))).
    - intros [[d c] e] ? [<- _]. done.
    - intros [[d c] e] ? [<- (k & -> & -> & Hk)] Hi. rewrite (iadd_small (32 * k) 32), (iadd_small (8 * k) 8) by lia. repeat rd.
      split; [done|]. exists (k + 1). lia.
    - split; [done|]. exists 0. lia. }
  intros [[d c] e] ? [[<- (k & -> & -> & Hk)] _].
  eapply sim_bind.
  { apply (sim_while _ _ (fun s s' => s = s' /\ let '(d, c, e) := s in 0 <= c <= c0)).
    - intros [[d' c'] e] ? [<- _]. done.
    - intros [[d' c'] e] ? [<- Hj] Hi. rewrite (iadd_small c' 2), (iadd_small c' 1) by lia. repeat rd.
      split; [done|]. lia.
    - split; [done|]. lia. }
  intros [[d' c'] e] ? [[<- Hj] _].
  eapply sim_bind.
  { apply (sim_while _ _ (fun s s' => s = s' /\ let '(d, c, e) := s in 0 <= c <= c0)).
    - intros [[d'' c''] e''] ? [<- _]. done.
    - intros [[d'' c''] e''] ? [<- Hj'] Hi. rewrite (iadd_small c'' 1) by lia. repeat rd.
      split; [done|]. lia.
    - split; [done|]. lia. }
  intros [[d'' c''] e''] ? _. by constructor.
Qed.
Lemma sim_ReadAllDeltaFast a p p' : rsim eq (ReadAllDeltaFast a n st out p) (ReadAllDeltaFast a n st out p').
Proof.
  destruct a as [avx avx2|]; [|constructor]. unfold ReadAllDeltaFast. cbv zeta.
  destruct ctrlLen_r as [-> Hc]. set (c0 := cl) in *. clearbody c0.
  rewrite (isub_small c0 3), (isub_small c0 4), (imul_small (c0 - 3) 4) by lia. rewrite andnot31.
  assert (H32 : 32 * ((c0 - 3) * 4 / 32) <= 4 * c0 - 12) by (pose proof (Z.div_mod ((c0 - 3) * 4) 32); pose proof (Z.mod_pos_bound ((c0 - 3) * 4) 32); lia).
  eapply sim_bind.
  { apply (sim_while _ _ (fun s s' => s.1 = s'.1 /\ let '(d, c, e, _) := s in exists k, e = 32 * k /\ c = 8 * k /\ 0 <= k <= Z.max 0 ((c0 - 3) * 4 / 32))).
    - intros [[[d c] e] q] [? q'] [[= <-] _]. done.
    - intros [[[d c] e] q] [? q'] [[= <-] (k & -> & -> & Hk)] Hi. rewrite (iadd_small (32 * k) 32), (iadd_small (8 * k) 8) by lia. repeat rd.
      split; [done|]. exists (k + 1). lia.
    - split; [done|]. exists 0. lia. }
  intros [[[d c] e] q] [? q'] [[[= <-] (k & -> & -> & Hk)] _].
  eapply sim_bind.
  { apply (sim_while _ _ (fun s s' => s.1 = s'.1 /\ let '(d, c, e, _) := s in 0 <= c <= c0)).
    - intros [[[d' c'] e] r] [? r'] [[= <-] _]. done.
    - intros [[[d' c'] e] r] [? r'] [[= <-] Hj] Hi. rewrite (iadd_small c' 2), (iadd_small c' 1) by lia. repeat rd.
      split; [done|]. lia.
    - split; [done|]. lia. }
  intros [[[d' c'] e] r] [? r'] [[[= <-] Hj] _].
  eapply sim_bind.
  { apply (sim_while _ _ (fun s s' => s.1 = s'.1 /\ let '(d, c, e, _) := s in 0 <= c <= c0)).
    - intros [[[d'' c''] e''] r''] [? s'] [[= <-] _]. done.
    - intros [[[d'' c''] e''] r''] [? s'] [[= <-] Hj'] Hi. rewrite (iadd_small c'' 1) by lia. repeat rd.
      split; [done|]. lia.
    - split; [done|]. lia. }
  intros [[[d'' c''] e''] r''] ? _. by constructor.
Qed.
Lemma sim_ReadAll a : rsim eq (ReadAll a n st out) (ReadAll a n st out).
Proof. unfold ReadAll. destruct (decGetMode a); [apply sim_ReadAllScalar|apply sim_ReadAllFast]. Qed.
Lemma sim_ReadAllDelta a p p' : rsim eq (ReadAllDelta a n st out p) (ReadAllDelta a n st out p').
Proof. unfold ReadAllDelta. destruct (decGetMode a); [apply sim_ReadAllDeltaScalar|apply sim_ReadAllDeltaFast]. Qed.
End readers.
