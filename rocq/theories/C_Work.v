(** * The work of readers, writers, encoders and decoders: C45 *)
From stdpp Require Import prelude gmap list.
From Coq Require Import ZArith Lia.
From Verif Require Import Spec GoSem Shared Tables Asm AsmProgs Encode Decode Writer Reader Api Wp Cost C_Writer C_Reader C_Group8.
Local Open Scope Z_scope.

(** The number of loads and stores of array elements (and allocations) during a call. *)
Definition work {A} (p : prog A) (m : mem) : Z := Z.of_nat (length (trace (run p m))).
Definition is_int (z : Z) : Prop := - 2 ^ 63 <= z < 2 ^ 63.


Lemma bnd_ReadAllScalar n st out N : is_int n -> (if 0 <=? n then 6 * n else 16) <= N -> bnd (ReadAllScalar n st out) N (fun _ _ => True).
Proof.
  unfold is_int. intros Hn HN. unfold ReadAllScalar. cbv zeta. unfold jump, jumpCtrl.
  change (isub 16 1) with (2 ^ 4 - 1). change (iandnot n 3) with (iandnot n (2 ^ 2 - 1)). rewrite !iandnot_pow2 by lia.
  change (2 ^ 4) with 16. change (2 ^ 2) with 4. change (idiv 16 4) with 4.
  assert (H16 : n - 16 < n / 16 * 16 <= n) by (Z.to_euclidean_division_equations; lia).
  assert (H4 : n - 4 < n / 4 * 4 <= n) by (Z.to_euclidean_division_equations; lia).
  set (I := fun k (s : Z * Z * Z) n' => let '(_, _, dec) := s in dec mod k = 0 /\ 0 <= dec <= Z.max 0 (n / k * k) /\ N - 6 * dec <= n').
  apply bnd_bind. apply (bnd_while (I 16)).
  - intros [[dp cp] dec] n' (D1 & D2 & D3) Hc. apply Z.ltb_lt in Hc.
    assert (dec + 16 <= n / 16 * 16) by (Z.to_euclidean_division_equations; lia).
    assert (0 <= n) by lia. destruct (Z.leb_spec 0 n); [|lia]. repeat cst. unfold I. rewrite (iadd_small dec 16) by lia.
    split; [|lia]. Z.to_euclidean_division_equations; lia.
  - intros [[dp cp] dec] n' (D1 & D2 & D3) _. apply bnd_bind. apply (bnd_while (I 4)).
    + clear - Hn HN H16 H4. intros [[dp cp] dec] n' (D1 & D2 & D3) Hc. apply Z.ltb_lt in Hc.
      assert (dec + 4 <= n / 4 * 4) by (Z.to_euclidean_division_equations; lia).
      assert (0 <= n) by lia. destruct (Z.leb_spec 0 n); [|lia]. repeat cst. unfold I. rewrite (iadd_small dec 4) by lia.
      split; [|lia]. Z.to_euclidean_division_equations; lia.
    + clear - Hn HN H16 H4. intros [[dp cp] dec] n' (D1 & D2 & D3) Hc. apply Z.ltb_ge in Hc.
      destruct (Z.eqb_spec (n / 4 * 4) n) as [E|E]; cbn [negb]; [done|]. rewrite isub_small by lia.
      assert (1 + 5 * (n - n / 4 * 4) <= n') by (destruct (Z.leb_spec 0 n); lia).
      repeat cst. eapply bnd_call; [apply cost_GetUint32Scalar|unfold clip4; lia|]. done.
    + split; [|split; [|done]]; Z.to_euclidean_division_equations; lia.
  - split; [done|]. lia.
Qed.
Lemma bnd_ReadAllDeltaScalar n st out p N : is_int n -> (if 0 <=? n then 7 * n else 16) <= N -> bnd (ReadAllDeltaScalar n st out p) N (fun _ _ => True).
Proof.
  unfold is_int. intros Hn HN. unfold ReadAllDeltaScalar. cbv zeta. unfold jump, jumpCtrl.
  change (isub 16 1) with (2 ^ 4 - 1). change (iandnot n 3) with (iandnot n (2 ^ 2 - 1)). rewrite !iandnot_pow2 by lia.
  change (2 ^ 4) with 16. change (2 ^ 2) with 4. change (idiv 16 4) with 4.
  assert (H16 : n - 16 < n / 16 * 16 <= n) by (Z.to_euclidean_division_equations; lia).
  assert (H4 : n - 4 < n / 4 * 4 <= n) by (Z.to_euclidean_division_equations; lia).
  set (I := fun k (s : Z * Z * Z * Z) n' => let '(_, _, dec, _) := s in dec mod k = 0 /\ 0 <= dec <= Z.max 0 (n / k * k) /\ N - 7 * dec <= n').
  apply bnd_bind. apply (bnd_while (I 16)).
  - intros [[[dp cp] dec] q] n' (D1 & D2 & D3) Hc. apply Z.ltb_lt in Hc.
    assert (dec + 16 <= n / 16 * 16) by (Z.to_euclidean_division_equations; lia).
    assert (0 <= n) by lia. destruct (Z.leb_spec 0 n); [|lia]. repeat cst. unfold I. rewrite (iadd_small dec 16) by lia.
    split; [|lia]. Z.to_euclidean_division_equations; lia.
  - intros [[[dp cp] dec] q] n' (D1 & D2 & D3) _. apply bnd_bind. apply (bnd_while (I 4)).
    + clear - Hn HN H16 H4. intros [[[dp cp] dec] q] n' (D1 & D2 & D3) Hc. apply Z.ltb_lt in Hc.
      assert (dec + 4 <= n / 4 * 4) by (Z.to_euclidean_division_equations; lia).
      assert (0 <= n) by lia. destruct (Z.leb_spec 0 n); [|lia]. repeat cst. unfold I. rewrite (iadd_small dec 4) by lia.
      split; [|lia]. Z.to_euclidean_division_equations; lia.
    + clear - Hn HN H16 H4. intros [[[dp cp] dec] q] n' (D1 & D2 & D3) Hc. apply Z.ltb_ge in Hc.
      destruct (Z.eqb_spec (n / 4 * 4) n) as [E|E]; cbn [negb]; [done|]. rewrite isub_small by lia.
      assert (1 + 5 * (n - n / 4 * 4) <= n') by (destruct (Z.leb_spec 0 n); lia).
      repeat cst. eapply bnd_call; [apply cost_GetUint32DeltaScalar|unfold clip4; lia|]. done.
    + split; [|split; [|done]]; Z.to_euclidean_division_equations; lia.
  - split; [done|]. lia.
Qed.

(** The bounds computed by the SIMD readers for any count. *)
Lemma fast_bounds n : is_int n ->
  let cl := idiv (iadd n 3) 4 in let l32 := iandnot (imul (isub cl 3) 4) 31 in let l4 := isub cl 4 in
  (0 <= n /\ n <= 4 * cl < n + 4 /\ l4 = cl - 4 /\ l32 <= 4 * (cl - 3) /\ l32 mod 32 = 0) \/
  (n < 0 /\ cl <= 0 /\ l4 <= 0 /\ l32 <= 0) \/ (cl < 0 /\ 0 < l32).
Proof.
  intros Hn cl l32 l4. unfold is_int in Hn.
  destruct (decide (- 2 ^ 63 + 6 <= n < 2 ^ 63 - 3)) as [H|H].
  - assert (Hcl : cl = Z.quot (n + 3) 4).
    { unfold cl, idiv. rewrite iadd_small by lia. apply i64_small. Z.to_euclidean_division_equations; lia. }
    assert (B : - 2 ^ 61 + 3 <= cl < 2 ^ 61) by (rewrite Hcl; Z.to_euclidean_division_equations; lia).
    assert (E4 : l4 = cl - 4) by (unfold l4; rewrite isub_small by lia; done).
    assert (E32 : l32 = (cl - 3) * 4 / 32 * 32).
    { unfold l32. rewrite isub_small, imul_small by lia. change 31 with (2 ^ 5 - 1). by rewrite iandnot_pow2. }
    clearbody l4 l32 cl. subst l4 l32. destruct (decide (0 <= n)).
    + left. rewrite Hcl in *. split; [done|]. split; [Z.to_euclidean_division_equations; lia|]. split; [done|]. split; [|by apply Z.mod_mul].
      set (x := Z.quot (n + 3) 4) in *. clearbody x. Z.to_euclidean_division_equations; lia.
    + right. left. assert (cl <= 0) by (rewrite Hcl; Z.to_euclidean_division_equations; lia). clear Hcl.
      split; [lia|]. split; [done|]. split; [lia|]. Z.to_euclidean_division_equations; lia.
  - right. right. assert (Hx : n = - 2 ^ 63 \/ n = - 2 ^ 63 + 1 \/ n = - 2 ^ 63 + 2 \/ n = - 2 ^ 63 + 3 \/ n = - 2 ^ 63 + 4 \/ n = - 2 ^ 63 + 5 \/
      n = 2 ^ 63 - 3 \/ n = 2 ^ 63 - 2 \/ n = 2 ^ 63 - 1) by lia.
    unfold l32, cl. clear - Hx. repeat (destruct Hx as [->|Hx]; [by vm_compute|]). subst. by vm_compute.
Qed.

(** For counts out of range the SIMD readers return or panic at once. *)
Lemma bnd_ReadAllFast a n st out N : is_int n -> (if 0 <=? n then 6 * n else 0) <= N -> bnd (ReadAllFast a n st out) N (fun _ _ => True).
Proof.
  intros Hn HN. unfold ReadAllFast. destruct a as [b1 b2|]; [|done]. cbv zeta.
  pose proof (fast_bounds n Hn) as Hb. cbv zeta in Hb. unfold is_int in Hn.
  set (cl := idiv (iadd n 3) 4) in *. set (l32 := iandnot (imul (isub cl 3) 4) 31) in *. set (l4 := isub cl 4) in *. clearbody l32 l4 cl.
  destruct Hb as [(H0 & H1 & -> & H3 & H4)|[(H0 & H1 & H2 & H3)|(H0 & H1)]].
  - destruct (Z.leb_spec 0 n); [|lia]. apply bnd_bind.
    apply (bnd_while (fun '(_, cp, dec) n' => dec = 4 * cp /\ cp mod 8 = 0 /\ 0 <= cp /\ dec <= Z.max 0 l32 /\ N - 6 * dec <= n')).
    + intros [[dp cp] dec] n' (-> & D1 & D2 & D3 & D4) Hc. apply Z.ltb_lt in Hc.
      assert (4 * cp + 32 <= l32) by (Z.to_euclidean_division_equations; lia).
      repeat cst. rewrite !(iadd_small _ 32), !(iadd_small _ 8) by lia. split; [lia|]. split; [Z.to_euclidean_division_equations; lia|]. lia.
    + intros [[dp cp] dec] n' (-> & D1 & D2 & D3 & D4) _. apply bnd_bind.
      apply (bnd_while (fun '(_, cp, dec) n' => dec = 4 * cp /\ 0 <= cp /\ dec <= n /\ N - 6 * dec <= n')).
      * clear - Hn HN H1. intros [[dp cp] dec] n' (-> & D1 & D2 & D3) Hc. apply Z.ltb_lt in Hc. repeat cst.
        rewrite (iadd_small cp 2), (iadd_small _ 8) by lia. lia.
      * clear - Hn HN H1. intros [[dp cp] dec] n' (-> & D1 & D2 & D3) Hc. apply bnd_bind.
        apply (bnd_while (fun '(_, cp, dec) n' => dec = Z.min n (4 * cp) /\ 0 <= cp /\ N - 6 * dec <= n')); [| |lia].
        -- clear - Hn HN H1. intros [[dp cp] dec] n' (-> & D1 & D2) Hc. apply Z.ltb_lt in Hc. cbv zeta.
           rewrite (isub_small n) by lia. set (k := if 4 <? n - Z.min n (4 * cp) then 4 else n - Z.min n (4 * cp)).
           assert (Hk : k = Z.min 4 (n - 4 * cp)) by (unfold k; destruct (Z.ltb_spec 4 (n - Z.min n (4 * cp))); lia).
           assert (1 <= k <= 4) by lia. clearbody k. repeat cst. eapply bnd_call; [apply cost_GetUint32Scalar|unfold clip4; lia|]. unfold clip4. intros k' n2 Hk' _. cbn [bnd].
           rewrite (iadd_small cp 1), (iadd_small _ k) by lia. lia.
        -- intros [[? ?] ?] ? _ _. done.
      * lia.
    + split; [done|]. split; [done|]. lia.
  - assert (Hz : N >= 0) by (destruct (0 <=? n) eqn:E; lia). destruct (rfuel st out) as [|f]; [done|]. cbn [while].
    rewrite (proj2 (Z.ltb_ge 0 l32)) by lia. cbn [bind]. rewrite (proj2 (Z.ltb_ge 0 l4)) by lia. cbn [bind]. rewrite (proj2 (Z.ltb_ge 0 cl)) by lia. done.
  - destruct (rfuel st out) as [|f]; [done|]. cbn [while]. rewrite (proj2 (Z.ltb_lt 0 l32)) by lia. unfold slice_from.
    rewrite (proj2 (Z.leb_gt 0 cl)) by lia. done.
Qed.
Lemma bnd_ReadAllDeltaFast a n st out p N : is_int n -> (if 0 <=? n then 7 * n else 0) <= N -> bnd (ReadAllDeltaFast a n st out p) N (fun _ _ => True).
Proof.
  intros Hn HN. unfold ReadAllDeltaFast. destruct a as [b1 b2|]; [|done]. cbv zeta.
  pose proof (fast_bounds n Hn) as Hb. cbv zeta in Hb. unfold is_int in Hn.
  set (cl := idiv (iadd n 3) 4) in *. set (l32 := iandnot (imul (isub cl 3) 4) 31) in *. set (l4 := isub cl 4) in *. clearbody l32 l4 cl.
  destruct Hb as [(H0 & H1 & -> & H3 & H4)|[(H0 & H1 & H2 & H3)|(H0 & H1)]].
  - destruct (Z.leb_spec 0 n); [|lia]. apply bnd_bind.
    apply (bnd_while (fun '(_, cp, dec, _) n' => dec = 4 * cp /\ cp mod 8 = 0 /\ 0 <= cp /\ dec <= Z.max 0 l32 /\ N - 7 * dec <= n')).
    + intros [[[dp cp] dec] q] n' (-> & D1 & D2 & D3 & D4) Hc. apply Z.ltb_lt in Hc.
      assert (4 * cp + 32 <= l32) by (Z.to_euclidean_division_equations; lia).
      repeat cst. rewrite !(iadd_small _ 32), !(iadd_small _ 8) by lia. split; [lia|]. split; [Z.to_euclidean_division_equations; lia|]. lia.
    + intros [[[dp cp] dec] q] n' (-> & D1 & D2 & D3 & D4) _. apply bnd_bind.
      apply (bnd_while (fun '(_, cp, dec, _) n' => dec = 4 * cp /\ 0 <= cp /\ dec <= n /\ N - 7 * dec <= n')).
      * clear - Hn HN H1. intros [[[dp cp] dec] q] n' (-> & D1 & D2 & D3) Hc. apply Z.ltb_lt in Hc. repeat cst.
        rewrite (iadd_small cp 2), (iadd_small _ 8) by lia. lia.
      * clear - Hn HN H1. intros [[[dp cp] dec] q] n' (-> & D1 & D2 & D3) Hc. apply bnd_bind.
        apply (bnd_while (fun '(_, cp, dec, _) n' => dec = Z.min n (4 * cp) /\ 0 <= cp /\ N - 7 * dec <= n')); [| |lia].
        -- clear - Hn HN H1. intros [[[dp cp] dec] q] n' (-> & D1 & D2) Hc. apply Z.ltb_lt in Hc. cbv zeta.
           rewrite (isub_small n) by lia. set (k := if 4 <? n - Z.min n (4 * cp) then 4 else n - Z.min n (4 * cp)).
           assert (Hk : k = Z.min 4 (n - 4 * cp)) by (unfold k; destruct (Z.ltb_spec 4 (n - Z.min n (4 * cp))); lia).
           assert (1 <= k <= 4) by lia. clearbody k. repeat cst. eapply bnd_call; [apply cost_GetUint32DeltaScalar|unfold clip4; lia|]. unfold clip4. intros k' n2 Hk' _. repeat cst.
           rewrite (iadd_small cp 1), (iadd_small _ k) by lia. lia.
        -- intros [[[? ?] ?] ?] ? _ _. done.
      * lia.
    + split; [done|]. split; [done|]. lia.
  - assert (Hz : N >= 0) by (destruct (0 <=? n) eqn:E; lia). destruct (rfuel st out) as [|f]; [done|]. cbn [while].
    rewrite (proj2 (Z.ltb_ge 0 l32)) by lia. cbn [bind]. rewrite (proj2 (Z.ltb_ge 0 l4)) by lia. cbn [bind]. rewrite (proj2 (Z.ltb_ge 0 cl)) by lia. done.
  - destruct (rfuel st out) as [|f]; [done|]. cbn [while]. rewrite (proj2 (Z.ltb_lt 0 l32)) by lia. unfold slice_from.
    rewrite (proj2 (Z.leb_gt 0 cl)) by lia. done.
Qed.

(** ** Writers *)
Lemma mod_step k a b : 0 < k -> a mod k = 0 -> a < b * k -> a + k <= b * k.
Proof. intros Hk Hm Hl. apply Z.mod_divide in Hm as [q ->]; [|lia]. assert (q < b) by nia. nia. Qed.
Lemma bnd_WriteAllScalar B inp N : 0 <= s_len inp <= 2 ^ 60 -> 6 * s_len inp + 1 <= N -> bnd (WriteAllScalar B inp) N (fun _ _ => True).
Proof.
  intros Hn HN. unfold WriteAllScalar. set (n := s_len inp) in *. clearbody n. cbv zeta. unfold Writer.jumpCtrl, Writer.jump.
  change (isub 16 1) with (2 ^ 4 - 1). change (iandnot n 3) with (iandnot n (2 ^ 2 - 1)). rewrite !iandnot_pow2 by lia.
  change (2 ^ 4) with 16. change (2 ^ 2) with 4. change (idiv 16 4) with 4.
  assert (H16 : n - 16 < n / 16 * 16 <= n) by (Z.to_euclidean_division_equations; lia).
  assert (H4 : n - 4 < n / 4 * 4 <= n) by (Z.to_euclidean_division_equations; lia).
  set (I := fun k (s : Z * Z * Z) n' => let '(_, _, dec) := s in dec mod k = 0 /\ 0 <= dec <= n / k * k /\ 6 * (n - dec) <= n').
  eapply bnd_call; [apply cost_makeB|lia|]. intros sm n1 Hn1 _. apply bnd_bind. apply (bnd_while (I 16)).
  - intros [[dp cp] dec] n' (D1 & D2 & D3) Hc. apply Z.ltb_lt in Hc.
    pose proof (mod_step 16 dec (n / 16) ltac:(lia) D1 Hc).
    repeat cst. unfold I. rewrite (iadd_small dec 16) by lia.
    split; [|lia]. by rewrite <- (Z.mul_1_l 16) at 1; rewrite Z.mod_add by lia.
  - intros [[dp cp] dec] n' (D1 & D2 & D3) _. apply bnd_bind. apply (bnd_while (I 4)).
    + clear - Hn H16 H4. intros [[dp cp] dec] n' (D1 & D2 & D3) Hc. apply Z.ltb_lt in Hc.
      pose proof (mod_step 4 dec (n / 4) ltac:(lia) D1 Hc).
      repeat cst. unfold I. rewrite (iadd_small dec 4) by lia.
      split; [|lia]. by rewrite <- (Z.mul_1_l 4) at 1; rewrite Z.mod_add by lia.
    + clear - Hn H16 H4. intros [[dp cp] dec] n' (D1 & D2 & D3) Hc. apply Z.ltb_ge in Hc.
      apply bnd_bind. apply (bnd_mono _ _ (fun _ n' => 0 <= n')).
      { intros z n2 Hz. eapply bnd_last; [apply cost_slice_range|exact Hz|]. done. }
      destruct (Z.eqb_spec (n / 4 * 4) n) as [E|E]; cbn [negb]; [cbn; lia|]. cbv zeta. rewrite (isub_small n) by lia.
      repeat cst. eapply bnd_call; [apply cost_PutUint32Scalar|unfold clip4; lia|]. unfold clip4. intros ctrl n2 Hk _. repeat cst. lia.
    + split; [|split; [|done]]; Z.to_euclidean_division_equations; lia.
  - split; [done|]. split; [|lia]. Z.to_euclidean_division_equations; lia.
Qed.
Lemma bnd_WriteAllFast a B inp N : 0 <= s_len inp <= 2 ^ 60 -> 6 * s_len inp + 1 <= N -> bnd (WriteAllFast a B inp) N (fun _ _ => True).
Proof.
  intros Hn HN. unfold WriteAllFast. destruct a as [b1 b2|]; [|done]. set (n := s_len inp) in *. clearbody n. cbv zeta.
  assert (Hcl : idiv (iadd n 3) 4 = (n + 3) / 4) by (rewrite iadd_small by lia; apply idiv_pos; lia). rewrite Hcl.
  set (cl := (n + 3) / 4) in *. assert (H1 : n <= 4 * cl < n + 4) by (unfold cl; Z.to_euclidean_division_equations; lia). clearbody cl. clear Hcl.
  rewrite (isub_small cl 3), (isub_small cl 2), (imul_small (cl - 3) 4) by lia.
  change (iandnot ((cl - 3) * 4) 31) with (iandnot ((cl - 3) * 4) (2 ^ 5 - 1)). rewrite iandnot_pow2 by lia. change (2 ^ 5) with 32.
  set (l32 := (cl - 3) * 4 / 32 * 32). assert (H3 : l32 <= 4 * (cl - 3) /\ l32 mod 32 = 0) by (unfold l32; split; [Z.to_euclidean_division_equations; lia|by apply Z.mod_mul]).
  clearbody l32. destruct H3 as [H3 H4]. eapply bnd_call; [apply cost_makeB|lia|]. intros sm n1 Hn1 _. apply bnd_bind.
  apply (bnd_while (fun '(_, cp, dec) n' => dec = 4 * cp /\ cp mod 8 = 0 /\ 0 <= cp /\ dec <= Z.max 0 l32 /\ 6 * (n - dec) + 1 - 1 <= n')).
  - intros [[dp cp] dec] n' (-> & D1 & D2 & D3 & D4) Hc. apply Z.ltb_lt in Hc.
    assert (4 * cp + 32 <= l32) by (Z.to_euclidean_division_equations; lia).
    repeat cst. rewrite !(iadd_small _ 32), !(iadd_small _ 8) by lia. split; [lia|]. split; [Z.to_euclidean_division_equations; lia|]. lia.
  - intros [[dp cp] dec] n' (-> & D1 & D2 & D3 & D4) _. apply bnd_bind.
    apply (bnd_while (fun '(_, cp, dec) n' => dec = 4 * cp /\ 0 <= cp /\ dec <= n /\ 6 * (n - dec) + 1 - 1 <= n')).
    + clear - Hn H1. intros [[dp cp] dec] n' (-> & D1 & D2 & D3) Hc. apply Z.ltb_lt in Hc. repeat cst.
      rewrite (iadd_small cp 2), (iadd_small _ 8) by lia. lia.
    + clear - Hn H1. intros [[dp cp] dec] n' (-> & D1 & D2 & D3) Hc. apply bnd_bind.
      apply (bnd_while (fun '(_, cp, dec) n' => dec = Z.min n (4 * cp) /\ 0 <= cp /\ 0 <= n' /\ (dec < n -> 6 * (n - dec) + 1 - 1 <= n'))); [| |lia].
      * clear - Hn H1. intros [[dp cp] dec] n' (-> & D1 & D2 & D3) Hc. apply Z.ltb_lt in Hc. cbv zeta.
        rewrite (isub_small n) by lia. set (k := if 4 <? n - Z.min n (4 * cp) then 4 else n - Z.min n (4 * cp)).
        assert (Hk : k = Z.min 4 (n - 4 * cp)) by (unfold k; destruct (Z.ltb_spec 4 (n - Z.min n (4 * cp))); lia).
        assert (1 <= k <= 4) by lia. specialize (D3 ltac:(lia)). clearbody k. repeat cst. eapply bnd_call; [apply cost_PutUint32Scalar|unfold clip4; lia|]. unfold clip4. intros k' n2 Hk' _. repeat cst.
        rewrite (iadd_small cp 1), (iadd_small _ k) by lia. lia.
      * clear - Hn H1. intros [[dp cp] dec] n' (-> & D1 & D2 & D3) _. eapply bnd_last; [apply cost_slice_range|exact D2|]. done.
    + lia.
  - split; [done|]. split; [done|]. lia.
Qed.
Lemma bnd_WriteAllDeltaScalar B inp p N : 0 <= s_len inp <= 2 ^ 60 -> 7 * s_len inp + 1 <= N -> bnd (WriteAllDeltaScalar B inp p) N (fun _ _ => True).
Proof.
  intros Hn HN. unfold WriteAllDeltaScalar. set (n := s_len inp) in *. clearbody n. cbv zeta. unfold Writer.jumpCtrl, Writer.jump.
  change (isub 16 1) with (2 ^ 4 - 1). change (iandnot n 3) with (iandnot n (2 ^ 2 - 1)). rewrite !iandnot_pow2 by lia.
  change (2 ^ 4) with 16. change (2 ^ 2) with 4. change (idiv 16 4) with 4.
  assert (H16 : n - 16 < n / 16 * 16 <= n) by (Z.to_euclidean_division_equations; lia).
  assert (H4 : n - 4 < n / 4 * 4 <= n) by (Z.to_euclidean_division_equations; lia).
  set (I := fun k (s : Z * Z * Z * Z) n' => let '(_, _, dec, _) := s in dec mod k = 0 /\ 0 <= dec <= n / k * k /\ 7 * (n - dec) <= n').
  eapply bnd_call; [apply cost_makeB|lia|]. intros sm n1 Hn1 _. apply bnd_bind. apply (bnd_while (I 16)).
  - intros [[[dp cp] dec] q] n' (D1 & D2 & D3) Hc. apply Z.ltb_lt in Hc.
    pose proof (mod_step 16 dec (n / 16) ltac:(lia) D1 Hc).
    repeat cst. unfold I. rewrite (iadd_small dec 16) by lia.
    split; [|lia]. by rewrite <- (Z.mul_1_l 16) at 1; rewrite Z.mod_add by lia.
  - intros [[[dp cp] dec] q] n' (D1 & D2 & D3) _. apply bnd_bind. apply (bnd_while (I 4)).
    + clear - Hn H16 H4. intros [[[dp cp] dec] q] n' (D1 & D2 & D3) Hc. apply Z.ltb_lt in Hc.
      pose proof (mod_step 4 dec (n / 4) ltac:(lia) D1 Hc).
      repeat cst. unfold I. rewrite (iadd_small dec 4) by lia.
      split; [|lia]. by rewrite <- (Z.mul_1_l 4) at 1; rewrite Z.mod_add by lia.
    + clear - Hn H16 H4. intros [[[dp cp] dec] q] n' (D1 & D2 & D3) Hc. apply Z.ltb_ge in Hc.
      apply bnd_bind. apply (bnd_mono _ _ (fun _ n' => 0 <= n')).
      { intros z n2 Hz. eapply bnd_last; [apply cost_slice_range|exact Hz|]. done. }
      destruct (Z.eqb_spec (n / 4 * 4) n) as [E|E]; cbn [negb]; [cbn; lia|]. cbv zeta. rewrite (isub_small n) by lia.
      repeat cst. eapply bnd_call; [apply cost_PutUint32DeltaScalar|unfold clip4; lia|]. unfold clip4. intros ctrl n2 Hk _. repeat cst. lia.
    + split; [|split; [|done]]; Z.to_euclidean_division_equations; lia.
  - split; [done|]. split; [|lia]. Z.to_euclidean_division_equations; lia.
Qed.
Lemma bnd_WriteAllDeltaFast a B inp p N : 0 <= s_len inp <= 2 ^ 60 -> 7 * s_len inp + 2 <= N -> bnd (WriteAllDeltaFast a B inp p) N (fun _ _ => True).
Proof.
  intros Hn HN. unfold WriteAllDeltaFast. destruct a as [b1 b2|]; [|done]. set (n := s_len inp) in *. clearbody n. cbv zeta.
  assert (Hcl : idiv (iadd n 3) 4 = (n + 3) / 4) by (rewrite iadd_small by lia; apply idiv_pos; lia). rewrite Hcl.
  set (cl := (n + 3) / 4) in *. assert (H1 : n <= 4 * cl < n + 4) by (unfold cl; Z.to_euclidean_division_equations; lia). clearbody cl. clear Hcl.
  rewrite (isub_small cl 3), (isub_small cl 2), (imul_small (cl - 3) 4) by lia.
  change (iandnot ((cl - 3) * 4) 31) with (iandnot ((cl - 3) * 4) (2 ^ 5 - 1)). rewrite iandnot_pow2 by lia. change (2 ^ 5) with 32.
  set (l32 := (cl - 3) * 4 / 32 * 32). assert (H3 : l32 <= 4 * (cl - 3) /\ l32 mod 32 = 0) by (unfold l32; split; [Z.to_euclidean_division_equations; lia|by apply Z.mod_mul]).
  clearbody l32. destruct H3 as [H3 H4]. eapply bnd_call; [apply cost_makeB|lia|]. intros sm n1 Hn1 _. apply bnd_bind.
  apply (bnd_while (fun '(_, cp, dec, _) n' => dec = 4 * cp /\ cp mod 8 = 0 /\ 0 <= cp /\ dec <= Z.max 0 l32 /\ 7 * (n - dec) + 2 - 1 <= n')).
  - intros [[[dp cp] dec] q] n' (-> & D1 & D2 & D3 & D4) Hc. apply Z.ltb_lt in Hc.
    assert (4 * cp + 32 <= l32) by (Z.to_euclidean_division_equations; lia).
    repeat cst. rewrite !(iadd_small _ 32), !(iadd_small _ 8) by lia. split; [lia|]. split; [Z.to_euclidean_division_equations; lia|]. lia.
  - intros [[[dp cp] dec] q] n' (-> & D1 & D2 & D3 & D4) _. apply bnd_bind.
    apply (bnd_while (fun '(_, cp, dec, _) n' => dec = 4 * cp /\ 0 <= cp /\ dec <= n /\ 7 * (n - dec) + 2 - 1 <= n')).
    + clear - Hn H1. intros [[[dp cp] dec] q] n' (-> & D1 & D2 & D3) Hc. apply Z.ltb_lt in Hc. repeat cst.
      rewrite (iadd_small cp 2), (iadd_small _ 8) by lia. lia.
    + clear - Hn H1. intros [[[dp cp] dec] q] n' (-> & D1 & D2 & D3) Hc. apply bnd_bind.
      apply (bnd_while (fun '(_, cp, dec, _) n' => dec = Z.min n (4 * cp) /\ 0 <= cp /\ 0 <= n' /\ (dec < n -> 7 * (n - dec) + 2 - 1 <= n'))); [| |lia].
      * clear - Hn H1. intros [[[dp cp] dec] q] n' (-> & D1 & D2 & D3) Hc. apply Z.ltb_lt in Hc. cbv zeta.
        rewrite (isub_small n) by lia. set (k := if 4 <? n - Z.min n (4 * cp) then 4 else n - Z.min n (4 * cp)).
        assert (Hk : k = Z.min 4 (n - 4 * cp)) by (unfold k; destruct (Z.ltb_spec 4 (n - Z.min n (4 * cp))); lia).
        assert (1 <= k <= 4) by lia. specialize (D3 ltac:(lia)). clearbody k. repeat cst. eapply bnd_call; [apply cost_PutUint32DeltaScalar|unfold clip4; lia|]. unfold clip4. intros k' n2 Hk' _. repeat cst.
        rewrite (iadd_small cp 1), (iadd_small _ k) by lia. lia.
      * clear - Hn H1. intros [[[dp cp] dec] q] n' (-> & D1 & D2 & D3) _. eapply bnd_last; [apply cost_slice_range|exact D2|]. done.
    + lia.
  - split; [done|]. split; [done|]. lia.
Qed.

(** ** C45 *)
Lemma fast_or_scalar_read n st out a N Q : bnd (ReadAllFast a n st out) N Q -> bnd (ReadAllScalar n st out) N Q -> bnd (ReadAll a n st out) N Q.
Proof. unfold ReadAll. by destruct (decGetMode a). Qed.
Lemma fast_or_scalar_read_delta n st out p a N Q : bnd (ReadAllDeltaFast a n st out p) N Q -> bnd (ReadAllDeltaScalar n st out p) N Q -> bnd (ReadAllDelta a n st out p) N Q.
Proof. unfold ReadAllDelta. by destruct (decGetMode a). Qed.
Lemma fast_or_scalar_write B inp a N Q : bnd (WriteAllFast a B inp) N Q -> bnd (WriteAllScalar B inp) N Q -> bnd (WriteAll a B inp) N Q.
Proof. unfold WriteAll. by destruct (encGetMode a). Qed.
Lemma fast_or_scalar_write_delta B inp p a N Q : bnd (WriteAllDeltaFast a B inp p) N Q -> bnd (WriteAllDeltaScalar B inp p) N Q -> bnd (WriteAllDelta a B inp p) N Q.
Proof. unfold WriteAllDelta. by destruct (encGetMode a). Qed.

(** No hypothesis on slices and memory: the stream may be malformed, the slices
    too short or outside any allocation. *)
Theorem C45_read : forall r n st out m, is_int n -> work (read r n st out) m <= if 0 <=? n then 6 * n else 16.
Proof.
  intros r n st out m Hn. unfold work. eapply bnd_run with (Q := fun _ _ => True); [destruct (0 <=? n) eqn:E; lia|].
  destruct r as [|b|a]; cbn [read]; [apply bnd_ReadAllScalar; done|apply bnd_ReadAllFast; [done|destruct (0 <=? n); lia]|].
  apply fast_or_scalar_read; [apply bnd_ReadAllFast; [done|destruct (0 <=? n); lia]|by apply bnd_ReadAllScalar].
Qed.
Theorem C45_read_delta : forall r n st out prev m, is_int n -> work (read_delta r n st out prev) m <= if 0 <=? n then 7 * n else 16.
Proof.
  intros r n st out p m Hn. unfold work. eapply bnd_run with (Q := fun _ _ => True); [destruct (0 <=? n) eqn:E; lia|].
  destruct r as [|b|a]; cbn [read_delta]; [apply bnd_ReadAllDeltaScalar; done|apply bnd_ReadAllDeltaFast; [done|destruct (0 <=? n); lia]|].
  apply fast_or_scalar_read_delta; [apply bnd_ReadAllDeltaFast; [done|destruct (0 <=? n); lia]|by apply bnd_ReadAllDeltaScalar].
Qed.
Theorem C45_write : forall w B inp m, 0 <= s_len inp <= 2 ^ 60 -> work (write w B inp) m <= 6 * s_len inp + 1.
Proof.
  intros w B inp m Hn. unfold work. eapply bnd_run with (Q := fun _ _ => True); [lia|].
  destruct w as [| |a]; cbn [write]; [by apply bnd_WriteAllScalar|by apply bnd_WriteAllFast|].
  apply fast_or_scalar_write; [by apply bnd_WriteAllFast|by apply bnd_WriteAllScalar].
Qed.
Theorem C45_write_delta : forall w B inp prev m, 0 <= s_len inp <= 2 ^ 60 -> work (write_delta w B inp prev) m <= 7 * s_len inp + 2.
Proof.
  intros w B inp p m Hn. unfold work. eapply bnd_run with (Q := fun _ _ => True); [lia|].
  destruct w as [| |a]; cbn [write_delta]; [apply bnd_WriteAllDeltaScalar; lia|by apply bnd_WriteAllDeltaFast|].
  apply fast_or_scalar_write_delta; [by apply bnd_WriteAllDeltaFast|apply bnd_WriteAllDeltaScalar; lia].
Qed.
Lemma costs_work {A} (p : prog A) c d P m : costs p c P -> 0 <= c <= d -> work p m <= d.
Proof. intros Hp Hc. unfold work. pose proof (bnd_run p c _ m ltac:(lia) (Hp c ltac:(lia))). lia. Qed.
Theorem C45_eight : forall e prev inp out c m, work (put8 e prev inp out) m <= 47 /\ work (get8 e prev inp out c) m <= 47.
Proof.
  intros e prev inp out c m.
  assert (P1 : work (Put8uint32Scalar inp out) m <= 47) by (eapply costs_work; [apply cost_Put8uint32Scalar|lia]).
  assert (G1 : work (Get8uint32Scalar inp out c) m <= 47) by (eapply costs_work; [apply cost_Get8uint32Scalar|lia]).
  assert (P2 : forall p, work (Put8uint32DeltaScalar inp out p) m <= 47) by (intros; eapply costs_work; [apply cost_Put8uint32DeltaScalar|lia]).
  assert (G2 : forall p, work (Get8uint32DeltaScalar inp out c p) m <= 47) by (intros; eapply costs_work; [apply cost_Get8uint32DeltaScalar|lia]).
  assert (P3 : forall a, work (Put8uint32Fast a inp out) m <= 47) by (intros [? ?|]; [eapply costs_work; [apply cost_Put8uint32FastAsm|lia]|by vm_compute]).
  assert (G3 : forall a, work (Get8uint32Fast a inp out c) m <= 47) by (intros [? ?|]; [eapply costs_work; [apply cost_Get8uint32FastAsm|lia]|by vm_compute]).
  assert (P4 : forall a p, work (Put8uint32DeltaFast a inp out p) m <= 47) by (intros [? ?|] ?; [eapply costs_work; [apply cost_Put8uint32DeltaFastAsm|lia]|by vm_compute]).
  assert (G4 : forall a p, work (Get8uint32DeltaFast a inp out c p) m <= 47) by (intros [? ?|] ?; [eapply costs_work; [apply cost_Get8uint32DeltaFastAsm|lia]|by vm_compute]).
  split; destruct e as [| |a], prev as [p|]; cbn [put8 get8]; auto;
  unfold Put8uint32, Put8uint32Delta, Get8uint32, Get8uint32Delta; repeat case_match; auto.
Qed.

(** A stream of 100 numbers, and of more numbers than there are
    bytes; the work is close to the bound for 4-byte numbers. *)
Definition c45_mem : mem := Mem {[ 3%nat := replicate 425 255 ]} {[ 0%nat := concat (replicate 50 [0; 2 ^ 31]); 1%nat := replicate 100 7 ]}.
Example C45_example :
  work (read_delta RScalar 97 (Slice 3 0 425 425) (Slice 1 0 100 100) 5) c45_mem = 606 /\
  work (read_delta (RFast true) 97 (Slice 3 0 425 425) (Slice 1 0 100 100) 5) c45_mem = 546 /\
  work (read RScalar 1000 (Slice 3 0 425 425) (Slice 1 0 100 100)) c45_mem = 211 /\
  work (write_delta WScalar 9 (Slice 0 0 97 97) 5) c45_mem = 608 /\ work (write_delta WFast 9 (Slice 0 0 97 97) 5) c45_mem = 525.
Proof. vm_compute. repeat split. Qed.
