(** * Theorems: reading a stream as what it is not (C68)

    A stream does not say whether it holds numbers or differences, nor from which number the
    differences start.  Nothing notices a mistake; here is exactly what it does. *)
From stdpp Require Import prelude gmap list.
From Coq Require Import ZArith Lia.
From Verif Require Import Spec SpecLemmas GoSem Shared Asm Wp Writer Reader ReaderProof WriterProof WriterProof2 Api ApiLemmas Witness C_Writer C_Reader C_ReaderFast C_Group8 C_Compose C_Conc C_Count.
Local Open Scope Z_scope.

(** ** How far off the numbers are *)
Definition total (l : list Z) : Z := fold_right Z.add 0 l.
(** Written from [pw], read from [pr] ([None]: not as differences): what is added to the
    number with index [i]. *)
Definition off (pw pr : option Z) (xs : list Z) (i : nat) : Z :=
  match pw, pr with
  | None, None => 0
  | Some p, Some q => q - p
  | Some p, None => - nth i (p :: xs) 0            (* the number before it is missing *)
  | None, Some q => q + total (take i xs)          (* all before it are added *)
  end.

Lemma take_S_nth i (l : list Z) : (i < length l)%nat -> take (S i) l = take i l ++ [nth i l 0].
Proof. revert l. induction i as [|i IH]; intros [|x l] H; cbn [length] in H; [lia|done|lia|]. change (x :: take (S i) l = x :: take i l ++ [nth i l 0]). by rewrite IH by lia. Qed.
Lemma total_app a b : total (a ++ b) = total a + total b.
Proof. induction a as [|x a IH]; [done|]. change (x + total (a ++ b) = x + total a + total b). lia. Qed.
Lemma total_cons x l : total (x :: l) = x + total l. Proof. done. Qed.
Lemma sums_nth q ds i : (i < length ds)%nat -> nth i (running_sums q ds) 0 = (q + total (take (S i) ds)) mod 2 ^ 32.
Proof.
  revert q ds. induction i as [|i IH]; intros q [|d ds] H; cbn [length] in H; try lia.
  - change (take 1 (d :: ds)) with [d]. rewrite total_cons. change (total []) with 0. cbn [running_sums nth]. by rewrite Z.add_0_r.
  - cbn [running_sums nth]. rewrite IH by lia. change (take (S (S i)) (d :: ds)) with (d :: take (S i) ds). rewrite total_cons, Zplus_mod_idemp_l. f_equal. lia.
Qed.
Lemma deltas_nth p xs i : (i < length xs)%nat -> nth i (deltas p xs) 0 = (nth i xs 0 - nth i (p :: xs) 0) mod 2 ^ 32.
Proof. revert p xs. induction i as [|i IH]; intros p [|x xs] H; cbn [length] in H; try lia; [done|]. cbn [deltas nth]. by rewrite IH by lia. Qed.
Lemma deltas_total p xs i : (i < length xs)%nat -> total (take (S i) (deltas p xs)) mod 2 ^ 32 = (nth i xs 0 - p) mod 2 ^ 32.
Proof.
  revert p xs. induction i as [|i IH]; intros p [|x xs] H; cbn [length] in H; try lia.
  - cbn [deltas take total fold_right nth]. by rewrite Z.add_0_r, Zmod_mod.
  - change (take (S (S i)) (deltas p (x :: xs))) with ((x - p) mod 2 ^ 32 :: take (S i) (deltas x xs)). rewrite total_cons. cbn [nth].
    rewrite Zplus_mod_idemp_l, <- Zplus_mod_idemp_r, IH, Zplus_mod_idemp_r by lia. f_equal. lia.
Qed.
Definition as_read (pr : option Z) (ds : list Z) : list Z := match pr with Some q => running_sums q ds | None => ds end.
Lemma u32_nth l i : Forall is_u32 l -> is_u32 (nth i l 0).
Proof. intros H. rewrite nth_lookup. destruct (l !! i) eqn:E; [exact (proj1 (Forall_lookup _ _) H _ _ E)|unfold is_u32; simpl; lia]. Qed.
Lemma off_nth pw pr xs i : Forall is_u32 xs -> (i < length xs)%nat -> nth i (as_read pr (to_code pw xs)) 0 = (nth i xs 0 + off pw pr xs i) mod 2 ^ 32.
Proof.
  intros U H. destruct pr as [q|], pw as [p|]; cbn [as_read to_code off].
  - rewrite sums_nth by (by rewrite deltas_length). rewrite <- Zplus_mod_idemp_r, deltas_total, Zplus_mod_idemp_r by done. f_equal. lia.
  - rewrite sums_nth, take_S_nth, total_app by done. cbn [total fold_right]. f_equal. lia.
  - rewrite deltas_nth by done. f_equal.
  - pose proof (u32_nth xs i U) as B. unfold is_u32 in B. rewrite Z.add_0_r, Z.mod_small; lia.
Qed.
Lemma same_iff x a : is_u32 x -> (x + a) mod 2 ^ 32 = x <-> a mod 2 ^ 32 = 0.
Proof.
  unfold is_u32. intros H. split; intros E.
  - replace a with ((x + a) - x) by lia. rewrite <- Zminus_mod_idemp_l, E, Z.sub_diag. done.
  - rewrite <- Zplus_mod_idemp_r, E, Z.add_0_r, Z.mod_small; lia.
Qed.

(** ** The theorems *)
(** *** Every number *)
(** The call returns, with any reader and on every CPU; the number with index [i] is too
    large by [off], modulo 2^32, and right exactly if that is nothing. *)
Theorem C68_off : forall w B inp pw m, typed m -> validW m inp -> mb m !! B = None -> prev_ok pw ->
  exists st m1, returns (write_prev w B inp pw) m st m1 /\
  forall r m2 st2 junk out pr, typed m2 -> validB m2 st2 -> bytes m2 st2 = bytes m1 st ++ junk -> validW m2 out ->
  s_len inp <= s_len out -> room r (s_len inp) st2 m2 -> prev_ok pr ->
  let xs := words m inp in
  exists ys, gives r (s_len inp) st2 out pr m2 ys /\ length ys = length xs /\
    forall i, (i < length xs)%nat ->
      nth i ys 0 = (nth i xs 0 + off pw pr xs i) mod 2 ^ 32 /\
      (nth i ys 0 = nth i xs 0 <-> off pw pr xs i mod 2 ^ 32 = 0).
Proof.
  intros w B inp pw m Ht Hi Hf Hp. destruct (written_prev w B inp pw m Ht Hi Hf Hp) as (st & m1 & R & Eb). exists st, m1. split; [done|].
  intros r m2 st2 junk out pr Ht2 Hs2 Eb2 Ho2 Hn Hr Hq xs. rewrite Eb in Eb2.
  assert (Lx : length xs = Z.to_nat (s_len inp)). { pose proof (contents_zlen _ _ (proj1 Hi)) as E. unfold zlen in E. change (contents (mw m) inp) with xs in E. lia. }
  assert (P0 : 0 <= s_len inp) by (destruct Hi as [(? & ? & ?) ?]; lia).
  assert (Ux : Forall is_u32 xs) by (by apply typed_words).
  fold xs in Eb2. set (X := to_code pw xs) in *.
  assert (LX : length X = Z.to_nat (s_len inp)) by (unfold X; destruct pw; cbn [to_code]; rewrite ?deltas_length; done).
  assert (UX : Forall is_u32 X) by (unfold X; destruct pw; cbn [to_code]; [apply deltas_u32|done]).
  assert (Bj : Forall is_byte junk). { pose proof (typed_bytes m2 st2 Ht2) as Q. rewrite Eb2 in Q. by apply Forall_app in Q as [_ Q]. }
  assert (Wn : well_formed (Z.to_nat (s_len inp)) (bytes m2 st2)). { rewrite Eb2, <- LX. by apply written_well_formed. }
  destruct (stores_read r (s_len inp) st2 out pr m2 Ht2 Hs2 Ho2 ltac:(lia) Wn Hr Hq) as (m3 & R3 & E3).
  assert (V : read_value pr (Z.to_nat (s_len inp)) (bytes m2 st2) = as_read pr X).
  { rewrite Eb2, <- LX. destruct pr as [q|]; cbn [read_value as_read]; unfold decode_stream_delta; by rewrite decode_written. }
  rewrite V in E3. exists (as_read pr X). split; [by exists m3|]. split.
  - rewrite Lx, <- LX. destruct pr; cbn [as_read]; rewrite ?running_sums_length; done.
  - intros i H. pose proof (off_nth pw pr xs i Ux H) as N. fold X in N. rewrite N. split; [done|]. apply same_iff. by apply u32_nth.
Qed.
(** *** When all are right *)
(** As differences from another number: never (if there is a number at all).  As differences
    or not, the other way round: only if the start and all numbers but the last are zero. *)
Definition harmless (pw pr : option Z) (xs : list Z) : Prop :=
  match pw, pr with
  | None, None => True
  | Some p, Some q => xs = [] \/ p = q
  | Some p, None | None, Some p => xs = [] \/ (p = 0 /\ Forall (fun x => x = 0) (removelast xs))
  end.
Lemma removelast_nth (l : list Z) : Forall (fun x => x = 0) (removelast l) <-> forall i, (S i < length l)%nat -> nth i l 0 = 0.
Proof.
  induction l as [|x l IH]; [split; [cbn [length]; lia|constructor]|]. destruct l as [|y l]; [split; [cbn [length]; lia|constructor]|].
  change (removelast (x :: y :: l)) with (x :: removelast (y :: l)). rewrite List.Forall_cons_iff, IH. split.
  - intros [E F] [|i] H; [done|]. change (nth (S i) (x :: y :: l) 0) with (nth i (y :: l) 0). apply F. cbn [length] in *. lia.
  - intros F. split; [apply (F 0%nat); cbn [length]; lia|]. intros i H. apply (F (S i)). cbn [length] in *. lia.
Qed.
Lemma mod0 x : is_u32 x -> x mod 2 ^ 32 = 0 -> x = 0.
Proof. unfold is_u32. intros H E. rewrite Z.mod_small in E; lia. Qed.
Lemma harmless_iff pw pr xs : Forall is_u32 xs -> prev_ok pw -> prev_ok pr ->
  harmless pw pr xs <-> forall i, (i < length xs)%nat -> off pw pr xs i mod 2 ^ 32 = 0.
Proof.
  intros U Hp Hq. destruct pw as [p|], pr as [q|]; cbn [harmless off prev_ok] in *; [..|done].
  - split; [intros [-> | ->] i H; [cbn in H; lia|by rewrite Z.sub_diag]|]. intros H. destruct xs as [|x xs]; [by left|right]. specialize (H 0%nat ltac:(cbn; lia)).
    unfold is_u32 in *. destruct (Z.le_gt_cases p q); [rewrite Z.mod_small in H; lia|]. replace (q - p) with ((q - p + 2 ^ 32) + (-1) * 2 ^ 32) in H by lia. rewrite Z.mod_add, Z.mod_small in H; lia.
  - split.
    + intros [-> | [-> F]] i H; [cbn in H; lia|]. destruct i as [|i]; [done|]. change (nth (S i) (0 :: xs) 0) with (nth i xs 0). by rewrite (proj1 (removelast_nth xs) F i H).
    + intros H. destruct xs as [|x xs]; [by left|right].
      assert (G : forall i, (i < length (x :: xs))%nat -> nth i (p :: x :: xs) 0 = 0).
      { intros i L. apply mod0; [apply u32_nth; by constructor|]. specialize (H i L). apply Z.mod_opp_l_z in H; [|done]. by rewrite Z.opp_involutive in H. }
      split; [apply (G 0%nat); cbn; lia|]. apply removelast_nth. intros i L. by apply (G (S i)).
  - split.
    + intros [-> | [-> F]] i H; [cbn in H; lia|]. assert (E : total (take i xs) = 0); [|by rewrite E].
      pose proof (proj1 (removelast_nth xs) F) as G. clear - G H. induction i as [|i IH]; [done|]. rewrite take_S_nth, total_app, IH by lia. cbn [total fold_right]. rewrite G by done. done.
    + intros H. destruct xs as [|x xs]; [by left|right]. set (l := x :: xs) in *.
      assert (Q : q = 0). { apply mod0; [done|]. specialize (H 0%nat ltac:(cbn; lia)). cbn [take total fold_right] in H. by rewrite Z.add_0_r in H. }
      subst q. split; [done|]. apply removelast_nth. intros i L. apply mod0; [by apply u32_nth|].
      pose proof (H i ltac:(lia)) as A. pose proof (H (S i) L) as C. rewrite take_S_nth, total_app, total_cons in C by lia. change (total []) with 0 in C.
      rewrite Z.add_0_r, Z.add_assoc, <- Zplus_mod_idemp_l, A in C. done.
Qed.
Theorem C68_harmless : forall w B inp pw m, typed m -> validW m inp -> mb m !! B = None -> prev_ok pw ->
  exists st m1, returns (write_prev w B inp pw) m st m1 /\
  forall r m2 st2 junk out pr, typed m2 -> validB m2 st2 -> bytes m2 st2 = bytes m1 st ++ junk -> validW m2 out ->
  s_len inp <= s_len out -> room r (s_len inp) st2 m2 -> prev_ok pr ->
  (gives r (s_len inp) st2 out pr m2 (words m inp) <-> harmless pw pr (words m inp)).
Proof.
  intros w B inp pw m Ht Hi Hf Hp. destruct (C68_off w B inp pw m Ht Hi Hf Hp) as (st & m1 & R & H). exists st, m1. split; [done|].
  intros r m2 st2 junk out pr Ht2 Hs2 Eb2 Ho2 Hn Hr Hq. destruct (H r m2 st2 junk out pr Ht2 Hs2 Eb2 Ho2 Hn Hr Hq) as (ys & G & L & N).
  rewrite harmless_iff by (done || by apply typed_words). split.
  - intros (m4 & R4 & E4). destruct G as (m3 & R3 & E3). destruct (returns_det _ _ _ _ _ _ R3 R4) as [_ ->]. rewrite E3 in E4. subst ys. intros i Hi'. apply (proj2 (N i Hi')). by rewrite E4.
  - intros F. assert (E : ys = words m inp); [|by rewrite <- E]. apply (List.nth_ext _ _ 0 0 L). intros i Hi'. rewrite L in Hi'. apply (proj2 (N i Hi')). by apply F.
Qed.
(** *** Examples *)
(** Sorted numbers written as differences from 5 and read as differences from 7, or read as
    numbers; numbers read as differences. *)
Definition try68 (S : list Z) (k : Z) (pr : option Z) : option (list Z) :=
  let x := run (read_prev RScalar k (st67 S) (Slice 0 0 8 8) pr) (ex67 S) in
  match result x with Ok _ => Some (take (Z.to_nat k) (words (final x) (Slice 0 0 8 8))) | _ => None end.
Example C68_example :
  let xs := [10; 20; 30; 1000; 5] in
  let plain := stream_of xs in let diff := stream_of (deltas 5 xs) in
  try68 diff 5 (Some 5) = Some xs /\ try68 diff 5 (Some 7) = Some [12; 22; 32; 1002; 7] /\
  try68 diff 5 None = Some [5; 10; 10; 970; 4294966301] /\ try68 plain 5 (Some 5) = Some [15; 35; 65; 1065; 1070] /\
  map (off (Some 5) None xs) (seq 0 5) = [-5; -10; -20; -30; -1000] /\ map (off None (Some 5) xs) (seq 0 5) = [5; 15; 35; 65; 1065].
Proof. vm_compute. repeat split. Qed.
(** Nothing but a last number: the mistake is harmless. *)
Example C68_zeros : try68 (stream_of [0; 0; 0; 9]) 4 (Some 0) = Some [0; 0; 0; 9] /\ harmless None (Some 0) [0; 0; 0; 9] /\ ~ harmless None (Some 0) [0; 1; 0; 9].
Proof.
  split; [vm_compute; reflexivity|]. split; [right; split; [done|]; repeat constructor|]. intros [E|[_ F]]; [discriminate E|].
  cbn [removelast] in F. apply List.Forall_cons_iff in F as [_ F]. apply List.Forall_cons_iff in F as [F _]. discriminate F.
Qed.
Example C68_hypotheses : let S := stream_of [1; 2; 3; 4; 300] in
  typed (ex67 S) /\ validB (ex67 S) (st67 S) /\ validW (ex67 S) (Slice 0 0 8 8) /\ room (RFast true) 5 (st67 S) (ex67 S) /\ mb (ex67 S) !! 4%nat = None /\ prev_ok (Some 5) /\ prev_ok None.
Proof. destruct C67_hypotheses as (A & B & C & D). split; [exact A|]. split; [exact B|]. split; [exact C|]. split; [exact D|]. split; [done|]. split; [cbn; unfold is_u32; lia|exact I]. Qed.
