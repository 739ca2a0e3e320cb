(** * Other orders of evaluation: expressions (for C65) *)
From stdpp Require Import prelude gmap list.
From Coq Require Import ZArith String Bool Lia.
From Verif Require Import SourceText GoSyntax GoInterp AsmText GoProgram GoSource GoOrder.
From Verif Require Import Spec GoSem Shared Asm Encode Util IntOps Api ApiLemmas OrderProof.
Local Open Scope string_scope.
Local Open Scope list_scope.
Local Open Scope Z_scope.

Local Arguments out : simpl never.
Lemma out_ret (v : R) m : out (Ret v) m = (Ok v, m). Proof. done. Qed.
Lemma agree_mix_l r pc v q k : agree r (bind q (fun b => k (v ++ b))) -> agree r (bind (mix2 pc (Ret v) q) k).
Proof. apply agree_out. intros m. rewrite !out_bind, mix2_ret_l, out_bind. unfold R in *. by destruct (out q m) as [[] ?]; rewrite ?out_ret. Qed.
Lemma agree_mix_r r pc p v k : agree r (bind p (fun a => k (a ++ v))) -> agree r (bind (mix2 pc p (Ret v)) k).
Proof. apply agree_out. intros m. rewrite !out_bind, mix2_ret_r, out_bind. unfold R in *. by destruct (out p m) as [[] ?]; rewrite ?out_ret. Qed.
Section expressions.
Variable w : Z.
Variable pick : order.
Variable pk : string.
Variable types : string -> string -> option kind.
Variable glob : string -> string -> option value.
Variables call call2 : string -> string -> list value -> prog R.
Variable blk : nat.
Variable silent : string -> string -> bool.
Hypothesis Hglob : forall f, silent pk f = true -> glob pk f = None.
Hypothesis Hcall : forall p f args, agree (call p f args) (call2 p f args).
Hypothesis Hquiet : forall p f args, silent p f = true -> quiet (call p f args) /\ quiet (call2 p f args).
Local Notation EV := (ev w pk types glob call blk).
Local Notation EV2 := (ev2 w pick pk types glob call2 blk).
Local Notation name := (name pk glob).

(** No variable has the name of a function relied on. *)
Definition clean (s : env) : Prop := List.Forall (fun xv => silent pk (fst xv) = false) s.
Lemma clean_lookup s f : clean s -> silent pk f = true -> GoInterp.lookup s f = None.
Proof. induction 1 as [|[x v] s H1 H2 IH]; intros Hf; [done|]. cbn in *. destruct (String.eqb_spec f x) as [->|]; [congruence|auto]. Qed.
Lemma clean_name s f : clean s -> silent pk f = true -> name s f = VFn pk f \/ exists b, name s f = VBool b.
Proof. intros H1 H2. unfold GoInterp.name. rewrite clean_lookup, Hglob by done. destruct (String.eqb f "true"); [eauto|]. destruct (String.eqb f "false"); eauto. Qed.

Definition settled (e : expr) (s : env) : Prop := (exists v, (forall k, EV e s k = k [v]) /\ EV2 e s = Ret [v]) \/ ((forall k, EV e s k = Fault) /\ EV2 e s = Fault).
Lemma settled_val e s v : (forall k, EV e s k = k [v]) -> EV2 e s = Ret [v] -> settled e s.
Proof. left. eauto. Qed.
Definition flat (F : (value -> prog R) -> prog R) : Prop := (exists v, forall k, F k = k v) \/ forall k, F k = Fault.
Lemma flat_iop k o a b : flat (iop w k o a b).
Proof. unfold iop. repeat match goal with |- context [if ?c then _ else _] => destruct c end; first [left; by eexists | by right]. Qed.
Lemma flat_binary o x y : GoSyntax.mem o ["+"; "-"; "*"; "|"; "&"; "&^"; "=="; "!="; "<"; ">"; "<="; ">="] = true -> flat (binary w o x y).
Proof.
  intros H. assert (isShift o = false /\ isDiv o = false /\ String.eqb o "&&" = false) as (E1 & E2 & _).
  { unfold GoSyntax.mem in H. cbn in H. repeat (apply orb_prop in H as [H|H]; [apply String.eqb_eq in H; subst; done|]). done. }
  unfold binary. rewrite E1, E2. destruct x; try (by right); destruct y; try (by right); try apply flat_iop.
  - destruct (cop _ _ _); [left; by eexists|by right].
  - destruct (kind_eqb _ _); [apply flat_iop|by right].
Qed.
Lemma flat_convert c v : flat (convert w c v).
Proof. unfold convert. destruct v; first [left; by eexists | by right]. Qed.
Lemma plain_op o : GoSyntax.mem o ["+"; "-"; "*"; "|"; "&"; "&^"; "=="; "!="; "<"; ">"; "<="; ">="] = true -> String.eqb o "&&" = false /\ String.eqb o "||" = false.
Proof. intros H. unfold GoSyntax.mem in H. cbn in H. repeat (apply orb_prop in H as [H|H]; [apply String.eqb_eq in H; subst; done|]). done. Qed.
Lemma plain_settled e s : plain e = true -> settled e s.
Proof.
  induction e as [x|z|x|e x _|o a _|o a b IHa IHb|f args _ IHargs|a i _ _|a lo hi _ _ _|t n _|t es|t fs|ps rs b] using expr_ind'; intros H; try discriminate H.
  - left. eexists. split; [intros k|]; reflexivity.
  - left. eexists. split; [intros k|]; reflexivity.
  - left. eexists. split; [intros k|]; reflexivity.
  - destruct e as [p| | |[p| | | | | | | | | | | |] v| | | | | | | | |]; try discriminate H; unfold settled; cbn.
    + destruct (glob p x); [left; by eexists|by right].
    + destruct (glob _ x); [left; by eexists|by right].
  - cbn in H. apply andb_prop in H as [H Hb]. apply andb_prop in H as [Ho Ha]. specialize (IHa Ha). specialize (IHb Hb). apply plain_op in Ho as E. destruct E as [E1 E2].
    unfold settled. cbn [ev ev2]. rewrite E1, E2. cbn [map mixs].
    destruct IHa as [(x & Ex & ->)|[Ex ->]]; cbn [single bind one].
    + destruct IHb as [(y & Ey & ->)|[Ey ->]]; cbn [single bind one].
      * rewrite !mix2_rr. cbn [bind app]. destruct (flat_binary o x y Ho) as [[v Ev]|Ev].
        -- left. exists v. split; [intros k; rewrite Ex; cbn; rewrite Ey; cbn; by rewrite Ev|by rewrite Ev].
        -- right. split; [intros k; rewrite Ex; cbn; rewrite Ey; cbn; by rewrite Ev|by rewrite Ev].
      * rewrite mix2_fr, mix2_rf. right. split; [|done]. intros k. rewrite Ex. cbn. by rewrite Ey.
    + right. split; [intros k; by rewrite Ex|]. destruct IHb as [(y & Ey & ->)|[Ey ->]]; cbn [single bind one]; rewrite ?mix2_rr, ?mix2_fr, ?mix2_rf, ?mix2_ff; done.
  - destruct f as [f| | | | | | | | | | | |]; try discriminate H. destruct args as [|a [|]]; try discriminate H. cbn in H. apply andb_prop in H as [Hf Ha].
    apply List.Forall_inv in IHargs. specialize (IHargs Ha). unfold settled. cbn [ev ev2 map mixs]. destruct (String.eqb f "len").
    + destruct IHargs as [(x & Ex & ->)|[Ex ->]]; cbn [single bind one].
      * rewrite mix2_rr. cbn [bind app one]. destruct x; first [left; eexists; split; [intros K; rewrite Ex; reflexivity|reflexivity] | right; split; [intros K; by rewrite Ex|reflexivity]].
      * rewrite mix2_fr. right. split; [intros k; by rewrite Ex|done].
    + destruct (String.eqb_spec f "panic") as [->|_]; [discriminate Hf|]. destruct (basic f) as [c|]; [|discriminate Hf].
      destruct IHargs as [(x & Ex & ->)|[Ex ->]]; cbn [single bind one].
      * rewrite mix2_rr. cbn [bind app one]. destruct (flat_convert c x) as [[v Ev]|Ev].
        -- left. exists v. split; [intros k; rewrite Ex; cbn; by rewrite Ev|by rewrite Ev].
        -- right. split; [intros k; rewrite Ex; cbn; by rewrite Ev|by rewrite Ev].
      * rewrite mix2_fr. right. split; [intros k; by rewrite Ex|done].
Qed.

(** ** Operands: [L] is evs, or its copy inside ev *)
Section operands.
Variable s : env.
Variable L : list expr -> (R -> prog R) -> prog R.
Hypothesis Lnil : forall k, L [] k = k [].
Hypothesis Lcons : forall e r k, L (e :: r) k = EV e s (one (fun v => L r (fun vs => k (v :: vs)))).
Variable pc : prog R -> prog R -> bool.
Local Notation MIX es := (mixs pc (map (fun e => EV2 e s) es)).

Lemma plain_operands r : forallb plain r = true -> (exists vs, (forall k, L r k = k vs) /\ MIX r = Ret vs) \/ ((forall k, L r k = Fault) /\ MIX r = Fault).
Proof.
  induction r as [|e r IH]; intros H.
  - left. exists []. split; [apply Lnil|done].
  - cbn in H. apply andb_prop in H as [He Hr]. specialize (IH Hr). cbn [map mixs]. destruct (plain_settled e s He) as [(v & Ev & ->)|[Ev ->]]; cbn [single bind one].
    + destruct IH as [(vs & El & ->)|[El ->]].
      * left. exists (v :: vs). rewrite mix2_rr. split; [|done]. intros k. rewrite Lcons, Ev. cbn. by rewrite El.
      * right. rewrite mix2_rf. split; [|done]. intros k. rewrite Lcons, Ev. cbn. by rewrite El.
    + right. split; [intros k; by rewrite Lcons, Ev|]. destruct IH as [(vs & El & ->)|[El ->]]; by rewrite ?mix2_fr, ?mix2_ff.
Qed.
Lemma reads_operands r : List.Forall (fun e => reads (EV e s)) r -> reads (L r).
Proof.
  induction 1 as [|e r He _ IH].
  - intros m. exists (Ok []). intros k. by rewrite Lnil.
  - pose proof (reads_seq (EV e s) (fun vs k => one (fun v => L r (fun ws => k (v :: ws))) vs) He) as H. intros m. destruct (H) with (m := m) as [x Hx].
    + intros vs. apply (reads_one (fun v k => L r (fun ws => k (v :: ws)))). intros v. apply (reads_seq (L r) (fun ws k => k (v :: ws)) IH). intros ws. apply reads_ret.
    + exists x. intros k. by rewrite Lcons, Hx.
Qed.
Lemma quiet_operands r : List.Forall (fun e => quiet (EV2 e s)) r -> quiet (MIX r).
Proof. induction 1; cbn [map mixs]; [constructor|]. apply quiet_mix2; [by apply quiet_single|done]. Qed.

Definition sound (e : expr) : Prop := forall k k', (forall vs, agree (k vs) (k' vs)) -> agree (EV e s k) (bind (EV2 e s) k').
Lemma out_single p m : out (single p) m = match out p m with (Ok [v], m') => (Ok [v], m') | (Ok _, m') => (Faulted, m') | x => x end.
Proof. unfold single. rewrite out_bind. destruct (out p m) as [[[|v [|]]| | | |] m']; done. Qed.
(** From continuations to outcomes. *)
Lemma sound_ret e : sound e -> agree (EV e s Ret) (EV2 e s).
Proof. intros H. eapply agree_out; [|apply (H Ret Ret); intros; apply agree_refl]. intros m. rewrite out_bind. destruct (out _ m) as [[] ?]; done. Qed.
Lemma still_case e r : reads (EV e s) -> reads (L r) -> quiet (EV2 e s) -> quiet (MIX r) -> sound e ->
  (forall k k', (forall vs, agree (k vs) (k' vs)) -> agree (L r k) (bind (MIX r) k')) ->
  forall k k', (forall vs, agree (k vs) (k' vs)) -> agree (L (e :: r) k) (bind (MIX (e :: r)) k').
Proof.
  intros R1 R2 Q1 Q2 S1 S2 k k' H m. apply sound_ret in S1. specialize (S1 m).
  assert (agree (L r Ret) (MIX r)) as S2'. { eapply agree_out; [|apply (S2 Ret Ret); intros; apply agree_refl]. intros m'. rewrite out_bind. destruct (out _ m') as [[] ?]; done. }
  specialize (S2' m). rewrite Lcons. destruct (R1 m) as [x1 X1], (R2 m) as [x2 X2]. rewrite X1. rewrite X1 in S1. rewrite X2 in S2'.
  pose proof (mix2_quiet pc (single (EV2 e s)) (MIX r) m (quiet_single _ Q1) Q2) as M. rewrite out_single, (quiet_out _ m Q1), (quiet_out _ m Q2) in M. rewrite (quiet_out _ m Q1) in S1. rewrite (quiet_out _ m Q2) in S2'.
  rewrite out_bind. change (MIX (e :: r)) with (mix2 pc (single (EV2 e s)) (MIX r)).
  destruct x1 as [vs| | | |]; cbn [cont] in *; try done.
  - rewrite out_ret in S1. apply (f_equal fst) in S1. cbn [fst] in S1. rewrite S1 in M. destruct vs as [|v [|]]; [done| |done]. cbn [one]. rewrite X2.
    destruct x2 as [ws| | | |]; cbn [cont] in *; try done.
    + rewrite out_ret in S2'. apply (f_equal fst) in S2'. cbn [fst] in S2'. rewrite S2' in M. cbn in M. rewrite M. apply H.
    + cbn in S2'. destruct (fst (out (MIX r) m)) as [ws| | | |]; cbn in M; [done| | | |]; destruct (out (mix2 _ _ _) m) as [[] ?]; done.
  - cbn in S1. destruct (fst (out (EV2 e s) m)) as [ws| | | |]; cbn in M; [done| | | |]; destruct (out (mix2 _ _ _) m) as [[] ?]; done.
Qed.
Lemma operands_sound es : List.Forall sound es -> List.Forall (fun e => still silent pk e = true -> reads (EV e s) /\ quiet (EV2 e s)) es -> apart silent pk es = true ->
  forall k k', (forall vs, agree (k vs) (k' vs)) -> agree (L es k) (bind (MIX es) k').
Proof.
  induction es as [|e r IH]; intros Hs Hr Ha k k' H.
  - rewrite Lnil. cbn. apply H.
  - apply List.Forall_cons_iff in Hs as [Se Sr]. apply List.Forall_cons_iff in Hr as [Re Rr]. cbn [apart] in Ha. apply orb_prop in Ha as [Ha|Ha]; [apply orb_prop in Ha as [Ha|Ha]|].
    + apply andb_prop in Ha as [H1 H2]. destruct (Re H1) as [R1 Q1].
      assert (A : List.Forall (fun e => reads (EV e s) /\ quiet (EV2 e s)) r). { apply List.Forall_forall. intros x Hx. rewrite List.Forall_forall in Rr. apply Rr; [done|]. rewrite forallb_forall in H2. by apply H2. }
      apply still_case; try done.
      * apply reads_operands. eapply List.Forall_impl; [|exact A]. by intros ? [? ?].
      * apply quiet_operands. eapply List.Forall_impl; [|exact A]. by intros ? [? ?].
      * intros k0 k0' H0. apply IH; try done. destruct r as [|e' r']; [done|]. cbn [apart]. cbn [forallb] in H2. rewrite H2. done.
    + apply andb_prop in Ha as [H1 H2]. rewrite Lcons. cbn [map mixs]. destruct (plain_settled e s H1) as [(v & Ev & ->)|[Ev ->]]; rewrite Ev; cbn [single bind one]; [|apply agree_fault].
      apply agree_mix_l. apply IH; [done..|]. intros vs. cbn. apply H.
    + rewrite Lcons. cbn [map mixs]. destruct (plain_operands r Ha) as [(vs & El & ->)|[El ->]].
      * apply agree_mix_r. unfold single. apply agree_assoc. apply Se. intros us. destruct us as [|v [|]]; [done| |done]. cbn. rewrite El. apply H.
      * assert (A : agree (EV e s (one (fun v => L r (fun vs => k (v :: vs))))) (bind (EV2 e s) (fun _ => Fault))). { apply Se. intros us. destruct us as [|v [|]]; [done| |done]. cbn. rewrite El. done. }
        intros m. specialize (A m). rewrite out_bind in A. destruct (out (EV e s _) m) as [[vs| | | |] m']; try done.
        -- destruct (out (EV2 e s) m) as [[] ?]; discriminate A.
        -- rewrite out_bind. pose proof (mix2_fault_r pc (single (EV2 e s)) m) as M. destruct (out (mix2 _ _ _) m) as [[] m2]; try done. rewrite out_single in M. destruct (out (EV2 e s) m) as [[[|v [|]]| | | |] m3]; try discriminate M. congruence.
Qed.
End operands.

(** The copy of evs inside ev. *)
Definition evsIn (s : env) : list expr -> (R -> prog R) -> prog R :=
  fix evs (es : list expr) (k : list value -> prog R) : prog R :=
    match es with [] => k [] | e :: r => EV e s (one (fun v => evs r (fun vs => k (v :: vs)))) end.
Lemma ev_call_id f args s k : EV (ECall (EId f) args) s k =
  if String.eqb f "len" then evsIn s args (one (fun v => match v with VBytes t | VWords t => k [VInt INT (s_len t)] | _ => Fault end))
  else if String.eqb f "panic" then evsIn s args (one (fun _ => GoPanic))
  else match basic f with
       | Some c => evsIn s args (one (fun v => convert w c v (fun u => k [u])))
       | None => evsIn s args (fun vs => match name s f with VFn p g => bind (call p g vs) k | _ => Fault end)
       end.
Proof. reflexivity. Qed.
Lemma ev_call_sel p f args s k : EV (ECall (ESel (EId p) f) args) s k = evsIn s args (fun vs => bind (call p f vs) k).
Proof. reflexivity. Qed.
Local Notation OPS es s f := (bind (mixs (pick es s) (map (fun e => EV2 e s) es)) f).
Lemma reads_ops s es (G : R -> (R -> prog R) -> prog R) : List.Forall (fun e => reads (EV e s)) es -> (forall vs, reads (G vs)) -> reads (fun k => evsIn s es (fun vs => G vs k)).
Proof. intros H1 H2. apply (reads_seq (evsIn s es) G); [|done]. by apply (reads_operands s). Qed.
Lemma quiet_ops s es f : List.Forall (fun e => quiet (EV2 e s)) es -> (forall vs, quiet (f vs)) -> quiet (OPS es s f).
Proof. intros H1 H2. apply quiet_bind; [by apply quiet_operands|done]. Qed.
Definition stillOk (s : env) (e : expr) : Prop := reads (EV e s) /\ quiet (EV2 e s).
Lemma stillOk_list s es : List.Forall (fun e => still silent pk e = true -> stillOk s e) es -> forallb (still silent pk) es = true -> List.Forall (fun e => reads (EV e s)) es /\ List.Forall (fun e => quiet (EV2 e s)) es.
Proof. induction 1 as [|e r H _ IH]; cbn; intros E; [done|]. apply andb_prop in E as [E1 E2]. destruct (H E1), (IH E2). split; constructor; done. Qed.
Lemma quiet_boolean f v : (forall b, quiet (f b)) -> quiet (boolean f v).
Proof. intros H. destruct v; try constructor. apply H. Qed.
Lemma quiet_tame F : tame F -> quiet (F (fun v => Ret [v])).
Proof. intros (_ & _ & H). apply H. constructor. Qed.
Lemma reads_tame F : tame F -> reads (fun k => F (fun v => k [v])).
Proof. intros (_ & H & _). done. Qed.

Lemma still_sound s e : clean s -> still silent pk e = true -> stillOk s e.
Proof.
  intros C. induction e as [x|z|x|e x _|o a IHa|o a b IHa IHb|f args _ IH|a i IHa IHi|a lo hi IHa IHl IHh|t n _|t es|t fs|ps rs b] using expr_ind'; intros H; try discriminate H; cbn [still] in H.
  - split; [apply reads_ret|constructor].
  - split; [apply reads_ret|constructor].
  - split; [apply reads_ret|constructor].
  - unfold stillOk. destruct e as [p| | |[p| | | | | | | | | | | |] v| | | | | | | | |]; try (split; [apply reads_fault|constructor]); cbn [ev ev2]; destruct (glob _ x); (split; [first [apply reads_ret | apply reads_fault]|constructor]).
  - destruct (IHa H) as [R1 Q1]. unfold stillOk. cbn [ev ev2]. destruct (String.eqb o "-"); [|destruct (String.eqb o "!")].
    + split.
      * apply (reads_seq (EV a s) (fun vs k => one (fun v => match v with VConst z => k [VConst (- z)] | _ => Fault end) vs) R1). intros vs. apply (reads_one (fun v k => match v with VConst z => k [VConst (- z)] | _ => Fault end)). intros []; try apply reads_fault. apply reads_ret.
      * apply quiet_bind; [done|]. intros vs. apply quiet_one. intros []; constructor.
    + split.
      * apply (reads_seq (EV a s) (fun vs k => one (boolean (fun b => k [VBool (negb b)])) vs) R1). intros vs. apply (reads_one (fun v k => boolean (fun b => k [VBool (negb b)]) v)). intros v. apply (reads_boolean (fun b k => k [VBool (negb b)])). intros b. apply reads_ret.
      * apply quiet_bind; [done|]. intros vs. apply quiet_one. intros v. apply quiet_boolean. constructor.
    + split; [apply reads_fault|constructor].
  - apply andb_prop in H as [Ha Hb]. destruct (IHa Ha) as [R1 Q1], (IHb Hb) as [R2 Q2]. unfold stillOk. cbn [ev ev2]. destruct (String.eqb o "&&"); [|destruct (String.eqb o "||")].
    + split.
      * apply (reads_seq (EV a s) (fun vs k => one (boolean (fun t => if t then EV b s k else k [VBool false])) vs) R1). intros vs. apply (reads_one (fun v k => boolean (fun t => if t then EV b s k else k [VBool false]) v)). intros v. apply (reads_boolean (fun (t : bool) k => if t then EV b s k else k [VBool false])). intros [|]; [done|apply reads_ret].
      * apply quiet_bind; [done|]. intros vs. apply quiet_one. intros v. apply quiet_boolean. intros [|]; [done|constructor].
    + split.
      * apply (reads_seq (EV a s) (fun vs k => one (boolean (fun t => if t then k [VBool true] else EV b s k)) vs) R1). intros vs. apply (reads_one (fun v k => boolean (fun t => if t then k [VBool true] else EV b s k) v)). intros v. apply (reads_boolean (fun (t : bool) k => if t then k [VBool true] else EV b s k)). intros [|]; [apply reads_ret|done].
      * apply quiet_bind; [done|]. intros vs. apply quiet_one. intros v. apply quiet_boolean. intros [|]; [constructor|done].
    + split.
      * apply (reads_ops s [a; b] (fun vs k => match vs with [x; y] => binary w o x y (fun v => k [v]) | _ => Fault end)); [by repeat constructor|]. intros [|x [|y [|]]]; try apply reads_fault. apply reads_tame, tame_binary.
      * apply quiet_ops; [by repeat constructor|]. intros [|x [|y [|]]]; try constructor. apply quiet_tame, tame_binary.
  - destruct f as [f| | |p f| | | | | | | | |]; try discriminate H.
    + apply andb_prop in H as [Hf Ha]. destruct (stillOk_list s args IH Ha) as [R1 Q1]. split.
      * assert (E : reads (fun k => EV (ECall (EId f) args) s k)); [|exact E]. pose proof (ev_call_id f args s) as E.
        assert (T : reads (fun k => if String.eqb f "len" then evsIn s args (one (fun v => match v with VBytes t | VWords t => k [VInt INT (s_len t)] | _ => Fault end))
          else if String.eqb f "panic" then evsIn s args (one (fun _ => GoPanic))
          else match basic f with
               | Some c => evsIn s args (one (fun v => convert w c v (fun u => k [u])))
               | None => evsIn s args (fun vs => match name s f with VFn p g => bind (call p g vs) k | _ => Fault end)
               end)); [|intros m; destruct (T m) as [r Hr]; exists r; intros k; rewrite E; apply Hr]. clear E.
        destruct (String.eqb f "len") eqn:E1; [|destruct (String.eqb f "panic") eqn:E2; [|destruct (basic f) as [c|] eqn:E3]].
        -- apply (reads_ops s args (fun vs k => one (fun v => match v with VBytes t | VWords t => k [VInt INT (s_len t)] | _ => Fault end) vs) R1). intros vs. apply (reads_one (fun v k => match v with VBytes t | VWords t => k [VInt INT (s_len t)] | _ => Fault end)). intros []; first [apply reads_fault | apply reads_ret].
        -- apply (reads_ops s args (fun vs k => one (fun _ => GoPanic) vs) R1). intros vs. apply (reads_one (fun v k => GoPanic)). intros v. apply reads_panic.
        -- apply (reads_ops s args (fun vs k => one (fun v => convert w c v (fun u => k [u])) vs) R1). intros vs. apply (reads_one (fun v k => convert w c v (fun u => k [u]))). intros v. apply reads_tame, tame_convert.
        -- unfold GoSyntax.mem in Hf. cbn [existsb] in Hf. rewrite E1, E2 in Hf. cbn in Hf.
           apply (reads_ops s args (fun vs k => match name s f with VFn p g => bind (call p g vs) k | _ => Fault end) R1). intros vs. destruct (clean_name s f C Hf) as [->|[b ->]]; [|apply reads_fault]. apply reads_quiet. by apply Hquiet.
      * cbn [ev2]. destruct (String.eqb f "len") eqn:E1; [|destruct (String.eqb f "panic") eqn:E2; [|destruct (basic f) as [c|] eqn:E3]].
        -- apply quiet_ops; [done|]. intros vs. apply quiet_one. intros []; constructor.
        -- apply quiet_ops; [done|]. intros vs. apply quiet_one. intros v. constructor.
        -- apply quiet_ops; [done|]. intros vs. apply quiet_one. intros v. apply quiet_tame, tame_convert.
        -- unfold GoSyntax.mem in Hf. cbn [existsb] in Hf. rewrite E1, E2 in Hf. cbn in Hf. apply quiet_ops; [done|]. intros vs. destruct (clean_name s f C Hf) as [->|[b ->]]; [by apply Hquiet|constructor].
    + destruct p as [p| | | | | | | | | | | |]; try discriminate H. apply andb_prop in H as [Hf Ha]. destruct (stillOk_list s args IH Ha) as [R1 Q1]. split.
      * apply (reads_ops s args (fun vs k => bind (call p f vs) k) R1). intros vs. apply reads_quiet. by apply Hquiet.
      * apply quiet_ops; [done|]. intros vs. by apply Hquiet.
  - apply andb_prop in H as [Ha Hi]. destruct (IHa Ha) as [R1 Q1], (IHi Hi) as [R2 Q2]. split.
    + apply (reads_ops s [a; i] (fun vs k => match vs with [x; y] => index x y (fun v => k [v]) | _ => Fault end)); [by repeat constructor|]. intros [|x [|y [|]]]; try apply reads_fault. apply reads_tame, tame_index.
    + apply quiet_ops; [by repeat constructor|]. intros [|x [|y [|]]]; try constructor. apply quiet_tame, tame_index.
  - apply andb_prop in H as [H Hh]. apply andb_prop in H as [Ha Hl]. destruct (IHa Ha) as [R1 Q1].
    destruct lo as [l|]; [destruct (IHl l eq_refl Hl) as [R2 Q2]|]; (destruct hi as [h|]; [destruct (IHh h eq_refl Hh) as [R3 Q3]|]).
    + split.
      * apply (reads_ops s [a; l; h] (fun vs k => match vs with [x; l; h] => slicing x (Some l) (Some h) (fun v => k [v]) | _ => Fault end)); [by repeat constructor|]. intros [|x [|y [|z [|]]]]; try apply reads_fault. apply reads_tame, tame_slicing.
      * apply quiet_ops; [by repeat constructor|]. intros [|x [|y [|z [|]]]]; try constructor. apply quiet_tame, tame_slicing.
    + split.
      * apply (reads_ops s [a; l] (fun vs k => match vs with [x; l] => slicing x (Some l) None (fun v => k [v]) | _ => Fault end)); [by repeat constructor|]. intros [|x [|y [|]]]; try apply reads_fault. apply reads_tame, tame_slicing.
      * apply quiet_ops; [by repeat constructor|]. intros [|x [|y [|]]]; try constructor. apply quiet_tame, tame_slicing.
    + split.
      * apply (reads_ops s [a; h] (fun vs k => match vs with [x; h] => slicing x None (Some h) (fun v => k [v]) | _ => Fault end)); [by repeat constructor|]. intros [|x [|y [|]]]; try apply reads_fault. apply reads_tame, tame_slicing.
      * apply quiet_ops; [by repeat constructor|]. intros [|x [|y [|]]]; try constructor. apply quiet_tame, tame_slicing.
    + split.
      * apply (reads_ops s [a] (fun vs k => match vs with [x] => slicing x None None (fun v => k [v]) | _ => Fault end)); [by repeat constructor|]. intros [|x [|]]; try apply reads_fault. apply reads_tame, tame_slicing.
      * apply quiet_ops; [by repeat constructor|]. intros [|x [|]]; try constructor. apply quiet_tame, tame_slicing.
Qed.

(** The same with the continuation of [ev]. *)
Definition hush (s : env) (e : expr) : Prop := forall k, (forall vs, quiet (k vs)) -> quiet (EV e s k).
Lemma hush_list s es : List.Forall (fun e => still silent pk e = true -> hush s e) es -> forallb (still silent pk) es = true -> List.Forall (hush s) es.
Proof. induction 1 as [|e r H _ IH]; cbn; intros E; [done|]. apply andb_prop in E as [E1 E2]. constructor; auto. Qed.
Lemma hush_ops s (L : list expr -> (R -> prog R) -> prog R) :
  (forall k, L [] k = k []) -> (forall e r k, L (e :: r) k = EV e s (one (fun v => L r (fun vs => k (v :: vs))))) ->
  forall es k, List.Forall (hush s) es -> (forall vs, quiet (k vs)) -> quiet (L es k).
Proof.
  intros E0 E1 es. induction es as [|e r IH]; intros k H K; [rewrite E0; apply K|]. rewrite E1. inversion H as [|? ? H1 H2]; subst. apply H1. intros vs. apply quiet_one. intros v. by apply IH.
Qed.
Lemma hush_in s es k : List.Forall (hush s) es -> (forall vs, quiet (k vs)) -> quiet (evsIn s es k).
Proof. by apply (hush_ops s (evsIn s)). Qed.
Lemma hush_tame F k : tame F -> (forall vs, quiet (k vs)) -> quiet (F (fun v => k [v])).
Proof. intros (_ & _ & H) K. apply H. intros v. apply K. Qed.
Lemma still_quiet s e : clean s -> still silent pk e = true -> hush s e.
Proof.
  intros C. induction e as [x|z|x|e x _|o a IHa|o a b IHa IHb|f args _ IH|a i IHa IHi|a lo hi IHa IHl IHh|t n _|t es|t fs|ps rs b] using expr_ind'; intros H; try discriminate H; cbn [still] in H; intros k K.
  - apply K.
  - apply K.
  - apply K.
  - destruct e as [p| | |[p| | | | | | | | | | | |] v| | | | | | | | |]; try constructor; cbn [ev]; destruct (glob _ x); first [apply K | constructor].
  - specialize (IHa H). cbn [ev]. destruct (String.eqb o "-"); [|destruct (String.eqb o "!"); [|constructor]].
    + apply IHa. intros vs. apply quiet_one. intros []; first [apply K | constructor].
    + apply IHa. intros vs. apply quiet_one. intros v. apply quiet_boolean. intros t. apply K.
  - apply andb_prop in H as [Ha Hb]. specialize (IHa Ha). specialize (IHb Hb). cbn [ev]. destruct (String.eqb o "&&"); [|destruct (String.eqb o "||")].
    + apply IHa. intros vs. apply quiet_one. intros v. apply quiet_boolean. intros [|]; [by apply IHb|apply K].
    + apply IHa. intros vs. apply quiet_one. intros v. apply quiet_boolean. intros [|]; [apply K|by apply IHb].
    + apply (hush_in s [a; b] (fun vs => match vs with [x; y] => binary w o x y (fun v => k [v]) | _ => Fault end)); [by repeat constructor|]. intros [|x [|y [|]]]; try constructor. apply hush_tame; [apply tame_binary|done].
  - destruct f as [f| | |p f| | | | | | | | |]; try discriminate H.
    + apply andb_prop in H as [Hf Ha]. pose proof (hush_list s args IH Ha) as Q. rewrite ev_call_id.
      destruct (String.eqb f "len") eqn:E1; [|destruct (String.eqb f "panic") eqn:E2; [|destruct (basic f) as [c|] eqn:E3]]; (apply hush_in; [done|]; intros vs).
      * apply quiet_one. intros []; first [apply K | constructor].
      * apply quiet_one. intros v. constructor.
      * apply quiet_one. intros v. apply hush_tame; [apply tame_convert|done].
      * unfold GoSyntax.mem in Hf. cbn [existsb] in Hf. rewrite E1, E2 in Hf. cbn in Hf. destruct (clean_name s f C Hf) as [->|[b ->]]; [|constructor]. apply quiet_bind; [by apply Hquiet|done].
    + destruct p as [p| | | | | | | | | | | |]; try discriminate H. apply andb_prop in H as [Hf Ha]. pose proof (hush_list s args IH Ha) as Q. rewrite ev_call_sel. apply hush_in; [done|]. intros vs. apply quiet_bind; [by apply Hquiet|done].
  - apply andb_prop in H as [Ha Hi]. specialize (IHa Ha). specialize (IHi Hi).
    apply (hush_in s [a; i] (fun vs => match vs with [x; y] => index x y (fun v => k [v]) | _ => Fault end)); [by repeat constructor|]. intros [|x [|y [|]]]; try constructor. apply hush_tame; [apply tame_index|done].
  - apply andb_prop in H as [H Hh]. apply andb_prop in H as [Ha Hl]. specialize (IHa Ha).
    destruct lo as [l|]; [specialize (IHl l eq_refl Hl)|]; (destruct hi as [h|]; [specialize (IHh h eq_refl Hh)|]).
    + apply (hush_in s [a; l; h] (fun vs => match vs with [x; l; h] => slicing x (Some l) (Some h) (fun v => k [v]) | _ => Fault end)); [by repeat constructor|]. intros [|x [|y [|z [|]]]]; try constructor. apply hush_tame; [apply tame_slicing|done].
    + apply (hush_in s [a; l] (fun vs => match vs with [x; l] => slicing x (Some l) None (fun v => k [v]) | _ => Fault end)); [by repeat constructor|]. intros [|x [|y [|]]]; try constructor. apply hush_tame; [apply tame_slicing|done].
    + apply (hush_in s [a; h] (fun vs => match vs with [x; h] => slicing x None (Some h) (fun v => k [v]) | _ => Fault end)); [by repeat constructor|]. intros [|x [|y [|]]]; try constructor. apply hush_tame; [apply tame_slicing|done].
    + apply (hush_in s [a] (fun vs => match vs with [x] => slicing x None None (fun v => k [v]) | _ => Fault end)); [by repeat constructor|]. intros [|x [|]]; try constructor. apply hush_tame; [apply tame_slicing|done].
Qed.

Lemma still_all s es : clean s -> List.Forall (fun e => still silent pk e = true -> reads (EV e s) /\ quiet (EV2 e s)) es.
Proof. intros C. apply List.Forall_forall. intros e _. by apply still_sound. Qed.
Lemma ops_sound s es (F G : R -> prog R) k' : clean s -> List.Forall (sound s) es -> apart silent pk es = true ->
  (forall vs, agree (F vs) (bind (G vs) k')) -> agree (evsIn s es F) (bind (OPS es s G) k').
Proof.
  intros C S A H. apply agree_assoc. apply (operands_sound s (evsIn s)); try done. by apply still_all.
Qed.
Lemma agree_tame F k k' : tame F -> (forall vs, agree (k vs) (k' vs)) -> agree (F (fun v => k [v])) (bind (F (fun v => Ret [v])) k').
Proof. intros (H & _ & _) A. apply H. auto. Qed.
Lemma agree_one f g k' vs : (forall v, agree (f v) (bind (g v) k')) -> agree (one f vs) (bind (one g vs) k').
Proof. intros H. destruct vs as [|v [|]]; [done|apply H|done]. Qed.
Lemma agree_boolean f g k' v : (forall b, agree (f b) (bind (g b) k')) -> agree (boolean f v) (bind (boolean g v) k').
Proof. intros H. destruct v; try done. apply H. Qed.
Lemma sound_list s es : List.Forall (fun e => ordered silent pk e = true -> sound s e) es -> forallb (ordered silent pk) es = true -> List.Forall (sound s) es.
Proof. induction 1 as [|e r H _ IH]; cbn; intros E; [done|]. apply andb_prop in E as [E1 E2]. constructor; auto. Qed.

Lemma ordered_sound s e : clean s -> ordered silent pk e = true -> sound s e.
Proof.
  intros C. induction e as [x|z|x|e x _|o a IHa|o a b IHa IHb|f args _ IH|a i IHa IHi|a lo hi IHa IHl IHh|t n IHn|t es|t fs|ps rs b] using expr_ind'; intros H k k' K; try (apply K); try done; cbn [ordered] in H.
  - destruct e as [p| | |[p| | | | | | | | | | | |] v| | | | | | | | |]; try done; cbn [ev ev2]; (destruct (glob _ x); [apply K|done]).
  - specialize (IHa H). cbn [ev ev2]. destruct (String.eqb o "-"); [|destruct (String.eqb o "!")]; [| |done].
    + apply agree_assoc, IHa. intros vs. apply agree_one. intros []; try done. apply K.
    + apply agree_assoc, IHa. intros vs. apply agree_one. intros v. apply agree_boolean. intros b. apply K.
  - apply andb_prop in H as [H Ho]. apply andb_prop in H as [Ha Hb]. specialize (IHa Ha). specialize (IHb Hb). cbn [ev ev2]. destruct (String.eqb o "&&") eqn:E1; [|destruct (String.eqb o "||") eqn:E2].
    + apply agree_assoc, IHa. intros vs. apply agree_one. intros v. apply agree_boolean. intros [|]; [by apply IHb|apply K].
    + apply agree_assoc, IHa. intros vs. apply agree_one. intros v. apply agree_boolean. intros [|]; [apply K|by apply IHb].
    + unfold GoSyntax.mem in Ho. cbn [existsb] in Ho. rewrite E1, E2 in Ho. cbn [orb] in Ho.
      apply (ops_sound s [a; b] (fun vs => match vs with [x; y] => binary w o x y (fun v => k [v]) | _ => Fault end)); [done|by repeat constructor|done|]. intros [|x [|y [|]]]; try done. apply agree_tame; [apply tame_binary|done].
  - apply andb_prop in H as [Ha Hp]. pose proof (sound_list s args IH Ha) as S. destruct f as [f| | |[p| | | | | | | | | | | |] f| | | | | | | | |]; try done.
    + rewrite ev_call_id. cbn [ev2]. destruct (String.eqb f "len"); [|destruct (String.eqb f "panic"); [|destruct (basic f) as [c|]]]; apply ops_sound; try done; intros vs.
      * apply agree_one. intros []; try done; apply K.
      * apply agree_one. intros v. apply agree_refl.
      * apply agree_one. intros v. apply agree_tame; [apply tame_convert|done].
      * destruct (name s f); try done. by apply agree_bind.
    + rewrite ev_call_sel. cbn [ev2]. apply ops_sound; try done. intros vs. by apply agree_bind.
  - apply andb_prop in H as [H Hp]. apply andb_prop in H as [Ha Hi]. apply (ops_sound s [a; i] (fun vs => match vs with [x; y] => index x y (fun v => k [v]) | _ => Fault end)); [done|by repeat constructor; auto|done|]. intros [|x [|y [|]]]; try done. apply agree_tame; [apply tame_index|done].
  - apply andb_prop in H as [H Hp]. apply andb_prop in H as [H Hh]. apply andb_prop in H as [Ha Hl]. specialize (IHa Ha).
    destruct lo as [l|]; [specialize (IHl l eq_refl Hl)|]; (destruct hi as [h|]; [specialize (IHh h eq_refl Hh)|]).
    + apply (ops_sound s [a; l; h] (fun vs => match vs with [x; l; h] => slicing x (Some l) (Some h) (fun v => k [v]) | _ => Fault end)); [done|by repeat constructor|done|]. intros [|x [|y [|z [|]]]]; try done. apply agree_tame; [apply tame_slicing|done].
    + apply (ops_sound s [a; l] (fun vs => match vs with [x; l] => slicing x (Some l) None (fun v => k [v]) | _ => Fault end)); [done|by repeat constructor|done|]. intros [|x [|y [|]]]; try done. apply agree_tame; [apply tame_slicing|done].
    + apply (ops_sound s [a; h] (fun vs => match vs with [x; h] => slicing x None (Some h) (fun v => k [v]) | _ => Fault end)); [done|by repeat constructor|done|]. intros [|x [|y [|]]]; try done. apply agree_tame; [apply tame_slicing|done].
    + apply (ops_sound s [a] (fun vs => match vs with [x] => slicing x None None (fun v => k [v]) | _ => Fault end)); [done|by repeat constructor|done|]. intros [|x [|]]; try done. apply agree_tame; [apply tame_slicing|done].
  - cbn [ev ev2]. destruct t; try done. destruct (kindOf pk types _) as [[]|]; try done. apply agree_assoc, IHn; [done|]. intros vs. apply agree_one. intros v. destruct (num v); [|done]. apply agree_assoc. apply agree_same. intros u. apply K.
Qed.
End expressions.
