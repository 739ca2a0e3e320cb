(** * Other orders of evaluation: statements and calls (for C65) *)
From stdpp Require Import prelude gmap list.
From Coq Require Import ZArith String Bool Lia.
From Verif Require Import SourceText GoSyntax GoInterp AsmText GoProgram GoSource GoOrder.
From Verif Require Import Spec GoSem Shared Asm Encode Util IntOps Api ApiLemmas OrderProof OrderExpr.
Local Open Scope string_scope.
Local Open Scope list_scope.
Local Open Scope Z_scope.

Lemma stmt_ind' (P : stmt -> Prop) :
  (forall e, P (SExpr e)) -> (forall x t e, P (SVar x t e)) -> (forall xs es, P (SDef xs es)) -> (forall ls es, P (SSet ls es)) -> (forall o l e, P (SOp o l e)) ->
  (forall c a b, List.Forall P a -> List.Forall P b -> P (SIf c a b)) -> (forall c p b, List.Forall P p -> List.Forall P b -> P (SFor c p b)) ->
  (forall x e b, List.Forall P b -> P (SRange x e b)) -> (forall i x e b, P (SRange2 i x e b)) -> (forall e cs, List.Forall (fun c => List.Forall P (snd c)) cs -> P (SSwitch e cs)) ->
  P SFall -> (forall es, P (SReturn es)) -> (forall e, P (SDefer e)) -> (forall b, List.Forall P b -> P (SBlock b)) -> forall x, P x.
Proof.
  intros H1 H2 H3 H4 H5 H6 H7 H8 H9 H10 H11 H12 H13 H14. fix IH 1.
  assert (L : forall l, List.Forall P l) by (fix IHl 1; intros [|x l]; constructor; [apply IH|apply IHl]).
  intros [e|x t e|xs es|ls es|o l e|c a b|c p b|x e b|i x e b|e cs| |es|e|b].
  - apply H1. - apply H2. - apply H3. - apply H4. - apply H5. - apply H6; apply L. - apply H7; apply L. - apply H8, L. - apply H9.
  - apply H10. induction cs as [|[es b] r IHr]; constructor; [apply L|exact IHr].
  - apply H11. - apply H12. - apply H13. - apply H14, L.
Qed.

(** ** Two ways to execute the same statements *)
Section statements.
Variable w : Z.
Variable pk : string.
Variable types : string -> string -> option kind.
Variable fuel : nat.
Variable silent : string -> string -> bool.
Variables EV EV' : expr -> env -> (list value -> prog R) -> prog R.
Variables OPS OPS' : list expr -> env -> (list value -> prog R) -> prog R.
Variable E : expr -> bool.
Variable Es : list expr -> bool.
Variable stores : bool.
Variable Rel : prog R -> prog R -> Prop.
Local Notation clean := (clean pk silent).
Local Notation fresh := (fresh silent pk).
Local Notation okS := (okS silent pk E Es stores).
Local Notation ST := (stG w pk types fuel EV OPS).
Local Notation ST' := (stG w pk types fuel EV' OPS').
Hypothesis Es_one : forall e, Es [e] = true -> E e = true.
Hypothesis HEV : forall e s k k', E e = true -> clean s -> (forall vs, Rel (k vs) (k' vs)) -> Rel (EV e s k) (EV' e s k').
Hypothesis HOPS : forall es s k k', Es es = true -> clean s -> (forall vs, Rel (k vs) (k' vs)) -> Rel (OPS es s k) (OPS' es s k').
Hypothesis R_fault : Rel Fault Fault.
Hypothesis R_div : Rel Diverge Diverge.
Hypothesis R_store : stores = true -> forall a i v p q, Rel p q -> Rel (store a i v p) (store a i v q).
Hypothesis R_check : forall t z p q, Rel p q -> Rel (bind (check_idx t z) (fun _ => p)) (bind (check_idx t z) (fun _ => q)).
Hypothesis R_binary : forall o a b k k', (forall v, Rel (k v) (k' v)) -> Rel (binary w o a b k) (binary w o a b k').

Lemma fresh_clean x v s : fresh x = true -> clean s -> clean ((x, v) :: s).
Proof. intros H1 H2. constructor; [|done]. cbn. unfold GoOrder.fresh in H1. by apply negb_true_iff in H1. Qed.
Lemma leave_clean s s' : clean s' -> clean (leave s s').
Proof. unfold leave. generalize (List.length s' - List.length s)%nat. intros n. revert s'. induction n as [|n IH]; intros s' H; [done|]. destruct s' as [|x s']; [done|]. cbn. apply IH. by inversion H. Qed.
Lemma declare_clean xs vs s s' : forallb fresh xs = true -> clean s -> declare xs vs s = Some s' -> clean s'.
Proof.
  revert vs s. induction xs as [|x xs IH]; intros [|v vs] s F C D; cbn in *; try discriminate D; [by injection D as <-|]. apply andb_prop in F as [F1 F2]. eapply IH; [done| |exact D]. by apply fresh_clean.
Qed.
Lemma update_clean s x v s' : clean s -> update s x v = Some s' -> clean s'.
Proof.
  intros C. revert s'. induction C as [|[y u] r H C IH]; intros s' U; cbn in U; [done|]. destruct (String.eqb x y); [injection U as <-; by constructor|].
  destruct (update r x v) as [r'|] eqn:Er; [|done]. injection U as <-. constructor; [done|]. by apply IH.
Qed.
Lemma R_one f g vs : (forall v, Rel (f v) (g v)) -> Rel (one f vs) (one g vs).
Proof. intros H. destruct vs as [|v [|]]; [done|apply H|done]. Qed.
Lemma R_boolean f g v : (forall b, Rel (f b) (g b)) -> Rel (boolean f v) (boolean g v).
Proof. intros H. destruct v; try done. apply H. Qed.
Lemma R_rhs es s k k' : Es es = true -> clean s -> (forall vs, Rel (k vs) (k' vs)) -> Rel (rhsG EV OPS es s k) (rhsG EV' OPS' es s k').
Proof. intros H C K. unfold rhsG. destruct es as [|e [|]]; auto. Qed.
Lemma R_assign x s v k k' : clean s -> (forall s', clean s' -> Rel (k s') (k' s')) -> Rel (assign (EId x) s v k) (assign (EId x) s v k').
Proof. intros C K. unfold assign. destruct (String.eqb x "_"); [by apply K|]. destruct (update s x v) as [s'|] eqn:U; [|done]. apply K. by eapply update_clean. Qed.

Definition good (x : stmt) : Prop := forall s k k' kr kr' kf kf', clean s -> (forall s', clean s' -> Rel (k s') (k' s')) -> (forall vs, Rel (kr vs) (kr' vs)) ->
  (forall s', clean s' -> Rel (kf s') (kf' s')) -> Rel (ST x s k kr kf) (ST' x s k' kr' kf').
Lemma good_seq l : List.Forall good l -> forall s k k' kr kr' kf kf', clean s -> (forall s', clean s' -> Rel (k s') (k' s')) -> (forall vs, Rel (kr vs) (kr' vs)) ->
  (forall s', clean s' -> Rel (kf s') (kf' s')) -> Rel (seqs (fun x s k kf => ST x s k kr kf) l s k kf) (seqs (fun x s k kf => ST' x s k kr' kf) l s k' kf').
Proof.
  induction 1 as [|x l H _ IH]; intros s k k' kr kr' kf kf' C K KR KF; cbn; [by apply K|]. apply H; try done. intros s' C'. by apply IH.
Qed.
Lemma good_list l : List.Forall (fun x => okS x = true -> good x) l -> forallb okS l = true -> List.Forall good l.
Proof. induction 1 as [|x l H _ IH]; cbn; intros F; [done|]. apply andb_prop in F as [F1 F2]. constructor; auto. Qed.
Lemma R_loop n c c' b b' : (forall s k k', clean s -> (forall t, Rel (k t) (k' t)) -> Rel (c s k) (c' s k')) ->
  (forall s k k', clean s -> (forall s', clean s' -> Rel (k s') (k' s')) -> Rel (b s k) (b' s k')) ->
  forall s k k', clean s -> (forall s', clean s' -> Rel (k s') (k' s')) -> Rel (loop n c b s k) (loop n c' b' s k').
Proof. intros Hc Hb. induction n as [|n IH]; intros s k k' C K; cbn; [done|]. apply Hc; [done|]. intros [|]; [|by apply K]. apply Hb; [done|]. intros s' C'. by apply IH. Qed.
Lemma R_rloop n len b b' : (forall i s k k', clean s -> (forall s', clean s' -> Rel (k s') (k' s')) -> Rel (b i s k) (b' i s k')) ->
  forall i s k k', clean s -> (forall s', clean s' -> Rel (k s') (k' s')) -> Rel (rloop w n len b i s k) (rloop w n len b' i s k').
Proof. intros Hb. induction n as [|n IH]; intros i s k k' C K; cbn; [done|]. destruct (i <? len); [|by apply K]. apply Hb; [done|]. intros s' C'. by apply IH. Qed.
Lemma R_matches v u k k' : (forall t, Rel (k t) (k' t)) -> Rel (matches v u k) (matches v u k').
Proof. intros H. unfold matches. destruct v, u; try done; try apply H. destruct (kind_eqb _ _); [apply H|done]. Qed.

Definition enterG (SEQ : list stmt -> env -> (env -> prog R) -> (env -> prog R) -> prog R) (s : env) (k : env -> prog R) : list (list expr * list stmt) -> env -> prog R :=
  fix enter (cs : list (list expr * list stmt)) (s0 : env) : prog R :=
    match cs with
    | [] => Fault
    | (_, b) :: r => SEQ b s0 (fun s' => k (leave s s')) (fun s' => enter r (leave s s'))
    end.
Definition anyG (ev : expr -> env -> (list value -> prog R) -> prog R) (s : env) (v : value) (hit miss : prog R) : list expr -> prog R :=
  fix any (es : list expr) : prog R :=
    match es with
    | [] => miss
    | e :: q => ev e s (one (fun w => matches v w (fun t => if t then hit else any q)))
    end.
Definition chooseG (ev : expr -> env -> (list value -> prog R) -> prog R) (ENTER : list (list expr * list stmt) -> env -> prog R) (s : env) (k : env -> prog R) : value -> list (list expr * list stmt) -> prog R :=
  fix choose (v : value) (cs : list (list expr * list stmt)) : prog R :=
    match cs with
    | [] => k s
    | (es, b) :: r => anyG ev s v (ENTER cs s) (choose v r) es
    end.
Lemma R_enter s k k' kr kr' cs : clean s -> (forall s', clean s' -> Rel (k s') (k' s')) -> (forall vs, Rel (kr vs) (kr' vs)) -> (forall c, In c cs -> List.Forall good (snd c)) ->
  forall s0, clean s0 -> Rel (enterG (fun b s k kf => seqs (fun x s k kf => ST x s k kr kf) b s k kf) s k cs s0) (enterG (fun b s k kf => seqs (fun x s k kf => ST' x s k kr' kf) b s k kf) s k' cs s0).
Proof.
  intros C K KR. induction cs as [|[es b] r IH]; intros L s0 C0; cbn; [done|]. apply good_seq; try done.
  - apply (L (es, b)). by left.
  - intros s' C'. apply K. by apply leave_clean.
  - intros s' C'. apply IH; [|by apply leave_clean]. intros c Hc. apply L. by right.
Qed.
Lemma R_any s v h h' m m' es : clean s -> forallb E es = true -> Rel h h' -> Rel m m' -> Rel (anyG EV s v h m es) (anyG EV' s v h' m' es).
Proof.
  intros C. induction es as [|e q IH]; cbn; intros F Hh Hm; [done|]. apply andb_prop in F as [F1 F2]. apply HEV; [done..|]. intros vs. apply R_one. intros u. apply R_matches. intros [|]; auto.
Qed.

Lemma stG_good x : okS x = true -> good x.
Proof.
  induction x as [e|x t e|xs es|ls es|o l e|c a b IHa IHb|c p b IHp IHb|x e b IHb|i x e b|e cs IHcs| |es|e|b IHb] using stmt_ind'; intros H s k k' kr kr' kf kf' C K KR KF; cbn [GoOrder.okS] in H.
  - cbn. apply HEV; [done..|]. intros _. by apply K.
  - apply andb_prop in H as [F H]. destruct t as [t|], e as [e|]; cbn.
    + apply HEV; [done..|]. intros vs. apply R_one. intros v. destruct (typed_as _ _ _ _); [|done]. apply K. by apply fresh_clean.
    + destruct (kindOf _ _ _); [|done]. apply K. by apply fresh_clean.
    + apply HEV; [done..|]. intros vs. apply R_one. intros v. apply K. by apply fresh_clean.
    + done.
  - apply andb_prop in H as [F H]. cbn. apply R_rhs; [done..|]. intros vs. destruct (declare xs vs s) as [s'|] eqn:D; [|done]. apply K. by eapply declare_clean.
  - destruct ls as [|l [|? ?]]; [done| |by destruct l]. destruct es as [|e [|? ?]]; [by destruct l| |by destruct l]. destruct l as [x| | | | | | |a i| | | | |]; try done.
    + apply andb_prop in H as [H1 H2]. cbn [stG].
      assert (A : Rel (EV e s (one (fun v => assign (EId x) s v k))) (EV' e s (one (fun v => assign (EId x) s v k')))). { apply HEV; [done..|]. intros vs. apply R_one. intros v. by apply R_assign. }
      destruct (String.eqb x "_"); [|done]. destruct e as [| | | | | | |a i| | | | |]; try done. apply HOPS; [done..|]. intros [|va [|vi [|]]]; try done. destruct va; try done; (destruct (num vi); [|done]); apply R_check; by apply K.
    + apply andb_prop in H as [H1 H2]. cbn. apply HOPS; [done..|]. intros [|va [|vi [|vv [|]]]]; try done. apply R_store; [done|]. by apply K.
  - cbn. destruct l; try done. apply HOPS; [done..|]. intros [|va [|vb [|]]]; try done. apply R_binary. intros v. by apply R_assign.
  - apply andb_prop in H as [H Hb]. apply andb_prop in H as [Hc Ha]. cbn. apply HEV; [done..|]. intros vs. apply R_one. intros v. apply R_boolean. intros [|]; apply good_seq; try done; try (by apply good_list); intros s' C'; apply K; by apply leave_clean.
  - apply andb_prop in H as [H Hb]. apply andb_prop in H as [Hc Hp]. cbn. apply R_loop; try done.
    + intros s0 k0 k0' C0 K0. destruct c as [c|]; [|apply K0]. apply HEV; [done..|]. intros vs. apply R_one. intros v. by apply R_boolean.
    + intros s0 k0 k0' C0 K0. apply good_seq; try done; [by apply good_list|]. intros s' C'. apply good_seq; try done; [by apply good_list|by apply leave_clean].
  - apply andb_prop in H as [H Hb]. apply andb_prop in H as [F He]. cbn. apply HEV; [done..|]. intros vs. apply R_one. intros v. destruct v; try done; apply R_rloop; try done; intros i s1 k1 k1' C1 K1;
      (apply good_seq; try done; [by apply good_list|by apply fresh_clean|]; intros s' C'; apply K1; by apply leave_clean).
  - done.
  - apply andb_prop in H as [He Hcs]. cbn [stG]. apply HEV; [done..|]. intros vs. apply R_one. intros v.
    change (Rel (chooseG EV (enterG (fun b s k kf => seqs (fun x s k kf => ST x s k kr kf) b s k kf) s k) s k v cs) (chooseG EV' (enterG (fun b s k kf => seqs (fun x s k kf => ST' x s k kr' kf) b s k kf) s k') s k' v cs)).
    assert (L : forall c, In c cs -> List.Forall good (snd c) /\ forallb E (fst c) = true).
    { intros c Hc. rewrite List.Forall_forall in IHcs. rewrite forallb_forall in Hcs. specialize (Hcs c Hc). apply andb_prop in Hcs as [H1 H2]. split; [|done]. apply good_list; [|done]. by apply IHcs. }
    clear IHcs Hcs. induction cs as [|[es b] r IH]; [by apply K|]. cbn [chooseG].
    apply R_any; [done|apply (L (es, b)); by left| |].
    + apply R_enter; try done. intros c Hc. by apply L.
    + apply IH. intros c Hc. apply L. by right.
  - cbn. by apply KF.
  - cbn. by apply R_rhs.
  - done.
  - cbn. apply good_seq; try done; [by apply good_list|]. intros s' C'. apply K. by apply leave_clean.
Qed.
End statements.

(** ** Calls *)
Lemma binary_forms w o x y : (exists v, forall k, binary w o x y k = k v) \/ (forall k, binary w o x y k = Fault) \/ forall k, binary w o x y k = GoPanic.
Proof.
  assert (I : forall K c a b, (exists v, forall k, iop w K c a b k = k v) \/ (forall k, iop w K c a b k = Fault) \/ forall k, iop w K c a b k = GoPanic).
  { intros K c a b. unfold iop. repeat match goal with |- context [if ?c then _ else _] => destruct c end; first [left; by eexists | by right; left | by right; right]. }
  unfold binary.
  repeat match goal with
  | |- context [iop w ?K ?c ?a ?b] => apply I
  | |- context [if ?c then _ else _] => destruct c
  | |- context [match ?c with _ => _ end] => destruct c
  end; first [left; by eexists | by right; left | by right; right | idtac].
  all: unfold ishift, idivide; repeat match goal with |- context [if ?c then _ else _] => destruct c end; first [left; by eexists | by right; left | by right; right].
Qed.
Lemma agree_binary w o x y k k' : (forall v, agree (k v) (k' v)) -> agree (binary w o x y k) (binary w o x y k').
Proof. intros K. destruct (binary_forms w o x y) as [[v H]|[H|H]]; rewrite !H; [apply K|apply agree_refl|apply agree_refl]. Qed.
Lemma agree_store a i v p q : agree p q -> agree (store a i v p) (store a i v q).
Proof. intros H. unfold store. destruct (num i); [|apply agree_refl]. destruct (num v); [|apply agree_refl]. destruct a; try apply agree_refl; by apply agree_same. Qed.
Lemma st_stG w pk types glob call blk fuel x : st w pk types glob call blk fuel x = stG w pk types fuel (ev w pk types glob call blk) (evs w pk types glob call blk) x.
Proof. reflexivity. Qed.
Lemma apply_applyG w pk types glob call blk fuel f b args :
  apply w pk types glob call blk fuel f b args = applyG w pk types fuel (ev w pk types glob call blk) (evs w pk types glob call blk) f b args.
Proof. reflexivity. Qed.
Lemma declared_in l p f d : declared l p f = Some d -> In (p, d) l /\ declName d = f.
Proof.
  induction l as [|[q e] r IH]; cbn; [done|]. destruct (String.eqb_spec p q) as [->|]; cbn [andb].
  - destruct (String.eqb_spec f (declName e)) as [->|]; [intros [= ->]; auto|]. intros H. destruct (IH H). auto.
  - intros H. destruct (IH H). auto.
Qed.
Lemma bindParams_clean pk types silent ps vs s : forallb (fun p => fresh silent pk (fst p)) ps = true -> bindParams pk types ps vs = Some s -> clean pk silent s.
Proof.
  revert vs s. induction ps as [|[x t] ps IH]; intros [|v vs] s F B; cbn in F, B; try discriminate B; [injection B as <-; constructor|].
  apply andb_prop in F as [F1 F2]. destruct (typed_as _ _ _ _); [|done]. destruct (bindParams _ _ ps vs) eqn:E; [|done]. injection B as <-. constructor; [by apply negb_true_iff in F1|]. by eapply IH.
Qed.

Section calls.
Variable pick : order.
Variable w : Z.
Variable a : arch.
Variable P : program.
Variable glob : string -> string -> option value.
Variable blk : nat.
Variable silent : string -> string -> bool.
Hypothesis Hglob : forall p f, silent p f = true -> glob p f = None.
Hypothesis Hextern : forall p f args q, silent p f = true -> extern p f args = Some q -> quiet q.
Hypothesis Hchecked : forallb (checkedFunction silent) (p_decls P) = true.
Local Notation callW := (callWith w a P glob blk).
Local Notation callA := (callAny pick w a P glob blk).

Lemma calls_agree n : (forall p f args, agree (callW n p f args) (callA n p f args)) /\ (forall p f args, silent p f = true -> quiet (callW n p f args) /\ quiet (callA n p f args)).
Proof.
  induction n as [|n [IHa IHq]]; [split; intros; [apply agree_refl|split; constructor]|].
  assert (D : forall p f fn, declared (p_decls P) p f = Some (DFunc fn) -> checkedFunction silent (p, DFunc fn) = true /\ f_name fn = f).
  { intros p f fn E. apply declared_in in E as [E1 E2]. split; [|done]. rewrite forallb_forall in Hchecked. by apply Hchecked. }
  split; intros p f args; [|intros S]; cbn [callWith callAny].
  - destruct (extern p f args) as [q|]; [apply agree_refl|]. destruct (declared (p_decls P) p f) as [[fn| | |]|] eqn:E; try apply agree_refl. destruct (f_body fn) as [b|] eqn:Eb; [|apply agree_refl].
    destruct (D p f fn E) as [Hc _]. unfold checkedFunction in Hc. cbn [fst snd] in Hc. rewrite Eb in Hc. apply andb_prop in Hc as [Hc _]. apply andb_prop in Hc as [Hp Hb].
    rewrite apply_applyG. unfold applyG. destruct (bindParams p (types P) (f_params fn) args) as [s|] eqn:Ep; [|apply agree_refl]. apply bindParams_clean with (silent := silent) in Ep; [|done].
    unfold stsG. eapply (good_seq w p (types P) n silent _ _ _ _ agree).
    + apply good_list with (E := ordered silent p) (Es := both silent p) (stores := true); [|done]. apply List.Forall_forall. intros x _ Hx. revert Hx. apply stG_good.
      * intros e He. unfold both in He. cbn in He. apply andb_prop in He as [He _]. by apply andb_prop in He as [He _].
      * intros e s0 k k' He C K. apply (ordered_sound w pick p (types P) glob (callW n) (callA n) blk silent (Hglob p) IHa IHq s0 e C He k k' K).
      * intros es s0 k k' He C K. unfold both in He. apply andb_prop in He as [He1 He2].
        apply (operands_sound w pick p (types P) glob (callW n) (callA n) blk silent s0 (fun es k => evs w p (types P) glob (callW n) blk es s0 k)); try done.
        -- apply List.Forall_forall. intros e Hin. rewrite forallb_forall in He1. apply (ordered_sound w pick p (types P) glob (callW n) (callA n) blk silent (Hglob p) IHa IHq s0 e C). by apply He1.
        -- apply (still_all w pick p (types P) glob (callW n) (callA n) blk silent (Hglob p) IHq s0 es C).
      * apply agree_refl.
      * apply agree_refl.
      * intros _ x1 x2 v q q' Hq. by apply agree_store.
      * intros t z q q' Hq. by apply agree_same.
      * intros o x1 x2 k k' K. by apply agree_binary.
    + done.
    + intros s' _. apply agree_refl.
    + intros vs. apply agree_refl.
    + intros s' _. apply agree_refl.
  - destruct (extern p f args) as [q|] eqn:Ex; [split; by eapply Hextern|]. destruct (declared (p_decls P) p f) as [[fn| | |]|] eqn:E; try (split; constructor).
    destruct (D p f fn E) as [Hc Hn]. unfold checkedFunction in Hc. cbn [fst snd] in Hc. rewrite Hn in Hc. 
    destruct (f_body fn) as [b|] eqn:Eb; rewrite S in Hc; [|discriminate Hc]. cbn [negb orb] in Hc. apply andb_prop in Hc as [Hc Hs]. apply andb_prop in Hc as [Hp _].
    rewrite apply_applyG. unfold applyG. destruct (bindParams p (types P) (f_params fn) args) as [s|] eqn:Ep; [|split; constructor]. apply bindParams_clean with (silent := silent) in Ep; [|done].
    unfold stsG. assert (G : forall vs, quiet (give p (types P) (f_results fn) vs)) by (intros vs; unfold give; destruct (bindResults _ _ _ _); constructor).
    eapply (good_seq w p (types P) n silent _ _ _ _ (fun x y => quiet x /\ quiet y)).
    + apply good_list with (E := still silent p) (Es := forallb (still silent p)) (stores := false); [|done]. apply List.Forall_forall. intros x _ Hx. revert Hx. apply stG_good.
      * intros e He. cbn in He. by apply andb_prop in He as [He _].
      * intros e s0 k k' He C K. split.
        -- apply (still_quiet w p (types P) glob (callW n) (callA n) blk silent (Hglob p) IHq s0 e C He). intros vs. apply K.
        -- apply quiet_bind; [|intros vs; apply K]. apply (still_sound w pick p (types P) glob (callW n) (callA n) blk silent (Hglob p) IHq s0 e C He).
      * intros es s0 k k' He C K. rewrite forallb_forall in He. split.
        -- apply (hush_ops w p (types P) glob (callW n) blk s0 (fun es k => evs w p (types P) glob (callW n) blk es s0 k)); try done; [|intros vs; apply K].
           apply List.Forall_forall. intros e Hin. apply (still_quiet w p (types P) glob (callW n) (callA n) blk silent (Hglob p) IHq s0 e C). by apply He.
        -- apply quiet_bind; [|intros vs; apply K]. apply quiet_operands. apply List.Forall_forall. intros e Hin. apply (still_sound w pick p (types P) glob (callW n) (callA n) blk silent (Hglob p) IHq s0 e C). by apply He.
      * split; constructor.
      * split; constructor.
      * discriminate.
      * intros t z q q' [Hq Hq']. unfold check_idx. destruct (_ && _); cbn [bind]; [done|split; constructor].
      * intros o x1 x2 k k' K. destruct (tame_binary w o x1 x2) as (_ & _ & T). split; apply T; intros v; apply K.
    + done.
    + intros s' _. split; apply G.
    + intros vs. split; apply G.
    + intros s' _. split; constructor.
Qed.
End calls.
