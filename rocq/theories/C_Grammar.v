(** * The syntax trees are those of the Go grammar: C62 *)
From Coq Require Import ZArith List String Ascii Bool Lia.
From Verif Require Import GoSyntax GoGrammar.
Import ListNotations.
Local Open Scope string_scope.
Local Open Scope list_scope.
Local Open Scope Z_scope.

(** ** Single steps of the parser *)
Lemma pbind_some {A B} (p : parser A) (f : A -> parser B) ts x : pbind p f ts = Some x -> exists a r, p ts = Some (a, r) /\ f a r = Some x.
Proof. unfold pbind. destruct (p ts) as [[a r]|]; [|discriminate]. intros H. exists a, r. auto. Qed.
Lemma ret_some {A} (a : A) ts b r : ret a ts = Some (b, r) -> b = a /\ r = ts.
Proof. unfold ret. intros H. injection H as <- <-. auto. Qed.
Lemma op_some s ts a r : op s ts = Some (a, r) -> ts = TOp s :: r.
Proof. unfold op. destruct ts as [|[| | |o] ts]; try discriminate. destruct (String.eqb_spec o s) as [->|]; [|discriminate]. intros H. injection H as _ ->. reflexivity. Qed.
Lemma kw_some s ts a r : kw s ts = Some (a, r) -> ts = TId s :: r.
Proof. unfold kw. destruct ts as [|[o| | |] ts]; try discriminate. destruct (String.eqb_spec o s) as [->|]; [|discriminate]. intros H. injection H as _ ->. reflexivity. Qed.
Lemma peekOp_some s ts b r : peekOp s ts = Some (b, r) -> r = ts /\ (if b then exists v, ts = TOp s :: v else forall v, ts <> TOp s :: v).
Proof.
  unfold peekOp. destruct ts as [|[| | |o] ts]; intros H; injection H as <- <-; (split; [reflexivity|]); try (intros v; discriminate).
  destruct (String.eqb_spec o s) as [->|N]; [eauto|]. intros v E. injection E. congruence.
Qed.
Lemma peekId_some s ts b r : peekId s ts = Some (b, r) -> r = ts /\ (if b then exists v, ts = TId s :: v else forall v, ts <> TId s :: v).
Proof.
  unfold peekId. destruct ts as [|[o| | |] ts]; intros H; injection H as <- <-; (split; [reflexivity|]); try (intros v; discriminate).
  destruct (String.eqb_spec o s) as [->|N]; [eauto|]. intros v E. injection E. congruence.
Qed.
Lemma ifOp_some {A} s (p q : parser A) ts x : ifOp s p q ts = Some x ->
  (exists r, ts = TOp s :: r /\ p r = Some x) \/ ((forall r, ts <> TOp s :: r) /\ q ts = Some x).
Proof.
  unfold ifOp. intros H. apply pbind_some in H. destruct H as ([|] & r & P & H); apply peekOp_some in P; destruct P as [-> P].
  - left. apply pbind_some in H. destruct H as (u & r & O & H). apply op_some in O. eauto.
  - right. auto.
Qed.
Lemma ifId_some {A} s (p q : parser A) ts x : ifId s p q ts = Some x ->
  (exists r, ts = TId s :: r /\ p r = Some x) \/ ((forall r, ts <> TId s :: r) /\ q ts = Some x).
Proof.
  unfold ifId. intros H. apply pbind_some in H. destruct H as ([|] & r & P & H); apply peekId_some in P; destruct P as [-> P].
  - left. apply pbind_some in H. destruct H as (u & r & O & H). apply kw_some in O. eauto.
  - right. auto.
Qed.
Lemma mem_In x l : mem x l = true <-> In x l.
Proof.
  unfold mem. rewrite existsb_exists. split; [intros (y & I & E); apply String.eqb_eq in E; subst; exact I|].
  intros I. exists x. split; [exact I|apply String.eqb_refl].
Qed.
Lemma ident_some ts x r : ident ts = Some (x, r) -> ts = TId x :: r /\ name x.
Proof.
  unfold ident. destruct ts as [|[o| | |] ts]; try discriminate. destruct (String.eqb_spec o "") as [E|E]; [discriminate|]. destruct (mem o keywords) eqn:M; [discriminate|].
  cbn. intros H. injection H as <- <-. split; [reflexivity|]. split; [exact E|]. intros I. assert (T : mem o keywords = true); [|congruence].
  apply mem_In. revert I. unfold reserved, keywords. cbn [In]. intuition auto 30.
Qed.
Lemma int_some ts z r : int ts = Some (z, r) -> ts = TInt z :: r.
Proof. unfold int. destruct ts as [|[| | |] ts]; try discriminate. intros H. injection H as <- <-. reflexivity. Qed.
Lemma pstring_some ts z r : pstring ts = Some (z, r) -> ts = TStr z :: r.
Proof. unfold pstring. destruct ts as [|[| | |] ts]; try discriminate. intros H. injection H as <- <-. reflexivity. Qed.
Lemma lift_some {A} (o : option A) ts a r : lift o ts = Some (a, r) -> o = Some a /\ r = ts.
Proof. destruct o; [|discriminate]. intros H. injection H as <- <-. auto. Qed.
Lemma notRange_some s ts a r : notRange s ts = Some (a, r) -> a = s /\ r = ts /\ match s with SRange _ _ _ | SRange2 _ _ _ _ => False | _ => True end.
Proof. destruct s; try discriminate; intros H; apply ret_some in H; tauto. Qed.
Lemma peekFields_some ts b r : peekFields ts = Some (b, r) -> r = ts.
Proof. intros H. injection H as _ <-. reflexivity. Qed.
Lemma peekEmpty_some ts b r : peekEmpty ts = Some (b, r) -> r = ts.
Proof. intros H. injection H as _ <-. reflexivity. Qed.
Lemma peekIdent_some ts b r : peekIdent ts = Some (b, r) -> r = ts.
Proof. unfold peekIdent. destruct ts as [|[| | |] ts]; intros H; injection H as _ <-; reflexivity. Qed.
Lemma peekType_some ts b r : peekType ts = Some (b, r) -> r = ts.
Proof.
  unfold peekType. intros H. apply pbind_some in H. destruct H as (x & r1 & P & H). apply peekOp_some in P. destruct P as [-> _].
  apply pbind_some in H. destruct H as (y & r2 & P & H). apply peekOp_some in P. destruct P as [-> _].
  apply pbind_some in H. destruct H as (z & r3 & P & H). apply peekId_some in P. destruct P as [-> _]. apply ret_some in H. tauto.
Qed.

(** What a parser [p] reads is in the relation [P]. *)
Definition sound {A} (p : parser A) (P : list token -> A -> Prop) : Prop := forall ts a r, p ts = Some (a, r) -> exists u, ts = u ++ r /\ P u a.

Ltac step H :=
  lazymatch type of H with
  | pbind _ _ _ = Some _ => let a := fresh "a" in let r := fresh "r" in let P := fresh "P" in apply pbind_some in H; destruct H as (a & r & P & H); step P; steps H
  | ifOp _ _ _ _ = Some _ => let N := fresh "N" in apply ifOp_some in H; destruct H as [(? & -> & H)|[N H]]; steps H
  | ifId _ _ _ _ = Some _ => let N := fresh "N" in apply ifId_some in H; destruct H as [(? & -> & H)|[N H]]; steps H
  | ret _ _ = Some (_, _) => apply ret_some in H; first [destruct H as [-> ->] | destruct H; subst]
  | fail _ = Some _ => discriminate H
  | op _ _ = Some (_, _) => apply op_some in H; subst
  | kw _ _ = Some (_, _) => apply kw_some in H; subst
  | ident _ = Some (_, _) => let M := fresh "M" in apply ident_some in H; destruct H as [H M]; subst
  | int _ = Some (_, _) => apply int_some in H; subst
  | pstring _ = Some (_, _) => apply pstring_some in H; subst
  | lift _ _ = Some (_, _) => apply lift_some in H; destruct H as [H ->]
  | notRange _ _ = Some (_, _) => let M := fresh "M" in apply notRange_some in H; destruct H as (-> & -> & M)
  | peekFields _ = Some (_, _) => apply peekFields_some in H; subst
  | peekEmpty _ = Some (_, _) => apply peekEmpty_some in H; subst
  | peekIdent _ = Some (_, _) => apply peekIdent_some in H; subst
  | peekType _ = Some (_, _) => apply peekType_some in H; subst
  | peekOp _ _ = Some (_, _) => let M := fresh "M" in apply peekOp_some in H; destruct H as [-> M]
  | peekId _ _ = Some (_, _) => let M := fresh "M" in apply peekId_some in H; destruct H as [-> M]
  | _ => idtac
  end
with steps H := cbv beta in H; step H.

(** ** Lists *)
Lemma items_sound {A} (p : parser A) P sep stop : sound p P -> forall n ts l r, items n sep stop p ts = Some (l, r) -> exists u, ts = u ++ TOp stop :: r /\ separated sep P u l.
Proof.
  intros Hp. induction n as [|n IH]; intros ts l r H; [discriminate|]. cbn [items] in H. steps H.
  - exists []. split; [reflexivity|constructor].
  - apply Hp in P0. destruct P0 as (u & -> & D). apply IH in P1. destruct P1 as (v & -> & V). exists (u ++ TOp sep :: v).
    split; [rewrite <- app_assoc; reflexivity|constructor; assumption].
  - apply Hp in P0. destruct P0 as (u & -> & D). exists u. split; [reflexivity|constructor; assumption].
Qed.

(** ** Types *)
Definition group (w : list token) (g : list string * ty) : Prop := exists v, w = name_list (fst g) ++ v /\ names (fst g) /\ derives Type_ v (snd g).
Definition distribute (gs : list (list string * ty)) : list (string * ty) := flat_map (fun g => map (fun x => (x, snd g)) (fst g)) gs.
Definition listed (u : list token) (l : list (string * ty)) : Prop :=
  (l = [] /\ u = []) \/
  (l <> [] /\ (forall q, In q l -> fst q = "") /\ separated "," (derives Type_) u (map snd l)) \/
  (l <> [] /\ (forall q, In q l -> fst q <> "") /\ exists gs, separated "," group u gs /\ l = distribute gs).
Lemma listed_params u l : listed u l -> derives Parameters (TOp "(" :: u ++ [TOp ")"]) l.
Proof.
  intros [[-> ->]|[(_ & N & S)|(_ & _ & gs & S & ->)]].
  - apply (d_unnamed [] []). constructor.
  - replace l with (map (pair "") (map snd l)); [constructor; exact S|]. rewrite map_map. rewrite <- (map_id l) at 2. apply map_ext_in.
    intros [x t] I. apply N in I. cbn in *. congruence.
  - constructor. exact S.
Qed.
Definition one (u : list token) (p : string + string * ty) : Prop :=
  match p with
  | inl x => u = [TId x] /\ name x
  | inr (x, t) => (x = "" /\ derives Type_ u t) \/ (name x /\ exists v, u = TId x :: v /\ derives Type_ v t)
  end.
Lemma group_one x v t : name x -> derives Type_ v t -> group (TId x :: v) ([x], t).
Proof. intros N D. exists v. split; [reflexivity|]. split; [|exact D]. split; [discriminate|]. intros y [<-|[]]. exact N. Qed.
Lemma group_more x v xs t : name x -> group v (xs, t) -> group (TId x :: TOp "," :: v) (x :: xs, t).
Proof.
  intros N (w & -> & (N1 & N2) & D). exists w. cbn [fst snd] in *. destruct xs as [|y xs]; [contradiction|]. split; [reflexivity|]. split; [|exact D].
  split; [discriminate|]. intros z [<-|I]; auto.
Qed.
Lemma listed_nil u : listed u [] -> u = [].
Proof. intros [[_ E]|[[E _]|[E _]]]; [exact E|contradiction|contradiction]. Qed.
Lemma listed_end u p : one u p -> listed u (match p with inr q => [q] | inl x => [("", TyName x)] end).
Proof.
  destruct p as [x|[x t]].
  - intros [-> N]. right; left. split; [discriminate|]. split; [intros q [<-|[]]; reflexivity|]. apply sep_one, d_typename, d_name, N.
  - intros [[-> D]|(N & v & -> & D)].
    + right; left. split; [discriminate|]. split; [intros q [<-|[]]; reflexivity|]. apply sep_one, D.
    + right; right. split; [discriminate|]. split; [intros q [<-|[]]; exact (proj1 N)|]. exists [([x], t)]. split; [|reflexivity]. apply sep_one, group_one; assumption.
Qed.
Lemma listed_comma u p : one u p -> listed (u ++ [TOp ","]) (match p with inr q => [q] | inl x => [("", TyName x)] end).
Proof.
  destruct p as [x|[x t]].
  - intros [-> N]. right; left. split; [discriminate|]. split; [intros q [<-|[]]; reflexivity|]. apply sep_cons; [apply d_typename, d_name, N|constructor].
  - intros [[-> D]|(N & v & -> & D)].
    + right; left. split; [discriminate|]. split; [intros q [<-|[]]; reflexivity|]. apply sep_cons; [exact D|constructor].
    + right; right. split; [discriminate|]. split; [intros q [<-|[]]; exact (proj1 N)|]. exists [([x], t)]. split; [|reflexivity].
      apply (sep_cons _ _ (TId x :: v)); [apply group_one; assumption|constructor].
Qed.
Lemma listed_cons u p v y t l : one u p -> listed v ((y, t) :: l) ->
  match p with
  | inl x => if String.eqb y "" then listed (u ++ TOp "," :: v) (("", TyName x) :: (y, t) :: l) else listed (u ++ TOp "," :: v) ((x, t) :: (y, t) :: l)
  | inr q => Bool.eqb (String.eqb (fst q) "") (String.eqb y "") = true -> listed (u ++ TOp "," :: v) (q :: (y, t) :: l)
  end.
Proof.
  intros O L. destruct L as [[L _]|[(_ & L & S)|(_ & L & gs & S & E)]]; [discriminate| |].
  - assert (Y : y = "") by (apply (L (y, t)); left; reflexivity). subst y.
    destruct p as [x|[x t']]; cbn [String.eqb fst].
    + destruct O as [-> N]. right; left. split; [discriminate|]. split; [intros q [<-|I]; [reflexivity|auto]|].
      apply sep_cons; [apply d_typename, d_name, N|exact S].
    + destruct (String.eqb_spec x "") as [->|X]; [|discriminate]. intros _. destruct O as [[_ D]|[[N _] _]]; [|contradiction].
      right; left. split; [discriminate|]. split; [intros q [<-|I]; [reflexivity|auto]|]. apply sep_cons; assumption.
  - assert (Y : y <> "") by (apply (L (y, t)); left; reflexivity). destruct (String.eqb_spec y "") as [|_]; [contradiction|].
    destruct p as [x|[x t']]; cbn [fst].
    + destruct O as [-> N]. right; right. split; [discriminate|]. split; [intros q [<-|I]; [exact (proj1 N)|auto]|].
      inversion S as [|w g G|w g w' gs' G S']; subst; [discriminate E| |].
      * destruct g as [xs s]. exists [(x :: xs, s)]. split; [apply sep_one, group_more; assumption|]. destruct G as (? & ? & (N1 & _) & _).
        cbn [fst snd] in *. destruct xs as [|y' xs]; [contradiction|]. unfold distribute in *. cbn in *. injection E as -> -> ->. reflexivity.
      * destruct g as [xs s]. exists ((x :: xs, s) :: gs'). split; [apply (sep_cons _ _ (TId x :: TOp "," :: w)); [apply group_more; assumption|assumption]|].
        destruct G as (? & ? & (N1 & _) & _). cbn [fst snd] in *. destruct xs as [|y' xs]; [contradiction|]. unfold distribute in *. cbn in *. injection E as -> -> ->. reflexivity.
    + destruct (String.eqb_spec x "") as [->|X]; [discriminate|]. intros _. destruct O as [[? _]|(N & w & -> & D)]; [contradiction|].
      right; right. split; [discriminate|]. split; [intros q [<-|I]; [exact X|auto]|]. exists (([x], t') :: gs).
      split; [apply (sep_cons _ _ (TId x :: w)); [apply group_one; assumption|assumption]|]. unfold distribute in *. cbn. congruence.
Qed.
Lemma tname_sound : sound tname (derives TypeName).
Proof.
  intros ts a r H. unfold tname in H. steps H.
  - eexists [_; _; _]. split; [reflexivity|]. constructor; assumption.
  - eexists [_]. split; [reflexivity|]. constructor; assumption.
Qed.
(** Use the soundness [I] of a part on the part that was read first. *)
Ltac take I u D := match goal with H : _ = Some (_, _) |- _ => apply I in H; destruct H as (u & -> & D) end.
Lemma types_sound : forall n,
  sound (typ n) (derives Type_) /\
  (forall ts l r, params n ts = Some (l, r) -> exists u, ts = u ++ TOp ")" :: r /\ listed u l) /\
  sound (param n) one /\ sound (results n) (derives Result).
Proof.
  induction n as [|n (It & Ips & Ip & Ir)]; [split; [|split; [|split]]; discriminate|]. split; [|split; [|split]].
  - intros ts a r H. cbn [typ] in H. steps H.
    + take It u D. eexists (_ :: u). split; [reflexivity|]. constructor; assumption.
    + take It u D. eexists (_ :: _ :: u). split; [reflexivity|]. constructor; assumption.
    + take It u D. eexists (_ :: _ :: _ :: u). split; [reflexivity|]. constructor; assumption.
    + take Ips u L. take Ir v D. apply listed_params in L.
      exists (TId "func" :: (TOp "(" :: u ++ [TOp ")"]) ++ v). split; [cbn; rewrite <- !app_assoc; reflexivity|]. constructor; assumption.
    + exists [TId "interface"; TOp "{"; TOp "}"]. split; [reflexivity|]. apply d_interface.
    + apply tname_sound in H. destruct H as (u & -> & D). exists u. split; [reflexivity|]. apply d_typename, D.
  - intros ts l r H. cbn [params] in H. steps H.
    + exists []. split; [reflexivity|]. left. auto.
    + take Ip u Q. take Ips v L. destruct a as [x|q], a0 as [|[y t] l'].
      * steps H. apply listed_nil in L. subst v. exists (u ++ [TOp ","]). split; [rewrite <- app_assoc; reflexivity|]. exact (listed_comma u (inl x) Q).
      * pose proof (listed_cons _ _ _ _ _ _ Q L) as L'. cbv iota in L'. destruct (String.eqb y ""); steps H; eexists; (split; [|exact L']); rewrite <- app_assoc; reflexivity.
      * steps H. apply listed_nil in L. subst v. exists (u ++ [TOp ","]). split; [rewrite <- app_assoc; reflexivity|]. exact (listed_comma u (inr q) Q).
      * pose proof (listed_cons _ _ _ _ _ _ Q L) as L'. cbv iota in L'. destruct (Bool.eqb _ _) eqn:B; [|discriminate H]. specialize (L' eq_refl).
        steps H. eexists; (split; [|exact L']); rewrite <- app_assoc; reflexivity.
    + take Ip u Q. exists u. apply listed_end in Q. destruct a; steps H; auto.
  - intros ts p r H. cbn [param] in H. steps H. destruct a; steps H.
    + take It u D. exists u. split; [reflexivity|]. left. auto.
    + match type of H with (if ?c then _ else _) _ = _ => destruct c end; steps H.
      * eexists [_]. split; [reflexivity|]. split; [reflexivity|assumption].
      * eexists [_; _; _]. split; [reflexivity|]. left. split; [reflexivity|]. apply d_typename, d_qual; assumption.
      * take It u D. eexists (_ :: u). split; [reflexivity|]. right. split; [assumption|]. eauto.
  - intros ts l r H. cbn [results] in H. steps H.
    + apply Ips in H. destruct H as (u & -> & L). apply listed_params in L. eexists. split; [|apply d_results, L]. cbn. rewrite <- app_assoc. reflexivity.
    + destruct (a || a0); steps H.
      * take It u D. exists u. split; [reflexivity|]. apply d_result, D.
      * exists []. split; [reflexivity|]. apply d_noresult.
Qed.

(** ** Expressions and statements *)
Lemma typ_bracket n r t r' : typ n (TOp "[" :: r) = Some (t, r') -> match t with TySlice _ | TyArray _ _ => True | _ => False end.
Proof.
  destruct n as [|n]; [discriminate|]. cbn [typ]. intros H. remember (TOp "[" :: r) as ts eqn:E. steps H; try exact I; try discriminate E.
  all: exfalso; match goal with N : forall r, _ <> TOp "[" :: _ |- _ => eapply N; exact E end.
Qed.
Lemma precedence_op o : 0 < precedence o -> exists k, precedence o = Z.of_nat k /\ (1 <= k <= 5)%nat /\ binary_op k o.
Proof.
  unfold precedence. destruct (mem o _) eqn:A; [intros _; exists 5%nat; split; [reflexivity|]; split; [lia|]; apply mem_In; exact A|].
  destruct (mem o ["+"; _; _; _]) eqn:B; [intros _; exists 4%nat; split; [reflexivity|]; split; [lia|]; apply mem_In; exact B|].
  destruct (mem o ["=="; _; _; _; _; _]) eqn:C; [intros _; exists 3%nat; split; [reflexivity|]; split; [lia|]; apply mem_In; exact C|].
  destruct (String.eqb_spec o "&&") as [->|]; [intros _; exists 2%nat; split; [reflexivity|]; split; [lia|]; reflexivity|].
  destruct (String.eqb_spec o "||") as [->|]; [intros _; exists 1%nat; split; [reflexivity|]; split; [lia|]; reflexivity|]. lia.
Qed.
Lemma assignOp_some o b : assignOp o = Some b -> o = (b ++ "=")%string /\ assign_op b.
Proof.
  unfold assignOp. repeat match goal with |- context [String.eqb o ?s] => destruct (String.eqb_spec o s) as [->|] end; intros H; try discriminate; injection H as <-;
  (split; [reflexivity|]); unfold assign_op, binary_op; cbn [In]; auto 20.
Qed.
Lemma defines_some ts : forall xs r, defines ts = Some (xs, r) -> ts = name_list xs ++ TOp ":=" :: r /\ names xs.
Proof.
  induction ts as [ts IH] using (well_founded_induction (Wf_nat.well_founded_ltof _ (@List.length token))). intros xs r H.
  destruct ts as [|[x| | |] [|[| | |o] ts]]; try discriminate H. cbn [defines] in H.
  destruct (String.eqb x "" || mem x keywords) eqn:K; [discriminate|].
  assert (N : name x) by (apply (ident_some (TId x :: ts) x ts); unfold ident; rewrite K; reflexivity).
  destruct (String.eqb_spec o ":=") as [->|].
  - injection H as <- <-. split; [reflexivity|]. split; [discriminate|]. intros y [<-|[]]. exact N.
  - destruct (String.eqb_spec o ",") as [->|]; [|discriminate]. destruct (defines ts) as [[ys s]|] eqn:D; [|discriminate]. injection H as <- <-. cbn [fst snd].
    apply IH in D; [|unfold Wf_nat.ltof; cbn; lia]. destruct D as [-> [Y1 Y2]]. destruct ys as [|y ys]; [contradiction|]. split; [reflexivity|].
    split; [discriminate|]. intros z [<-|I]; auto.
Qed.

Definition stops (prec : Z) (r : list token) : Prop := forall o r', r = TOp o :: r' -> precedence o <= prec.
Lemma up j k u e : (k <= j)%nat -> (j <= 7)%nat -> derives (Expr j) u e -> derives (Expr k) u e.
Proof. intros K J. induction K as [|j K IH]; [auto|]. intros D. apply IH; [lia|]. apply d_up; [lia|exact D]. Qed.
Definition argument (u : list token) (e : expr) : Prop :=
  derives Expression u e \/ exists v a, u = v ++ [TOp "..."] /\ e = EUn "..." a /\ derives Expression v a.
Definition exprlist (u : list token) (l : list expr) : Prop := derives ExprList u l /\ l <> [] /\ match l with [e] => derives Expression u e | _ => True end.
Definition simple (u : list token) (s : stmt) : Prop :=
  match s with
  | SRange x e _ => name x /\ exists v, u = TId x :: TOp ":=" :: TId "range" :: v /\ derives Expression v e
  | SRange2 i x e _ => name i /\ name x /\ exists v, u = TId i :: TOp "," :: TId x :: TOp ":=" :: TId "range" :: v /\ derives Expression v e
  | SExpr e => derives Expression u e
  | _ => derives Simple u s
  end.
Lemma simple_derives u s : simple u s -> match s with SRange _ _ _ | SRange2 _ _ _ _ => False | _ => True end -> derives Simple u s.
Proof. destruct s; intros H N; try contradiction; try exact H. apply d_exprstmt, H. Qed.
Lemma spread_args : forall u es, separated "," argument u es -> spreadLast es = true -> derives Arguments u es.
Proof.
  intros u es S. induction S as [|u e [D|(v & a & -> & -> & D)]|u e v l D S IH]; intros L.
  - apply d_noargs.
  - apply d_arg, D.
  - apply d_spread, D.
  - destruct l as [|f l].
    + inversion S; subst. destruct D as [D|(w & a & -> & -> & D)].
      * apply d_args; [exact D|apply d_noargs].
      * rewrite <- app_assoc. apply d_spread_comma, D.
    + cbn in L. apply andb_prop in L. destruct L as [L1 L2]. destruct D as [D|(w & a & -> & -> & D)]; [|discriminate]. apply d_args; auto.
Qed.

Record all_sound (n : nat) : Prop := {
  s_expr : forall prec ts e r, 0 <= prec <= 5 -> pexpr n prec ts = Some (e, r) ->
    exists u, ts = u ++ r /\ derives (Expr (S (Z.to_nat prec))) u e /\ stops prec r;
  s_binary : forall prec a j w ts e r, 0 <= prec < Z.of_nat j -> (j <= 6)%nat -> derives (Expr j) w a -> stops (Z.of_nat j) ts -> pbinary n prec a ts = Some (e, r) ->
    exists u, ts = u ++ r /\ derives (Expr (S (Z.to_nat prec))) (w ++ u) e /\ stops prec r;
  s_unary : sound (punary n) (derives (Expr 6));
  s_operand : sound (poperand n) (derives (Expr 7));
  s_primary : forall a w ts e r, derives (Expr 7) w a -> pprimary n a ts = Some (e, r) -> exists u, ts = u ++ r /\ derives (Expr 7) (w ++ u) e;
  s_elem : sound (pelem n) (derives Elem);
  s_field : sound (pfield n) (derives Field);
  s_arg : sound (parg n) argument;
  s_block : forall ts b r, pblock n ts = Some (b, r) -> exists u, ts = u ++ TOp "}" :: r /\ derives (Stmts false) u b;
  s_stmt : sound (pstmt n) (derives Stmt);
  s_for : sound (pfor n) (fun u l => derives Stmt (TId "for" :: u) l);
  s_if : sound (pif n) (fun u s => derives If (TId "if" :: u) s);
  s_then : forall c w ts s r, derives Expression w c -> pthen n c ts = Some (s, r) -> exists u, ts = u ++ r /\ derives IfRest (w ++ u) s;
  s_cases : forall ts cs r, pcases n ts = Some (cs, r) -> exists u, ts = u ++ TOp "}" :: r /\ derives Clauses u cs;
  s_clause : forall ts b r, pclause n ts = Some (b, r) -> exists u, ts = u ++ r /\ (derives (Stmts true) u b \/ derives (Stmts false) u b /\ exists v, r = TOp "}" :: v);
  s_var : sound (pvar n) (fun u s => derives VarSpec u s /\ exists x t e, s = SVar x t e);
  s_exprs : sound (pexprs n) exprlist;
  s_simple : sound (psimple n) simple }.

Lemma expression n : all_sound n -> sound (pexpr n 0) (derives Expression).
Proof. intros A ts e r H. apply (s_expr n A) in H; [|lia]. destruct H as (u & -> & D & _). eauto. Qed.
(** Both sides are lists of tokens put together in the same order. *)
Ltac tokens := cbn [app]; repeat (rewrite <- app_assoc; cbn [app]); reflexivity.
Ltac by_rule R := eexists; split; [|eapply R; try eassumption]; [tokens|..].
Lemma sound_expr n : all_sound n -> forall prec ts e r, 0 <= prec <= 5 -> pexpr (S n) prec ts = Some (e, r) ->
    exists u, ts = u ++ r /\ derives (Expr (S (Z.to_nat prec))) u e /\ stops prec r.
Proof.
  intros A prec ts e r Hp H. cbn [pexpr] in H. steps H. take (s_unary n A) u D.
  assert (St : stops (Z.of_nat 6) r0).
  { intros o r' _. unfold precedence. repeat match goal with |- context [if ?c then _ else _] => destruct c end; lia. }
  apply (s_binary n A prec a 6 u) in H; [|lia|lia|exact D|exact St]. destruct H as (v & -> & D' & S'). exists (u ++ v). rewrite app_assoc. auto.
Qed.
Lemma sound_binary n : all_sound n -> forall prec a j w ts e r, 0 <= prec < Z.of_nat j -> (j <= 6)%nat -> derives (Expr j) w a -> stops (Z.of_nat j) ts -> pbinary (S n) prec a ts = Some (e, r) ->
    exists u, ts = u ++ r /\ derives (Expr (S (Z.to_nat prec))) (w ++ u) e /\ stops prec r.
Proof.
  intros A prec a j w ts e r Hp Hj D St H. cbn [pbinary] in H.
  assert (Stop : Some (a, ts) = Some (e, r) -> stops prec ts -> exists u, ts = u ++ r /\ derives (Expr (S (Z.to_nat prec))) (w ++ u) e /\ stops prec r).
  { intros E S'. injection E as <- <-. exists []. split; [reflexivity|]. rewrite app_nil_r. split; [|exact S']. eapply up; [| |exact D]; lia. }
  destruct ts as [|[| | |o] ts]; try (apply Stop; [exact H|]; intros o' r'; discriminate).
  destruct (Z.ltb_spec prec (precedence o)) as [L|L].
  - destruct (precedence_op o ltac:(lia)) as (k & Ek & Hk & B). steps H. specialize (St o ts eq_refl).
    apply (s_expr n A) in P; [|lia]. destruct P as (u & -> & Du & Su).
    rewrite Ek, Nat2Z.id in Du. rewrite Ek in Su.
    apply (s_binary n A prec (EBin o a a0) k (w ++ TOp o :: u)) in H; [|lia|lia| |exact Su].
    + destruct H as (v & -> & Dv & Sv). exists (TOp o :: u ++ v). split; [tokens|]. split; [|exact Sv]. rewrite <- app_assoc in Dv. exact Dv.
    + apply d_binary; [exact B| |exact Du]. eapply up; [| |exact D]; lia.
  - apply Stop; [exact H|]. intros o' r' E. injection E as <- <-. lia.
Qed.
Lemma sound_unary n : all_sound n -> sound (punary (S n)) (derives (Expr 6)).
Proof.
  intros A ts e r H. cbn [punary] in H. steps H.
  - take (s_unary n A) u D. by_rule d_unary. cbn. auto.
  - take (s_unary n A) u D. by_rule d_unary. cbn. auto.
  - destruct a; steps H.
    + take tname_sound u D. exists (TOp "&" :: u ++ TOp "{" :: [] ++ [TOp "}"]). split; [tokens|]. apply d_unary; [cbn; auto 10|]. apply d_up; [lia|]. apply d_struct; [exact D|constructor].
    + take (s_unary n A) u D. by_rule d_unary. cbn. auto 10.
  - take (s_unary n A) u D. by_rule d_unary. cbn. auto 10.
  - take (s_operand n A) u D. apply (s_primary n A a u) in H; [|exact D]. destruct H as (v & -> & D'). exists (u ++ v). split; [tokens|]. apply d_up; [lia|exact D'].
Qed.
Lemma block n : all_sound n -> forall ts b r, pblock n ts = Some (b, r) -> exists u, ts = u ++ r /\ derives Block (TOp "{" :: u) b.
Proof. intros A ts b r H. apply (s_block n A) in H. destruct H as (u & -> & D). exists (u ++ [TOp "}"]). split; [tokens|]. apply d_block, D. Qed.
Lemma sound_operand n : all_sound n -> sound (poperand (S n)) (derives (Expr 7)).
Proof.
  intros A ts e r H. cbn [poperand] in H. destruct (types_sound n) as (It & Ips & _ & Ir).
  assert (K : (exists z, ts = TInt z :: r /\ e = EInt z) \/ (exists s, ts = TStr s :: r /\ e = EStr s) \/
    (ifOp "(" (get a <- pexpr n 0; op ")" >> ret a)
      (get b <- peekOp "["; if b then get t <- typ n; ifOp "(" (get e <- pexpr n 0; op ")" >> match t with TySlice (TyName x) => ret (ECall (EId ("[]" ++ x)) [e]) | _ => fail end)
        (op "{" >> get es <- items n "," "}" (pelem n); ret (ELit (Some t) es)) else
      ifId "func" (op "(" >> get ps <- params n; get rs <- results n; op "{" >> get b <- pblock n; ret (EFunc ps (map snd rs) b))
      (ifId "make" (op "(" >> get t <- typ n; op "," >> get e <- pexpr n 0; op ")" >> ret (EMake t e))
      (get b <- peekFields;
       if b then get t <- tname; op "{" >> get fs <- items n "," "}" (pfield n); ret (EStruct t fs)
       else get x <- ident; ret (EId x))))) ts = Some (e, r)).
  { destruct ts as [|[x|z|x|o] ts]; [right; right; exact H|right; right; exact H|left|right; left|right; right; exact H]; injection H as <- <-; eauto. }
  clear H. destruct K as [(z & -> & ->)|[(s & -> & ->)|H]].
  { exists [TInt z]. split; [reflexivity|]. apply d_int. } { exists [TStr s]. split; [reflexivity|]. apply d_string. }
  steps H.
  - take (expression n A) u D. by_rule d_paren.
  - destruct a; steps H.
    + destruct M as [v ->]. pose proof (typ_bracket _ _ _ _ P) as T. apply It in P. destruct P as (u & E & D). rewrite E. take (expression n A) w D'.
      destruct a as [|?|[x| | | | |]| | |]; steps H. by_rule d_convert.
    + destruct M as [v ->]. pose proof (typ_bracket _ _ _ _ P) as T. apply It in P. destruct P as (u & E & D). rewrite E.
      take (items_sound (pelem n) _ "," "}" (s_elem n A) n) w D'. by_rule d_literal.
    + take Ips u L. take Ir v D. take (block n A) w D'. apply listed_params in L. exists (TId "func" :: (TOp "(" :: u ++ [TOp ")"]) ++ v ++ TOp "{" :: w). split; [tokens|]. apply d_func; assumption.
    + take It u D. take (expression n A) v D'. by_rule d_make.
    + destruct a; steps H.
      * take tname_sound u D. take (items_sound (pfield n) _ "," "}" (s_field n A) n) w D'. by_rule d_struct.
      * eexists [_]. split; [reflexivity|]. apply d_operand; [assumption|]. intros ->. match goal with N : forall r, _ <> TId "make" :: r |- _ => eapply N; reflexivity end.
Qed.
Lemma sound_primary n : all_sound n -> forall a w ts e r, derives (Expr 7) w a -> pprimary (S n) a ts = Some (e, r) -> exists u, ts = u ++ r /\ derives (Expr 7) (w ++ u) e.
Proof.
  intros A a w ts e r D H. cbn [pprimary] in H.
  assert (Go : forall v b ts, derives (Expr 7) (w ++ v) b -> pprimary n b ts = Some (e, r) -> exists u, v ++ ts = u ++ r /\ derives (Expr 7) (w ++ u) e).
  { intros v b ts' D' H'. apply (s_primary n A b (w ++ v)) in H'; [|exact D']. destruct H' as (u & -> & D2). exists (v ++ u). split; [tokens|]. rewrite app_assoc. exact D2. }
  pose proof (expression n A) as Ie. steps H.
  - apply (Go [TOp "."; TId a0]) in H; [exact H|]. apply d_select; assumption.
  - take (items_sound (parg n) _ "," ")" (s_arg n A) n) u Q. destruct (spreadLast a0) eqn:L; [|discriminate H].
    apply (Go (TOp "(" :: u ++ [TOp ")"])) in H; [|apply d_call; [exact D|apply spread_args; assumption]].
    destruct H as (v & E & D'). exists v. split; [rewrite <- E; tokens|exact D'].
  - apply (Go [TOp "["; TOp ":"; TOp "]"]) in H; [exact H|]. apply (d_slice w a [] None [] None); [exact D|apply d_nobound|apply d_nobound].
  - take Ie u D'. apply (Go (TOp "[" :: TOp ":" :: u ++ [TOp "]"])) in H; [|apply (d_slice w a [] None u (Some a0)); [exact D|apply d_nobound|apply d_bound, D']].
    destruct H as (v & E & D2). exists v. split; [rewrite <- E; tokens|exact D2].
  - take Ie u D'. apply (Go (TOp "[" :: u ++ TOp ":" :: [TOp "]"])) in H; [|apply (d_slice w a u (Some a0) [] None); [exact D|apply d_bound, D'|apply d_nobound]].
    destruct H as (v & E & D2). exists v. split; [rewrite <- E; tokens|exact D2].
  - apply Ie in P. destruct P as (u & -> & D1). take Ie v D2.
    apply (Go (TOp "[" :: u ++ TOp ":" :: v ++ [TOp "]"])) in H; [|apply (d_slice w a u (Some a0) v (Some _)); [exact D|apply d_bound, D1|apply d_bound, D2]].
    destruct H as (z & E & D3). exists z. split; [rewrite <- E; tokens|exact D3].
  - take Ie u D'. apply (Go (TOp "[" :: u ++ [TOp "]"])) in H; [|apply d_index; assumption].
    destruct H as (v & E & D2). exists v. split; [rewrite <- E; tokens|exact D2].
  - exists []. rewrite app_nil_r. auto.
Qed.
Lemma sound_elem n : all_sound n -> sound (pelem (S n)) (derives Elem).
Proof.
  intros A ts e r H. cbn [pelem] in H. steps H.
  - take (items_sound (pelem n) _ "," "}" (s_elem n A) n) u Q. by_rule d_elems.
  - apply (expression n A) in H. destruct H as (u & -> & D). exists u. split; [reflexivity|]. apply d_elem, D.
Qed.
Lemma sound_field n : all_sound n -> sound (pfield (S n)) (derives Field).
Proof. intros A ts e r H. cbn [pfield] in H. steps H. take (expression n A) u D. by_rule d_field. Qed.
Lemma sound_arg n : all_sound n -> sound (parg (S n)) argument.
Proof.
  intros A ts e r H. cbn [parg] in H. steps H; take (expression n A) u D.
  - exists (u ++ [TOp "..."]). split; [tokens|]. right. eauto.
  - exists u. split; [reflexivity|]. left. exact D.
Qed.
Lemma exprs n : all_sound n -> sound (pexprs n) (derives ExprList).
Proof. intros A ts e r H. apply (s_exprs n A) in H. destruct H as (u & -> & D & _). eauto. Qed.
Lemma sound_exprs n : all_sound n -> sound (pexprs (S n)) exprlist.
Proof.
  intros A ts e r H. cbn [pexprs] in H. steps H.
  - take (expression n A) u D. take (s_exprs n A) v D'. destruct D' as (D' & N & _). eexists. split; [|split; [apply d_exprs; eassumption|]]; [tokens|].
    split; [discriminate|]. match type of N with ?l <> [] => destruct l end; [contradiction|exact I].
  - take (expression n A) u D. exists u. split; [reflexivity|]. split; [apply d_expr, D|]. split; [discriminate|exact D].
Qed.
Lemma sound_var n : all_sound n -> sound (pvar (S n)) (fun u s => derives VarSpec u s /\ exists x t e, s = SVar x t e).
Proof.
  intros A ts e r H. cbn [pvar] in H. destruct (types_sound n) as (It & _). steps H.
  - take (expression n A) u D. eexists. split; [|split; [apply d_varinit; eassumption|eauto]]. tokens.
  - take It u D. take (expression n A) v D'. eexists. split; [|split; [apply d_vartypeinit; eassumption|eauto]]. tokens.
  - take It u D. eexists. split; [|split; [apply d_vartype; eassumption|eauto]]. tokens.
Qed.
Lemma sound_block n : all_sound n -> forall ts b r, pblock (S n) ts = Some (b, r) -> exists u, ts = u ++ TOp "}" :: r /\ derives (Stmts false) u b.
Proof.
  intros A ts b r H. cbn [pblock] in H. steps H.
  - exists []. split; [reflexivity|]. apply d_nostmt.
  - apply (s_block n A) in H. destruct H as (u & -> & D). exists (TOp ";" :: u). split; [reflexivity|]. apply d_empty, D.
  - take (s_stmt n A) u D. exists u. split; [reflexivity|]. apply d_last, D.
  - take (s_stmt n A) u D. take (s_block n A) v D'. exists (u ++ TOp ";" :: v). split; [tokens|]. apply d_stmts; assumption.
Qed.
Lemma sound_stmt n : all_sound n -> sound (pstmt (S n)) (derives Stmt).
Proof.
  intros A ts l r H. cbn [pstmt] in H. steps H.
  - destruct a; steps H.
    + exists [TId "return"]. split; [reflexivity|]. apply d_return.
    + take (exprs n A) u D. by_rule d_returns.
  - exists [TId "fallthrough"]. split; [reflexivity|]. apply d_fallthrough.
  - take (expression n A) u D. by_rule d_defer.
  - apply (items_sound (pvar n) (derives VarSpec)) in H.
    + destruct H as (u & -> & S). by_rule d_vars.
    + intros ts' s r' H'. apply (s_var n A) in H'. destruct H' as (u & -> & D & _). eauto.
  - take (s_var n A) u D. destruct D as [D _]. by_rule d_var.
  - take (block n A) u D. exists (TOp "{" :: u). split; [reflexivity|]. apply d_inner, D.
  - take (s_if n A) u D. eexists. split; [|apply d_ifstmt, D]. tokens.
  - apply (s_for n A) in H. destruct H as (u & -> & D). eexists. split; [|exact D]. tokens.
  - take (expression n A) u D. take (s_cases n A) v D'. by_rule d_switch.
  - take (s_simple n A) u D. exists u. split; [reflexivity|]. apply d_simple, simple_derives; assumption.
Qed.
Lemma sound_for n : all_sound n -> sound (pfor (S n)) (fun u l => derives Stmt (TId "for" :: u) l).
Proof.
  intros A ts l r H. cbn [pfor] in H. steps H.
  - take (block n A) u D. eexists. split; [|apply d_loop, D]. tokens.
  - take (expression n A) u D. take (s_simple n A) v D'. take (block n A) w D2. eexists. split; [|apply d_for0; [exact D|apply simple_derives; eassumption|exact D2]]. tokens.
  - apply (s_simple n A) in P. destruct P as (u & -> & D).
    assert (R : match a with SRange _ _ _ | SRange2 _ _ _ _ => False | _ => True end -> ifOp ";" (get c <- pexpr n 0; op ";" >> get p <- psimple n; notRange p >> op "{" >> get b <- pblock n; ret [SBlock [a; SFor (Some c) [p] b]])
         (match a with SExpr c => op "{" >> get b <- pblock n; ret [SFor (Some c) [] b] | _ => fail end) r0 = Some (l, r) -> exists v, u ++ r0 = v ++ r /\ derives Stmt (TId "for" :: v) l).
    { intros N' K. steps K.
      - take (expression n A) v D'. take (s_simple n A) w D2. take (block n A) z D3. eexists. split; [|apply d_for; [apply simple_derives; eassumption|eassumption|apply simple_derives; eassumption|eassumption]]. tokens.
      - destruct a; steps K. take (block n A) v D'. cbn [simple] in D. eexists. split; [|apply d_while; eassumption]. tokens. }
    destruct a; try (apply R; [exact I|exact H]).
    + steps H. take (block n A) v D'. destruct D as (X & w & -> & D). eexists. split; [|apply d_range; eassumption]. tokens.
    + steps H. take (block n A) v D'. destruct D as (X & Y & w & -> & D). eexists. split; [|apply d_range2; eassumption]. tokens.
Qed.
Lemma sound_if n : all_sound n -> sound (pif (S n)) (fun u s => derives If (TId "if" :: u) s).
Proof.
  intros A ts s r H. cbn [pif] in H. steps H.
  - take (s_simple n A) u D. take (expression n A) v D'. match goal with K : pthen _ _ _ = _ |- _ => apply (s_then n A _ v) in K; [|exact D']; destruct K as (w & -> & D2) end.
    eexists. split; [|apply d_ifinit; [apply simple_derives; eassumption|exact D2]]. tokens.
  - take (s_simple n A) u D. destruct a; try discriminate H. cbn [simple] in D. apply (s_then n A _ u) in H; [|exact D]. destruct H as (v & -> & D').
    eexists. split; [|apply d_if, D']. tokens.
Qed.
Lemma sound_then n : all_sound n -> forall c w ts s r, derives Expression w c -> pthen (S n) c ts = Some (s, r) -> exists u, ts = u ++ r /\ derives IfRest (w ++ u) s.
Proof.
  intros A c w ts s r D H. cbn [pthen] in H. steps H.
  - take (block n A) u D'. take (s_if n A) v D2. exists ((TOp "{" :: u) ++ TId "else" :: TId "if" :: v). split; [tokens|]. apply d_elseif; assumption.
  - apply (block n A) in P0. destruct P0 as (u & -> & D'). take (block n A) v D2. exists ((TOp "{" :: v) ++ TId "else" :: TOp "{" :: u). split; [tokens|]. apply d_else; assumption.
  - take (block n A) u D'. exists (TOp "{" :: u). split; [tokens|]. apply d_then; assumption.
Qed.
Lemma sound_cases n : all_sound n -> forall ts cs r, pcases (S n) ts = Some (cs, r) -> exists u, ts = u ++ TOp "}" :: r /\ derives Clauses u cs.
Proof.
  intros A ts cs r H. cbn [pcases] in H.
  assert (End : forall r cs r', pcases n (TOp "}" :: r) = Some (cs, r') -> cs = [] /\ r' = r).
  { intros r1 cs1 r2 K. destruct n as [|m]; [discriminate|]. cbn [pcases] in K. injection K as <- <-. auto. }
  steps H.
  - exists []. split; [reflexivity|]. apply d_noclause.
  - take (exprs n A) u D. take (s_clause n A) v D'. destruct D' as [D'|[D' [w ->]]].
    + take (s_cases n A) w D2. exists (TId "case" :: u ++ TOp ":" :: v ++ w). split; [tokens|]. apply d_case; assumption.
    + match goal with K : pcases _ _ = _ |- _ => apply End in K; destruct K as [-> ->] end. exists (TId "case" :: u ++ TOp ":" :: v). split; [tokens|]. apply d_lastcase; assumption.
  - take (s_clause n A) v D'. destruct D' as [D'|[D' [w ->]]].
    + take (s_cases n A) w D2. exists (TId "default" :: TOp ":" :: v ++ w). split; [tokens|]. apply d_default; assumption.
    + match goal with K : pcases _ _ = _ |- _ => apply End in K; destruct K as [-> ->] end. exists (TId "default" :: TOp ":" :: v). split; [tokens|]. apply d_lastdefault; assumption.
Qed.
Lemma sound_clause n : all_sound n -> forall ts b r, pclause (S n) ts = Some (b, r) ->
  exists u, ts = u ++ r /\ (derives (Stmts true) u b \/ derives (Stmts false) u b /\ exists v, r = TOp "}" :: v).
Proof.
  intros A ts b r H. cbn [pclause] in H. steps H. match type of H with (if ?c then _ else _) _ = _ => destruct c end; steps H.
  - exists []. split; [reflexivity|]. left. apply d_nostmt.
  - take (s_stmt n A) u D. take (s_clause n A) v D'. exists (u ++ TOp ";" :: v). split; [tokens|]. destruct D' as [D'|[D' E]]; [left|right; split; [|exact E]]; apply d_stmts; assumption.
  - match type of H with (if ?c then _ else _) _ = _ => destruct c end; steps H. take (s_stmt n A) u D. exists u. split; [reflexivity|]. right. split; [apply d_last, D|assumption].
Qed.
Lemma sound_simple n : all_sound n -> sound (psimple (S n)) simple.
Proof.
  intros A ts s r H. cbn [psimple] in H. destruct (defines ts) as [[xs r0]|] eqn:E.
  - apply defines_some in E. destruct E as [-> N]. steps H.
    + take (expression n A) u D. destruct xs as [|x [|y [|]]]; steps H; destruct N as [_ N]; cbn [simple name_list].
      * eexists. split; [|split; [apply N; left; reflexivity|eexists; split; [reflexivity|exact D]]]. tokens.
      * eexists. split; [|split; [apply N; left; reflexivity|split; [apply N; right; left; reflexivity|eexists; split; [reflexivity|exact D]]]]. tokens.
    + take (exprs n A) u D. eexists. split; [|apply d_define; eassumption]. tokens.
  - steps H.
    + apply (exprs n A) in P. destruct P as (u & -> & D). take (exprs n A) v D'. eexists. split; [|apply d_assign; eassumption]. tokens.
    + apply (s_exprs n A) in P. destruct P as (u & -> & _ & _ & D). destruct a as [|e [|]]; try discriminate H. steps H.
      * eexists. split; [|apply d_inc; eassumption]. tokens.
      * eexists. split; [|apply d_dec; eassumption]. tokens.
      * match goal with K : peekAssign _ = _ |- _ => unfold peekAssign in K; rename K into K1 end.
        assert (Kx : r1 = r0 /\ match a with Some b => exists v, r0 = TOp (b ++ "=") :: v /\ assign_op b | None => True end).
        { destruct r0 as [|[| | |o] r0]; injection K1 as <- <-; (split; [reflexivity|]); try exact I. destruct (assignOp o) as [b|] eqn:Eo; [|exact I]. apply assignOp_some in Eo. destruct Eo as [-> Eo]. eauto. }
        destruct Kx as [-> Kx]. destruct a as [b|]; steps H.
        -- destruct Kx as (v & -> & Op). match goal with K : skip _ = _ |- _ => injection K as _ <- end. take (expression n A) w D'. eexists. split; [|apply d_assignop; eassumption]. tokens.
        -- exists u. split; [reflexivity|exact D].
Qed.
Theorem all_soundness : forall n, all_sound n.
Proof.
  induction n as [|n A]; [split; discriminate|].
  split; [exact (sound_expr n A)|exact (sound_binary n A)|exact (sound_unary n A)|exact (sound_operand n A)|exact (sound_primary n A)|exact (sound_elem n A)|exact (sound_field n A)|exact (sound_arg n A)
    |exact (sound_block n A)|exact (sound_stmt n A)|exact (sound_for n A)|exact (sound_if n A)|exact (sound_then n A)|exact (sound_cases n A)|exact (sound_clause n A)|exact (sound_var n A)|exact (sound_exprs n A)|exact (sound_simple n A)].
Qed.

(** ** Declarations and files *)
Lemma constGroup_some : forall l i last ds, constGroup i last l = Some ds -> List.length ds = List.length l /\
  forall k x d, nth_error l k = Some (x, d) ->
    (exists j y t e, (j <= k)%nat /\ nth_error l j = Some (y, Some (t, e)) /\ (forall m z, (j < m <= k)%nat -> nth_error l m = Some z -> snd z = None) /\
      nth_error ds k = Some (DConst x t e (i + Z.of_nat k))) \/
    (exists t e, last = Some (t, e) /\ (forall m z, (m <= k)%nat -> nth_error l m = Some z -> snd z = None) /\ nth_error ds k = Some (DConst x t e (i + Z.of_nat k))).
Proof.
  induction l as [|[x d] l IH]; intros i last ds H.
  - injection H as <-. split; [reflexivity|]. intros [|k] x d; discriminate.
  - cbn [constGroup] in H. destruct (match d with Some _ => d | None => last end) as [[t e]|] eqn:E; [|discriminate].
    destruct (constGroup (i + 1) (Some (t, e)) l) as [ds'|] eqn:R; [|discriminate]. injection H as <-. apply IH in R. destruct R as [L R]. split; [cbn; congruence|].
    intros [|k] y c K; cbn [nth_error] in K |- *.
    + injection K as <- <-. rewrite Z.add_0_r. destruct d as [[t' e']|].
      * injection E as -> ->. left. exists 0%nat, x, t, e. split; [lia|]. split; [reflexivity|]. split; [intros; lia|reflexivity].
      * right. exists t, e. split; [exact E|]. split; [|reflexivity]. intros [|m] z Hm Hz; [injection Hz as <-; reflexivity|lia].
    + destruct (R k y c K) as [(j & y' & t' & e' & J & Nj & B & Nd)|(t' & e' & La & B & Nd)].
      * left. exists (S j), y', t', e'. split; [lia|]. split; [exact Nj|]. split; [intros [|m] z Hm Hz; [lia|apply (B m); [lia|exact Hz]]|]. rewrite Nd. do 2 f_equal. lia.
      * injection La as <- <-. assert (Nd' : nth_error ds' k = Some (DConst y t e (i + Z.of_nat (S k)))) by (rewrite Nd; do 2 f_equal; lia). destruct d as [[t' e']|].
        -- injection E as -> ->. left. exists 0%nat, x, t, e. split; [lia|]. split; [reflexivity|]. split; [|exact Nd'].
           intros [|m] z Hm Hz; [lia|apply (B m); [lia|exact Hz]].
        -- right. exists t, e. split; [exact E|]. split; [|exact Nd']. intros [|m] z Hm Hz; [injection Hz as <-; reflexivity|apply (B m); [lia|exact Hz]].
Qed.
Lemma constGroup_spelled l ds : constGroup 0 None l = Some ds -> spelled l ds.
Proof.
  intros H. apply constGroup_some in H. destruct H as [L H]. split; [exact L|]. intros i x d K. destruct (H i x d K) as [X|(t & e & X & _)]; [|discriminate].
  destruct X as (j & y & t & e & X). exists j, y, t, e. exact X.
Qed.
Lemma const_sound n : sound (pconst n) (derives ConstSpec).
Proof.
  intros ts c r H. unfold pconst in H. pose proof (expression n (all_soundness n)) as Ie. destruct (types_sound n) as (It & _). steps H.
  - take Ie u D. by_rule d_constinit.
  - match type of H with (if ?c then _ else _) _ = _ => destruct c end; steps H.
    + eexists [_]. split; [reflexivity|]. apply d_constagain. assumption.
    + take It u D. take Ie v D'. by_rule d_consttype.
Qed.
Lemma vars_decl u l : separated ";" (fun u s => derives VarSpec u s /\ exists x t e, s = SVar x t e) u l -> forall ds, allSome (map vardecl l) = Some ds ->
  separated ";" (fun v d => exists x t e, d = DVar x t e /\ derives VarSpec v (SVar x t e)) u ds.
Proof.
  intros Q. induction Q as [|u s (D & x & t & e & ->)|u s v l (D & x & t & e & ->) Q IH]; intros ds H.
  - injection H as <-. constructor.
  - injection H as <-. constructor. eauto.
  - cbn in H. destruct (allSome (map vardecl l)) as [ds'|]; [|discriminate]. injection H as <-. constructor; eauto.
Qed.
Lemma decl_sound n : sound (pdecl n) (derives Decl).
Proof.
  intros ts l r H. pose proof (all_soundness n) as A. destruct (types_sound n) as (It & Ips & _ & Ir). unfold pdecl in H. steps H.
  - match goal with K : pfunc _ _ = _ |- _ => unfold pfunc in K; steps K end.
    + take (block n A) w D2. take Ips u L. take Ir v D. apply listed_params in L. eexists. split; [|eapply d_funcbody; eassumption]. tokens.
    + take Ips u L. take Ir v D. apply listed_params in L. eexists. split; [|eapply d_funcdecl; eassumption]. tokens.
  - take (items_sound (pvar n) _ ";" ")" (s_var n A) n) u Q. apply vars_decl with (ds := l) in Q; [|assumption]. by_rule d_vardecls.
  - take (s_var n A) u D. destruct D as (D & x & t & e & ->). match goal with K : allSome _ = _ |- _ => injection K as <- end. by_rule d_vardecl.
  - match goal with K : ptype _ _ = _ |- _ => unfold ptype in K; steps K end. take It u D. by_rule d_typedecl.
  - take (items_sound (pconst n) _ ";" ")" (const_sound n) n) u Q. match goal with K : constGroup _ _ _ = _ |- _ => apply constGroup_spelled in K end. by_rule d_constdecls.
  - take (const_sound n) u D. match goal with K : constGroup _ _ _ = _ |- _ => apply constGroup_spelled in K end. by_rule d_constdecl.
Qed.
Lemma decls_sound n : forall m ts l r, pdecls n m ts = Some (l, r) -> r = [] /\ derives Decls ts l.
Proof.
  induction m as [|m IH]; intros ts l r H; [discriminate|]. cbn [pdecls] in H.
  assert (K : (ts = [] /\ l = [] /\ r = []) \/ (get l <- pdecl n; op ";" >> get k <- pdecls n m; ret (l ++ k)) ts = Some (l, r)) by (destruct ts; [left; injection H as <- <-; auto|right; exact H]).
  clear H. destruct K as [(-> & -> & ->)|H]; [split; [reflexivity|apply d_nodecl]|]. steps H. take (decl_sound n) u D.
  match goal with K : pdecls _ _ _ = _ |- _ => apply IH in K; destruct K as [-> D'] end. split; [reflexivity|]. apply d_decls; assumption.
Qed.
Lemma spec_sound : sound pspec (derives ImportSpec).
Proof.
  intros ts s r H. unfold pspec in H. steps H; [eexists [_; _]|eexists [_]]; (split; [reflexivity|]); [apply d_importdot|apply d_importspec].
Qed.
Lemma imports_sound n : forall m, sound (pimports n m) (derives Imports).
Proof.
  induction m as [|m IH]; intros ts l r H; [discriminate|]. cbn [pimports] in H. steps H.
  - match goal with K : pimport _ _ = _ |- _ => unfold pimport in K; steps K end.
    + match goal with K : items _ _ _ _ _ = _ |- _ => apply (items_sound pspec _ ";" ")" spec_sound n) in K; destruct K as (u & -> & Q) end. take IH v D. by_rule d_imports.
    + take spec_sound u D. take IH v D'. cbn [app]. by_rule d_import.
  - exists []. split; [reflexivity|]. apply d_noimport.
Qed.
Lemma file_sound n ts f r : pfile n ts = Some (f, r) -> r = [] /\ derives SourceFile ts f.
Proof.
  unfold pfile. intros H. steps H. match goal with K : pdecls _ _ _ = _ |- _ => apply decls_sound in K; destruct K as [-> D'] end.
  take (imports_sound n n) u D. split; [reflexivity|]. apply d_file; assumption.
Qed.
