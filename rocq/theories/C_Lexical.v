(** * The tokens are those of the Go specification: C62 *)
From Coq Require Import ZArith List String Ascii Bool Lia.
From Verif Require Import GoSyntax GoGrammar GoLexical C_Grammar.
Import ListNotations.
Local Open Scope list_scope.
Local Open Scope string_scope.
Local Open Scope Z_scope.

(** ** Characters *)
Lemma every_ascii (P : ascii -> bool) : forallb (fun n => P (ascii_of_nat n)) (seq 0 256) = true -> forall c, P c = true.
Proof.
  intros H c. rewrite <- (ascii_nat_embedding c). rewrite forallb_forall in H. apply H. apply in_seq.
  pose proof (nat_ascii_bounded c). lia.
Qed.
Definition amongb (s : string) (c : ascii) : bool := existsb (Ascii.eqb c) (list_ascii_of_string s).
Lemma amongb_spec s c : amongb s c = true <-> among s c.
Proof.
  unfold amongb, among. rewrite existsb_exists. split; [intros (x & I & E); apply Ascii.eqb_eq in E; subst; exact I|].
  intros I. exists c. split; [exact I|apply Ascii.eqb_refl].
Qed.
Lemma isLetter_spec c : isLetter c = true <-> letter c.
Proof.
  unfold letter. rewrite <- amongb_spec. apply eq_iff_eq_true. apply eqb_prop. revert c.
  apply (every_ascii (fun c => Bool.eqb (isLetter c) (amongb "abcdefghijklmnopqrstuvwxyzABCDEFGHIJKLMNOPQRSTUVWXYZ_" c))). vm_compute. reflexivity.
Qed.
Lemma isDigit_spec c : isDigit c = true <-> decimal c.
Proof.
  unfold decimal. rewrite <- amongb_spec. apply eq_iff_eq_true. apply eqb_prop. revert c.
  apply (every_ascii (fun c => Bool.eqb (isDigit c) (amongb "0123456789" c))). vm_compute. reflexivity.
Qed.
Lemma isSpace_spec c : isSpace c = true -> In c [" "%char; ascii_of_nat 9; ascii_of_nat 13].
Proof.
  intros H. assert (K : implb (isSpace c) (existsb (Ascii.eqb c) [" "%char; ascii_of_nat 9; ascii_of_nat 13]) = true).
  { revert c H. intros c _. revert c. apply (every_ascii (fun c => implb (isSpace c) (existsb (Ascii.eqb c) [" "%char; ascii_of_nat 9; ascii_of_nat 13]))). vm_compute. reflexivity. }
  rewrite H in K. cbn [implb] in K. apply existsb_exists in K. destruct K as (x & I & E). apply Ascii.eqb_eq in E. subst. exact I.
Qed.
Lemma code_char c n : (n < 256)%nat -> (code c =? Z.of_nat n) = true -> c = ascii_of_nat n.
Proof.
  intros L H. apply Z.eqb_eq in H. unfold code in H. rewrite <- (ascii_nat_embedding c). f_equal. unfold nat_of_ascii. lia.
Qed.
Lemma code_other c n : (n < 256)%nat -> (code c =? Z.of_nat n) = false -> c <> ascii_of_nat n.
Proof.
  intros L H E. subst. apply Z.eqb_neq in H. apply H. unfold code. pose proof (nat_ascii_embedding n L) as X. unfold nat_of_ascii in X. lia.
Qed.
Lemma hexDigit_spec c d : hexDigit c = Some d -> 0 <= d /\ digit_value c d.
Proof.
  intros H.
  assert (K : match hexDigit c with Some d => (0 <=? d) && (match nth_error (list_ascii_of_string "0123456789abcdef") (Z.to_nat d) with Some x => Ascii.eqb x c | None => false end ||
      match nth_error (list_ascii_of_string "0123456789ABCDEF") (Z.to_nat d) with Some x => Ascii.eqb x c | None => false end) | None => true end = true).
  { clear H. revert c. apply (every_ascii (fun c => match hexDigit c with Some d => (0 <=? d) && (match nth_error (list_ascii_of_string "0123456789abcdef") (Z.to_nat d) with Some x => Ascii.eqb x c | None => false end ||
      match nth_error (list_ascii_of_string "0123456789ABCDEF") (Z.to_nat d) with Some x => Ascii.eqb x c | None => false end) | None => true end)). vm_compute. reflexivity. }
  rewrite H in K. apply andb_prop in K. destruct K as [K1 K]. apply Z.leb_le in K1. split; [exact K1|].
  exists (Z.to_nat d). split; [lia|]. apply orb_prop in K.
  destruct K as [K|K]; [left|right]; destruct (nth_error _ _) as [x|]; try discriminate K; apply Ascii.eqb_eq in K; congruence.
Qed.

(** ** Numbers *)
Lemma digits_spec base : forall s acc z, digits base acc s = Some z ->
  (s = "" /\ z = acc) \/ exists u s' ds, (u = "" \/ u = "_") /\ s = u ++ s' /\ numeral base s' ds /\ z = acc * base ^ Z.of_nat (List.length ds) + value base ds.
Proof.
  induction s as [|c s IH]; intros acc z H; [injection H as <-; auto|]. right. cbn [digits] in H. destruct (hexDigit c) as [d|] eqn:D.
  - apply hexDigit_spec in D. destruct D as [D0 D]. destruct (Z.ltb_spec d base) as [L|]; [|discriminate].
    apply IH in H. destruct H as [[Es Ez]|(u & s' & ds & [Eu|Eu] & Es & N & Ez)]; subst.
    + exists "", (String c ""), [d]. split; [auto|]. split; [reflexivity|]. split; [constructor; assumption|]. cbn. ring.
    + exists "", (String c s'), (d :: ds). split; [auto|]. split; [reflexivity|]. split; [constructor; assumption|].
      cbn [value List.length]. rewrite Nat2Z.inj_succ, Z.pow_succ_r by lia. ring.
    + exists "", (String c (String "_" s')), (d :: ds). split; [auto|]. split; [reflexivity|]. split; [constructor; assumption|].
      cbn [value List.length]. rewrite Nat2Z.inj_succ, Z.pow_succ_r by lia. ring.
  - destruct s as [|c' s]; [discriminate|]. destruct ((code c =? 95) && negb (code c' =? 95)) eqn:U; [|discriminate]. apply andb_prop in U. destruct U as [U1 U2].
    apply (code_char c 95) in U1; [|lia]. apply negb_true_iff in U2. apply (code_other c' 95) in U2; [|lia].
    apply IH in H. destruct H as [[E _]|(u & s' & ds & [Eu|Eu] & E & N & Ez)]; [discriminate| |]; subst u z.
    + exists "_", s', ds. split; [auto|]. split; [|auto]. cbn in E |- *. rewrite E, U1. reflexivity.
    + cbn in E. injection E as E1 E2. contradiction.
Qed.
Lemma digits_first base c s z : c <> "_"%char -> digits base 0 (String c s) = Some z -> exists ds, numeral base (String c s) ds /\ z = value base ds.
Proof.
  intros C H. apply digits_spec in H. destruct H as [[E _]|(u & s' & ds & [Eu|Eu] & E & N & Ez)]; [discriminate| |]; subst u z.
  - cbn in E. subst s'. exists ds. split; [exact N|]. ring.
  - cbn in E. injection E as E _. contradiction.
Qed.
Lemma span_spec p : forall s a b, span p s = (a, b) -> s = a ++ b /\ (forall c, In c (list_ascii_of_string a) -> p c = true) /\ match b with String c _ => p c = false | EmptyString => True end.
Proof.
  induction s as [|c s IH]; intros a b H; cbn [span] in H.
  - injection H as <- <-. split; [reflexivity|]. split; [intros c []|exact I].
  - destruct (p c) eqn:P.
    + destruct (span p s) as [a' b'] eqn:E. injection H as <- <-. destruct (IH a' b' eq_refl) as (-> & Q & R). split; [reflexivity|]. split; [|exact R]. intros d [<-|I]; auto.
    + injection H as <- <-. split; [reflexivity|]. split; [intros d []|exact P].
Qed.
Lemma digit_line c : isDigit c = true -> c <> "_"%char.
Proof. intros H ->. discriminate H. Qed.
Lemma number_spec c s z : isDigit c = true -> number (String c s) = Some z -> lexeme (String c s) (TInt z).
Proof.
  intros D H. destruct (Ascii.eqb_spec c "0"%char) as [->|C].
  - destruct s as [|x s].
    + injection H as <-. apply lx_zero.
    + cbn [number] in H.
      assert (K : (x = "x"%char /\ s <> "" /\ digits 16 0 s = Some z) \/ (x = "b"%char /\ s <> "" /\ digits 2 0 s = Some z)).
      { destruct x as [[|] [|] [|] [|] [|] [|] [|] [|]]; try discriminate H; destruct s; try discriminate H; [right|left]; (split; [reflexivity|]; split; [discriminate|exact H]). }
      clear H. destruct K as [(-> & N & H)|(-> & N & H)]; apply digits_spec in H; destruct H as [[E _]|(u & s' & ds & U & -> & M & ->)]; try contradiction.
      * apply (lx_hex s' u ds U M).
      * apply (lx_binary s' u ds U M).
  - assert (H' : match span (fun c => negb (code c =? 101)) (String c s) with
      | (a, String _ ((String c _) as b)) => match digits 10 0 a, (if isDigit c then digits 10 0 b else None) with Some m, Some e => Some (m * 10 ^ e) | _, _ => None end
      | (_, String _ EmptyString) => None
      | (_, EmptyString) => digits 10 0 (String c s)
      end = Some z).
    { unfold number in H. destruct c as [[|] [|] [|] [|] [|] [|] [|] [|]]; try exact H; exfalso; apply C; reflexivity. }
    clear H. destruct (span _ _) as [a b] eqn:S. apply span_spec in S. destruct S as (E & _ & B). destruct b as [|e [|f b]]; [|discriminate H'|].
    + apply digits_first in H'; [|apply digit_line, D]. destruct H' as (ds & N & ->). apply lx_decimal; assumption.
    + apply negb_false_iff in B. apply (code_char e 101) in B; [|lia]. change (ascii_of_nat 101) with "e"%char in B. subst e.
      destruct (digits 10 0 a) as [m|] eqn:A; [|discriminate]. destruct (isDigit f) eqn:F; [|discriminate]. destruct (digits 10 0 (String f b)) as [k|] eqn:K; [|discriminate]. injection H' as <-.
      destruct a as [|c' a]; [cbn in E; injection E as -> _; discriminate D|]. cbn in E. injection E as -> ->.
      apply digits_first in A; [|apply digit_line, D]. destruct A as (ds & N & ->). apply digits_first in K; [|apply digit_line, F]. destruct K as (es & N' & ->).
      apply (lx_exponent c' a ds (String f b) es); assumption.
Qed.

(** ** Strings and runes *)
Lemma escape_spec q c d : (q < 256)%nat -> escape (Z.of_nat q) c = Some d ->
  In (c, d) [("t"%char, ascii_of_nat 9); ("n"%char, ascii_of_nat 10); (ascii_of_nat q, ascii_of_nat q); (backslash, backslash)].
Proof.
  intros Q. unfold escape. destruct (code c =? 116) eqn:A; [intros H; injection H as <-; apply (code_char c 116) in A; [|lia]; subst; left; reflexivity|].
  destruct (code c =? 110) eqn:B; [intros H; injection H as <-; apply (code_char c 110) in B; [|lia]; subst; right; left; reflexivity|].
  destruct (code c =? Z.of_nat q) eqn:C; [intros H; injection H as <-; apply (code_char c q) in C; [|lia]; subst; right; right; left; reflexivity|].
  destruct (code c =? 92) eqn:D; [intros H; injection H as <-; apply (code_char c 92) in D; [|lia]; subst; right; right; right; left; reflexivity|]. discriminate.
Qed.
Lemma lexString_spec : forall s t r, lexString s = Some (t, r) -> exists w, text quote w t /\ s = w ++ String quote r.
Proof.
  intros s. induction s as [s IH] using (well_founded_induction (Wf_nat.well_founded_ltof _ String.length)). intros t r H.
  destruct s as [|c s]; [discriminate|]. cbn [lexString] in H. destruct (code c =? 34) eqn:Q.
  - injection H as <- <-. apply (code_char c 34) in Q; [|lia]. subst. exists "". split; [constructor|reflexivity].
  - apply (code_other c 34) in Q; [|lia]. destruct (code c =? 92) eqn:B.
    + apply (code_char c 92) in B; [|lia]. destruct s as [|d s]; [discriminate|]. destruct (escape 34 d) as [e|] eqn:E; [|discriminate].
      destruct (lexString s) as [[a b]|] eqn:L; [|discriminate]. injection H as <- <-. apply IH in L; [|unfold Wf_nat.ltof; cbn; lia]. destruct L as (w & T & ->).
      exists (String backslash (String d w)). subst c. split; [apply text_esc; [apply (escape_spec 34); [lia|exact E]|exact T]|reflexivity].
    + apply (code_other c 92) in B; [|lia]. destruct (lexString s) as [[a b]|] eqn:L; [|discriminate]. injection H as <- <-. apply IH in L; [|unfold Wf_nat.ltof; cbn; lia]. destruct L as (w & T & ->).
      exists (String c w). split; [apply text_char; assumption|reflexivity].
Qed.
Lemma lexRune_spec s z r : lexRune s = Some (z, r) -> exists w c, text apostrophe w (String c "") /\ (nat_of_ascii c < 128)%nat /\ z = Z.of_nat (nat_of_ascii c) /\ s = w ++ String apostrophe r.
Proof.
  assert (C : forall c, code c = Z.of_nat (nat_of_ascii c)) by (intros c; unfold code, nat_of_ascii; lia).
  destruct s as [|c [|d s]]; try discriminate. cbn [lexRune]. destruct (code c =? 92) eqn:B.
  - apply (code_char c 92) in B; [|lia]. destruct (escape 39 d) as [e|] eqn:E; [|discriminate]. destruct s as [|q s]; [discriminate|].
    destruct (code q =? 39) eqn:Q; [|discriminate]. apply (code_char q 39) in Q; [|lia]. intros H. injection H as <- <-. subst.
    exists (String backslash (String d "")), e. apply (escape_spec 39) in E; [|lia]. split; [apply text_esc; [exact E|constructor]|]. split; [|split; [apply C|reflexivity]].
    cbn [In] in E. destruct E as [E|[E|[E|[E|[]]]]]; injection E as <- <-; cbn; lia.
  - apply (code_other c 92) in B; [|lia]. destruct (code d =? 39) eqn:Q; [|discriminate]. apply (code_char d 39) in Q; [|lia].
    destruct (code c =? 39) eqn:N; [discriminate|]. apply (code_other c 39) in N; [|lia]. cbn [negb andb]. destruct (Z.ltb_spec (code c) 128) as [L|]; [|discriminate].
    intros H. injection H as <- <-. subst. exists (String c ""), c. split; [apply text_char; [exact N|exact B|constructor]|]. rewrite C in *. split; [lia|]. auto.
Qed.
Lemma text_closed q w t : q <> backslash -> text q w t -> forall v r r', closed q v -> w ++ String q r = v ++ r' -> (String.length v <= String.length w + 1)%nat.
Proof.
  intros Q T. induction T as [|c s t C1 C2 T IH|c d s t I T IH]; intros v r r' V E.
  - destruct V as [|c s N M V|c s V]; cbn [append String.length] in E |- *; [lia| |]; injection E as E1 E2; congruence.
  - destruct V as [|c' s' N M V|c' s' V]; cbn [append String.length] in E |- *; injection E as E1 E2; [lia| |congruence]. apply (IH _ _ _ V) in E2. lia.
  - destruct V as [|c' s' N M V|c' s' V]; cbn [append String.length] in E |- *; [lia| |]; [injection E as E1 E2; congruence|]. injection E as E1 E2. apply (IH _ _ _ V) in E2. lia.
Qed.

(** ** Operators *)
Lemma strip_spec : forall p s r, strip p s = Some r <-> s = p ++ r.
Proof.
  induction p as [|a p IH]; intros s r; cbn [strip]; [split; [intros H; injection H as ->; reflexivity|intros ->; reflexivity]|].
  destruct s as [|b s]; [split; discriminate|]. destruct (Ascii.eqb_spec a b) as [->|N].
  - rewrite IH. split; [intros ->; reflexivity|intros H; injection H; auto].
  - split; [discriminate|]. intros H. injection H as H _. congruence.
Qed.
Fixpoint decreasing (l : list string) : bool :=
  match l with [] => true | a :: r => forallb (fun b => (String.length b <=? String.length a)%nat) r && decreasing r end.
Lemma operator_spec : forall l s o r, decreasing l = true -> operator l s = Some (o, r) ->
  In o l /\ s = o ++ r /\ forall o' r', In o' l -> s = o' ++ r' -> (String.length o' <= String.length o)%nat.
Proof.
  induction l as [|a l IH]; intros s o r D H; [discriminate|]. cbn [decreasing] in D. apply andb_prop in D. destruct D as [D1 D2]. cbn [operator] in H.
  destruct (strip a s) as [x|] eqn:S.
  - injection H as <- <-. apply strip_spec in S. split; [left; reflexivity|]. split; [exact S|]. intros o' r' [<-|I] _; [lia|].
    rewrite forallb_forall in D1. apply D1 in I. apply Nat.leb_le in I. exact I.
  - apply IH in H; [|exact D2]. destruct H as (I & E & M). split; [right; exact I|]. split; [exact E|]. intros o' r' [<-|I'] E'; [|eauto].
    apply strip_spec in E'. congruence.
Qed.
Lemma same_operators o : In o operators <-> In o punctuation.
Proof.
  rewrite <- !mem_In. split; intros H.
  - apply mem_In. apply mem_In in H. revert o H. apply Forall_forall. unfold operators. repeat (constructor; [apply mem_In; reflexivity|]). constructor.
  - apply mem_In. apply mem_In in H. revert o H. apply Forall_forall. unfold punctuation. repeat (constructor; [apply mem_In; reflexivity|]). constructor.
Qed.
Lemma punctuation_first o : In o punctuation -> exists c r, o = String c r /\ isLetter c = false /\ isDigit c = false /\ c <> quote /\ c <> apostrophe /\ c <> backquote /\ isSpace c = false.
Proof.
  revert o. apply Forall_forall. unfold punctuation.
  repeat (constructor; [do 2 eexists; split; [reflexivity|]; split; [reflexivity|]; split; [reflexivity|]; split; [discriminate|]; split; [discriminate|]; split; [discriminate|reflexivity]|]). constructor.
Qed.

(** ** The longest token *)
Definition longest (w r : string) : Prop := forall w' r', w ++ r = w' ++ r' -> shape w' -> (String.length w' <= String.length w)%nat.
Lemma app_cons_inv a b r r' : String a r = b ++ r' -> b <> "" -> exists b', b = String a b' /\ r = b' ++ r'.
Proof. destruct b as [|c b]; [contradiction|]. cbn. intros H _. injection H as -> ->. eauto. Qed.
Lemma longer a b r r' : a ++ r = b ++ r' -> (String.length a < String.length b)%nat -> exists c x, b = a ++ String c x /\ r = String c (x ++ r').
Proof.
  revert b. induction a as [|d a IH]; intros b E L.
  - destruct b as [|c b]; [cbn in L; lia|]. exists c, b. auto.
  - destruct b as [|c b]; [cbn in L; lia|]. cbn in E, L. injection E as -> E. destruct (IH b E ltac:(lia)) as (x & y & -> & ->). exists x, y. auto.
Qed.
Lemma letter_not_digit c : letter c -> decimal c -> False.
Proof.
  rewrite <- isLetter_spec, <- isDigit_spec. intros A B.
  assert (K : negb (isLetter c && isDigit c) = true) by (clear; revert c; apply (every_ascii (fun c => negb (isLetter c && isDigit c))); vm_compute; reflexivity).
  rewrite A, B in K. discriminate.
Qed.
(** A longer run of letters and digits is no identifier. *)
Lemma ident_longest c w r : isLetter c = true -> match r with String d _ => isLetter d || isDigit d = false | EmptyString => True end -> longest (String c w) r.
Proof.
  intros C R w' r' E Sh. destruct (le_lt_dec (String.length w') (String.length (String c w))) as [L|L]; [exact L|exfalso].
  destruct (longer _ _ _ _ E L) as (d & x & -> & ->). apply orb_false_iff in R. destruct R as [R1 R2].
  destruct Sh as [(c' & s & E' & _ & A)|[[[(c' & s & E' & D)|(c' & s & E' & D)] _]|[(s & E' & _)|[(s & E' & _)|[(s & E')|I]]]]].
  - cbn in E'. injection E' as -> <-. assert (I : In d (list_ascii_of_string (w ++ String d x))) by (clear; induction w; cbn; auto).
    destruct (A d I) as [X|X]; [apply isLetter_spec in X|apply isDigit_spec in X]; congruence.
  - cbn in E'. injection E' as -> _. apply isLetter_spec in C. exact (letter_not_digit _ C D).
  - cbn in E'. injection E' as -> _. discriminate C.
  - cbn in E'. injection E' as -> _. discriminate C.
  - cbn in E'. injection E' as -> _. discriminate C.
  - cbn in E'. injection E' as -> _. discriminate C.
  - apply punctuation_first in I. destruct I as (c' & s & E' & X & _). cbn in E'. injection E' as -> _. congruence.
Qed.
Lemma snoc_inj a b x y : a ++ String x "" = b ++ String y "" -> x = y.
Proof.
  revert b. induction a as [|c a IH]; intros [|d b] E; cbn in E; injection E; intros; subst; auto.
  - destruct b; discriminate.
  - destruct a; discriminate.
  - eapply IH. eassumption.
Qed.
Lemma numeral_last base s ds : numeral base s ds -> exists a l d, s = a ++ String l "" /\ digit_value l d /\ d < base.
Proof.
  induction 1 as [c d D L|c d s ds D L N (a & l & e & -> & X)|c d s ds D L N (a & l & e & -> & X)].
  - exists "", c, d. auto.
  - exists (String c a), l, e. auto.
  - exists (String c (String "_" a)), l, e. auto.
Qed.
Definition exponent_sign (hex : bool) (c : ascii) : Prop := among (if hex then "pP" else "eE") c.
Lemma digit_not_sign c d hex : digit_value c d -> (d < 10 \/ hex = true) -> exponent_sign hex c -> False.
Proof.
  intros (i & -> & V) L S. unfold exponent_sign in S. apply amongb_spec in S.
  assert (Li : (i < 16)%nat) by (destruct V as [V|V]; match type of V with nth_error ?l _ = _ => change 16%nat with (List.length l) end; apply nth_error_Some; rewrite V; discriminate).
  assert (K : (i < 10)%nat \/ hex = true) by (destruct L; [left; lia|right; assumption]). clear L.
  do 16 (destruct i as [|i]; [destruct V as [V|V]; injection V as <-; destruct K as [K| ->]; try (destruct hex); (discriminate S || lia)|]). lia.
Qed.
Lemma number_longest c w r z : isDigit c = true -> number (String c w) = Some z ->
  match r with String d _ => isLetter d || isDigit d = false | EmptyString => True end -> dot r = false -> longest (String c w) r.
Proof.
  intros C N R P w' r' E Sh. destruct (le_lt_dec (String.length w') (String.length (String c w))) as [L|L]; [exact L|exfalso].
  destruct (longer _ _ _ _ E L) as (d & x & -> & ->). apply orb_false_iff in R. destruct R as [R1 R2].
  assert (Q : forall q, isDigit q = false -> String c w ++ String d x <> String q (w ++ String d x)) by (intros q Hq X; cbn in X; injection X; intros; congruence).
  destruct Sh as [(c' & s & E' & D & _)|[[_ A]|[(s & E' & _)|[(s & E' & _)|[(s & E')|I]]]]].
  - cbn in E'. injection E' as -> _. apply isDigit_spec in C. exact (letter_not_digit _ D C).
  - destruct (A (String c w) d x eq_refl) as [X|[X|[X|(_ & a' & l & Ea & X)]]].
    + apply isLetter_spec in X. congruence.
    + apply isDigit_spec in X. congruence.
    + subst d. discriminate P.
    + change (exponent_sign (String.prefix "0x" (String c w ++ String d x) || String.prefix "0X" (String c w ++ String d x)) l) in X.
      apply number_spec in N; [|exact C]. remember (String c w) as s eqn:Es. remember (TInt z) as t eqn:Et.
      assert (Last : forall base a n ds, numeral base n ds -> s = a ++ n -> exists e, digit_value l e /\ e < base).
      { intros base a n ds M Hs. apply numeral_last in M. destruct M as (b & l' & e & -> & D & Le). assert (l' = l) as ->.
        { apply (snoc_inj (a ++ b) a'). rewrite <- Ea, Hs. clear. induction a; cbn; [reflexivity|congruence]. }
        eauto. }
      destruct N as [c' s' Lt _| |c' s' ds _ M|s' u ds U M|s' u ds U M|c' s' ds e es _ _ M|s' t' T|s' c' T _|s' I]; try discriminate Et.
      * change "0" with ("" ++ String "0" "") in Ea. apply snoc_inj in Ea. subst l. eapply (digit_not_sign "0"%char 0); [exists 0%nat; auto|left; lia|exact X].
      * destruct (Last 10 "" _ _ M eq_refl) as (e & D & Le). eapply digit_not_sign; [exact D|left; exact Le|exact X].
      * destruct (Last 16 ("0x" ++ u) s' ds M) as (e & D & Le); [destruct U as [->| ->]; reflexivity|].
        assert (Pf : String.prefix "0x" (("0x" ++ u ++ s') ++ String d x) = true) by (cbn; destruct ((u ++ s') ++ String d x); reflexivity).
        rewrite Pf in X. eapply digit_not_sign; [exact D|right; reflexivity|exact X].
      * destruct (Last 2 ("0b" ++ u) s' ds M) as (e & D & Le); [destruct U as [->| ->]; reflexivity|]. eapply digit_not_sign; [exact D|left; lia|exact X].
      * destruct (Last 10 (String c' s' ++ "e") e es M) as (f & D & Le); [clear; cbn; f_equal; induction s'; cbn; [reflexivity|congruence]|]. eapply digit_not_sign; [exact D|left; exact Le|exact X].
      * cbn in Es. injection Es as <- _. discriminate C.
  - cbn in E'. injection E' as -> _. discriminate C.
  - cbn in E'. injection E' as -> _. discriminate C.
  - cbn in E'. injection E' as -> _. discriminate C.
  - apply punctuation_first in I. destruct I as (c' & s & E' & _ & X & _). cbn in E'. injection E' as -> _. congruence.
Qed.
Lemma op_longest o r : In o operators -> (forall o' r', In o' operators -> o ++ r = o' ++ r' -> (String.length o' <= String.length o)%nat) -> dotDigit (o ++ r) = false -> longest o r.
Proof.
  intros I M D w' r' E Sh. pose proof I as I'. apply same_operators, punctuation_first in I'. destruct I' as (c & s & -> & C1 & C2 & C3 & C4 & C5 & _).
  destruct Sh as [(c' & s' & -> & X & _)|[[[(c' & s' & -> & X)|(c' & s' & -> & X)] _]|[(s' & -> & _)|[(s' & -> & _)|[(s' & ->)|J]]]]].
  - cbn in E. injection E as -> _. apply isLetter_spec in X. congruence.
  - cbn in E. injection E as -> _. apply isDigit_spec in X. congruence.
  - cbn [append] in E, D. rewrite E in D. cbn [dotDigit] in D. apply isDigit_spec in X. rewrite X in D. discriminate D.
  - cbn [append] in E. injection E as E _. contradiction.
  - cbn [append] in E. injection E as E _. contradiction.
  - cbn [append] in E. injection E as E _. contradiction.
  - apply (M w' r'); [apply same_operators; exact J|exact E].
Qed.
Lemma quoted_longest q w t r : (q = quote \/ q = apostrophe) -> text q w t -> longest (String q w ++ String q "") r.
Proof.
  intros Q T w' r' E Sh.
  assert (L : String.length (String q w ++ String q "") = (String.length w + 2)%nat) by (clear; cbn; induction w; cbn in *; lia). rewrite L.
  assert (A : (String q w ++ String q "") ++ r = String q (w ++ String q r)) by (clear; cbn; f_equal; induction w; cbn; [reflexivity|congruence]). rewrite A in E.
  assert (K : forall v, closed q v -> w' = String q v -> (String.length w' <= String.length w + 2)%nat).
  { intros v V ->. cbn [append] in E. injection E as E. apply (text_closed q w t) with (v := v) (r := r) (r' := r') in T; [cbn; lia| |exact V|exact E]. destruct Q as [->| ->]; discriminate. }
  destruct Sh as [(c' & s' & -> & X & _)|[[[(c' & s' & -> & X)|(c' & s' & -> & X)] _]|[(s' & -> & V)|[(s' & -> & V)|[(s' & ->)|J]]]]].
  - cbn [append] in E. injection E as <- _. apply isLetter_spec in X. destruct Q as [->| ->]; discriminate X.
  - cbn [append] in E. injection E as <- _. apply isDigit_spec in X. destruct Q as [->| ->]; discriminate X.
  - cbn [append] in E. injection E as E _. destruct Q as [->| ->]; discriminate E.
  - cbn [append] in E. injection E as E1 E2. destruct Q as [->| ->]; [|discriminate E1]. apply (K s' V). reflexivity.
  - cbn [append] in E. injection E as E1 E2. destruct Q as [->| ->]; [discriminate E1|]. apply (K s' V). reflexivity.
  - cbn [append] in E. injection E as E _. destruct Q as [->| ->]; discriminate E.
  - apply punctuation_first in J. destruct J as (c & s & -> & _ & _ & N1 & N2 & _). cbn [append] in E. injection E as <- _. destruct Q; contradiction.
Qed.

(** ** Lines and files *)
Lemma app_char q r : forall v, v ++ String q r = (v ++ String q "") ++ r.
Proof. induction v as [|c v IH]; [reflexivity|]. exact (f_equal (String c) IH). Qed.
Lemma token_lexes w r t ts : (forall x, strip "//" (w ++ r) <> Some x) -> (forall x, strip "/*" (w ++ r) <> Some x) -> lexeme w t -> longest w r -> lexes r ts -> lexes (w ++ r) (t :: ts).
Proof.
  intros C D L M R. apply lexes_token; [| |exact L|exact M|exact R].
  - intros s E. apply (C s). apply strip_spec. exact E.
  - intros s E. apply (D s). apply strip_spec. exact E.
Qed.
Lemma lexLine_sound : forall n s ts, lexLine n s = Some ts -> lexes s ts.
Proof.
  induction n as [|n IH]; intros s ts H; [discriminate|]. destruct s as [|c s]; [injection H as <-; constructor|].
  cbn [lexLine] in H. destruct (isSpace c) eqn:B; [apply lexes_blank; [apply isSpace_spec; exact B|auto]|].
  destruct (strip "//" (String c s)) as [x|] eqn:C; [injection H as <-; apply strip_spec in C; rewrite C; apply lexes_comment|].
  destruct (strip "/*" (String c s)) as [x|] eqn:C'; [discriminate|].
  assert (T : forall w r t, String c s = w ++ r -> lexeme w t -> longest w r -> option_map (cons t) (lexLine n r) = Some ts -> lexes (String c s) ts).
  { intros w r t E L M K. destruct (lexLine n r) as [us|] eqn:R; [|discriminate]. injection K as <-. rewrite E in *. apply token_lexes; [congruence|congruence|exact L|exact M|auto]. }
  cbv zeta in H. destruct (isLetter c) eqn:Lc.
  - destruct (span _ _) as [w r] eqn:S. apply span_spec in S. destruct S as (E & A & R). destruct w as [|c' w]; [cbn in E; subst r; cbv beta in R; rewrite Lc in R; discriminate|].
    assert (c' = c) as -> by (cbn in E; congruence). apply (T _ _ (TId (String c w)) E); [|apply ident_longest; assumption|exact H].
    apply lx_ident; [apply isLetter_spec; exact Lc|]. intros d I. specialize (A d (or_intror I)). apply orb_prop in A. rewrite <- isLetter_spec, <- isDigit_spec. exact A.
  - destruct (isDigit c) eqn:Dc.
    + destruct (span _ _) as [w r] eqn:S. apply span_spec in S. destruct S as (E & A & R). destruct w as [|c' w]; [cbn in E; subst r; cbv beta in R; rewrite Lc, Dc in R; discriminate|].
      assert (c' = c) as -> by (cbn in E; congruence). destruct (dot r) eqn:Dt; [discriminate|]. destruct (number (String c w)) as [z|] eqn:N; [|discriminate].
      apply (T _ _ (TInt z) E); [apply number_spec; assumption|apply (number_longest c w r z); assumption|exact H].
    + destruct (code c =? 34) eqn:Q.
      * apply (code_char c 34) in Q; [|lia]. destruct (lexString s) as [[w r]|] eqn:S; [|discriminate]. apply lexString_spec in S. destruct S as (v & Tx & ->).
        apply (T (String quote v ++ String quote "") r (TStr w)); [|apply lx_string, Tx|apply quoted_longest with (t := w); auto|exact H].
        subst c. cbn [append]. f_equal. apply app_char.
      * destruct (code c =? 39) eqn:Q'.
        -- apply (code_char c 39) in Q'; [|lia]. destruct (lexRune s) as [[z r]|] eqn:S; [|discriminate]. apply lexRune_spec in S. destruct S as (v & d & Tx & Ld & -> & ->).
           apply (T (String apostrophe v ++ String apostrophe "") r (TInt (Z.of_nat (nat_of_ascii d)))); [|apply lx_rune; assumption|eapply quoted_longest; eauto|exact H].
           subst c. cbn [append]. f_equal. apply app_char.
        -- destruct (dotDigit (String c s)) eqn:Dd; [discriminate|]. destruct (operator operators (String c s)) as [[o r]|] eqn:O; [|discriminate].
           apply operator_spec in O; [|vm_compute; reflexivity]. destruct O as (I & E & M).
           apply (T o r (TOp o)); [exact E|apply lx_op, same_operators, I|rewrite E in *; apply op_longest; assumption|exact H].
Qed.
Lemma endsLine_spec t : if endsLine t then completes t else ~ completes t.
Proof.
  assert (K : forall x, In x reserved <-> mem x keywords = true).
  { intros x. rewrite mem_In. unfold reserved, keywords. cbn [In]. split; intuition auto 30. }
  destruct t as [x| | |o]; cbn [endsLine completes]; try exact I.
  - pose proof (K x) as K1. pose proof (mem_In x ["break"; "continue"; "fallthrough"; "return"]) as K2. destruct (mem x keywords), (mem x _); cbn [negb orb]; intuition congruence.
  - pose proof (mem_In o ["++"; "--"; ")"; "]"; "}"]) as K2. destruct (mem o _); [tauto|]. intros X. apply K2 in X. discriminate X.
Qed.
Lemma lex_sound : forall ls ts, lex ls = Some ts -> tokens ls ts.
Proof.
  induction ls as [|s ls IH]; intros ts H; [injection H as <-; constructor|]. cbn [lex] in H.
  destruct (lexLine _ s) as [us|] eqn:L; [|discriminate]. apply lexLine_sound in L. destruct (lex ls) as [vs|]; [|discriminate]. specialize (IH vs eq_refl). injection H as <-.
  destruct (rev us) as [|t u] eqn:R.
  - apply (f_equal (@rev _)) in R. rewrite rev_involutive in R. subst us. constructor; assumption.
  - apply (f_equal (@rev _)) in R. rewrite rev_involutive in R. cbn in R. subst us. pose proof (endsLine_spec t) as K. destruct (endsLine t).
    + rewrite <- app_assoc. apply (tk_semi s (rev u) t ls vs); assumption.
    + rewrite <- app_assoc. apply (tk_plain s (rev u) t ls vs); assumption.
Qed.

(** ** The theorem *)
Theorem C62_grammar : forall ls f, parse ls = Some f -> exists ts, tokens ls ts /\ derives SourceFile ts f.
Proof.
  intros ls f H. unfold parse in H. destruct (lex ls) as [ts|] eqn:L; [|discriminate]. apply lex_sound in L. exists ts. split; [exact L|].
  destruct (pfile _ ts) as [[g r]|] eqn:P; [|discriminate]. apply file_sound in P. destruct P as [-> D]. congruence.
Qed.

(** ** There is only one way to read a text into tokens *)
Lemma digit_value_unique c d d' : digit_value c d -> digit_value c d' -> d = d'.
Proof.
  intros (i & -> & V) (j & -> & W).
  assert (Li : (i < 16)%nat) by (destruct V as [V|V]; match type of V with nth_error ?l _ = _ => change 16%nat with (List.length l) end; apply nth_error_Some; rewrite V; discriminate).
  assert (Lj : (j < 16)%nat) by (destruct W as [W|W]; match type of W with nth_error ?l _ = _ => change 16%nat with (List.length l) end; apply nth_error_Some; rewrite W; discriminate).
  assert (K : forall x y, nth_error (list_ascii_of_string "0123456789abcdef") x = Some y \/ nth_error (list_ascii_of_string "0123456789ABCDEF") x = Some y -> hexDigit y = Some (Z.of_nat x)).
  { clear. intros x y V. do 16 (destruct x as [|x]; [destruct V as [V|V]; injection V as <-; reflexivity|]). destruct V as [V|V]; destruct x; discriminate V. }
  apply K in V, W. congruence.
Qed.
Lemma digit_value_hex c d : digit_value c d -> hexDigit c = Some d.
Proof.
  intros (x & -> & V). do 16 (destruct x as [|x]; [destruct V as [V|V]; injection V as <-; reflexivity|]). destruct V as [V|V]; destruct x; discriminate V.
Qed.
Lemma numeral_first base c s ds : numeral base (String c s) ds -> exists d, digit_value c d /\ d < base.
Proof. intros N. inversion N; subst; eauto. Qed.
Lemma not_line base s ds : ~ numeral base (String "_" s) ds.
Proof. intros N. apply numeral_first in N. destruct N as (d & D & _). apply digit_value_hex in D. discriminate D. Qed.
Lemma not_empty base ds : ~ numeral base "" ds.
Proof. intros N. inversion N. Qed.
Lemma numeral_unique base s ds : numeral base s ds -> forall ds', numeral base s ds' -> ds = ds'.
Proof.
  induction 1 as [c d D L|c d s ds D L N IH|c d s ds D L N IH]; intros ds' N'; inversion N'; subst;
    try (exfalso; eapply not_empty; eassumption); try (exfalso; eapply not_line; eassumption); try (f_equal; eauto using digit_value_unique).
Qed.
(** The characters of a decimal numeral. *)
Lemma numeral_chars s ds : numeral 10 s ds -> every (fun c => decimal c \/ c = "_"%char) s.
Proof.
  assert (K : forall c d, digit_value c d -> d < 10 -> decimal c).
  { intros c d D L. apply digit_value_hex in D. apply isDigit_spec. unfold hexDigit in D. destruct (isDigit c); [reflexivity|].
    destruct ((97 <=? code c) && (code c <=? 102)) eqn:A; [apply andb_prop in A; destruct A as [A _]; apply Z.leb_le in A; injection D as <-; lia|].
    destruct ((65 <=? code c) && (code c <=? 70)) eqn:B; [apply andb_prop in B; destruct B as [B _]; apply Z.leb_le in B; injection D as <-; lia|discriminate]. }
  induction 1 as [c d D L|c d s ds D L N IH|c d s ds D L N IH]; intros x I; cbn in I.
  - destruct I as [<-|[]]. left. eauto.
  - destruct I as [<-|I]; [left; eauto|auto].
  - destruct I as [<-|[<-|I]]; [left; eauto|right; reflexivity|auto].
Qed.
Lemma numeral_e s ds : numeral 10 s ds -> ~ In "e"%char (list_ascii_of_string s).
Proof. intros N I. destruct (numeral_chars s ds N _ I) as [D|D]; [apply isDigit_spec in D; discriminate D|discriminate D]. Qed.
Lemma in_app_char c a b : In c (list_ascii_of_string (a ++ String c b)).
Proof. induction a; cbn; auto. Qed.
Lemma split_e a b a' b' : ~ In "e"%char (list_ascii_of_string a) -> ~ In "e"%char (list_ascii_of_string a') -> a ++ String "e" b = a' ++ String "e" b' -> a = a' /\ b = b'.
Proof.
  revert a'. induction a as [|x a IH]; intros [|x' a'] A A' E; cbn in E.
  - injection E as ->. auto.
  - injection E as <- _. exfalso. apply A'. left. reflexivity.
  - injection E as -> _. exfalso. apply A. left. reflexivity.
  - injection E as -> E. destruct (IH a') as [-> ->]; [intros I; apply A; right; exact I|intros I; apply A'; right; exact I|exact E|auto].
Qed.
Lemma text_unique q s t : text q s t -> q <> "t"%char -> q <> "n"%char -> forall t', text q s t' -> t = t'.
Proof.
  intros T Q1 Q2. induction T as [|c s t C1 C2 T IH|c d s t I T IH]; intros t' T'.
  - inversion T'. reflexivity.
  - inversion T'; subst; [f_equal; auto|]. exfalso. apply C2. reflexivity.
  - inversion T' as [|c' s' u N1 N2 U|c' d' s' u I' U]; subst; [exfalso; apply N2; reflexivity|]. f_equal; [|auto].
    assert (Bt : backslash <> "t"%char) by discriminate. assert (Bn : backslash <> "n"%char) by discriminate.
    cbn [In] in I, I'. destruct I as [I|[I|[I|[I|[]]]]]; destruct I' as [I'|[I'|[I'|[I'|[]]]]]; injection I as I1 I2; injection I' as J1 J2; congruence.
Qed.
Lemma first_chars w t : lexeme w t -> exists c s, w = String c s /\
  match t with
  | TId _ => letter c
  | TInt _ => decimal c \/ c = apostrophe
  | TStr _ => c = quote
  | TOp _ => In w punctuation
  end.
Proof.
  assert (K : forall c s ds, numeral 10 (String c s) ds -> decimal c \/ c = apostrophe).
  { intros c s ds N. pose proof (numeral_chars _ _ N c (or_introl eq_refl)) as [D|D]; [auto|]. subst. exfalso. eapply not_line. exact N. }
  destruct 1 as [c s L _| |c s ds _ N|s u ds _ N|s u ds _ N|c s ds e es _ N _|s t T|s c T _|s I].
  - do 2 eexists. split; [reflexivity|exact L].
  - exists "0"%char, "". split; [reflexivity|]. left. apply isDigit_spec. reflexivity.
  - do 2 eexists. split; [reflexivity|exact (K _ _ _ N)].
  - exists "0"%char, ("x" ++ u ++ s). split; [reflexivity|]. left. apply isDigit_spec. reflexivity.
  - exists "0"%char, ("b" ++ u ++ s). split; [reflexivity|]. left. apply isDigit_spec. reflexivity.
  - do 2 eexists. split; [reflexivity|exact (K _ _ _ N)].
  - do 2 eexists. split; [reflexivity|]. reflexivity.
  - do 2 eexists. split; [reflexivity|]. right. reflexivity.
  - destruct (punctuation_first s I) as (c & r & -> & _). eauto.
Qed.
Lemma snoc_left a b x : a ++ String x "" = b ++ String x "" -> a = b.
Proof.
  revert b. induction a as [|y a IH]; intros [|z b] E; cbn in E; [reflexivity| | |].
  - injection E as _ E. destruct b; discriminate E.
  - injection E as _ E. destruct a; discriminate E.
  - injection E as -> E. f_equal. auto.
Qed.
Lemma mark_unique base s u ds s' u' ds' : (u = "" \/ u = "_") -> (u' = "" \/ u' = "_") -> numeral base s ds -> numeral base s' ds' -> u ++ s = u' ++ s' -> ds = ds'.
Proof.
  intros [-> | ->] [-> | ->] N N' E; cbn [append] in E.
  - subst. eapply numeral_unique; eassumption.
  - subst. exfalso. eapply not_line. exact N.
  - subst. exfalso. eapply not_line. exact N'.
  - injection E as ->. eapply numeral_unique; eassumption.
Qed.
(** The forms of an integer literal. *)
Inductive form : string -> Z -> Prop :=
| f_zero : form "0" 0
| f_mark base m u s ds : (m, base) = ("x"%char, 16) \/ (m, base) = ("b"%char, 2) -> (u = "" \/ u = "_") -> numeral base s ds -> form (String "0" (String m (u ++ s))) (value base ds)
| f_dec c s ds : c <> "0"%char -> c <> apostrophe -> numeral 10 (String c s) ds -> form (String c s) (value 10 ds)
| f_exp c s ds e es : c <> "0"%char -> c <> apostrophe -> numeral 10 (String c s) ds -> numeral 10 e es -> form (String c (s ++ String "e" e)) (value 10 ds * 10 ^ value 10 es)
| f_rune s c : text apostrophe s (String c "") -> form (String apostrophe (s ++ String apostrophe "")) (Z.of_nat (nat_of_ascii c)).
Lemma lexeme_form w z : lexeme w (TInt z) -> form w z.
Proof.
  assert (K : forall c s ds, numeral 10 (String c s) ds -> c <> apostrophe).
  { intros c s ds N ->. destruct (numeral_first _ _ _ _ N) as (d & D & _). apply digit_value_hex in D. discriminate D. }
  intros L. remember (TInt z) as t eqn:E. destruct L as [c s A B| |c s ds C N|s u ds U N|s u ds U N|c s ds e es C N N'|s t T|s c T Lc|s I]; try discriminate E; injection E as <-.
  - apply f_zero.
  - apply f_dec; [exact C|exact (K _ _ _ N)|exact N].
  - apply (f_mark 16 "x" u s ds); auto.
  - apply (f_mark 2 "b" u s ds); auto.
  - apply (f_exp c s ds e es); [exact C|exact (K _ _ _ N)|exact N|exact N'].
  - apply (f_rune s c T).
Qed.
Lemma form_unique w z z' : form w z -> form w z' -> z = z'.
Proof.
  assert (Z0 : apostrophe <> "0"%char) by discriminate.
  assert (NE : forall c s ds e es, numeral 10 (String c (s ++ String "e" e)) ds -> numeral 10 e es -> False).
  { intros c s ds e es N _. apply numeral_e in N. apply N. right. apply in_app_char. }
  intros F F'. remember w as v eqn:Ew in F'. destruct F as [|base m u s ds M U N|c s ds C A N|c s ds e es C A N N'|s c T];
    destruct F' as [|base' m' u' s' ds' M' U' N1|c' s' ds' C' A' N1|c' s' ds' e' es' C' A' N1 N2|s' c' T']; try discriminate Ew; try reflexivity; injection Ew; intros; subst; try congruence; clear Ew.
  - destruct M as [M|M], M' as [M'|M']; inversion M; inversion M'; subst; try congruence; apply f_equal; eapply (mark_unique _ s u ds s' u' ds'); solve [eassumption|symmetry; eassumption].
  - f_equal. eapply numeral_unique; eassumption.
  - exfalso. eapply NE; eassumption.
  - exfalso. eapply NE; eassumption.
  - match goal with E : _ ++ String "e" _ = _ ++ String "e" _ |- _ => apply split_e in E end.
    + match goal with E : _ = _ /\ _ = _ |- _ => destruct E; subst end. do 2 f_equal; [|f_equal]; eapply numeral_unique; eassumption.
    + apply numeral_e in N1. intros I. apply N1. right. exact I.
    + apply numeral_e in N. intros I. apply N. right. exact I.
  - match goal with E : _ ++ _ = _ ++ _ |- _ => apply snoc_left in E; subst end.
    assert (X : String c "" = String c' "") by (eapply (text_unique apostrophe); [exact T|discriminate|discriminate|exact T']). injection X as ->. reflexivity.
Qed.
Lemma lexeme_unique w t t' : lexeme w t -> lexeme w t' -> t = t'.
Proof.
  intros L L'. pose proof (first_chars w t L) as (c & s & E & F). pose proof (first_chars w t' L') as (c' & s' & E' & F'). rewrite E in E'. injection E' as <- <-.
  assert (P : forall o, In (String c s) punctuation -> o = true -> isLetter c = false /\ isDigit c = false /\ c <> quote /\ c <> apostrophe).
  { intros _ I _. destruct (punctuation_first _ I) as (d & r & X & A & B & C & D & _). injection X as <- <-. auto. }
  assert (DL : ~ (letter c /\ decimal c)) by (intros [X Y]; exact (letter_not_digit c X Y)).
  assert (LQ : letter c -> c <> quote /\ c <> apostrophe) by (intros X; apply isLetter_spec in X; split; intros ->; discriminate X).
  assert (DQ : decimal c -> c <> quote /\ c <> apostrophe) by (intros X; apply isDigit_spec in X; split; intros ->; discriminate X).
  assert (QQ : quote <> apostrophe) by discriminate.
  subst w. destruct t as [x|z|x|o], t' as [x'|z'|x'|o'].
  all: try (exfalso; rewrite <- ?isLetter_spec, <- ?isDigit_spec in *; specialize (P true); intuition congruence).
  - inversion L; inversion L'; subst; congruence.
  - f_equal. eapply form_unique; apply lexeme_form; eassumption.
  - inversion L as [| | | | | |a x0 T E1| |]; inversion L' as [| | | | | |a' x1 T' E2| |]; subst. f_equal.
    assert (X : a ++ String quote "" = a' ++ String quote "") by congruence. apply snoc_left in X. subst a'.
    eapply (text_unique quote); [exact T|discriminate|discriminate|exact T'].
  - inversion L; inversion L'; subst; congruence.
Qed.
(** Every token described has a shape. *)
Lemma text_shape q s t : text q s t -> closed q (s ++ String q "").
Proof.
  induction 1 as [|c s t C1 C2 T IH|c d s t I T IH]; cbn [append].
  - apply closed_end.
  - apply closed_char; assumption.
  - apply closed_esc; assumption.
Qed.
Lemma numeral_alnum base s ds : numeral base s ds -> every (fun c => letter c \/ decimal c) s.
Proof.
  assert (K : forall c d, digit_value c d -> letter c \/ decimal c).
  { intros c d D. apply digit_value_hex in D. rewrite <- isLetter_spec, <- isDigit_spec. apply orb_true_iff.
    pose proof (every_ascii (fun c => match hexDigit c with Some _ => isLetter c || isDigit c | None => true end) eq_refl c) as E. cbv beta in E. rewrite D in E. exact E. }
  assert (U : letter "_"%char) by (apply isLetter_spec; reflexivity).
  induction 1 as [c d D L|c d s ds D L N IH|c d s ds D L N IH]; intros x I; cbn in I.
  - destruct I as [<-|[]]. eauto.
  - destruct I as [<-|I]; eauto.
  - destruct I as [<-|[<-|I]]; eauto.
Qed.
Lemma every_app P a b : every P a -> every P b -> every P (a ++ b).
Proof. unfold every. induction a as [|x a IH]; cbn; [auto|]. intros A B c [<-|I]; [auto|]. apply IH; auto. Qed.
Lemma every_cons (P : ascii -> Prop) c s : P c -> every P s -> every P (String c s).
Proof. intros A B x [<-|I]; auto. Qed.
Lemma alnum_shape c s : decimal c -> every (fun c => letter c \/ decimal c) s -> number_shape (String c s).
Proof.
  intros D E. split; [left; eauto|]. intros a x b X. assert (I : In x (list_ascii_of_string (String c s))) by (rewrite X; apply in_app_char).
  destruct I as [<-|I]; [auto|]. destruct (E _ I); auto.
Qed.
Lemma lexeme_shape w t : lexeme w t -> shape w.
Proof.
  assert (Z0 : decimal "0"%char) by (apply isDigit_spec; reflexivity).
  assert (Lx : letter "x"%char) by (apply isLetter_spec; reflexivity).
  assert (Lb : letter "b"%char) by (apply isLetter_spec; reflexivity).
  assert (Le : letter "e"%char) by (apply isLetter_spec; reflexivity).
  assert (Lu : forall u, u = "" \/ u = "_" -> every (fun c => letter c \/ decimal c) u).
  { intros u [-> | ->] x I; [destruct I|]. destruct I as [<-|[]]. left. apply isLetter_spec. reflexivity. }
  assert (F : forall c s ds, numeral 10 (String c s) ds -> decimal c /\ every (fun c => letter c \/ decimal c) s).
  { intros c s ds N. split.
    - destruct (numeral_chars _ _ N c (or_introl eq_refl)) as [D|D]; [exact D|]. subst. exfalso. eapply not_line. exact N.
    - intros x I. apply (numeral_alnum _ _ _ N). right. exact I. }
  destruct 1 as [c s L E| |c s ds _ N|s u ds U N|s u ds U N|c s ds e es _ N N'|s t T|s c T _|s I].
  - left. eauto.
  - right. left. apply alnum_shape; [exact Z0|]. intros x [].
  - right. left. apply alnum_shape; apply (F _ _ _ N).
  - right. left. apply alnum_shape; [exact Z0|]. apply every_cons; [auto|]. apply every_app; [auto|]. exact (numeral_alnum _ _ _ N).
  - right. left. apply alnum_shape; [exact Z0|]. apply every_cons; [auto|]. apply every_app; [auto|]. exact (numeral_alnum _ _ _ N).
  - right. left. apply alnum_shape; [apply (F _ _ _ N)|]. apply every_app; [apply (F _ _ _ N)|]. apply every_cons; [auto|]. exact (numeral_alnum _ _ _ N').
  - do 2 right. left. exists (s ++ String quote ""). split; [reflexivity|]. exact (text_shape _ _ _ T).
  - do 3 right. left. exists (s ++ String apostrophe ""). split; [reflexivity|]. exact (text_shape _ _ _ T).
  - do 5 right. exact I.
Qed.
Lemma same_length a b r r' : a ++ r = b ++ r' -> String.length a = String.length b -> a = b /\ r = r'.
Proof.
  revert b. induction a as [|x a IH]; intros [|y b] E L; try discriminate L; cbn in E.
  - auto.
  - injection E as -> E. destruct (IH b E) as [-> ->]; [cbn in L; congruence|auto].
Qed.
Lemma lexeme_blank c w r t s : In c [" "%char; ascii_of_nat 9; ascii_of_nat 13] -> lexeme w t -> w ++ r = String c s -> False.
Proof.
  intros I L E. destruct (first_chars w t L) as (d & u & -> & F). injection E as <- _.
  assert (B : isLetter d = false /\ isDigit d = false /\ d <> quote /\ d <> apostrophe /\ isSpace d = true).
  { cbn [In] in I. destruct I as [<-|[<-|[<-|[]]]]; repeat split; discriminate. }
  destruct B as (B1 & B2 & B3 & B4 & B5). destruct t.
  - apply isLetter_spec in F. congruence.
  - destruct F as [F|F]; [apply isDigit_spec in F|]; congruence.
  - congruence.
  - destruct (punctuation_first _ F) as (d' & u' & X & _ & _ & _ & _ & _ & Y). injection X as <- <-. congruence.
Qed.
Theorem C62_line : forall s ts ts', lexes s ts -> lexes s ts' -> ts = ts'.
Proof.
  intros s ts ts' A. revert ts'. induction A as [|c s ts I A IH|s|w r t ts C D L M A IH]; intros ts' B.
  - remember "" as v eqn:E. destruct B as [|c' s' us I' B|s'|w r t us C D L M B]; try discriminate E; [reflexivity|].
    destruct (first_chars w t L) as (x & y & -> & _). discriminate E.
  - remember (String c s) as v eqn:E. destruct B as [|c' s' us I' B|s'|w r t us C D L M B]; try discriminate E.
    + injection E as -> ->. auto.
    + injection E as <- _. exfalso. cbn [In] in I. destruct I as [I|[I|[I|[]]]]; discriminate I.
    + exfalso. eapply lexeme_blank; eassumption.
  - remember ("//" ++ s) as v eqn:E. destruct B as [|c' s' us I' B|s'|w r t us C D L M B]; try discriminate E.
    + injection E as -> _. exfalso. cbn [In] in I'. destruct I' as [I|[I|[I|[]]]]; discriminate I.
    + reflexivity.
    + exfalso. eapply C. exact E.
  - remember (w ++ r) as v eqn:E. destruct B as [|c' s' us I' B|s'|w' r' t' us C' D' L' M' B].
    + exfalso. destruct (first_chars w t L) as (x & y & -> & _). discriminate E.
    + exfalso. eapply lexeme_blank; [exact I'|exact L|]. symmetry. exact E.
    + exfalso. eapply C. reflexivity.
    + assert (X : w = w' /\ r = r').
      { apply same_length; [auto|]. pose proof (M _ _ eq_refl (lexeme_shape _ _ L')). rewrite E in M'. pose proof (M' _ _ eq_refl (lexeme_shape _ _ L)). lia. }
      destruct X as [<- <-]. f_equal; [|auto]. eapply lexeme_unique; eassumption.
Qed.
Theorem C62_tokens : forall ls ts ts', tokens ls ts -> tokens ls ts' -> ts = ts'.
Proof.
  intros ls ts ts' A. revert ts'.
  induction A as [|s ls ts X A IH|s us t ls ts X C A IH|s us t ls ts X C A IH]; intros ts' B; inversion B as [|s' ls' us' X' B'|s' vs t' ls' us' X' C' B'|s' vs t' ls' us' X' C' B']; subst.
  all: try (pose proof (C62_line _ _ _ X X') as E; first [apply app_inj_tail in E; destruct E; subst | destruct us; discriminate E | destruct vs; discriminate E | clear E]).
  all: try (exfalso; contradiction).
  - reflexivity.
  - auto.
  - do 2 f_equal. cbn. do 2 f_equal. auto.
  - do 2 f_equal. cbn. f_equal. auto.
Qed.
