(** * Theorems: the assembly text means what was described (C66)

    avo prints a file (GenPrint.v), the Go assembler reads it (AsmText.v).  For every
    description -- not only those of the repository -- reading what was printed gives back
    the routines printed. *)
From stdpp Require Import prelude list strings.
From Coq Require Import ZArith Ascii Lia.
From Verif Require Import GoSem GoSyntax Asm AsmText AvoGen AvoSem AvoProof C_Avo GenInterp GenPrint GenRegs SourceText AsmProgs C_Gen.
Local Open Scope string_scope.
Local Open Scope list_scope.
Local Open Scope Z_scope.

(** ** Strings *)
Fixpoint every (p : ascii -> bool) (s : string) : bool := match s with EmptyString => true | String c r => p c && every p r end.
Lemma every_app p a b : every p (a ++ b)%string = every p a && every p b.
Proof. induction a as [|c a IH]; [done|]. change (String c a ++ b)%string with (String c (a ++ b)). simpl. rewrite IH. by rewrite andb_assoc. Qed.
Lemma every_imp (p q : ascii -> bool) s : (forall c, p c = true -> q c = true) -> every p s = true -> every q s = true.
Proof. intros I. induction s as [|c s IH]; [done|]. simpl. rewrite !andb_true_iff. intros [H K]. auto. Qed.
Lemma app_assoc_s a b c : ((a ++ b) ++ c = a ++ (b ++ c))%string.
Proof. induction a as [|x a IH]; [done|]. change ((String x a ++ b) ++ c)%string with (String x ((a ++ b) ++ c)). by rewrite IH. Qed.
Lemma span_app p a b : every p a = true -> (match b with EmptyString => true | String c _ => negb (p c) end) = true -> span p (a ++ b) = (a, b).
Proof.
  intros E F. induction a as [|c a IH].
  - change ("" ++ b)%string with b. destruct b as [|c b]; [done|]. simpl. destruct (p c); [discriminate F|done].
  - simpl in E. apply andb_true_iff in E as [E1 E2]. change (String c a ++ b)%string with (String c (a ++ b)). simpl. rewrite E1, (IH E2). done.
Qed.
Lemma span_all p a : every p a = true -> span p a = (a, "").
Proof. intros E. pose proof (span_app p a "" E eq_refl) as H. by rewrite string_app_nil_r in H || (replace (a ++ "")%string with a in H; [done|]; clear; induction a as [|c a IH]; [done|]; change (String c a ++ "")%string with (String c (a ++ "")); by rewrite <- IH). Qed.
Definition no (z : Z) (c : ascii) : bool := negb (isChar z c).
Lemma cut_app z a c b : every (no z) a = true -> isChar z c = true -> cut z (a ++ String c b) = Some (a, b).
Proof. intros E F. unfold cut. rewrite (span_app (no z)); [done|done|]. unfold no. by rewrite F. Qed.
Lemma cut_none z a : every (no z) a = true -> cut z a = None.
Proof. intros E. unfold cut. by rewrite (span_all (no z)). Qed.
Lemma assocS_none {A} z (l : list (string * A)) s : forallb (fun p => every (no z) (fst p)) l = true -> every (no z) s = false -> assocS l s = None.
Proof.
  intros K N. induction l as [|[y a] l IH]; [done|]. simpl in K. apply andb_true_iff in K as [K1 K2]. simpl.
  destruct (String.eqb s y) eqn:E; [|auto]. apply String.eqb_eq in E. subst. by rewrite K1 in N.
Qed.

(** ** Numbers *)
Lemma hex_digit d : 0 <= d < 16 -> hexDigit (digitChar d) = Some d.
Proof.
  intros H. assert (C : List.In d (map Z.of_nat (seq 0 16))). { replace d with (Z.of_nat (Z.to_nat d)) by lia. apply in_map, in_seq. lia. }
  simpl in C. repeat (destruct C as [<-|C]; [reflexivity|]). destruct C.
Qed.
Lemma digits_of base n z s : 2 <= base <= 16 -> 0 <= z < base ^ Z.of_nat n -> digits base 0 (digitsOf n base z s) = digits base z s.
Proof.
  intros B. revert z s. induction n as [|n IH]; intros z s H.
  - change (base ^ Z.of_nat 0) with 1 in H. by replace z with 0 by lia.
  - cbn [digitsOf]. pose proof (Z.mod_pos_bound z base ltac:(lia)) as M.
    assert (D : forall a, digits base a (String (digitChar (z mod base)) s) = digits base (base * a + z mod base) s).
    { intros a. cbn [digits]. rewrite hex_digit by lia. destruct (Z.ltb_spec (z mod base) base); [done|lia]. }
    destruct (Z.ltb_spec z base).
    + rewrite D, Z.mod_small by lia. f_equal. lia.
    + rewrite IH, D.
      * replace (base * (z / base) + z mod base) with z; [reflexivity|]. apply Z.div_mod. lia.
      * rewrite Nat2Z.inj_succ, Z.pow_succ_r in H by lia. split; [apply Z.div_pos; lia|]. apply Z.div_lt_upper_bound; lia.
Qed.
Lemma digits_zeros base n s : 2 <= base -> digits base 0 (zeros n s) = digits base 0 s.
Proof.
  intros B. induction n as [|n IH]; [done|]. cbn [zeros digits]. change (hexDigit "0") with (Some 0). cbv iota beta.
  destruct (Z.ltb_spec 0 base); [|lia]. replace (base * 0 + 0) with 0 by lia. exact IH.
Qed.
(** the first digit *)
Lemma digits_first n base z s : 2 <= base -> 0 < z < base ^ Z.of_nat n -> exists d r, 0 < d < base /\ digitsOf n base z s = String (digitChar d) r.
Proof.
  intros B. revert z s. induction n as [|n IH]; intros z s H.
  - change (base ^ Z.of_nat 0) with 1 in H. lia.
  - cbn [digitsOf]. destruct (Z.ltb_spec z base).
    + exists z, s. rewrite Z.mod_small by lia. split; [lia|done].
    + apply IH. rewrite Nat2Z.inj_succ, Z.pow_succ_r in H by lia. split.
      * assert (1 <= z / base) by (apply Z.div_le_lower_bound; lia). lia.
      * apply Z.div_lt_upper_bound; lia.
Qed.
Definition alnum (c : ascii) : bool := isLetter c || isDigit c.
Lemma digitChar_decimal d : 0 <= d < 10 -> isDigit (digitChar d) = true.
Proof.
  intros H. assert (C : List.In d (map Z.of_nat (seq 0 10))). { replace d with (Z.of_nat (Z.to_nat d)) by lia. apply in_map, in_seq. lia. }
  simpl in C. repeat (destruct C as [<-|C]; [reflexivity|]). destruct C.
Qed.
Lemma digitChar_alnum d : 0 <= d < 16 -> alnum (digitChar d) = true.
Proof.
  intros H. assert (C : List.In d (map Z.of_nat (seq 0 16))). { replace d with (Z.of_nat (Z.to_nat d)) by lia. apply in_map, in_seq. lia. }
  simpl in C. repeat (destruct C as [<-|C]; [reflexivity|]). destruct C.
Qed.
Lemma digits_every (p : ascii -> bool) n base z s : 0 < base -> (forall d, 0 <= d < base -> p (digitChar d) = true) -> every p s = true -> every p (digitsOf n base z s) = true.
Proof.
  intros B P. revert z s. induction n as [|n IH]; intros z s E; [done|]. cbn [digitsOf].
  assert (F : every p (String (digitChar (z mod base)) s) = true). { simpl. rewrite P, E; [done|]. apply Z.mod_pos_bound. lia. }
  destruct (z <? base); auto.
Qed.
Lemma zeros_every (p : ascii -> bool) n s : p "0"%char = true -> every p s = true -> every p (zeros n s) = true.
Proof. intros P E. induction n as [|n IH]; [done|]. simpl. by rewrite P, IH. Qed.

Definition word (z : Z) : bool := (0 <=? z) && (z <? 2 ^ 64).
Lemma word_bounds z : word z = true -> 0 <= z < 2 ^ 64.
Proof. unfold word. rewrite andb_true_iff, Z.leb_le, Z.ltb_lt. lia. Qed.
Lemma dec_every z : every isDigit (dec z) = true.
Proof. apply zeros_every; [done|]. apply digits_every; [lia|apply digitChar_decimal|done]. Qed.
Lemma dec_alnum z : every alnum (dec z) = true.
Proof. eapply every_imp, dec_every. intros c H. unfold alnum. rewrite H. apply orb_true_r. Qed.
Lemma hex_alnum k z : every alnum (hex k z) = true.
Proof. unfold hex, numeral. rewrite every_app. change (every alnum "0x") with true. apply zeros_every; [done|]. apply digits_every; [lia|apply digitChar_alnum|done]. Qed.
Lemma digit_not_e c : isDigit c = true -> negb (code c =? 101) = true.
Proof. unfold isDigit. rewrite andb_true_iff, !Z.leb_le. intros H. destruct (Z.eqb_spec (code c) 101); [lia|done]. Qed.
Lemma read_dec z : word z = true -> number (dec z) = Some z.
Proof.
  intros W. apply word_bounds in W. destruct (decide (z = 0)) as [->|N]; [reflexivity|].
  assert (L : z < 10 ^ Z.of_nat 70) by (eapply Z.lt_trans; [apply W|vm_compute; reflexivity]).
  pose proof (dec_every z) as E. unfold dec, numeral in *. cbn [Nat.sub] in *. change (zeros 0) with (fun s : string => s) in *. cbv beta in *.
  destruct (digits_first 70 10 z "") as (d & r & D & F); [lia|lia|].
  pose proof (digits_of 10 70 z "" ltac:(lia) ltac:(lia)) as G. rewrite F in *.
  assert (S' : span (fun c => negb (code c =? 101)) (String (digitChar d) r) = (String (digitChar d) r, "")).
  { apply span_all. eapply every_imp, E. apply digit_not_e. }
  assert (C : List.In d (map Z.of_nat (seq 1 9))). { replace d with (Z.of_nat (Z.to_nat d)) by lia. apply in_map, in_seq. lia. }
  change (number (String (digitChar d) r) = Some z).
  clear F E L D. cbn [seq map In] in C.
  repeat (destruct C as [<-|C]; [unfold number; rewrite S'; exact G|]). destruct C.
Qed.
Lemma digitsOf_cons n base z s : (0 < n)%nat -> exists c r, digitsOf n base z s = String c r.
Proof.
  intros L. assert (C : forall n z c r, exists c' r', digitsOf n base z (String c r) = String c' r').
  { clear. induction n as [|n IH]; intros z c r; [eauto|]. cbn [digitsOf]. destruct (z <? base); [eauto|]. apply IH. }
  destruct n; [lia|]. cbn [digitsOf]. destruct (z <? base); [eauto|]. apply C.
Qed.
Lemma read_hex k z : word z = true -> number (hex k z) = Some z.
Proof.
  intros W. apply word_bounds in W. unfold hex, numeral.
  assert (L : z < 16 ^ Z.of_nat 70) by (eapply Z.lt_trans; [apply W|vm_compute; reflexivity]).
  pose proof (digits_of 16 70 z "" ltac:(lia) ltac:(lia)) as G.
  destruct (digitsOf_cons 70 16 z "") as (c & r & F); [lia|]. rewrite F in *.
  assert (exists c' r', zeros (k - String.length (String c r)) (String c r) = String c' r') as (c' & r' & H) by (destruct (k - String.length (String c r))%nat; simpl; eauto).
  pose proof (digits_zeros 16 (k - String.length (String c r)) (String c r) ltac:(lia)) as Z0. rewrite H in *.
  change (number (String "0" (String "x" (String c' r'))) = Some z). change (digits 16 0 (String c' r') = Some z). by rewrite Z0, G.
Qed.

(** ** Operands *)
(** Names: letters, digits, underscore *)
Definition name (x : string) : bool := every alnum x.
(** characters of operands: no blank, no comma *)
Definition solid (c : ascii) : bool := negb (isSpace c) && no 44 c.
Ltac bychar := let c := fresh "c" in intros c; unfold alnum, solid, isSpace, no, isChar, isLetter, isDigit, code; destruct c as [[] [] [] [] [] [] [] []]; vm_compute; congruence.
Lemma alnum_solid : forall c, alnum c = true -> solid c = true. Proof. bychar. Qed.
Lemma alnum_36 : forall c, alnum c = true -> no 36 c = true. Proof. bychar. Qed.
Lemma alnum_40 : forall c, alnum c = true -> no 40 c = true. Proof. bychar. Qed.
Lemma alnum_43 : forall c, alnum c = true -> no 43 c = true. Proof. bychar. Qed.
Lemma alnum_47 : forall c, alnum c = true -> no 47 c = true. Proof. bychar. Qed.
Lemma alnum_60 : forall c, alnum c = true -> no 60 c = true. Proof. bychar. Qed.
Lemma solid_44 : forall c, solid c = true -> no 44 c = true. Proof. bychar. Qed.
Lemma solid_space : forall c, solid c = true -> isSpace c = false. Proof. bychar. Qed.

Lemma read_g r : readOperand (gName r) = Some (OGpr r). Proof. by destruct r. Qed.
Lemma read_b r : readOperand (bName r) = Some (OLow r). Proof. by destruct r. Qed.
Lemma read_x r : readOperand (xName r) = Some (OXmm r). Proof. by destruct r. Qed.
Lemma read_imm z : word z = true -> readOperand (imm z) = Some (OImm z).
Proof. intros W. change (option_map OImm (number (hex 2 z)) = Some (OImm z)). by rewrite read_hex. Qed.
Lemma read_imm4 z : word z = true -> readOperand ("$" ++ hex 4 z)%string = Some (OImm z).
Proof. intros W. change (option_map OImm (number (hex 4 z)) = Some (OImm z)). by rewrite read_hex. Qed.

(** An operand with a parenthesis is no register and no constant. *)
Lemma read_paren p q : every (no 40) p = true -> every (no 36) (p ++ String "(" q)%string = true ->
  readOperand (p ++ String "(" q) =
    match q with
    | "FP)" => option_map (fun '(x, o) => OArg x o) (nameOff p)
    | "SB)" => match nameOff p with Some (x, o) => match cut 60 x with Some (y, ">") => Some (OSym y o) | _ => None end | None => None end
    | _ => match cut 41 q with
           | Some (r, "") => match assocS AsmText.gprs r with Some g => if String.eqb p "" then Some (OMem 0 g) else option_map (fun z => OMem z g) (number p) | None => None end
           | _ => None
           end
    end.
Proof.
  intros P D. unfold readOperand.
  assert (N : every (no 40) (p ++ String "(" q) = false). { rewrite every_app. change (every (no 40) (String "(" q)) with false. apply andb_false_r. }
  rewrite !(assocS_none 40) by done. rewrite (cut_none 36) by done. rewrite (cut_app 40) by done. reflexivity.
Qed.
Lemma at_every (p : ascii -> bool) r d : (forall c, isDigit c = true -> p c = true) -> every p (String "(" (gName r ++ ")")) = true -> every p (at_ r d) = true.
Proof.
  intros D E. unfold at_. rewrite every_app. change ("(" ++ gName r ++ ")")%string with (String "(" (gName r ++ ")")). rewrite E.
  destruct (d =? 0); [done|]. by rewrite (every_imp isDigit p _ D (dec_every d)).
Qed.
Lemma digit_40 c : isDigit c = true -> no 40 c = true. Proof. intros H. apply alnum_40. unfold alnum. rewrite H. apply orb_true_r. Qed.
Lemma digit_36 c : isDigit c = true -> no 36 c = true. Proof. intros H. apply alnum_36. unfold alnum. rewrite H. apply orb_true_r. Qed.
Lemma digit_solid c : isDigit c = true -> solid c = true. Proof. intros H. apply alnum_solid. unfold alnum. rewrite H. apply orb_true_r. Qed.
Lemma dec_nonempty d : word d = true -> String.eqb (dec d) "" = false.
Proof. intros W. destruct (String.eqb_spec (dec d) "") as [E|]; [|done]. pose proof (read_dec d W) as R. rewrite E in R. discriminate R. Qed.
Lemma read_at r d : word d = true -> readOperand (at_ r d) = Some (OMem d r).
Proof.
  intros W. assert (X : every (no 36) (at_ r d) = true). { apply at_every; [apply digit_36|by destruct r]. }
  unfold at_ in *. change ("(" ++ gName r ++ ")")%string with (String "(" (gName r ++ ")")) in *.
  rewrite read_paren; [|destruct (d =? 0); [done|]; apply (every_imp isDigit _ _ digit_40), dec_every|exact X].
  destruct (Z.eqb_spec d 0) as [->|N]; [by destruct r|].
  pose proof (dec_nonempty d W) as E. pose proof (read_dec d W) as R.
  generalize dependent (dec d). intros s _ E R. destruct r; cbn; rewrite E, R; reflexivity.
Qed.
Lemma read_arg x o : name x = true -> word o = true -> readOperand (x ++ "+" ++ dec o ++ "(FP)")%string = Some (OArg x o).
Proof.
  intros N W. replace (x ++ "+" ++ dec o ++ "(FP)")%string with ((x ++ "+" ++ dec o) ++ String "(" "FP)")%string by (rewrite !app_assoc_s; reflexivity).
  rewrite read_paren.
  - unfold nameOff. change (x ++ "+" ++ dec o)%string with (x ++ String "+" (dec o))%string. rewrite (cut_app 43); [|apply (every_imp alnum _ _ alnum_43), N|done].
    by rewrite read_dec.
  - rewrite !every_app, (every_imp alnum _ _ alnum_40 N), (every_imp alnum _ _ alnum_40 (dec_alnum o)). done.
  - rewrite !every_app, (every_imp alnum _ _ alnum_36 N), (every_imp alnum _ _ alnum_36 (dec_alnum o)). done.
Qed.
Lemma read_sym x : name x = true -> readOperand (x ++ "<>+0(SB)")%string = Some (OSym x 0).
Proof.
  intros N. replace (x ++ "<>+0(SB)")%string with ((x ++ "<>+0") ++ String "(" "SB)")%string by (rewrite !app_assoc_s; reflexivity).
  rewrite read_paren.
  - unfold nameOff. replace (x ++ "<>+0")%string with ((x ++ "<>") ++ String "+" "0")%string by (rewrite !app_assoc_s; reflexivity).
    rewrite (cut_app 43); [|rewrite every_app, (every_imp alnum _ _ alnum_43 N); done|done].
    change (number "0") with (Some 0). cbn [option_map]. change (x ++ "<>")%string with (x ++ String "<" ">")%string.
    rewrite (cut_app 60); [done|apply (every_imp alnum _ _ alnum_60), N|done].
  - rewrite !every_app, (every_imp alnum _ _ alnum_40 N). done.
  - rewrite !every_app, (every_imp alnum _ _ alnum_36 N). done.
Qed.

(** ** Lists of operands *)
Lemma trim_solid s : every solid s = true -> trim s = s.
Proof. unfold trim. destruct s as [|c s]; [done|]. cbn [every span]. rewrite andb_true_iff. intros [H _]. by rewrite (solid_space _ H). Qed.
Lemma trim_space s : every solid s = true -> trim (String " " s) = s.
Proof. intros E. pose proof (trim_solid s E) as T. unfold trim in *. cbn [span]. change (isSpace " ") with true. cbv iota. destruct (span isSpace s) as [a b]. exact T. Qed.
Lemma fields_one n s : every solid s = true -> fields (S n) (String " " s) = [s].
Proof. intros E. cbn [fields]. rewrite (cut_none 44 (String " " s)); [by rewrite trim_space|]. cbn [every]. by rewrite (every_imp _ _ _ solid_44 E). Qed.
Lemma fields_next n s t : every solid s = true -> fields (S n) (String " " (s ++ ", " ++ t)) = s :: fields n (String " " t).
Proof.
  intros E. cbn [fields]. change (String " " (s ++ ", " ++ t))%string with (String " " s ++ String "," (String " " t))%string.
  rewrite (cut_app 44); [by rewrite trim_space| |done]. cbn [every]. by rewrite (every_imp _ _ _ solid_44 E).
Qed.
Lemma fields_first n s t : every solid s = true -> fields (S n) (s ++ ", " ++ t) = s :: fields n (String " " t).
Proof.
  intros E. cbn [fields]. change (s ++ ", " ++ t)%string with (s ++ String "," (String " " t))%string.
  rewrite (cut_app 44); [by rewrite trim_solid|by apply (every_imp _ _ _ solid_44)|done].
Qed.
(** [s] is read as the operand [o]. *)
Definition reads (s : string) (o : operand) : Prop := every solid s = true /\ readOperand s = Some o.
(** [a] is read as the operands [l]. *)
Definition readsAll (a : string) (l : list operand) : Prop := trim a = a /\ String.eqb a "" = false /\ allSome (map readOperand (fields 9 a)) = Some l.
Lemma trim_first s t : every solid s = true -> trim (s ++ ", " ++ t)%string = (s ++ ", " ++ t)%string.
Proof.
  intros E. unfold trim. destruct s as [|c s]; [reflexivity|]. cbn [every] in E. apply andb_true_iff in E as [E _].
  change (String c s ++ ", " ++ t)%string with (String c (s ++ ", " ++ t)). cbn [span]. by rewrite (solid_space _ E).
Qed.
Lemma nonempty_first s t : String.eqb (s ++ ", " ++ t)%string "" = false.
Proof. by destruct s. Qed.
Lemma reads2 a b oa ob : reads a oa -> reads b ob -> readsAll (a ++ ", " ++ b)%string [oa; ob].
Proof.
  intros [A RA] [B RB]. repeat split; [by apply trim_first|by apply nonempty_first|].
  rewrite fields_first, fields_one by done. cbn [map allSome]. by rewrite RA, RB.
Qed.
Lemma reads3 a b c oa ob oc : reads a oa -> reads b ob -> reads c oc -> readsAll (a ++ ", " ++ b ++ ", " ++ c)%string [oa; ob; oc].
Proof.
  intros [A RA] [B RB] [C RC]. repeat split; [by apply trim_first|by apply nonempty_first|].
  rewrite fields_first, fields_next, fields_one by done. cbn [map allSome]. by rewrite RA, RB, RC.
Qed.
Lemma reads4 a b c d oa ob oc od : reads a oa -> reads b ob -> reads c oc -> reads d od -> readsAll (a ++ ", " ++ b ++ ", " ++ c ++ ", " ++ d)%string [oa; ob; oc; od].
Proof.
  intros [A RA] [B RB] [C RC] [D RD]. repeat split; [by apply trim_first|by apply nonempty_first|].
  rewrite fields_first, !fields_next, fields_one by done. cbn [map allSome]. by rewrite RA, RB, RC, RD.
Qed.
Lemma reads_g r : reads (gName r) (OGpr r). Proof. split; [by destruct r|apply read_g]. Qed.
Lemma reads_x r : reads (xName r) (OXmm r). Proof. split; [by destruct r|apply read_x]. Qed.
Lemma reads_b r : reads (bName r) (OLow r). Proof. split; [by destruct r|by apply read_b]. Qed.
Lemma reads_imm z : word z = true -> reads (imm z) (OImm z).
Proof. intros W. split; [|by apply read_imm]. unfold imm. rewrite every_app, (every_imp alnum _ _ alnum_solid (hex_alnum 2 z)). done. Qed.
Lemma reads_at r d : word d = true -> reads (at_ r d) (OMem d r).
Proof. intros W. split; [|by apply read_at]. apply at_every; [apply digit_solid|by destruct r]. Qed.

(** ** Instructions *)
Section routine.
Variable data : list (string * Z).
Variable sg : signature.
Variable rg : nat -> gpr.
Variable rx : nat -> xreg.
Notation env := (param_env sg ++ result_env sg).
Definition argument (o : Z) : bool := word o && existsb (fun p => fst (snd p) =? o) env.
(** What can be written: constants and offsets are words, the arguments and the constant
    data exist. *)
Definition writable (i : vinstr) : bool :=
  match i with
  | vMOVQ_arg o _ | vMOVWQZX_arg o _ | vMOVW_ret _ o | vVBROADCASTSS_arg o _ => argument o
  | vSHLQ n _ | vSHRQ n _ | vVLDDQU n _ _ | vVMOVDQU _ n _ | vVPALIGNR n _ _ _ | vVPSLLDQ n _ _ | vVPSHUFD n _ _ => word n
  | vVPBROADCASTW c _ => existsb (fun p => snd p =? c) data
  | _ => true
  end.
Hypothesis names : forallb (fun p => name (fst p)) env = true.
Hypothesis dataNames : forallb (fun p => name (fst p)) data = true.
Hypothesis dataOnce : NoDup (map fst data).
Lemma found {A} (f : A -> bool) l : existsb f l = true -> exists x, List.find f l = Some x /\ f x = true /\ List.In x l.
Proof.
  induction l as [|x l IH]; [done|]. cbn [existsb List.find]. destruct (f x) eqn:E; [intros _; exists x; simpl; auto|].
  intros H. destruct (IH H) as (y & F & K & I). exists y. simpl. auto.
Qed.
Lemma reads_fp o : argument o = true -> exists x, reads (fp sg o) (OArg x o).
Proof.
  unfold argument. rewrite andb_true_iff. intros [W H]. destruct (found _ _ H) as ((n & o' & t) & F & E & I). simpl in E. apply Z.eqb_eq in E. subst o'.
  unfold fp. rewrite F. pose proof (proj1 (List.forallb_forall _ _) names _ I) as N. cbn [fst] in N.
  set (x := (n ++ match t with TSlice => "_base" | _ => "" end)%string).
  assert (Nx : name x = true). { unfold x, name. rewrite every_app. unfold name in N. rewrite N. by destruct t. }
  exists x. replace (n ++ match t with TSlice => "_base" | _ => "" end ++ "+" ++ dec o ++ "(FP)")%string with (x ++ "+" ++ dec o ++ "(FP)")%string by (unfold x; rewrite !app_assoc_s; reflexivity).
  split; [|by apply read_arg]. unfold name in Nx. rewrite !every_app, (every_imp alnum _ _ alnum_solid Nx), (every_imp alnum _ _ alnum_solid (dec_alnum o)). done.
Qed.
Lemma reads_sb c : existsb (fun p => snd p =? c) data = true -> exists x, reads (sb data c) (OSym x 0) /\ assocS data x = Some c.
Proof.
  intros H. destruct (found _ _ H) as ((n & c') & F & E & I). simpl in E. apply Z.eqb_eq in E. subst c'.
  unfold sb. rewrite F. pose proof (proj1 (List.forallb_forall _ _) dataNames _ I) as N. cbn [fst] in N. exists n. split.
  - split; [|by apply read_sym]. unfold name in N. rewrite every_app, (every_imp alnum _ _ alnum_solid N). done.
  - clear - I dataOnce. induction data as [|[y b] l IH]; [destruct I|]. cbn [assocS]. cbn [map fst] in dataOnce. apply NoDup_cons in dataOnce as [D1 D2].
    destruct (String.eqb_spec n y) as [->|Ne]; [|destruct I as [[= -> ->]|I]; [done|auto]].
    destruct I as [[= ->]|I]; [done|]. exfalso. apply D1. apply elem_of_list_In. apply (in_map fst _ _ I).
Qed.
Definition mnemonic (o : string) : bool :=
  every (fun c => (65 <=? code c) && (code c <=? 90)) o && negb (String.eqb o "") && negb (String.eqb o "DATA") && negb (String.eqb o "GLOBL") && negb (String.eqb o "TEXT").
Lemma read_printed i : writable i = true -> exists ops, let '(o, a) := printInstr data sg rg rx i in
  mnemonic o = true /\ readsAll a ops /\ instruction data o ops = Some (assign rg rx i).
Proof.
  intros W.
  destruct i; cbn [writable] in W; cbn [printInstr];
  try match type of W with argument ?o = true => destruct (reads_fp o W) as (x & X) end;
  try match type of W with existsb _ data = true => destruct (reads_sb _ W) as (x & X & V) end;
  (eexists; split; [reflexivity|]; split;
   [first [eapply reads4|eapply reads3|eapply reads2];
    first [exact X|apply reads_g|apply reads_x|apply reads_b|apply reads_imm; exact W|apply reads_at; first [exact W|reflexivity]]
   |first [reflexivity|cbn; rewrite V; reflexivity|match goal with n : Z |- _ => destruct n; reflexivity end]]).
Qed.
End routine.

(** ** Lines *)
Lemma upper_letter : forall c, (65 <=? code c) && (code c <=? 90) = true -> isSpace c = false /\ Ascii.eqb "/" c = false /\ Ascii.eqb "#" c = false.
Proof. intros c. unfold isSpace, code. destruct c as [[] [] [] [] [] [] [] []]; vm_compute; intuition congruence. Qed.
Definition step (st : rstate) (x : routine) (i : instr) (ops : list operand) : rstate :=
  RState (st_data st) (st_sizes st) (st_done st) (st_doc st)
    (Some (Routine (r_name x) (r_doc x) (r_flags x) (r_frame x) (r_args x) (r_code x ++ [i]) (r_refs x ++ argRefs ops))).
Lemma trim_spaces k a : trim a = a -> trim (spaces k ++ " " ++ a)%string = a.
Proof.
  intros T. assert (S1 : forall s, trim (String " " s) = trim s). { intros s. unfold trim. cbn [span]. change (isSpace " ") with true. cbv iota. by destruct (span isSpace s). }
  induction k as [|k IH]; [change (trim (String " " a) = a); by rewrite S1|]. change (trim (String " " (spaces k ++ " " ++ a)) = a). by rewrite S1.
Qed.
Lemma read_line st x o k a ops i : st_open st = Some x -> mnemonic o = true -> readsAll a ops -> instruction (st_data st) o ops = Some i ->
  readLine st (String tab (o ++ spaces k ++ " " ++ a)) = Some (step st x i ops).
Proof.
  intros Op M (T & Ne & R) I. unfold mnemonic in M. rewrite !andb_true_iff, !negb_true_iff in M. destruct M as ((((U & N0) & N1) & N2) & N3).
  destruct o as [|c o]; [discriminate N0|]. pose proof U as U'. cbn [every] in U'. apply andb_true_iff in U' as [Uc _]. destruct (upper_letter c Uc) as (Sp & Sl & Ha).
  set (rest := (spaces k ++ " " ++ a)%string).
  assert (Tl : trim (String tab (String c o ++ rest)) = String c (o ++ rest)).
  { unfold trim. change (String tab (String c o ++ rest)) with (String tab (String c (o ++ rest))). cbn [span]. change (isSpace tab) with true. cbv iota. by rewrite Sp. }
  assert (Sn : span (fun d => negb (isSpace d)) (String c (o ++ rest)) = (String c o, rest)).
  { change (String c (o ++ rest)) with (String c o ++ rest)%string. apply span_app.
    - eapply every_imp, U. intros d Hd. by rewrite (proj1 (upper_letter d Hd)).
    - unfold rest. by destruct k. }
  assert (Nr : String.eqb (String c (o ++ rest)) "RET" = false).
  { destruct (String.eqb_spec (String c (o ++ rest)) "RET") as [E|]; [|done]. rewrite E in Sn. vm_compute in Sn. injection Sn as _ _ Er. unfold rest in Er. by destruct k. }
  unfold readLine. rewrite Tl. cbv zeta. rewrite Sn.
  change (strip "// " (String c (o ++ rest))) with (if Ascii.eqb "/" c then strip "/ " (o ++ rest) else None). rewrite Sl.
  change (strip "#include " (String c (o ++ rest))) with (if Ascii.eqb "#" c then strip "include " (o ++ rest) else None). rewrite Ha.
  rewrite N1, N2, N3, Op, Nr. unfold rest. rewrite (trim_spaces k a T), R, I. reflexivity.
Qed.
Lemma readLines_app st l k : readLines st (l ++ k) = match readLines st l with Some st' => readLines st' k | None => None end.
Proof. revert st. induction l as [|x l IH]; intros st; [done|]. cbn [readLines app]. destruct (readLine st x); [apply IH|done]. Qed.
Lemma read_ret st x : st_open st = Some x -> readLine st (String tab "RET") = Some (RState (st_data st) (st_sizes st) (st_done st ++ [x]) [] None).
Proof. intros Op. unfold readLine. cbn. by rewrite Op. Qed.
(** The lines of a body *)
Lemma read_body data sg rg rx w c : forallb (fun p => name (fst p)) (param_env sg ++ result_env sg) = true -> forallb (fun p => name (fst p)) data = true -> NoDup (map fst data) ->
  forallb (writable data sg) c = true ->
  forall g dn doc x, exists refs,
  readLines (RState data g dn doc (Some x))
    (map (fun '(o, a) => String tab (if String.eqb a "" then o else o ++ spaces (w - String.length o) ++ " " ++ a)%string) (map (printInstr data sg rg rx) c ++ [("RET", "")])) =
  Some (RState data g (dn ++ [Routine (r_name x) (r_doc x) (r_flags x) (r_frame x) (r_args x) (r_code x ++ map (assign rg rx) c) refs]) [] None).
Proof.
  intros N1 N2 N3. induction c as [|i c IH]; intros W g dn doc x.
  - exists (r_refs x). cbn [map app readLines]. change (String.eqb "" "") with true. cbv iota. rewrite (read_ret _ x) by done. cbn [st_data st_sizes st_done]. rewrite app_nil_r. by destruct x.
  - cbn [forallb] in W. apply andb_true_iff in W as [Wi Wc]. destruct (read_printed data sg rg rx N1 N2 N3 i Wi) as (ops & P).
    cbn [map app]. destruct (printInstr data sg rg rx i) as [o a]. destruct P as (M & R & I). pose proof R as (_ & Ne & _). rewrite Ne. cbn [readLines].
    rewrite (read_line _ x o _ a ops (assign rg rx i)) by done. unfold step. cbn [st_data st_sizes st_done st_doc].
    destruct (IH Wc g dn doc (Routine (r_name x) (r_doc x) (r_flags x) (r_frame x) (r_args x) (r_code x ++ [assign rg rx i]) (r_refs x ++ argRefs ops))) as (refs & E).
    exists refs. rewrite E. cbn [r_name r_doc r_flags r_frame r_args r_code]. by rewrite <- app_assoc.
Qed.
Lemma read_comment st c : readLine st ("// " ++ c) = Some (RState (st_data st) (st_sizes st) (st_done st) (st_doc st ++ [c]) (st_open st)).
Proof. reflexivity. Qed.
Definition comment (l : string) : Prop := exists c, l = ("// " ++ c)%string.
Lemma read_comments ls : List.Forall comment ls -> forall d g dn doc op, exists doc', readLines (RState d g dn doc op) ls = Some (RState d g dn doc' op).
Proof.
  induction 1 as [|l ls (c & ->) _ IH]; intros d g dn doc op; [exists doc; done|]. cbn [readLines]. rewrite read_comment. cbn [st_data st_sizes st_done st_doc st_open]. apply IH.
Qed.
Lemma feature_comment c : List.Forall comment (featureLine c).
Proof.
  unfold featureLine. cbv zeta. destruct (existsb _ c); destruct (existsb _ c); cbn [app]; repeat constructor; eexists; reflexivity.
Qed.
Lemma read_text st x n : name x = true -> word n = true -> st_open st = None ->
  readLine st ("TEXT ·" ++ x ++ "(SB), NOSPLIT, $0-" ++ dec n) = Some (RState (st_data st) (st_sizes st) (st_done st) [] (Some (Routine x (st_doc st) "NOSPLIT" 0 n [] []))).
Proof.
  intros N W Op. unfold name in N.
  assert (R : readText (st_doc st) ("·" ++ x ++ "(SB), NOSPLIT, $0-" ++ dec n)%string = Some (Routine x (st_doc st) "NOSPLIT" 0 n [] [])).
  { unfold readText.
    replace ("·" ++ x ++ "(SB), NOSPLIT, $0-" ++ dec n)%string with (("·" ++ x ++ "(SB)") ++ ", " ++ "NOSPLIT" ++ ", " ++ ("$0-" ++ dec n))%string by (rewrite !app_assoc_s; reflexivity).
    rewrite fields_first; [|rewrite !every_app, (every_imp alnum _ _ alnum_solid N); done].
    rewrite fields_next by done. rewrite fields_one; [|rewrite every_app, (every_imp alnum _ _ alnum_solid (dec_alnum n)); done].
    change (strip "·" ("·" ++ x ++ "(SB)")) with (Some (x ++ "(SB)")%string).
    change (cut 36 ("$0-" ++ dec n)) with (Some ("", ("0-" ++ dec n)%string)). cbv iota beta.
    change (x ++ "(SB)")%string with (x ++ String "(" "SB)")%string. rewrite (cut_app 40); [|by apply (every_imp alnum _ _ alnum_40)|done].
    change (cut 45 ("0-" ++ dec n)) with (Some ("0", dec n)). change (number "0") with (Some 0). cbv iota beta. rewrite read_dec by done. reflexivity. }
  unfold readLine.
  change (trim ("TEXT ·" ++ x ++ "(SB), NOSPLIT, $0-" ++ dec n)) with ("TEXT ·" ++ x ++ "(SB), NOSPLIT, $0-" ++ dec n)%string. cbv zeta.
  change ("TEXT ·" ++ x ++ "(SB), NOSPLIT, $0-" ++ dec n)%string with (String "T" ("EXT ·" ++ x ++ "(SB), NOSPLIT, $0-" ++ dec n))%string. cbv iota.
  change (strip "// " (String "T" ("EXT ·" ++ x ++ "(SB), NOSPLIT, $0-" ++ dec n))%string) with (@None string).
  change (strip "#include " (String "T" ("EXT ·" ++ x ++ "(SB), NOSPLIT, $0-" ++ dec n))%string) with (@None string).
  change (span (fun c => negb (isSpace c)) (String "T" ("EXT ·" ++ x ++ "(SB), NOSPLIT, $0-" ++ dec n))%string) with ("TEXT", (" ·" ++ x ++ "(SB), NOSPLIT, $0-" ++ dec n)%string).
  cbv iota. change (String.eqb "TEXT" "DATA") with false. change (String.eqb "TEXT" "GLOBL") with false. change (String.eqb "TEXT" "TEXT") with true. cbv iota. rewrite Op.
  change (trim (" ·" ++ x ++ "(SB), NOSPLIT, $0-" ++ dec n)) with ("·" ++ x ++ "(SB), NOSPLIT, $0-" ++ dec n)%string. by rewrite R.
Qed.
Lemma read_data d g dn doc p : name (fst p) = true -> word (snd p) = true ->
  readLines (RState d g dn doc None) (printData p) = Some (RState (d ++ [p]) (g ++ [(fst p, ("RODATA|NOPTR", 2))]) dn doc None).
Proof.
  destruct p as [x z]. cbn [fst snd]. intros N W. unfold name in N. unfold printData. cbn [fst snd readLines].
  assert (R : readData (" " ++ x ++ "<>+0(SB)/2, $" ++ hex 4 z)%string = Some (x, z)).
  { unfold readData.
    replace (" " ++ x ++ "<>+0(SB)/2, $" ++ hex 4 z)%string with (String " " ((x ++ "<>+0(SB)/2") ++ ", " ++ ("$" ++ hex 4 z)))%string by (rewrite !app_assoc_s; reflexivity).
    rewrite fields_next; [|rewrite every_app, (every_imp alnum _ _ alnum_solid N); done].
    rewrite fields_one; [|rewrite every_app, (every_imp alnum _ _ alnum_solid (hex_alnum 4 z)); done].
    replace (x ++ "<>+0(SB)/2")%string with ((x ++ "<>+0(SB)") ++ String "/" "2")%string by (rewrite !app_assoc_s; reflexivity).
    rewrite (cut_app 47); [|rewrite every_app, (every_imp alnum _ _ alnum_47 N); done|done].
    by rewrite read_sym, read_imm4. }
  assert (G : readGlobl (" " ++ x ++ "<>(SB), RODATA|NOPTR, $2")%string = Some (x, ("RODATA|NOPTR", 2))).
  { unfold readGlobl.
    replace (" " ++ x ++ "<>(SB), RODATA|NOPTR, $2")%string with (String " " ((x ++ "<>(SB)") ++ ", " ++ "RODATA|NOPTR" ++ ", " ++ "$2"))%string by (rewrite !app_assoc_s; reflexivity).
    rewrite fields_next; [|rewrite every_app, (every_imp alnum _ _ alnum_solid N); done].
    rewrite fields_next by done. rewrite fields_one by done.
    change (x ++ "<>(SB)")%string with (x ++ String "<" ">(SB)")%string. rewrite (cut_app 60); [|by apply (every_imp alnum _ _ alnum_60)|done]. reflexivity. }
  assert (L1 : forall st, readLine st ("DATA " ++ x ++ "<>+0(SB)/2, $" ++ hex 4 z)%string = match readData (" " ++ x ++ "<>+0(SB)/2, $" ++ hex 4 z)%string with
     Some d => Some (RState (st_data st ++ [d]) (st_sizes st) (st_done st) (st_doc st) (st_open st)) | None => None end) by reflexivity.
  assert (L2 : forall st, readLine st ("GLOBL " ++ x ++ "<>(SB), RODATA|NOPTR, $2")%string = match readGlobl (" " ++ x ++ "<>(SB), RODATA|NOPTR, $2")%string with
     Some g => Some (RState (st_data st) (st_sizes st ++ [g]) (st_done st) (st_doc st) (st_open st)) | None => None end) by reflexivity.
  rewrite L1, R, L2, G. reflexivity.
Qed.

(** ** Files *)
Definition clear (st : rstate) : rstate := RState (st_data st) (st_sizes st) (st_done st) [] (st_open st).
Fixpoint readBlocks (st : rstate) (bs : list (list string)) : option rstate :=
  match bs with [] => Some (clear st) | b :: r => match readLines st b with Some st' => readBlocks (clear st') r | None => None end end.
Lemma read_blocks bs : forall st, option_map clear (readLines st (blocks bs)) = readBlocks st bs.
Proof.
  induction bs as [|b bs IH]; intros st; [done|]. destruct bs as [|b' bs].
  - cbn [blocks readBlocks]. by destruct (readLines st b).
  - change (blocks (b :: b' :: bs)) with (b ++ "" :: blocks (b' :: bs)). rewrite readLines_app. cbn [readBlocks].
    destruct (readLines st b) as [st'|]; [|done]. cbn [readLines]. change (readLine st' "") with (Some (clear st')). apply IH.
Qed.
Lemma read_datas rs data : forall d g, forallb (fun p => name (fst p)) data = true -> forallb (fun p => word (snd p)) data = true ->
  readBlocks (RState d g [] [] None) (map printData data ++ rs) = readBlocks (RState (d ++ data) (g ++ map (fun p => (fst p, ("RODATA|NOPTR", 2))) data) [] [] None) rs.
Proof.
  induction data as [|p data IH]; intros d g N W; [cbn; by rewrite !app_nil_r|].
  cbn [forallb] in N, W. apply andb_true_iff in N as [N1 N2], W as [W1 W2]. cbn [map app readBlocks]. rewrite read_data by done.
  unfold clear. cbn [st_data st_sizes st_done st_open]. rewrite IH by done. by rewrite <- !app_assoc.
Qed.
(** What a description says about a routine *)
Definition as_described (d : desc) (r : routine) : Prop :=
  r_name r = d_name d /\ r_flags r = "NOSPLIT" /\ r_frame r = 0 /\ r_args r = arg_bytes (d_sig d) /\
  exists rg rx, registers (d_state d) = Some (rg, rx) /\ r_code r = map (assign rg rx) (emitted (d_state d)).
Definition writableDesc (data : list (string * Z)) (d : desc) : bool :=
  name (d_name d) && word (arg_bytes (d_sig d)) && forallb (fun p => name (fst p)) (param_env (d_sig d) ++ result_env (d_sig d)) &&
  forallb (writable data (d_sig d)) (emitted (d_state d)).
Lemma read_routine data d b : forallb (fun p => name (fst p)) data = true -> NoDup (map fst data) -> writableDesc data d = true -> printRoutine data d = Some b ->
  forall g dn, exists r doc, readLines (RState data g dn [] None) b = Some (RState data g (dn ++ [r]) doc None) /\ as_described d r.
Proof.
  intros Nd Od W P g dn. unfold writableDesc in W. rewrite !andb_true_iff in W. destruct W as (((W1 & W2) & W3) & W4).
  unfold printRoutine in P. destruct (registers (d_state d)) as [[rg rx]|] eqn:Rg; [|discriminate P].
  destruct (strip "func" (d_text d)) as [t|]; [|discriminate P]. destruct (d_ret d); [|discriminate P]. apply Some_inj in P. subst b.
  rewrite app_assoc, readLines_app.
  destruct (read_comments ([("// func " ++ d_name d ++ t)%string] ++ featureLine (map (assign rg rx) (emitted (d_state d))))) with (d := data) (g := g) (dn := dn) (doc := @nil string) (op := @None routine) as (doc & E).
  { constructor; [by eexists ("func " ++ d_name d ++ t)%string|apply feature_comment]. }
  rewrite E. cbn [app readLines]. rewrite read_text by done. cbn [st_data st_sizes st_done st_doc].
  unfold aligned. cbv zeta. set (w := fold_right Nat.max _ _).
  destruct (read_body data (d_sig d) rg rx w (emitted (d_state d)) W3 Nd Od W4 g dn [] (Routine (d_name d) doc "NOSPLIT" 0 (arg_bytes (d_sig d)) [] [])) as (refs & F).
  rewrite F. eexists _, []. split; [reflexivity|]. repeat split. exists rg, rx. done.
Qed.
Lemma read_routines data ds : forallb (fun p => name (fst p)) data = true -> NoDup (map fst data) ->
  forallb (writableDesc data) ds = true -> forall bs, allSome (map (printRoutine data) ds) = Some bs ->
  forall g dn, exists rs, readBlocks (RState data g dn [] None) bs = Some (RState data g (dn ++ rs) [] None) /\ List.Forall2 as_described ds rs.
Proof.
  intros Nd Od. induction ds as [|d ds IH]; intros W bs P g dn.
  - injection P as <-. exists []. cbn. rewrite app_nil_r. split; [done|constructor].
  - cbn [forallb] in W. apply andb_true_iff in W as [W1 W2]. cbn [map allSome] in P.
    destruct (printRoutine data d) as [b|] eqn:Pd; [|discriminate P]. destruct (allSome (map (printRoutine data) ds)) as [bs'|] eqn:Ps; [|discriminate P].
    injection P as <-. destruct (read_routine data d b Nd Od W1 Pd g dn) as (r & doc & E & A). cbn [readBlocks]. rewrite E.
    unfold clear. cbn [st_data st_sizes st_done st_open].
    destruct (IH W2 bs' eq_refl g (dn ++ [r])) as (rs & F & B). exists (r :: rs). rewrite F, <- app_assoc. split; [done|]. by constructor.
Qed.
Definition constants (s : gst) : list (string * Z) := rev (g_data s).
(** The state of a generator whose file can be written: the names are letters, digits and
    underscores, no constant is declared twice, the numbers are words *)
Definition writableFile (s : gst) : Prop :=
  forallb (fun p => name (fst p) && word (snd p)) (constants s) = true /\ NoDup (map fst (constants s)) /\
  forallb (writableDesc (constants s)) (rev (g_descs s)) = true.
(** *** Reading what was printed *)
Theorem C66_read_back : forall args s ls, writableFile s -> printFile args s = Some ls ->
  exists rs, readAsm ls = Some (AsmFile (constants s) (map (fun p => (fst p, ("RODATA|NOPTR", 2))) (constants s)) rs) /\
    List.Forall2 as_described (rev (g_descs s)) rs.
Proof.
  intros args s ls (N & O & W) P. unfold printFile in P. cbv zeta in P. fold (constants s) in P.
  destruct (allSome (map (printRoutine (constants s)) (rev (g_descs s)))) as [bs|] eqn:E; [|discriminate P]. injection P as <-.
  assert (N1 : forallb (fun p => name (fst p)) (constants s) = true /\ forallb (fun p => word (snd p)) (constants s) = true).
  { clear - N. induction (constants s) as [|p l IH]; [done|]. cbn [forallb] in *. rewrite !andb_true_iff in *. destruct N as [[A B] C]. destruct (IH C). auto. }
  destruct N1 as [N1 N2].
  destruct (read_routines (constants s) (rev (g_descs s)) N1 O W bs E (map (fun p => (fst p, ("RODATA|NOPTR", 2))) (constants s)) []) as (rs & F & A).
  exists rs. split; [|exact A].
  set (head := ("// Code generated by command: go run asm.go " ++ args ++ ". DO NOT EDIT.")%string).
  set (all := [[head]; ["#include ""textflag.h"""]] ++ map printData (constants s) ++ bs).
  pose proof (read_blocks all (RState [] [] [] [] None)) as R.
  assert (Rb : readBlocks (RState [] [] [] [] None) all = Some (RState (constants s) (map (fun p => (fst p, ("RODATA|NOPTR", 2))) (constants s)) rs [] None)).
  { unfold all. cbn [app].
    assert (H1 : forall r, readBlocks (RState [] [] [] [] None) ([head] :: ["#include ""textflag.h"""] :: r) = readBlocks (RState [] [] [] [] None) r) by (intros; reflexivity).
    rewrite H1.
    rewrite read_datas by done. cbn [app]. exact F. }
  match goal with |- _ = ?r => change (readAsm (blocks all) = r) end. unfold readAsm.
  rewrite Rb in R. destruct (readLines (RState [] [] [] [] None) (blocks all)) as [[d g dn doc op]|]; [|discriminate R].
  cbn in R. unfold clear in R. cbn [st_data st_sizes st_done st_open] in R. apply Some_inj in R. inversion R. subst. reflexivity.
Qed.

(** *** Running what was printed *)
(** Whatever the description: if all its registers are written before they are read, the
    routine the assembler reads does what the description says. *)
Theorem C66_means : forall args s ls, writableFile s -> printFile args s = Some ls ->
  exists f, readAsm ls = Some f /\
    List.Forall2 (fun d r => r_name r = d_name d /\
      (created (d_state d) -> live defg useg (emitted (d_state d)) = [] -> live defx usex (emitted (d_state d)) = [] ->
       forall a ps m, run (call_asm a (r_code r) ps) m = run (call_described a (emitted (d_state d)) ps) m)) (rev (g_descs s)) (a_routines f).
Proof.
  intros args s ls W P. destruct (C66_read_back args s ls W P) as (rs & E & A). eexists. split; [exact E|]. cbn [a_routines].
  clear E. induction A as [|d r ds rs (N & _ & _ & _ & rg & rx & R & C) _ IH]; constructor; [|exact IH].
  split; [exact N|]. intros Cr Lg Lx a ps m. rewrite C. symmetry. by apply C52_registers.
Qed.
(** *** The text tells the routines apart *)
Theorem C66_text_decides : forall args s args' s' ls, writableFile s -> writableFile s' ->
  printFile args s = Some ls -> printFile args' s' = Some ls ->
  constants s = constants s' /\
  map (fun d => (d_name d, arg_bytes (d_sig d))) (rev (g_descs s)) = map (fun d => (d_name d, arg_bytes (d_sig d))) (rev (g_descs s')) /\
  map (fun d => match registers (d_state d) with Some (rg, rx) => Some (map (assign rg rx) (emitted (d_state d))) | None => None end) (rev (g_descs s)) =
  map (fun d => match registers (d_state d) with Some (rg, rx) => Some (map (assign rg rx) (emitted (d_state d))) | None => None end) (rev (g_descs s')).
Proof.
  intros args s args' s' ls W W' P P'. destruct (C66_read_back args s ls W P) as (rs & E & A), (C66_read_back args' s' ls W' P') as (rs' & E' & A').
  rewrite E' in E. injection E as K _ R. subst rs'. split; [by rewrite K|].
  assert (G : forall ds, List.Forall2 as_described ds rs ->
    map (fun d => (d_name d, arg_bytes (d_sig d))) ds = map (fun r => (r_name r, r_args r)) rs /\
    map (fun d => match registers (d_state d) with Some (rg, rx) => Some (map (assign rg rx) (emitted (d_state d))) | None => None end) ds = map (fun r => Some (r_code r)) rs).
  { clear. intros ds. induction 1 as [|d r ds rs (N & _ & _ & B & rg & rx & R & C) _ [IH1 IH2]]; [done|]. cbn [map]. by rewrite IH1, IH2, N, B, R, C. }
  destruct (G _ A) as [-> ->], (G _ A') as [-> ->]. done.
Qed.
(** The generator programs of the repository end in such states. *)
Definition fits (r : gres (list gval)) : Prop := match r with Done _ s => writableFile s /\ exists ls, printFile "" s = Some ls | _ => False end.
Example C66_example : forall W, fits (execute W 300 [shared_asm_go; encode_asm_go]) /\ fits (execute W 300 [shared_asm_go; decode_asm_go]).
Proof.
  intros W. split.
  - assert (H : match execute W 300 [shared_asm_go; encode_asm_go] with Done _ s =>
      forallb (fun p => name (fst p) && word (snd p)) (constants s) && bool_decide (NoDup (map fst (constants s))) && forallb (writableDesc (constants s)) (rev (g_descs s)) &&
      match printFile "" s with Some _ => true | None => false end | _ => false end = true) by (vm_compute; reflexivity).
    unfold fits. destruct (execute W 300 [shared_asm_go; encode_asm_go]) as [v s| |]; try discriminate H.
    rewrite !andb_true_iff, bool_decide_eq_true in H. destruct H as (((H1 & H2) & H3) & H4). split; [by repeat split|]. destruct (printFile "" s); [eauto|discriminate H4].
  - assert (H : match execute W 300 [shared_asm_go; decode_asm_go] with Done _ s =>
      forallb (fun p => name (fst p) && word (snd p)) (constants s) && bool_decide (NoDup (map fst (constants s))) && forallb (writableDesc (constants s)) (rev (g_descs s)) &&
      match printFile "" s with Some _ => true | None => false end | _ => false end = true) by (vm_compute; reflexivity).
    unfold fits. destruct (execute W 300 [shared_asm_go; decode_asm_go]) as [v s| |]; try discriminate H.
    rewrite !andb_true_iff, bool_decide_eq_true in H. destruct H as (((H1 & H2) & H3) & H4). split; [by repeat split|]. destruct (printFile "" s); [eauto|discriminate H4].
Qed.
(** A description the repository does not contain *)
Definition other : gst :=
  St ∅ 1 [] [] [("k7", 7)] [Desc "Twist" "func(in []uint32, n uint16)" (Sig [("in", TSlice); ("n", TU16)] []) (BState 1 2
    [vMOVQ_arg 0 0; vVLDDQU 48 0 0; vVPBROADCASTW 7 1; vVPALIGNR 12 1 0 1; vVPSHUFD 177 1 0; vVMOVDQU 0 1024 0]) true] [].
Example C66_other : exists ls, printFile "-out x.s" other = Some ls /\
  option_map (fun f => map (fun r => (r_name r, r_args r, r_code r)) (a_routines f)) (readAsm ls) =
  Some [("Twist", 26, [MOVQ_arg 0 AX; VLDDQU 48 AX X0; VPBROADCASTW 7 X1; VPALIGNR 12 X1 X0 X1; VPSHUFD 177 X1 X0; VMOVDQU X0 1024 AX])].
Proof. eexists. split; [vm_compute; reflexivity|]. vm_compute. reflexivity. Qed.
Example C66_other_fits : writableFile other.
Proof. split; [vm_compute; reflexivity|]. split; [|vm_compute; reflexivity]. apply (bool_decide_unpack (NoDup (map fst (constants other)))). vm_compute. exact I. Qed.
(** The low byte of the fifth register: its name is not made like that of the first four. *)
Definition sixth : gst :=
  St ∅ 1 [] [] [] [Desc "Low" "func(a uint32)" (Sig [("a", TU32)] []) (BState 5 0
    (map (fun n => vMOVQ_arg 0 n) (seq 0 5) ++ [vMOVBQZX 4 4] ++ map (fun n => vADDQ n 4) (seq 0 5))) true] [].
Example C66_low_byte : exists ls, printFile "" sixth = Some ls /\ List.In (String tab "MOVBQZX SIB, SI") ls /\
  option_map (fun f => map (fun r => r_code r) (a_routines f)) (readAsm ls) =
  Some [map (MOVQ_arg 0) [AX; CX; DX; BX; SI] ++ [MOVBQZX SI SI] ++ map (fun r => ADDQ r SI) [AX; CX; DX; BX; SI]].
Proof. eexists. split; [vm_compute; reflexivity|]. split; [|vm_compute; reflexivity]. vm_compute. intuition. Qed.
