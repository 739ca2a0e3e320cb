(** * C27: portability *)
Require Import Coq.Strings.String Coq.Lists.List Coq.Bool.Bool Coq.Arith.PeanoNat Lia.
From Verif Require Import Build.
From Verif Require Shared Encode Decode Writer Reader.
Import ListNotations.
Local Open Scope string_scope.
Local Open Scope list_scope.

(** ** Deciding [own] *)
Definition resolvedb (g : string) (fs : list file) (p q n : string) (u : use) : bool :=
  (String.eqb p q || exported n) && existsb (fun d => String.eqb (fst d) n && serves g fs (snd d) u) (decls g fs q).
Lemma resolvedb_spec : forall g fs p q n u, resolvedb g fs p q n u = true <-> resolved g fs p q n u.
Proof.
  intros g fs p q n u. unfold resolvedb, resolved. rewrite andb_true_iff, orb_true_iff, String.eqb_eq, existsb_exists.
  split; intros [H1 H2]; (split; [exact H1|]).
  - destruct H2 as ([n' d] & Hin & H). apply andb_true_iff in H as [E S]. apply String.eqb_eq in E. cbn in E, S. subst. eauto.
  - destruct H2 as (d & Hin & S). exists (n, d). split; [exact Hin|]. cbn. now rewrite String.eqb_refl.
Qed.
Fixpoint distinctb (l : list string) : bool :=
  match l with [] => true | x :: r => (String.eqb x "init" || negb (existsb (String.eqb x) r)) && distinctb r end.
Lemma distinctb_spec : forall l : list (string * decl), distinctb (map fst l) = true ->
  forall n i j d d', n <> "init" -> nth_error l i = Some (n, d) -> nth_error l j = Some (n, d') -> i = j.
Proof.
  induction l as [|[x e] l IH]; intros H n i j d d' Hn Hi Hj; [destruct i; discriminate|]. cbn in H. apply andb_true_iff in H as [H1 H2].
  assert (No : forall k c, nth_error l k = Some (x, c) -> x <> "init" -> False).
  { intros k c Hk Hx. apply orb_true_iff in H1 as [H1|H1]; [now apply String.eqb_eq in H1|]. apply negb_true_iff in H1.
    assert (existsb (String.eqb x) (map fst l) = true) as E. { apply existsb_exists. exists x. split; [|apply String.eqb_refl]. apply in_map_iff. exists (x, c). split; [reflexivity|]. now apply nth_error_In in Hk. }
    congruence. }
  destruct i as [|i], j as [|j]; cbn in Hi, Hj.
  - reflexivity.
  - injection Hi as -> ->. exfalso. eauto.
  - injection Hj as -> ->. exfalso. eauto.
  - f_equal. eapply IH; eauto.
Qed.
Definition ownb (g : string) (fs : list file) (p : string) : bool :=
  distinctb (map fst (decls g fs p)) &&
  forallb (fun f => forallb (fun qnu => let '(q, n, u) := qnu in resolvedb g fs p q n u) (f_uses f)) (package g fs p) &&
  forallb (fun nd => match snd nd with DExtern _ _ => existsb (fun f => existsb (String.eqb (fst nd)) (f_text f)) (package g fs p) | _ => true end) (decls g fs p).
Lemma ownb_own : forall g fs p, ownb g fs p = true -> own g fs p.
Proof.
  intros g fs p H. unfold ownb in H. apply andb_true_iff in H as [H H3]. apply andb_true_iff in H as [H1 H2]. split; [|split].
  - now apply distinctb_spec.
  - intros f q n u Hf Hu. rewrite forallb_forall in H2. specialize (H2 f Hf). rewrite forallb_forall in H2. specialize (H2 _ Hu). now apply resolvedb_spec.
  - intros n a r Hin. rewrite forallb_forall in H3. specialize (H3 _ Hin). cbn in H3. apply existsb_exists in H3 as (f & Hf & H3).
    apply existsb_exists in H3 as (n' & Hn & E). apply String.eqb_eq in E. subst. eauto.
Qed.
(** A set of packages that is closed under uses and whose members are all fine. *)
Definition closedb (g : string) (fs : list file) (ps : list string) : bool :=
  forallb (fun p => ownb g fs p && forallb (fun f => forallb (fun qnu => existsb (String.eqb (fst (fst qnu))) ps) (f_uses f)) (package g fs p)) ps.
Lemma closedb_compiles : forall g fs ps, closedb g fs ps = true -> forall p, In p ps -> compiles g fs p.
Proof.
  intros g fs ps H p Hp q Hn. unfold closedb in H. rewrite forallb_forall in H.
  assert (In q ps) as Hq.
  { revert Hp. induction Hn as [p|p f q n u r Hf Hu Hn IH]; intros Hp; [exact Hp|]. apply IH. specialize (H p Hp). apply andb_true_iff in H as [_ H].
    rewrite forallb_forall in H. specialize (H f Hf). rewrite forallb_forall in H. specialize (H _ Hu). cbn in H. apply existsb_exists in H as (q' & Hq & E). apply String.eqb_eq in E. now subst. }
  specialize (H q Hq). apply andb_true_iff in H as [H _]. now apply ownb_own.
Qed.

(** ** Only the selection of files depends on the target *)
Definition alike (g g' : string) (fs : list file) : Prop := forall f, In f fs -> selected g f = selected g' f.
Lemma alike_package : forall g g' fs p, alike g g' fs -> package g fs p = package g' fs p.
Proof. intros g g' fs p H. unfold package. apply filter_ext_in. intros f Hf. now rewrite (H f Hf). Qed.
Lemma alike_decls : forall g g' fs p, alike g g' fs -> decls g fs p = decls g' fs p.
Proof. intros g g' fs p H. unfold decls. now rewrite (alike_package g g' fs p H). Qed.
Lemma alike_serves : forall g g' fs d u, alike g g' fs -> serves g fs d u = serves g' fs d u.
Proof.
  intros g g' fs d u H. assert (U : forall t, under g fs t = under g' fs t). { intros t. destruct t; try reflexivity. cbn. now rewrite (alike_decls g g' fs _ H). }
  destruct d, u; cbn; try reflexivity; now rewrite !U.
Qed.
Lemma alike_resolved : forall g g' fs p q n u, alike g g' fs -> resolved g fs p q n u -> resolved g' fs p q n u.
Proof. intros g g' fs p q n u H [H1 (d & H2 & H3)]. split; [exact H1|]. exists d. now rewrite <- (alike_decls g g' fs q H), <- (alike_serves g g' fs d u H). Qed.
Lemma alike_own : forall g g' fs p, alike g g' fs -> own g fs p -> own g' fs p.
Proof.
  intros g g' fs p H. unfold own. rewrite (alike_package g g' fs p H), (alike_decls g g' fs p H). intros (H1 & H2 & H3). split; [exact H1|split; [|exact H3]].
  intros f q n u Hf Hu. eapply alike_resolved; eauto.
Qed.
Lemma alike_needs : forall g g' fs p q, alike g g' fs -> needs g fs p q -> needs g' fs p q.
Proof. intros g g' fs p q H Hn. induction Hn as [p|p f q n u r Hf Hu Hn IH]; [constructor|]. econstructor; [|exact Hu|exact IH]. now rewrite <- (alike_package g g' fs p H). Qed.
Lemma alike_sym : forall g g' fs, alike g g' fs -> alike g' g fs.
Proof. intros g g' fs H f Hf. symmetry. now apply H. Qed.
Lemma alike_compiles : forall g g' fs p, alike g g' fs -> compiles g fs p -> compiles g' fs p.
Proof. intros g g' fs p H Hc q Hn. eapply alike_own; [exact H|]. apply Hc. eapply alike_needs; [apply alike_sym; exact H|exact Hn]. Qed.

(** A file whose constraints mention no architecture but amd64. *)
Definition amd64_only (f : file) : Prop :=
  (f_tag f = NoTag \/ f_tag f = Only "amd64" \/ f_tag f = Not "amd64") /\
  (after_last (stem (f_name f)) = Some "amd64" \/ forall g, name_ok g (f_name f) = true).
Lemma amd64_only_alike : forall fs g g', Forall amd64_only fs -> g <> "amd64" -> g' <> "amd64" -> alike g g' fs.
Proof.
  intros fs g g' H Hg Hg' f Hf. rewrite Forall_forall in H. destruct (H f Hf) as [T N].
  assert (E : String.eqb "amd64" g = false) by (apply String.eqb_neq; congruence).
  assert (E' : String.eqb "amd64" g' = false) by (apply String.eqb_neq; congruence).
  unfold selected. f_equal.
  - destruct N as [N|N]; [|now rewrite !N]. unfold name_ok. rewrite N. replace (existsb (String.eqb "amd64") known_arch) with true by reflexivity. now rewrite E, E'.
  - destruct T as [->|[->| ->]]; unfold tag_ok; [reflexivity|now rewrite E, E'|now rewrite E, E'].
Qed.
Lemma repo_amd64_only : Forall amd64_only repo.
Proof. repeat (apply Forall_cons; [split; [cbn; auto|first [left; reflexivity|right; intros; reflexivity]]|]). apply Forall_nil. Qed.

(** ** The theorems *)
(** For every target but amd64, the decoder, the reader and the writer do not compile. *)
Theorem C27_refuted : forall g, g <> "amd64" -> ~ compiles g repo "decode" /\ ~ compiles g repo "reader" /\ ~ compiles g repo "writer".
Proof.
  intros g Hg. assert (A : alike g "arm64" repo) by (apply amd64_only_alike; [apply repo_amd64_only|exact Hg|discriminate]).
  assert (R : forall p f q n u, In f (package "arm64" repo p) -> In (q, n, u) (f_uses f) -> resolvedb "arm64" repo p q n u = false -> ~ compiles g repo p).
  { intros p f q n u Hf Hu Hr Hc. apply (alike_compiles _ _ _ _ A) in Hc. specialize (Hc p (needs_self _ _ p)). destruct Hc as (_ & Hc & _).
    specialize (Hc f q n u Hf Hu). apply resolvedb_spec in Hc. congruence. }
  repeat split.
  - eapply (R "decode" f_decode_go "decode" "Get8uint32Fast"); [cbn; tauto|cbn; tauto|reflexivity].
  - eapply (R "reader" f_reader_go "reader" "ReadAllDeltaFast"); [cbn; tauto|cbn; tauto|reflexivity].
  - eapply (R "writer" f_writer_go "writer" "WriteAllDeltaFast"); [cbn; tauto|cbn; tauto|reflexivity].
Qed.

(** There are exactly four broken uses. *)
Definition broken : list (string * string) :=
  [("decode.go", "Get8uint32Fast"); ("decode.go", "Get8uint32DeltaFast"); ("reader.go", "ReadAllDeltaFast"); ("writer.go", "WriteAllDeltaFast")].
Definition brokenb (l : list (string * string)) (f : file) (n : string) : bool := existsb (fun x => String.eqb (fst x) (f_name f) && String.eqb (snd x) n) l.
Lemma brokenb_spec : forall l f n, In (f_name f, n) l <-> brokenb l f n = true.
Proof.
  intros l f n. unfold brokenb. rewrite existsb_exists. split.
  - intros Hin. exists (f_name f, n). split; [exact Hin|]. cbn. now rewrite !String.eqb_refl.
  - intros ([a b] & Hin & Hab). cbn in Hab. apply andb_true_iff in Hab as [Ha Hb]. apply String.eqb_eq in Ha, Hb. now subst.
Qed.
Definition agreeb (g : string) (fs : list file) (l : list (string * string)) : bool :=
  forallb (fun f => forallb (fun qnu => let '(q, n, u) := qnu in Bool.eqb (resolvedb g fs (f_pkg f) q n u) (negb (brokenb l f n))) (f_uses f)) (filter (selected g) fs).
Lemma agreeb_spec : forall g fs l, agreeb g fs l = true -> forall p f q n u, In f (package g fs p) -> In (q, n, u) (f_uses f) ->
  (resolved g fs p q n u <-> ~ In (f_name f, n) l).
Proof.
  intros g fs l E p f q n u Hf Hu. unfold agreeb in E. rewrite forallb_forall in E. unfold package in Hf. apply filter_In in Hf as [Hf S].
  apply andb_true_iff in S as [S P]. apply String.eqb_eq in P. subst p. assert (Hf' : In f (filter (selected g) fs)) by (apply filter_In; auto).
  specialize (E f Hf'). rewrite forallb_forall in E. specialize (E _ Hu). cbv beta iota in E. apply eqb_prop in E.
  rewrite brokenb_spec, <- resolvedb_spec, E. destruct (brokenb l f n); cbn; split; intros; [discriminate|now elim H|discriminate|reflexivity].
Qed.
Lemma broken_check : agreeb "arm64" repo broken = true.
Proof. vm_compute. reflexivity. Qed.
Theorem C27_broken_partial : forall g, g <> "amd64" -> forall p f q n u, In f (package g repo p) -> In (q, n, u) (f_uses f) ->
  (resolved g repo p q n u <-> ~ In (f_name f, n) broken).
Proof.
  intros g Hg p f q n u Hf Hu. assert (A : alike g "arm64" repo) by (apply amd64_only_alike; [apply repo_amd64_only|exact Hg|discriminate]).
  rewrite (alike_package _ _ _ _ A) in Hf. rewrite <- (agreeb_spec _ _ _ broken_check p f q n u Hf Hu).
  split; apply alike_resolved; [exact A|apply alike_sym; exact A].
Qed.

(** The shared, encode and util packages compile for every target, all packages for amd64. *)
Theorem C27_encode_partial : forall g, compiles g repo "shared" /\ compiles g repo "encode" /\ compiles g repo "util".
Proof.
  intros g. destruct (string_dec g "amd64") as [->|Hg].
  - split; [|split]; (apply (closedb_compiles _ _ ["shared"; "encode"; "util"]); [vm_compute; reflexivity|cbn; tauto]).
  - assert (A : alike "arm64" g repo) by (apply amd64_only_alike; [apply repo_amd64_only|discriminate|exact Hg]).
    split; [|split]; (apply (alike_compiles _ _ _ _ A); apply (closedb_compiles _ _ ["shared"; "encode"; "util"]); [vm_compute; reflexivity|cbn; tauto]).
Qed.
Theorem C27_amd64_partial : forall p, In p packages -> compiles "amd64" repo p.
Proof. apply closedb_compiles. vm_compute. reflexivity. Qed.

(** With three repaired files everything compiles for every target. *)
Definition repaired : list file :=
  map (fun f =>
    if String.eqb (f_name f) "decode_base.go" then
      File (f_pkg f) (f_name f) (f_tag f)
        [("GetMode", DFunc [] [Named "shared" "PerformanceMode"]); ("Get8uint32Fast", DFunc [Sl U8; Sl U32; U16] []); ("Get8uint32DeltaFast", DFunc [Sl U8; Sl U32; U16; U32] [])] (f_uses f) []
    else if String.eqb (f_name f) "reader_base.go" then
      File (f_pkg f) (f_name f) (f_tag f) (f_decls f ++ [("ReadAllDeltaFast", DFunc [Int; Sl U8; Sl U32; U32] [])]) (f_uses f) []
    else if String.eqb (f_name f) "writer_base.go" then
      File (f_pkg f) (f_name f) (f_tag f) (f_decls f ++ [("WriteAllDeltaFast", DFunc [Sl U32; U32] [Sl U8])]) (f_uses f) []
    else f) repo.
Theorem C27_repaired_partial : forall g p, In p packages -> compiles g repaired p.
Proof.
  intros g p Hp. destruct (string_dec g "amd64") as [->|Hg].
  - revert p Hp. apply closedb_compiles. vm_compute. reflexivity.
  - assert (A : alike "arm64" g repaired).
    { apply amd64_only_alike; [|discriminate|exact Hg]. repeat (apply Forall_cons; [split; [cbn; auto|first [left; reflexivity|right; intros; reflexivity]]|]). apply Forall_nil. }
    apply (alike_compiles _ _ _ _ A). revert p Hp. apply closedb_compiles. vm_compute. reflexivity.
Qed.

(** Without the vector unit the dispatchers run the portable code. *)
Theorem C27_scalar_partial :
  (forall inp out, Encode.Put8uint32 Shared.OtherArch inp out = Encode.Put8uint32Scalar inp out) /\
  (forall inp out prev, Encode.Put8uint32Delta Shared.OtherArch inp out prev = Encode.Put8uint32DeltaScalar inp out prev) /\
  (forall inp out c, Decode.Get8uint32 Shared.OtherArch inp out c = Decode.Get8uint32Scalar inp out c) /\
  (forall inp out c prev, Decode.Get8uint32Delta Shared.OtherArch inp out c prev = Decode.Get8uint32DeltaScalar inp out c prev) /\
  (forall B inp, Writer.WriteAll Shared.OtherArch B inp = Writer.WriteAllScalar B inp) /\
  (forall B inp prev, Writer.WriteAllDelta Shared.OtherArch B inp prev = Writer.WriteAllDeltaScalar B inp prev) /\
  (forall n st out, Reader.ReadAll Shared.OtherArch n st out = Reader.ReadAllScalar n st out) /\
  (forall n st out prev, Reader.ReadAllDelta Shared.OtherArch n st out prev = Reader.ReadAllDeltaScalar n st out prev).
Proof. repeat split. Qed.

Example C27_example : ~ compiles "arm64" repo "reader" /\ compiles "arm64" repo "encode" /\ selected "arm64" f_encode_amd64 = false /\ selected "arm64" f_encode_s = false /\ selected "amd64" f_encode_base = false.
Proof. split; [apply C27_refuted; discriminate|]. split; [apply C27_encode_partial|]. repeat split. Qed.
