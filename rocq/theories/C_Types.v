(** * C50: what a compiler makes of the text, target by target *)
From Coq Require Import ZArith List String Ascii Bool PeanoNat.
From Verif Require Import SourceText GoSyntax AsmText GoProgram GoTypes.
From Verif Require Build.
Import ListNotations.
Local Open Scope string_scope.
Local Open Scope list_scope.

(** ** The declarations of Build.v are those of the text *)
Definition dirOf (p : string) : string :=
  if GoSyntax.mem p ["writer"; "reader"] then "pkg/stream/" ++ p ++ "/" else "pkg/" ++ p ++ "/".
(** Types as Build.v writes them; [own] are the types declared in the package. *)
Fixpoint btype (own : list string) (p : string) (t : ty) : option Build.ty :=
  let fix many (l : list ty) : option (list Build.ty) :=
    match l with [] => Some [] | t :: r => match btype own p t, many r with Some t, Some r => Some (t :: r) | _, _ => None end end in
  match t with
  | TyName x =>
      if GoSyntax.mem x own then Some (Build.Named p x)
      else assoc [("uint8", Build.U8); ("byte", Build.U8); ("uint16", Build.U16); ("uint32", Build.U32); ("int", Build.Int); ("bool", Build.Bool); ("string", Build.Str)] x
  | TyQual q x => Some (Build.Named q x)
  | TySlice t => option_map Build.Sl (btype own p t)
  | TyArray n t => option_map (Build.Arr (Z.to_nat n)) (btype own p t)
  | TyPtr t => option_map Build.Ptr (btype own p t)
  | TyFunc ps rs => match many ps, many rs with Some ps, Some rs => Some (Build.Fn ps rs) | _, _ => None end
  end.
Definition bdecl (own : list string) (p : string) (d : decl) : option (string * Build.decl) :=
  match d with
  | DFunc (Func x ps rs b) =>
      match btype own p (TyFunc (map snd ps) (map snd rs)) with
      | Some (Build.Fn a r) => Some (x, match b with Some _ => Build.DFunc a r | None => Build.DExtern a r end)
      | _ => None
      end
  | DConst x _ _ _ => Some (x, Build.DConst)
  | DVar x (Some t) _ => option_map (fun t => (x, Build.DVar t)) (btype own p t)
  | DVar x None (Some (EUn "&" (ELit (Some t) _))) => option_map (fun t => (x, Build.DVar (Build.Ptr t))) (btype own p t)
  | DVar x None (Some (ELit (Some t) _)) => option_map (fun t => (x, Build.DVar t)) (btype own p t)
  | DVar _ None _ => None
  | DType x t => option_map (fun t => (x, Build.DType t)) (btype own p t)
  end.
Definition ownTypes (l : list decl) : list string := flat_map (fun d => match d with DType x _ => [x] | _ => [] end) l.
Definition bdecls (ls : list string) : option (list (string * Build.decl)) :=
  match parse ls with Some f => allSome (map (bdecl (ownTypes (decls f)) (package f)) (decls f)) | None => None end.
Definition btext (ls : list string) : option (list string) := option_map (fun a => map r_name (a_routines a)) (readAsm ls).

(** The file [f] of Build.v is the text [ls]: same declarations, same assembly routines, and
    built for the same targets. *)
Definition pathOf (f : Build.file) : string := (dirOf (Build.f_pkg f) ++ Build.f_name f)%string.
Definition sameText (f : Build.file) (ls : list string) : Prop :=
  if endsIn ".s" (Build.f_name f) then Build.f_decls f = [] /\ btext ls = Some (Build.f_text f)
  else bdecls ls = Some (Build.f_decls f) /\ Build.f_text f = [] /\ option_map package (parse ls) = Some (Build.f_pkg f).
Definition transcribes (f : Build.file) (path : string) (ls : list string) : Prop :=
  path = pathOf f /\ sameText f ls /\
  forall g, GoProgram.selected (String.eqb g "amd64") path ls = Some (Build.selected g f).

Lemma selected_as : forall g amd64 path ls f, GoProgram.selected true path ls = Some amd64 ->
  forall other, GoProgram.selected false path ls = Some other -> Build.selected g f = (if String.eqb g "amd64" then amd64 else other) ->
  GoProgram.selected (String.eqb g "amd64") path ls = Some (Build.selected g f).
Proof. intros g amd64 path ls f H other H' E. rewrite E. destruct (String.eqb g "amd64"); assumption. Qed.
Lemma eqb_flip : forall g, String.eqb "amd64" g = String.eqb g "amd64".
Proof. intros g. destruct (String.eqb_spec "amd64" g), (String.eqb_spec g "amd64"); congruence. Qed.

Definition good (f : Build.file) : Prop :=
  exists ls, assoc sources (pathOf f) = Some ls /\ sameText f ls /\
  GoProgram.selected true (pathOf f) ls = Some (Build.selected "amd64" f) /\ GoProgram.selected false (pathOf f) ls = Some (Build.selected "arm64" f).
Lemma assoc_in : forall A (l : list (string * A)) x v, assoc l x = Some v -> In (x, v) l.
Proof. induction l as [|[y w] l IH]; cbn; intros x v H; [discriminate|]. destruct (String.eqb_spec x y) as [->|]; [left; congruence|right; auto]. Qed.
Lemma assoc_here : forall A (l : list (string * A)) x, In x (map fst l) -> exists v, assoc l x = Some v.
Proof. induction l as [|[y w] l IH]; cbn; intros x H; [tauto|]. destruct (String.eqb_spec x y); [eauto|]. destruct H as [H|H]; [congruence|auto]. Qed.
Definition named_asm (f : Build.file) : bool := String.eqb (Build.f_name f) "asm.go".
Definition facts (f : Build.file) : option (option (list (string * Build.decl)) * option (list string) * option string * option bool * option bool) :=
  option_map (fun ls => (if endsIn ".s" (Build.f_name f) then Some [] else bdecls ls, if endsIn ".s" (Build.f_name f) then btext ls else Some [],
    if endsIn ".s" (Build.f_name f) then Some (Build.f_pkg f) else option_map package (parse ls),
    GoProgram.selected true (pathOf f) ls, GoProgram.selected false (pathOf f) ls)) (assoc sources (pathOf f)).
Lemma facts_repo : map facts (filter (fun f => negb (named_asm f)) Build.repo) =
  map (fun f => Some (Some (Build.f_decls f), Some (Build.f_text f), Some (Build.f_pkg f), Some (Build.selected "amd64" f), Some (Build.selected "arm64" f)))
    (filter (fun f => negb (named_asm f)) Build.repo).
Proof. vm_cast_no_check (@eq_refl _ (map facts (filter (fun f => negb (named_asm f)) Build.repo))). Qed.
Lemma repo_good : Forall good (filter (fun f => negb (named_asm f)) Build.repo).
Proof.
  pose proof facts_repo as E. apply Forall_forall. intros f Hf. assert (H := ext_in_map E f Hf). clear E Hf.
  unfold facts in H. unfold good. destruct (assoc sources (pathOf f)) as [ls|]; [|discriminate]. cbn [option_map] in H.
  exists ls. split; [reflexivity|]. injection H as H1 H2 H3 H4 H5. unfold sameText. destruct (endsIn ".s" (Build.f_name f)).
  - injection H1 as H1. auto.
  - injection H2 as H2. auto.
Qed.
Lemma repo_selected : forall f, In f Build.repo -> forall g, Build.selected g f =
  if String.eqb g "amd64" then Build.selected "amd64" f else Build.selected "arm64" f.
Proof.
  intros f Hf g. destruct (String.eqb_spec g "amd64") as [->|N]; [reflexivity|]. rewrite <- String.eqb_neq in N.
  assert (In f Build.repo -> Build.selected g f = Build.selected "arm64" f) as H; [|now apply H]. clear Hf. revert f. rewrite <- Forall_forall.
  unfold Build.repo.
  repeat (apply Forall_cons; [unfold Build.selected; cbn [Build.f_name Build.f_tag Build.f_shared_asm]; 
    match goal with |- context [Build.name_ok g ?n] => 
      let r := eval vm_compute in (match Build.after_last (Build.stem n) with Some x => if existsb (String.eqb x) Build.known_arch then true else false | None => false end) in
      lazymatch r with
      | true => change (Build.name_ok g n) with (String.eqb "amd64" g); rewrite (eqb_flip g), N; vm_compute; reflexivity
      | false => change (Build.name_ok g n) with true; cbv delta -[String.eqb]; cbv beta iota; rewrite ?eqb_flip, ?N; vm_compute; reflexivity
      end end|]).
  apply Forall_nil.
Qed.
Theorem C50_files :
  Forall (fun f => Build.f_name f = "asm.go" \/ exists path ls, In (path, ls) sources /\ transcribes f path ls) Build.repo /\
  Forall (fun s => exists f, In f Build.repo /\ transcribes f (fst s) (snd s)) sources.
Proof.
  assert (T : forall f, In f Build.repo -> named_asm f = false -> exists ls, assoc sources (pathOf f) = Some ls /\ transcribes f (pathOf f) ls).
  { intros f Hf N. pose proof repo_good as H. rewrite Forall_forall in H.
    destruct (H f) as (ls & A & B & Y & O). { apply filter_In. split; [exact Hf|]. now rewrite N. }
    exists ls. split; [exact A|]. split; [reflexivity|]. split; [exact B|]. intros g. apply (selected_as _ _ _ _ _ Y _ O). now apply repo_selected. }
  split.
  - apply Forall_forall. intros f Hf. destruct (String.eqb_spec (Build.f_name f) "asm.go") as [E|E]; [now left|right].
    destruct (T f Hf) as (ls & A & B). { unfold named_asm. now apply String.eqb_neq. } exists (pathOf f), ls. split; [now apply assoc_in|exact B].
  - assert (E : forallb (fun s => existsb (fun f => String.eqb (fst s) (pathOf f) && negb (named_asm f)) Build.repo) sources = true) by (vm_compute; reflexivity).
    assert (D : NoDup (map fst sources)). { apply (NoDup_count_occ' string_dec). intros x Hx.
      assert (C : forallb (fun x => Nat.eqb (count_occ string_dec (map fst sources) x) 1) (map fst sources) = true) by (vm_compute; reflexivity).
      rewrite forallb_forall in C. apply Nat.eqb_eq. now apply C. }
    apply Forall_forall. intros [p ls] Hs. rewrite forallb_forall in E. specialize (E _ Hs). apply existsb_exists in E as (f & Hf & E).
    apply andb_true_iff in E as [E N]. apply String.eqb_eq in E. apply negb_true_iff in N. cbn [fst snd] in *. exists f. split; [exact Hf|].
    destruct (T f Hf N) as (ls' & A & B). rewrite E. replace ls with ls'; [exact B|].
    apply assoc_in in A. rewrite <- E in A. clear -A Hs D. induction sources as [|[q l'] r IH]; [destruct Hs|].
    cbn in D. inversion D as [|? ? N D']; subst. destruct Hs as [Hs|Hs], A as [A|A]; try congruence.
    + injection Hs as -> ->. exfalso. apply N. apply in_map_iff. now exists (p, ls').
    + injection A as -> ->. exfalso. apply N. apply in_map_iff. now exists (p, ls).
    + now apply IH.
Qed.

(** ** Every target *)
(** Reduced to the files selected for it, [fs] has exactly these declarations that a compiler
    rejects; [None]: some file is not in the fragment that GoSyntax.v reads. *)
Definition rejected (goarch : string) (fs : list (string * list string)) : option (list (string * string)) := check (String.eqb goarch "amd64") fs.
(** On amd64 every declaration is accepted.  On every other architecture three are not:
    func init of package decode assigns functions that return an int where Get8Impl and
    Get8DeltaImpl return nothing (decode.go:15-23, decode_base.go:13,17), and WriteAllDelta and
    ReadAllDelta call functions that do not exist there (writer.go:31, reader.go:38). *)
Theorem C50_targets : forall g,
  rejected g sources = Some (if String.eqb g "amd64" then [] else [("decode", "init"); ("writer", "WriteAllDelta"); ("reader", "ReadAllDelta")]).
Proof. intros g. unfold rejected. destruct (String.eqb g "amd64"); vm_compute; reflexivity. Qed.

(** Three small changes to the files for other architectures suffice. *)
Definition repairs (s : string * list string) : string * list string :=
  let '(path, ls) := s in
  let line l :=
    if String.eqb l "func Get8uint32Fast(in []byte, out []uint32, ctrl uint16) int {" then "func Get8uint32Fast(in []byte, out []uint32, ctrl uint16) {"
    else if String.eqb l "func Get8uint32DeltaFast(in []byte, out []uint32, ctrl uint16, prev uint32) int {" then "func Get8uint32DeltaFast(in []byte, out []uint32, ctrl uint16, prev uint32) {"
    else l in
  if String.eqb path "pkg/decode/decode_base.go" then (path, map line ls)
  else if String.eqb path "pkg/stream/writer/writer_base.go" then
    (path, ls ++ ["func WriteAllDeltaFast(in []uint32, prev uint32) []byte {"; "	panic(""unreachable"")"; "}"])
  else if String.eqb path "pkg/stream/reader/reader_base.go" then
    (path, ls ++ ["func ReadAllDeltaFast(count int, stream []byte, out []uint32, prev uint32) {"; "	panic(""unreachable"")"; "}"])
  else s.
Theorem C50_repaired : forall g, rejected g (map repairs sources) = Some [].
Proof. intros g. unfold rejected. destruct (String.eqb g "amd64"); vm_compute; reflexivity. Qed.

(** The checker at work on small files of package util. *)
Definition verdict (ls : list string) : option (list (string * string)) := check true [("pkg/util/x.go", "package util" :: ls)].
Definition body (ls : list string) : option (list (string * string)) :=
  verdict (["func f(a []uint32, b byte, n int) int {"] ++ ls ++ ["}"]).
Definition accepts (o : option (list (string * string))) : bool := match o with Some [] => true | _ => false end.
Definition rejects (o : option (list (string * string))) : bool := match o with Some (_ :: _) => true | _ => false end.
Example C50_accepts :
  forallb (fun b => accepts (body b))
    [["return n"];
     ["x := n + 1"; "return x"];
     ["var x uint32"; "x = a[0]"; "a[1] = x << b"; "return int(x)"];
     ["for i := 0; i < n; i++ {"; "a[i] = uint32(b)"; "}"; "return len(a)"];
     ["if b == 255 {"; "return 1"; "} else {"; "return 2"; "}"];
     ["switch n & 3 {"; "case 0:"; "fallthrough"; "case 1:"; "return 1"; "default:"; "panic(""x"")"; "}"];
     ["a = a[1:n]"; "return f(a, 1, n)"]] = true.
Proof. vm_compute. reflexivity. Qed.
Example C50_rejects :
  forallb (fun b => rejects (body b))
    [["x := 1"; "return n"];                               (* unused variable *)
     ["return b"];                                         (* byte for int *)
     ["return a"];                                         (* slice for int *)
     ["return"];                                           (* missing value *)
     ["return n, n"];                                      (* too many values *)
     ["n = n + 1"];                                        (* missing return *)
     ["if n == 0 {"; "return n"; "}"];                     (* missing return *)
     ["return n + b"];                                     (* mixed types *)
     ["return a[b] + n"];                                  (* mixed types *)
     ["b = 256"; "return n"];                              (* constant too large *)
     ["return int(b) + byte(n)"];
     ["y = 1"; "return n"];                                (* undeclared *)
     ["n := 1"; "n := 2"; "return n"];                     (* no new variable *)
     ["return a[-1:]"];
     ["var x uint32 = n"; "return int(x)"];
     ["if n {"; "return 1"; "}"; "return 2"];              (* condition not boolean *)
     ["return f(a, b)"];                                   (* arguments *)
     ["return f(a, n, n)"];
     ["return len(n)"];
     ["return n[0]"];                                      (* not a slice *)
     ["return n / 0"];
     ["return n << -1"];
     ["len(a)"; "return n"];                               (* value not used *)
     ["n + 1"; "return n"];
     ["f = nil"; "return n"];
     ["switch n {"; "case 1:"; "case 1:"; "}"; "return n"];(* duplicate case *)
     ["switch n {"; "case 1:"; "fallthrough"; "}"; "return n"];
     ["x, y := n"; "return x + y"];
     ["return bits.LeadingZeros32(a[0])"]] = true          (* not imported *)
  /\ forallb (fun b => rejects (verdict b))
    [["import ""math/bits"""; "func f() {"; "}"];           (* unused import *)
     ["func f() {"; "}"; "func f() {"; "}"];               (* declared twice *)
     ["func f(x int, x int) {"; "}"];
     ["func f()"];                                         (* no body anywhere *)
     ["type t func() int"; "func g() {"; "}"; "func f() t {"; "return g"; "}"];
     ["import ""github.com/theMPatel/streamvbyte-simdgo/pkg/shared"""; "func f() int {"; "return shared.normal"; "}"];
     ["var x *[2]uint8 = &[2]uint8{1, 2, 3}"];
     ["var x [2]int"; "func f() int {"; "return x[2]"; "}"];
     ["const c = 1"; "func f() {"; "c = 2"; "}"];
     ["func f() (int, int) {"; "return 1, 2"; "}"; "func g() int {"; "return f()"; "}"]] = true.
Proof. vm_compute. split; reflexivity. Qed.
