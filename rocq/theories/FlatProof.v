(** * Executions with symbolic pointers are executions on the flat memory *)
From stdpp Require Import prelude gmap list.
From Coq Require Import ZArith Lia.
From Verif Require Import Spec SpecLemmas GoSem Shared Asm Api ApiLemmas Flat FlatVec.
Local Open Scope Z_scope.

(** ** Where the things are *)
Inductive obj := OB (b : nat) (i : Z) | OW (b : nat) (i k : Z) | OT (t : list Z) (i : Z) | OC (c k : Z) | OA (o : Z) | OR (k : Z).
Record placement := Placement {
  pk : machine;              (* FP, constants, writable addresses *)
  pB : nat -> Z;             (* where byte allocations are *)
  pW : nat -> Z;             (* where uint32 allocations are *)
  pT : list Z -> Z;          (* where tables are *)
  tabs : list (list Z);      (* the tables there are *)
  consts : list Z;           (* the constants there are *)
  pR : Z;                    (* offset of the result from FP *)
  pN : Z;                    (* number of bytes of the result *)
  wB : nat -> bool;          (* the byte allocations that may be written *)
  wW : nat -> bool }.        (* the uint32 allocations that may be written *)
Definition byte_of (x k : Z) : Z := x / 256 ^ k mod 256.
Definition cell_size (c : cell) : Z := match c with C64 _ => 8 | C32 _ => 4 | C16 _ => 2 end.

Section place.
Context (p : placement).
Definition addr (o : obj) : Z :=
  match o with
  | OB b i => pB p b + i
  | OW b i k => pW p b + 4 * i + k
  | OT t i => pT p t + i
  | OC c k => constant (pk p) c + k
  | OA o => FP (pk p) + o
  | OR k => FP (pk p) + pR p + k
  end.
Definition writes (o : obj) : Prop := match o with OB b _ => wB p b = true | OW b _ _ => wW p b = true | OR _ => True | _ => False end.
(** The number that stands for a value. *)
Definition vaddr (v : val) : option Z :=
  match v with
  | VI z => Some z
  | PB b o => Some (wrap (pB p b + o))
  | PW b o => Some (wrap (pW p b + o))
  | PT t o => Some (wrap (pT p t + o))
  | VUndef => None
  end.
Definition vgood (v : val) : Prop := match v with VI z => 0 <= z < 2 ^ 64 | PT t _ => In t (tabs p) | _ => True end.
Definition vrel (v : val) (x : Z) : Prop := vgood v /\ forall y, vaddr v = Some y -> x = y.
Definition cell_val (c : cell) : option Z := match c with C64 v => vaddr v | C32 z | C16 z => Some z end.
Definition cell_ok (c : cell) : Prop := match c with C64 v => vgood v | C32 z => is_u32 z | C16 z => is_u16 z end.

(** What the memory [m], the arguments [f] and the result [r] say about the byte at an address. *)
Definition holds (m : mem) (f : list (Z * cell)) (r : option Z) (o : obj) (v : Z) : Prop :=
  match o with
  | OB b i => hget (mb m) b i = Some v
  | OW b i k => 0 <= k < 4 /\ exists x, hget (mw m) b i = Some x /\ v = byte_of x k
  | OT t i => In t (tabs p) /\ 0 <= i /\ t !! Z.to_nat i = Some v
  | OC c k => In c (consts p) /\ 0 <= k < 2 /\ v = byte_of c k
  | OA o => exists o' c x, frame_get f o' = Some c /\ o' <= o < o' + cell_size c /\ cell_val c = Some x /\ v = byte_of x (o - o')
  | OR k => 0 <= k < pN p /\ exists z, r = Some z /\ v = byte_of z k
  end.
Definition live (m : mem) (f : list (Z * cell)) (o : obj) : Prop := match o with OR k => 0 <= k < pN p | _ => exists v, holds m f None o v end.
Record placed (m : mem) (f : list (Z * cell)) : Prop := {
  pl_range : forall o, live m f o -> 0 <= addr o < 2 ^ 64;
  pl_apart : forall o o', live m f o -> live m f o' -> writes o -> addr o = addr o' -> o = o';
  pl_write : forall o, live m f o -> writes o -> writable (pk p) (addr o) = true }.
Record repr (m : mem) (f : list (Z * cell)) (r : option Z) (g : fmem) : Prop := {
  re_holds : forall o v, holds m f r o v -> g (addr o) = Some v;
  re_mapped : forall k, 0 <= k < pN p -> g (addr (OR k)) <> None }.

Lemma live_holds m f r o v : holds m f r o v -> live m f o.
Proof. destruct o; cbn [holds live]; try (intros; eexists; eassumption). intros [H _]. done. Qed.
Lemma live_mapped m f r g o : repr m f r g -> live m f o -> g (addr o) <> None.
Proof. intros R L. destruct o; try (destruct L as [v L]; match goal with |- g (addr ?o) <> None => pose proof (re_holds _ _ _ _ R o v L) as E; rewrite E; discriminate end). apply (re_mapped _ _ _ _ R). exact L. Qed.
Lemma wrap_live m f o : placed m f -> live m f o -> wrap (addr o) = addr o.
Proof. intros P L. unfold wrap. apply Z.mod_small. apply (pl_range _ _ P _ L). Qed.

(** ** Loads *)
Lemma wrap_add a b : wrap (wrap a + b) = wrap (a + b).
Proof. unfold wrap. by rewrite Zplus_mod_idemp_l. Qed.
Lemma fload_bytes g l : forall a, (forall j v, l !! j = Some v -> g (wrap (a + Z.of_nat j)) = Some v) -> fload (length l) g a = Some (le_val l).
Proof.
  induction l as [|x l IH]; intros a H; [done|]. cbn [length fload]. pose proof (H 0%nat x eq_refl) as H0. rewrite Z.add_0_r in H0. rewrite H0.
  rewrite IH; [done|]. intros j v E. specialize (H (S j) v E). rewrite <- H. do 2 f_equal. lia.
Qed.
Lemma fload_wrap n g : forall a, fload n g (wrap a) = fload n g a.
Proof.
  enough (H : forall a b, wrap a = wrap b -> fload n g a = fload n g b) by (intros a; apply H; unfold wrap; apply Z.mod_mod; lia).
  induction n as [|n IH]; intros a b E; [done|]. cbn [fload]. rewrite E. rewrite (IH (a + 1) (b + 1)); [done|]. by rewrite <- (wrap_add a), E, wrap_add.
Qed.
(** Bytes that lie at consecutive addresses. *)
Lemma fload_objs m f r g a (os : nat -> obj) l : placed m f -> repr m f r g ->
  (forall j v, l !! j = Some v -> holds m f r (os j) v /\ wrap (a + Z.of_nat j) = wrap (addr (os j))) -> fload (length l) g a = Some (le_val l).
Proof.
  intros P R H. apply fload_bytes. intros j v E. destruct (H j v E) as [Hh Ha]. rewrite Ha, (wrap_live m f) by (done || by eapply live_holds). by apply (re_holds _ _ _ _ R).
Qed.

(** ** Stores *)
Fixpoint upds (g : fmem) (l : list (obj * Z)) : fmem := match l with [] => g | (o, v) :: r => upds (upd g (addr o) v) r end.
Lemma upds_other l : forall g a, (forall o v, In (o, v) l -> addr o <> a) -> upds g l a = g a.
Proof.
  induction l as [|[o v] l IH]; intros g a H; [done|]. cbn [upds]. rewrite IH by (intros; eapply H; right; eassumption). unfold upd.
  destruct (Z.eqb_spec a (addr o)) as [->|]; [|done]. exfalso. eapply H; [left; reflexivity|reflexivity].
Qed.
Lemma upds_in l : forall g o v, NoDup (map fst l) -> (forall o1 v1 o2 v2, In (o1, v1) l -> In (o2, v2) l -> addr o1 = addr o2 -> o1 = o2) -> In (o, v) l -> upds g l (addr o) = Some v.
Proof.
  induction l as [|[o' v'] l IH]; intros g o v N A I; [destruct I|]. cbn [map fst] in N. apply NoDup_cons in N as [N1 N2]. cbn [upds]. destruct I as [I|I].
  - injection I as -> ->. rewrite upds_other.
    + unfold upd. by rewrite Z.eqb_refl.
    + intros o1 v1 I1 E. apply N1. rewrite elem_of_list_In. apply in_map_iff. exists (o1, v1). split; [|done]. cbn. eapply A; [right; exact I1|left; reflexivity|exact E].
  - apply IH; [done| |done]. intros. eapply A; [right; eassumption|right; eassumption|done].
Qed.
Lemma upds_mapped l : forall g a, g a <> None -> upds g l a <> None.
Proof.
  induction l as [|[o v] l IH]; intros g a H; [done|]. cbn [upds]. apply IH. unfold upd. by destruct (_ =? _).
Qed.
Lemma upds_repr m f r g m' r' l : placed m f -> repr m f r g -> NoDup (map fst l) -> (forall o v, In (o, v) l -> writes o /\ live m f o) ->
  (forall o v, holds m' f r' o v -> In (o, v) l \/ (~ In o (map fst l) /\ holds m f r o v)) -> repr m' f r' (upds g l).
Proof.
  intros P R N W H. split.
  - intros o v Hh. destruct (H o v Hh) as [I|[I Hm]].
    + apply upds_in; [done| |done]. intros o1 v1 o2 v2 I1 I2 E. destruct (W _ _ I1), (W _ _ I2). eapply (pl_apart _ _ P); eassumption.
    + rewrite upds_other; [by apply (re_holds _ _ _ _ R)|]. intros o1 v1 I1 E. destruct (W _ _ I1) as [W1 L1]. pose proof (pl_apart _ _ P o1 o L1 (live_holds _ _ _ _ _ Hm) W1 E) as ->.
      apply I. apply in_map_iff. by exists (o, v1).
  - intros k Hk. apply upds_mapped. by apply (re_mapped _ _ _ _ R).
Qed.
Lemma bits8 x : bits x 7 0 = x mod 256.
Proof. unfold bits. change (2 ^ 0) with 1. by rewrite Z.div_1_r. Qed.
Lemma fstore_objs m f l : forall g a x, placed m f -> (forall o v, In (o, v) l -> writes o /\ live m f o) -> (forall o v, In (o, v) l -> g (addr o) <> None) ->
  le (length l) x = map snd l -> (forall j o v, l !! j = Some (o, v) -> wrap (a + Z.of_nat j) = wrap (addr o)) ->
  fstore (length l) (writable (pk p)) g a x = Some (upds g l).
Proof.
  induction l as [|[o v] l IH]; intros g a x P W M X A; [done|]. cbn [length fstore upds].
  cbn [length le map snd] in X. injection X as Xv X. pose proof (A 0%nat o v eq_refl) as A0. rewrite Z.add_0_r in A0.
  destruct (W o v (or_introl eq_refl)) as [Wo Lo]. rewrite A0, (wrap_live m f) by done.
  pose proof (M o v (or_introl eq_refl)) as Mo. destruct (g (addr o)) eqn:Eo; [|done]. rewrite (pl_write _ _ P o Lo Wo). rewrite bits8, Xv.
  apply IH; [done|intros; eapply W; right; eassumption| |exact X|].
  - intros o1 v1 I1. unfold upd. destruct (_ =? _); [discriminate|]. eapply M. right. exact I1.
  - intros j o1 v1 E1. rewrite <- (A (S j) o1 v1 E1). f_equal. lia.
Qed.
End place.
