(** Vocabulary for exporting a model as several files. *)
From Coq Require Import String.
From stdpp Require Import prelude gmap.
From Verif Require Import PyStr PyHeap Schema AssocSpec Reader WriteSpec RoundSpec.

Section parts.
Context (S : schema) (h : heap).
Definition lists (d : dict) (o : nat) : Prop := ∃ id, (id, VRef o) ∈ d.
(** The parts can be read in their order: the single ends of an object lead to
    objects of the same part or an earlier one, and the objects at both ends of a
    one-to-one association are in the same part.  Objects outside all parts do
    not matter. *)
Definition stackable (ds : list dict) : Prop := ∀ l d r o p k x, ds = l ++ d :: r → lists d o →
  pkind S h o p = Some k → view h o (Priv p) = Some (OV (VRef x)) → lists (concat ds) x →
  match k with POneMany _ => lists (concat (l ++ [d])) x | POneOne _ => lists d x | _ => True end.
(** The objects refer to each other by ends of associations only. *)
Definition only_ends (d : dict) : Prop := ∀ o ck c p x, lists d o → cls_of h o = Some ck → c ∈ mro S ck → p ∈ c_refs c → p ∉ c_many c →
  sees S h o p (VRef x) → lists d x →
  match lookup_prop S ck p with Some (POneMany _ | POneOne _ | PAlias _ _) => True | _ => False end.
End parts.

(** Reading files one after the other into one dictionary. *)
Inductive reads_files {A} (read : A → dict → heap → res) : list A → dict → heap → dict → heap → Prop :=
  | rf_nil d h : reads_files read [] d h d h
  | rf_cons src rest d h d1 h1 d2 h2 : read src d h = (None, d1, h1) → reads_files read rest d1 h1 d2 h2 →
      reads_files read (src :: rest) d h d2 h2.

(** The objects of [d] are back in [d']: classes, attributes, single ends and
    the collections of one-to-many associations. *)
Record Restored (S : schema) (h : heap) (d : dict) (h' : heap) (d' : dict) : Prop := {
  rs_keys : map fst d' = map fst d;
  rs_class : ∀ o o', copy_of d d' o o' → cls_of h' o' = cls_of h o;
  rs_attrs : ∀ o o' ck c a v, copy_of d d' o o' → cls_of h o = Some ck → c ∈ mro S ck → a ∈ c_attrs c → sees S h o a v →
    ∃ v', sees S h' o' a v' ∧ (v' = v ∨ v = VFloat (u "-0.0") ∧ v' = VFloat (u "0.0"));
  rs_ends : ∀ o o' p k v, copy_of d d' o o' → pkind S h o p = Some k → match k with POneMany _ | POneOne _ => True | _ => False end →
    view h o (Priv p) = Some (OV v) → ∃ v', value_copy d d' v v' ∧ view h' o' (Priv p) = Some (OV v');
  rs_members : ∀ o o' q p ys, copy_of d d' o o' → pkind S h o q = Some (PManyOne p) → view h o (Priv q) = Some (OL ys) →
    ∃ ys', view h' o' (Priv q) = Some (OL ys') ∧ NoDup ys' ∧ ∀ y', y' ∈ ys' ↔ ∃ x x', VRef x ∈ ys ∧ copy_of d d' x x' ∧ y' = VRef x'
}.
