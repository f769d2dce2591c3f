(** Vocabulary for reading an export with other classes than those it was
    written with. *)
From Coq Require Import String.
From stdpp Require Import prelude gmap.
From Verif Require Import PyStr PyHeap Schema AssocSpec TableSpec Reader ReaderSpec WriteSpec RoundSpec.

(** Class [K] of [T] has what class [k] of [S] has: the attributes with their
    defaults and the properties with their kinds and inverses.  It can have
    more. *)
Record extends (S : schema) (k : name) (T : schema) (K : name) : Prop := {
  ex_attr : ∀ a, plain_attr S k a → plain_attr T K a ∧ ctor_default (mro T K) a = ctor_default (mro S k) a;
  ex_prop : ∀ p kk, lookup_prop S k p = Some kk → lookup_prop T K p = Some kk;
  ex_ref : ∀ c r, c ∈ mro S k → r ∈ c_refs c → r ∉ c_many c → lookup_prop S k r = None →
    lookup_prop T K r = None ∧ ∀ C, C ∈ mro T K → r ∉ c_attrs C
}.
(** Each class that can be instantiated has a class of the same name in the
    other package map that extends it. *)
Definition embeds (S : schema) (pm : list (name * name)) (T : schema) (tm : list (name * name)) : Prop :=
  ∀ n k, assoc n pm = Some k → k ∉ unconstructible → ∃ K, assoc n tm = Some K ∧ K ∉ unconstructible ∧ extends S k T K.

(** The objects of [d] are in [d'] as objects of the classes of the same names.
    What these classes have in addition is as in a new object. *)
Record Moved (S : schema) (h : heap) (d : dict) (T : schema) (tm : list (name * name)) (h' : heap) (d' : dict) : Prop := {
  mv_keys : map fst d' = map fst d;
  mv_objects : ∀ id o, assoc id d = Some (VRef o) → ∃ o', assoc id d' = Some (VRef o');
  mv_class : ∀ o o', copy_of d d' o o' → ∃ c K, cls_of h o = Some (c_key c) ∧ find_cls S (c_key c) = Some c ∧
    assoc (c_name c) tm = Some K ∧ cls_of h' o' = Some K;
  mv_attrs : ∀ o o' ck c a v, copy_of d d' o o' → cls_of h o = Some ck → c ∈ mro S ck → a ∈ c_attrs c → sees S h o a v →
    ∃ v', sees T h' o' a v' ∧ (v' = v ∨ v = VFloat (u "-0.0") ∧ v' = VFloat (u "0.0"));
  mv_ends : ∀ o o' p k v, copy_of d d' o o' → pkind S h o p = Some k → match k with POneMany _ | POneOne _ => True | _ => False end →
    view h o (Priv p) = Some (OV v) → ∃ v', value_copy d d' v v' ∧ view h' o' (Priv p) = Some (OV v');
  mv_members : ∀ o o' q p ys, copy_of d d' o o' → pkind S h o q = Some (PManyOne p) → view h o (Priv q) = Some (OL ys) →
    ∃ ys', view h' o' (Priv q) = Some (OL ys') ∧ NoDup ys' ∧ ∀ y', y' ∈ ys' ↔ ∃ x x', VRef x ∈ ys ∧ copy_of d d' x x' ∧ y' = VRef x';
  mv_more_attrs : ∀ o o' ck K a v, copy_of d d' o o' → cls_of h o = Some ck → cls_of h' o' = Some K → plain_attr T K a → ¬ plain_attr S ck a →
    ctor_default (mro T K) a = Some v → sees T h' o' a v;
  mv_more_ends : ∀ o o' p k, copy_of d d' o o' → pkind S h o p = None → pkind T h' o' p = Some k →
    match k with POneMany _ | POneOne _ => view h' o' (Priv p) = Some (OV VNone) | PManyOne _ => view h' o' (Priv p) = Some (OL []) | _ => True end;
  mv_many : ∀ o o' q p, copy_of d d' o o' → pkind T h' o' q = Some (PManyMany p) → view h' o' (Priv q) = Some (OL [])
}.
