(** Vocabulary for objects that are described a second time, and for references
    that differ only in which of two objects with the same identifier they lead
    to. *)
From Coq Require Import String ZArith.
From stdpp Require Import prelude gmap.
From Verif Require Import PyStr PyHeap Schema AssocSpec Reader ReaderSpec WriteSpec Assoc.

(** The dictionary has [o] under no other key. *)
Definition only_key (d : dict) (id : pystr) (o : nat) : Prop := ∀ id', assoc id' d = Some (VRef o) → id' = id.
(** Nothing in the dictionary is [o]. *)
Definition not_listed (d : dict) (o : nat) : Prop := ∀ id, assoc id d ≠ Some (VRef o).

Section ids.
Context (S : schema).
(** Equal values, or references to objects with the same identifier. *)
Definition same_id (h h' : heap) (v v' : val) : Prop :=
  v' = v ∨ ∃ y y' i, v = VRef y ∧ v' = VRef y' ∧ sees S h y (u "UUID") (VStr i) ∧ sees S h' y' (u "UUID") (VStr i).
(** The objects have the same classes and, collections aside, the same
    attributes and references to objects with the same identifiers. *)
Record SameIds (h h' : heap) : Prop := {
  si_cls : ∀ o, cls_of h' o = cls_of h o;
  si_to : ∀ o a v, sees S h o a v → ∃ v', sees S h' o a v' ∧ same_id h h' v v';
  si_from : ∀ o a v', sees S h' o a v' → ∃ v, sees S h o a v ∧ same_id h h' v v'
}.
(** [x.p = y'], where [x.p] is a single end that refers to another object of the
    class and identifier of [y']: what a client does who replaces references
    by the object the dictionary has for the identifier. *)
Definition repoints (fuel : nat) (h h' : heap) : Prop := ∃ x p q y y' i ck,
  pkind S h x p = Some (POneMany q) ∧ view h x (Priv p) = Some (OV (VRef y)) ∧
  cls_of h y = Some ck ∧ cls_of h y' = Some ck ∧ sees S h y (u "UUID") (VStr i) ∧ sees S h y' (u "UUID") (VStr i) ∧
  setattr S fuel (VRef x) p (VRef y') h = (inl tt, h').
End ids.
