(** Vocabulary for when an export succeeds. *)
From Coq Require Import String ZArith.
From stdpp Require Import prelude gmap.
From Verif Require Import PyStr PyHeap Schema AssocSpec Reader ReaderSpec WriteSpec.

(** Not an object and not a list. *)
Definition no_object (v : val) : Prop := match v with VRef _ | VList _ => False | _ => True end.
(** The attributes and identifiers of all objects are such values. *)
Definition holds_values (S : schema) (h : heap) : Prop := ∀ o ck a w, cls_of h o = Some ck → plain_attr S ck a ∨ a = u "UUID" →
  view h o (Pub a) = Some w → ∃ v, w = OV v ∧ no_object v.
(** An object whose identifier is a string, that has all attributes of its
    class and all its single references, each None or an object with an
    identifier. *)
Record Writable (S : schema) (h : heap) (o : nat) : Prop := {
  wa_class : ∃ c, cls_of h o = Some (c_key c) ∧ find_cls S (c_key c) = Some c;
  wa_id : ∃ id, sees S h o (u "UUID") (VStr id);
  wa_attrs : ∀ ck c a, cls_of h o = Some ck → c ∈ mro S ck → a ∈ c_attrs c → ∃ v, sees S h o a v;
  wa_refs : ∀ ck c p, cls_of h o = Some ck → c ∈ mro S ck → p ∈ c_refs c → p ∉ c_many c →
    sees S h o p VNone ∨ ∃ x i, sees S h o p (VRef x) ∧ sees S h x (u "UUID") i
}.
