(** Vocabulary for documents that are read without complaints. *)
From Coq Require Import String.
From stdpp Require Import prelude gmap.
From Verif Require Import PyStr PyHeap Schema AssocSpec TableSpec Reader ReaderSpec VocabSpec DocSpec ReaderLog WriteSpec.

(** Objects of class [ck] have the attribute or reference [a]: a class of the
    method resolution order lists it; a collection counts if it is a parameter of
    the constructor. *)
Definition class_has (S : schema) (ck a : name) : Prop :=
  ∃ c, c ∈ mro S ck ∧ (a ∈ c_attrs c ∨ a ∈ c_refs c ∧ a ∉ c_many c ∨ a ∈ c_many c ∧ a ∈ map fst (c_params c)).
Section document.
Context (base rdf : pystr) (S : schema) (pm : list (name * name)) (evs : list event) (d : dict) (h : heap).
(** Every object element is of a class of the package map, *)
Definition classes_known : Prop := ∀ e l id, EEnd e ∈ evs → names_object base rdf e l id → l ∈ map fst pm.
(** and is closed. *)
Definition objects_closed : Prop := ∀ e l id, EStart e ∈ evs → names_object base rdf e l id →
  ∃ e', EEnd e' ∈ evs ∧ names_object base rdf e' l id.
(** Every statement is about an attribute or reference of the class. *)
Definition attributes_known : Prop := ∀ id e a k, (id, e) ∈ doc_statements base rdf pm evs d → is_property base rdf e a →
  declared_class base rdf pm evs id = Some k → class_has S k a.
(** Every reference is to an object. *)
Definition references_known : Prop := ∀ id e a y, (id, e) ∈ doc_statements base rdf pm evs d → reference_elem base rdf e a y →
  is_Some (class_in base rdf pm evs d h y).
End document.

(** *** Exports *)
(** What the exported objects refer to is exported too. *)
Definition refs_inside (S : schema) (h : heap) (d : dict) : Prop :=
  ∀ id o ck c p x, (id, VRef o) ∈ d → cls_of h o = Some ck → c ∈ mro S ck → p ∈ c_refs c → p ∉ c_many c → sees S h o p (VRef x) →
    ∃ i, (i, VRef x) ∈ d.
