(** What in a document denotes an object or a property, in terms of tags and
    attributes; base classes; the values of attribute expressions. *)
From Coq Require Import String.
From stdpp Require Import prelude gmap.
From Verif Require Import PyStr PyHeap Schema AssocSpec Reader.

(** The first pair of the list with this key. *)
Definition first_is {A} (k : name) (v : A) (l : list (name * A)) : Prop :=
  ∃ a b, l = a ++ (k, v) :: b ∧ k ∉ map fst a.
(** [rdf:n="v"] is or is not among the attributes of the element. *)
Definition rdf_key (rdf : pystr) (n : string) : pystr := u "{" ++ rdf ++ u "}" ++ u n.
Definition rdf_has (rdf : pystr) (n : string) (e : elem) (v : pystr) : Prop := first_is (rdf_key rdf n) v (e_attrs e).
Definition rdf_lacks (rdf : pystr) (n : string) (e : elem) : Prop := rdf_key rdf n ∉ map fst (e_attrs e).
(** [<cim:l rdf:ID="id">] or [<cim:l rdf:about="#id">]: the first character of
    rdf:about, whatever it is, does not count. *)
Definition names_object (base rdf : pystr) (e : elem) (l id : pystr) : Prop :=
  e_tag e = base ++ l ∧
  (rdf_has rdf "ID" e id ∨ rdf_lacks rdf "ID" e ∧ ∃ s, rdf_has rdf "about" e s ∧ id = tail s).
(** [a] is the part of [l] after the last dot. *)
Definition last_part (l a : pystr) : Prop := 46%N ∉ a ∧ (l = a ∨ ∃ p, l = p ++ u "." ++ a).
Definition names_property (base rdf : pystr) (e : elem) (a : pystr) : Prop :=
  rdf_lacks rdf "ID" e ∧ rdf_lacks rdf "about" e ∧ ∃ l, e_tag e = base ++ l ∧ last_part l a.

(** The class [k] of table [t] with its base classes, up to [object]. *)
Inductive derives (t : schema) : name → list cls → Prop :=
  | der_root c : c ∈ t → c_base c = None → derives t (c_key c) [c]
  | der_step c b cs : c ∈ t → c_base c = Some b → derives t b cs → derives t (c_key c) (c :: cs).

(** The outcome of evaluating an expression without effect: the value, the
    content of the list, or AttributeError. *)
Definition evaluates (h : heap) (r : (val + exn) * heap) (w : option ov) : Prop :=
  match w with
  | None => r = (inr AttributeError, h)
  | Some (OV v) => r = (inl v, h)
  | Some (OL xs) => ∃ l, r = (inl (VList l), h) ∧ h_lists h !! l = Some xs
  end.
(** The class of a value that is an object. *)
Definition of_class (h : heap) (v : val) (c : name) : Prop := ∃ o, v = VRef o ∧ cls_of h o = Some c.
