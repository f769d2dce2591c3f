(** Vocabulary for reading a model that is spread over several files, one file
    after the other. *)
From Coq Require Import String.
From stdpp Require Import prelude gmap.
From Verif Require Import PyStr PyHeap Schema AssocSpec TableSpec Reader ReaderSpec DocSpec.

Section parts.
Context (base rdf : pystr) (pm : list (name * name)).
(** The classes of the objects described, and the statements about them. *)
Definition class_of (items : list item) : pystr → option name := declared_class base rdf pm (flat base items).
Definition told (items : list item) : list (pystr * elem) :=
  flat_map (λ i, match uuid_of rdf (i_attrs i), assoc (i_tag i) pm with
    | Some id, Some _ => map (λ p, (id, pel_elem base p)) (i_props i)
    | _, _ => []
    end) items.
(** The files can be read in this order: references lead to objects of the
    same file or an earlier one, and no file says what a single end of an
    object of another file is. *)
Definition in_turn (S : schema) (parts : list (list item)) : Prop := ∀ l part r, parts = l ++ part :: r →
  (∀ x a y, refers base rdf (class_of (concat parts)) (told part) x a y → is_Some (class_of (concat (l ++ [part])) y)) ∧
  (∀ x p y, says base rdf S (class_of (concat parts)) (told part) x p y → is_Some (class_of part x)).
(** Reading them: the dictionary of each read is the start dictionary of the
    next. *)
Inductive reads_parts (S : schema) (fuel : nat) (pf : pystr → option pystr) : list (list item) → dict → heap → dict → heap → Prop :=
  | rp_nil d h : reads_parts S fuel pf [] d h d h
  | rp_cons root items rest d h d1 h1 d2 h2 : in_base base root = false →
      reads base rdf S pm fuel pf false root (flat base items ++ [EEnd root]) d h = (None, d1, h1) →
      reads_parts S fuel pf rest d1 h1 d2 h2 → reads_parts S fuel pf (items :: rest) d h d2 h2.
End parts.

(** The dictionaries have objects of the same classes for the identifiers of
    [cl], with the same attributes, references to corresponding objects and
    corresponding members. *)
Definition alike (S : schema) (cl : pystr → option name) (d1 : dict) (h1 : heap) (d2 : dict) (h2 : heap) : Prop :=
  (∀ id, is_Some (assoc id d1) ↔ is_Some (assoc id d2)) ∧
  ∀ id k, cl id = Some k →
  ∃ o1 o2, assoc id d1 = Some (VRef o1) ∧ assoc id d2 = Some (VRef o2) ∧ cls_of h1 o1 = Some k ∧ cls_of h2 o2 = Some k ∧
    (∀ a, plain_attr S k a → ∃ v, shows S h1 o1 a v ∧ shows S h2 o2 a v) ∧
    (∀ p kk, lookup_prop S k p = Some kk → match kk with POneMany _ | POneOne _ => True | _ => False end →
      ∃ v1 v2, shows S h1 o1 p v1 ∧ shows S h2 o2 p v2 ∧ twins d1 d2 v1 v2) ∧
    (∀ p kk, lookup_prop S k p = Some kk → match kk with PManyOne _ | PManyMany _ => True | _ => False end →
      ∃ ys1 ys2, view h1 o1 (Priv p) = Some (OL ys1) ∧ view h2 o2 (Priv p) = Some (OL ys2) ∧
        (∀ v1, v1 ∈ ys1 → ∃ v2, v2 ∈ ys2 ∧ twins d1 d2 v1 v2) ∧ (∀ v2, v2 ∈ ys2 → ∃ v1, v1 ∈ ys1 ∧ twins d1 d2 v1 v2)).
