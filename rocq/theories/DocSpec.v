(** Vocabulary for what a whole document makes of the objects it describes:
    which statements are about an attribute, and which references a document
    states. *)
From Coq Require Import String.
From stdpp Require Import prelude gmap.
From Verif Require Import PyStr PyHeap Schema AssocSpec TableSpec Reader ReaderSpec.

(** *** Attributes *)
(** What a property element makes of an ordinary attribute with value [v].
    [pf t] is the [repr] of [float(t)]. *)
Inductive takes (rdf : pystr) (pf : pystr → option pystr) : val → elem → val → Prop :=
  (* a text is converted to the type of the value *)
  | tk_text v e t w : resource rdf e = None → e_text e = Some t → converts pf v t w → takes rdf pf v e w
  (* None has no type *)
  | tk_untyped e : resource rdf e = None → takes rdf pf VNone e VNone
  (* without text a string becomes "None" and other values stay *)
  | tk_empty_str s e : resource rdf e = None → e_text e = None → takes rdf pf (VStr s) e (VStr (u "None"))
  | tk_empty v e : resource rdf e = None → e_text e = None →
      match v with VBool _ | VInt _ | VFloat _ => True | _ => False end → takes rdf pf v e v
  (* the name of a literal of an enumeration *)
  | tk_enum v e uri p s : resource rdf e = Some uri → has_prefix (u "#") uri = false → uri = p ++ u "." ++ s → 46%N ∉ s →
      takes rdf pf v e (VStr s).
(** The elements in turn. *)
Inductive takes_all (rdf : pystr) (pf : pystr → option pystr) : val → list elem → val → Prop :=
  | ta_nil v : takes_all rdf pf v [] v
  | ta_cons v e w es x : takes rdf pf v e w → takes_all rdf pf w es x → takes_all rdf pf v (e :: es) x.
(** The value of attribute [a] of a new [ck(UUID=id)]. *)
Definition starts (S : schema) (ck : name) (id : pystr) (a : name) (v : val) : Prop :=
  if decide (a = u "UUID") then v = VStr id else ctor_default (mro S ck) a = Some v.

Section document.
Context (base rdf : pystr) (pm : list (name * name)) (evs : list event) (d : dict).
(** The identifiers the document or the dictionary it is read into has objects
    for, and the statements about them. *)
Definition known_id (id : pystr) : bool :=
  match declared_class base rdf pm evs id, assoc id d with None, None => false | _, _ => true end.
Definition doc_statements : list (pystr * elem) := statements base rdf known_id None evs.
(** The statements about [id.a]. *)
Definition about (id : pystr) (a : name) : list elem :=
  omap (λ st, if decide (st.1 = id ∧ after_last_dot (local base st.2) = a) then Some st.2 else None) doc_statements.
End document.

(** *** References *)
Section references.
Context (base rdf : pystr) (S : schema) (cl : pystr → option name) (sts : list (pystr * elem)).
(** [x.a] refers to [y], which there is an object for. *)
Definition refers (x : pystr) (a : name) (y : pystr) : Prop :=
  ∃ e, (x, e) ∈ sts ∧ reference_elem base rdf e a y ∧ is_Some (cl y).
(** [p] of the class [ck] is the single end that members of the collection
    [q] are reached by, where [p'] is the name [q] is declared with. *)
Definition member_end (ck p' p q : name) : Prop :=
  lookup_prop S ck p = Some (POneMany q) ∧ (p' = p ∨ ∃ c, lookup_prop S ck p' = Some (PAlias p c)).
(** The statements say that the single end [p] of [x] is [y]: by [x.p], by an
    alias of [p], or by the collection of [y] that is the other end; or by
    either end of a one-to-one association. *)
Inductive says : pystr → name → pystr → Prop :=
  | says_single x p y ck q : refers x p y → cl x = Some ck → lookup_prop S ck p = Some (POneMany q) → says x p y
  | says_alias x a p y ck c : refers x a y → cl x = Some ck → lookup_prop S ck a = Some (PAlias p c) → says x p y
  | says_member x p p' y q ck tk : refers y q x → cl x = Some ck → cl y = Some tk →
      lookup_prop S tk q = Some (PManyOne p') → member_end ck p' p q → says x p y
  | says_pair x p y ck q : refers x p y → cl x = Some ck → lookup_prop S ck p = Some (POneOne q) → says x p y
  | says_partner x p y tk q : refers y q x → cl y = Some tk → lookup_prop S tk q = Some (POneOne p) → says x p y.
(** The statements say that [y] is in the collection [p] of [x], one end of a
    many-to-many association. *)
Inductive says_many : pystr → name → pystr → Prop :=
  | says_many_here x p y ck q : refers x p y → cl x = Some ck → lookup_prop S ck p = Some (PManyMany q) → says_many x p y
  | says_many_there x p y tk q : refers y q x → cl y = Some tk → lookup_prop S tk q = Some (PManyMany p) → says_many x p y.
(** No single end is said to be two objects. *)
Definition agreeing : Prop := ∀ x p y y', says x p y → says x p y' → y = y'.
End references.

Section document.
Context (base rdf : pystr) (S : schema) (pm : list (name * name)) (evs : list event) (d : dict) (h : heap).
Notation cl := (class_in base rdf pm evs d h).
(** The statements of the document between the objects it and the dictionary
    have. *)
Definition doc_says : pystr → name → pystr → Prop := says base rdf S cl (doc_statements base rdf pm evs d).
Definition doc_says_many : pystr → name → pystr → Prop := says_many base rdf S cl (doc_statements base rdf pm evs d).
(** The document does not contradict itself, and says nothing of single ends
    of objects that it does not describe. *)
Record coherent : Prop := {
  co_agree : agreeing base rdf S cl (doc_statements base rdf pm evs d);
  co_subjects : ∀ x p y, doc_says x p y → is_Some (declared_class base rdf pm evs x)
}.
End document.

(** The list stored for [o.q] has [v]. *)
Definition held (h : heap) (o : nat) (q : name) (v : val) : Prop := ∃ ys, view h o (Priv q) = Some (OL ys) ∧ v ∈ ys.
(** Both describe the same objects with the same statements about each
    attribute, in the same order. *)
Definition same_doc (base rdf : pystr) (pm : list (name * name)) (d : dict) (evs evs' : list event) : Prop :=
  (∀ id, declared_class base rdf pm evs id = declared_class base rdf pm evs' id) ∧
  (∀ id a, about base rdf pm evs d id a = about base rdf pm evs' d id a).
(** Values of two dictionaries that stand for the same object. *)
Definition twins (d d' : dict) (v v' : val) : Prop := v = VNone ∧ v' = VNone ∨ ∃ id, assoc id d = Some v ∧ assoc id d' = Some v'.

Section document.
Context (base rdf : pystr) (S : schema) (pm : list (name * name)) (evs : list event) (d : dict) (h : heap).
Notation cl := (class_in base rdf pm evs d h).
(** References are to ends of associations, or aliases of them. *)
Definition refers_to_ends : Prop := ∀ x a y ck, refers base rdf cl (doc_statements base rdf pm evs d) x a y → cl x = Some ck →
  key_of a = Pub a ∧
  match lookup_prop S ck a with Some (POneMany _ | PManyOne _ | POneOne _ | PManyMany _ | PAlias _ _) => True | _ => False end.
(** The document declares what its statements are about. *)
Definition self_contained : Prop := ∀ id e, (id, e) ∈ doc_statements base rdf pm evs d → is_Some (declared_class base rdf pm evs id).
(** Elements about ordinary attributes do not refer to objects. *)
Definition attributes_plain : Prop := ∀ id k a e r, declared_class base rdf pm evs id = Some k → plain_attr S k a →
  e ∈ about base rdf pm evs d id a → resource rdf e = Some r → has_prefix (u "#") r = false.
(** The declared classes can be instantiated. *)
Definition instantiable : Prop := ∀ id k, (id, k) ∈ declared base rdf pm evs → k ∉ unconstructible.
End document.

(** *** Reordering *)
(** The same class and identifiers, and for every attribute the same elements
    in the same order. *)
Definition same_item (i i' : item) : Prop :=
  i_tag i = i_tag i' ∧ i_attrs i = i_attrs i' ∧
  ∀ a, filter (λ p, after_last_dot (p_tag p) = a) (i_props i) = filter (λ p, after_last_dot (p_tag p) = a) (i_props i').
(** Objects in another order, and the properties of each as above. *)
Definition reordered (items items' : list item) : Prop := ∃ mid, items ≡ₚ mid ∧ Forall2 same_item mid items'.
(** No two objects have the same identifier. *)
Definition distinct_ids (rdf : pystr) (items : list item) : Prop := NoDup (omap (λ i, uuid_of rdf (i_attrs i)) items).
