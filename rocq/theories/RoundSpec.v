(** Vocabulary for the round trip through cimwrite and cimread: which object
    graphs can be exported, and when one graph is a copy of another. *)
From Coq Require Import String ZArith.
From stdpp Require Import prelude gmap.
From Verif Require Import PyStr PyHeap Schema AssocSpec Reader ReaderSpec XmlSpec XmlCalls TableSpec WriteSpec.

(** *** Graphs to export *)
(** A value for an attribute whose default is [dflt]: of the same type, a
    string of characters XML text can hold, a float whose [repr] is read back
    as that float.  [pf t] is the [repr] of [float(t)]. *)
Inductive fits (pf : pystr → option pystr) : val → val → Prop :=
  | fits_bool b b0 : fits pf (VBool b0) (VBool b)
  | fits_int z z0 : fits pf (VInt z0) (VInt z)
  | fits_float r r0 : r ≠ [] → forallb data_char r = true → pf r = Some r → fits pf (VFloat r0) (VFloat r)
  | fits_str s s0 : forallb data_char s = true → fits pf (VStr s0) (VStr s).
(** A literal of an enumeration. *)
Definition fits_enum (v : val) : Prop := ∃ s, v = VStr s ∧ forallb attr_char s = true ∧ 46%N ∉ s.

Record Portable (S : schema) (pm : list (name * name)) (pf : pystr → option pystr) (h : heap) (d : dict) : Prop := {
  (* what constructors and the methods of the classes produce *)
  po_sound : Sound S h;
  (* the keys are the identifiers of the objects *)
  po_keys : NoDup (map fst d);
  po_ids : ∀ id v, (id, v) ∈ d → ∃ o, v = VRef o ∧ sees S h o (u "UUID") (VStr id) ∧ forallb attr_char id = true;
  (* the reader knows their classes *)
  po_class : ∀ id o, (id, VRef o) ∈ d → ∃ c, cls_of h o = Some (c_key c) ∧ find_cls S (c_key c) = Some c ∧
    assoc (c_name c) pm = Some (c_key c) ∧ c_key c ∉ unconstructible;
  po_attrs : ∀ id o ck c a v, (id, VRef o) ∈ d → cls_of h o = Some ck → c ∈ mro S ck → a ∈ c_attrs c → a ≠ u "UUID" →
    sees S h o a v →
    match assoc a (c_enums c) with
    | Some _ => fits_enum v
    | None => ∀ dflt, assoc a (c_defaults c) = Some dflt → fits pf dflt v
    end;
  (* a reference leads to an object of the dictionary, or to one whose
     identifier is not in the dictionary *)
  po_refs : ∀ id o ck c p x, (id, VRef o) ∈ d → cls_of h o = Some ck → c ∈ mro S ck → p ∈ c_refs c → p ∉ c_many c →
    sees S h o p (VRef x) →
    ∃ i, sees S h x (u "UUID") (VStr i) ∧ forallb attr_char i = true ∧ (∀ v, assoc i d = Some v → v = VRef x)
}.

(** *** Copies *)
Section copies.
Context (S : schema) (h : heap) (d : dict) (h' : heap) (d' : dict).
(** [o'] has the key in [d'] that [o] has in [d]. *)
Definition copy_of (o o' : nat) : Prop := ∃ id, assoc id d = Some (VRef o) ∧ assoc id d' = Some (VRef o').
(** The value that corresponds to [v]; objects outside the dictionary are
    forgotten. *)
Inductive value_copy : val → val → Prop :=
  | vc_plain v : (∀ o, v ≠ VRef o) → value_copy v v
  | vc_object o o' : copy_of o o' → value_copy (VRef o) (VRef o')
  | vc_outside o : (∀ o', ¬ copy_of o o') → value_copy (VRef o) VNone.
Record Copies : Prop := {
  cp_keys : map fst d' = map fst d;
  cp_objects : ∀ id o, assoc id d = Some (VRef o) → ∃ o', assoc id d' = Some (VRef o');
  cp_class : ∀ o o', copy_of o o' → cls_of h' o' = cls_of h o;
  (* ordinary attributes and enumerations; only the sign of a zero is lost *)
  cp_attrs : ∀ o o' ck c a v, copy_of o o' → cls_of h o = Some ck → c ∈ mro S ck → a ∈ c_attrs c → sees S h o a v →
    ∃ v', sees S h' o' a v' ∧ (v' = v ∨ v = VFloat (u "-0.0") ∧ v' = VFloat (u "0.0"));
  (* references that are not collections *)
  cp_refs : ∀ o o' ck c p v, copy_of o o' → cls_of h o = Some ck → c ∈ mro S ck → p ∈ c_refs c → p ∉ c_many c →
    sees S h o p v → ∃ v', value_copy v v' ∧ sees S h' o' p v';
  (* the collections of one-to-many associations *)
  cp_members : ∀ o o' ck q p ys, copy_of o o' → cls_of h o = Some ck → lookup_prop S ck q = Some (PManyOne p) →
    view h o (Priv q) = Some (OL ys) →
    ∃ ys', view h' o' (Priv q) = Some (OL ys') ∧ NoDup ys' ∧
      ∀ y', y' ∈ ys' ↔ ∃ x x', VRef x ∈ ys ∧ copy_of x x' ∧ y' = VRef x';
}.
(** All other collections come back empty. *)
Definition loses_collections : Prop := ∀ o o' ck c q, copy_of o o' → cls_of h o = Some ck → c ∈ mro S ck →
  q ∈ c_many c → q ∈ map fst (c_params c) → (∀ p, lookup_prop S ck q ≠ Some (PManyOne p)) →
  view h' o' (match lookup_prop S ck q with None => key_of q | Some _ => Priv q end) = Some (OL []).
End copies.
(** The objects of [h] are not touched, those of the dictionary are new. *)
Definition Adds (h h' : heap) (d' : dict) : Prop :=
  (∀ o k, is_Some (cls_of h o) → cls_of h' o = cls_of h o ∧ view h' o k = view h o k) ∧
  ∀ id o, assoc id d' = Some (VRef o) → cls_of h o = None.

(** The reader finds the identifier [id] for [o], and its package map has the
    class [ck] under the name of the class of [o]. *)
Definition exported (S : schema) (pm : list (name * name)) (h : heap) (o : nat) (id : pystr) (ck : name) : Prop :=
  ∃ c s, cls_of h o = Some (c_key c) ∧ find_cls S (c_key c) = Some c ∧ sees S h o (u "UUID") (VStr s) ∧ id = seen_attr s ∧
    assoc (c_name c) pm = Some ck.
