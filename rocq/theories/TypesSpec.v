(** Vocabulary for the declared types of attributes. *)
From Coq Require Import String.
From stdpp Require Import prelude gmap.
From Verif Require Import PyStr PyHeap Schema AssocSpec TableSpec Names Tables AttrTypes TabTypes.

(** [type(v) is ty]. *)
Definition has_type (v : val) (ty : pytype) : Prop :=
  match v, ty with
  | VBool _, TyBool | VInt _, TyInt | VFloat _, TyFloat | VStr _, TyStr => True
  | _, _ => False
  end.
(** The classes of a package with their declared types. *)
Definition typed (t : schema) (pm : list (name * name)) (M : types) : Prop := ((t, pm), M) ∈ zip tables all_types.
(** Class [k] or one of its base classes declares the type of [a]. *)
Definition declares (t : schema) (M : types) (k a : name) (ty : pytype) : Prop :=
  ∃ c ts, c ∈ mro t k ∧ (c_key c, ts) ∈ M ∧ (a, ty) ∈ ts.
