(** The types that the classes declare for their attributes. *)
From stdpp Require Import prelude.
From Verif Require Import PyStr PyHeap Schema.

(** The values of [_attr_types], for example
    CIM14/IEC61970/Core/Terminal.py:90. *)
Inductive pytype := TyBool | TyInt | TyFloat | TyStr.
(** [_attr_types] of each class of a package, for example
    CIM14/IEC61970/Core/Terminal.py:90.  No code reads it. *)
Definition types := list (name * list (name * pytype)).
