(** Constructor arguments: what a class and its base classes take. *)
From Coq Require Import String.
From stdpp Require Import prelude gmap.
From Verif Require Import PyStr PyHeap Schema AssocSpec.

(** The parameters of the constructors of a class and its base classes, in
    order: [C.__init__], then its base class's, and so on. *)
Definition params_of (cs : list cls) : list name := concat (map (λ c, map fst (c_params c)) cs).

(** None of these keywords is a parameter of one of the classes. *)
Definition untaken (cs : list cls) (extra : list (name * val)) : Prop :=
  ∀ c n v, c ∈ cs → (n, v) ∈ extra → n ∉ map fst (c_params c).

(** [Element] is one of the base classes. *)
Definition is_element (cs : list cls) : Prop := ∃ c, c ∈ cs ∧ c_name c = u "Element".

(** The classes that repeat a parameter of a base class, with that parameter:
    CIM15/IEC61970/Wires/ProtectedSwitch.py:37-38 with
    CIM15/IEC61970/Core/ConductingEquipment.py:43-44, and the three subclasses
    of ProtectedSwitch; CIM15/IEC61970/Graphics/DiagramObjectStyle.py and
    VisibilityLayer.py, CIM15/IEC61970/Informative/InfGMLSupport/Diagram.py and
    Map.py with CIM15/IEC61970/Core/IdentifiedObject.py. *)
Definition repeated : list (name * name) := [
  (u "CIM15.IEC61970.Graphics.DiagramObjectStyle.DiagramObjectStyle", u "DiagramObjects");
  (u "CIM15.IEC61970.Graphics.VisibilityLayer.VisibilityLayer", u "DiagramObjects");
  (u "CIM15.IEC61970.Informative.InfGMLSupport.Diagram.Diagram", u "DiagramObjects");
  (u "CIM15.IEC61970.Informative.InfGMLSupport.Map.Map", u "DiagramObjects");
  (u "CIM15.IEC61970.Wires.Breaker.Breaker", u "ProtectionEquipments");
  (u "CIM15.IEC61970.Wires.LoadBreakSwitch.LoadBreakSwitch", u "ProtectionEquipments");
  (u "CIM15.IEC61970.Wires.ProtectedSwitch.ProtectedSwitch", u "ProtectionEquipments");
  (u "CIM15.IEC61970.Wires.Recloser.Recloser", u "ProtectionEquipments")].
Definition repeats : list name := map fst repeated.

(** Every member of [ys] refers to [o] at the other end of the association of
    which [o] has the collection end of kind [k]; other objects have not
    changed. *)
Definition inverse_of (k : prop) : option name :=
  match k with PManyOne p | PManyMany p => Some p | _ => None end.
Record Referred (V V' : nat → key → option ov) (o : nat) (k : prop) (ys : list nat) : Prop := {
  rf_single : ∀ p y, k = PManyOne p → y ∈ ys → V' y (Priv p) = Some (OV (VRef o));
  rf_many : ∀ p y xs, k = PManyMany p → y ∈ ys → V y (Priv p) = Some (OL xs) → V' y (Priv p) = Some (OL (xs ++ [VRef o]));
  rf_frame : ∀ o' k' p, o' ≠ o → inverse_of k = Some p → (o' ∈ ys → k' ≠ Priv p) → V' o' k' = V o' k'
}.
(** The object exists and, when the association is many-to-many, has a
    collection of existing objects at its end. *)
Definition ready (h : heap) (k : prop) (y : nat) : Prop :=
  is_Some (cls_of h y) ∧
  ∀ p, k = PManyMany p → ∃ xs, view h y (Priv p) = Some (OL xs) ∧ ∀ x, VRef x ∈ xs → is_Some (cls_of h x).
