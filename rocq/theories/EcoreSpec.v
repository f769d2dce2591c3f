(** Vocabulary for the statements that compare the classes with the ecore
    models: of the code model only the heap and the predicates on texts of
    [ReaderSpec.v] are used. *)
From Coq Require Import String ZArith.
From stdpp Require Import prelude gmap.
From Verif Require Import PyStr PyHeap Schema AssocSpec Reader ReaderSpec Names Tables Ecore TabEcore.

(** The value an attribute of the type starts with.  The literal of an enumeration
    is its first one, or the empty text if it has none; a big integer starts as
    text. *)
Definition zero (ty : etype) : val :=
  match ty with
  | TText | TDate | TBig => VStr (u "")
  | TFloat => VFloat (u "0.0")
  | TInt => VInt 0
  | TBool => VBool false
  | TEnum _ (l :: _) => VStr l
  | TEnum _ [] => VStr (u "")
  end.

(** What the classes have beyond the models: added by hand to CIM15. *)
Definition extra_classes : list name := [
  n_CIM15_IEC61970_OperationalLimits_CheckPoint_CheckPoint;
  n_CIM15_IEC61970_OperationalLimits_VoltageCheckPoint_VoltageCheckPoint;
  n_CIM15_IEC61970_OperationalLimits_VoltageTimeCurve_VoltageTimeCurve;
  n_CIM15_IEC61970_Wires_CurrentTemperatureCurve_CurrentTemperatureCurve;
  n_CIM15_IEC61970_WiresPhaseModel_ACLineSegmentPhase_ACLineSegmentPhase].
Definition extra_features : list (name * name) := [
  (n_CIM15_IEC61970_WiresPhaseModel_EnergyConsumerPhase_EnergyConsumerPhase, n_pfixed);
  (n_CIM15_IEC61970_WiresPhaseModel_EnergyConsumerPhase_EnergyConsumerPhase, n_qfixed);
  (n_CIM15_IEC61970_Wires_ACLineSegment_ACLineSegment, n_ACLineSegmentPhases);
  (n_CIM15_IEC61970_Wires_ACLineSegment_ACLineSegment, n_CurrentTemperatureCurves);
  (n_CIM15_IEC61970_Wires_ACLineSegment_ACLineSegment, n_PerLengthImpedance);
  (n_CIM15_IEC61970_Wires_TransformerEnd_TransformerEnd, n_BaseVoltage);
  (n_CIM15_IEC61970_Core_Equipment_Equipment, n_OperationalLimitSet);
  (n_CIM15_IEC61970_Core_BaseVoltage_BaseVoltage, n_TransformerEnd)].
Definition of_model (k : name) (l : list name) : list name := filter (λ a, (k, a) ∉ extra_features) l.

(** The references that are views of another one (C16). *)
Definition views : list (name * name) := [
  (n_CIM15_IEC61970_Wires_ACLineSegment_ACLineSegment, n_SequenceImpedance);
  (n_CIM15_IEC61970_Wires_ACLineSegment_ACLineSegment, n_PhaseImpedance)].

(** The class whose name the package map of its profile gives to another class. *)
Definition shadowed : list name := [n_CIM14_ENTSOE_Equipment_OperationalLimit_OperationalLimit].
(** The collection that is not a parameter of the constructor (C14). *)
Definition unbound : list (name * name) := [(n_CIM14_ENTSOE_Dynamics_Thing_Thing, n_EAID_4B45E775_795A_4030_865F_0AB320000DDD_B)].

(** [g] of class [F] is the opposite of reference [r]. *)
Definition opposite (M : list eclass) (r : eref) (F : eclass) (g : eref) : Prop :=
  F ∈ M ∧ ec_key F = f_type r ∧ g ∈ ec_refs F ∧ f_opposite r = Some (f_name g).
(** The kind of property for a reference with opposite [g]. *)
Definition end_kind (r g : eref) : prop :=
  match f_many r, f_many g with
  | false, true => POneMany (f_name g)
  | true, false => PManyOne (f_name g)
  | false, false => POneOne (f_name g)
  | true, true => PManyMany (f_name g)
  end.

(** The class statement implements the class of the model. *)
Record Implements (M : list eclass) (E : eclass) (c : cls) : Prop := {
  im_name : c_name c = ec_name E;
  im_base : c_base c = ec_super E;
  im_attrs : of_model (ec_key E) (c_attrs c) = map fst (ec_attrs E);
  im_defaults : ∀ a ty, (a, ty) ∈ ec_attrs E → assoc a (c_defaults c) = Some (zero ty);
  im_enums : ∀ a n, (a, n) ∈ c_enums c ↔ ∃ ls, (a, TEnum n ls) ∈ ec_attrs E;
  im_refs : of_model (ec_key E) (c_refs c) = map f_name (ec_refs E);
  im_many : ∀ r, r ∈ ec_refs E → f_name r ∈ c_many c ↔ f_many r = true;
  im_plain : ∀ r, r ∈ ec_refs E → f_opposite r = None → assoc (f_name r) (c_props c) = None;
  im_assoc : ∀ r F g, r ∈ ec_refs E → opposite M r F g → (ec_key E, f_name r) ∉ views →
    assoc (f_name r) (c_props c) = Some (end_kind r g)
}.

(** [F] is [E] or one of its supertypes. *)
Inductive inherits (M : list eclass) : eclass → eclass → Prop :=
| inh_self E : E ∈ M → inherits M E E
| inh_super E F G : E ∈ M → ec_super E = Some (ec_key F) → inherits M F G → inherits M E G.

(** [x] is an instance of the class or of a class that inherits it. *)
Definition instance_of (M : list eclass) (h : heap) (x : nat) (F : eclass) : Prop :=
  ∃ E, inherits M E F ∧ cls_of h x = Some (ec_key E).
(** [x.p] is [y], or a collection with [y]. *)
Definition leads (h : heap) (x : nat) (p : name) (y : nat) : Prop :=
  view h x (Priv p) = Some (OV (VRef y)) ∨ ∃ ys, view h x (Priv p) = Some (OL ys) ∧ VRef y ∈ ys.
(** A value of the type. *)
Definition of_type (ty : etype) (v : val) : Prop :=
  match ty with
  | TText | TDate | TBig | TEnum _ _ => ∃ s, v = VStr s
  | TFloat => ∃ s, v = VFloat s
  | TInt => ∃ z, v = VInt z
  | TBool => ∃ b, v = VBool b
  end.
(** What a text stands for as a value of the type. *)
Definition means (pf : pystr → option pystr) (ty : etype) (text : pystr) (v : val) : Prop :=
  match ty with
  | TText | TDate | TBig | TEnum _ _ => v = VStr text
  | TFloat => ∃ s, pf text = Some s ∧ v = VFloat s
  | TInt => ∃ z, ascii text = true ∧ int_literal text z ∧ v = VInt z
  | TBool => ∃ b, v = VBool b ∧ (b = true ↔ case_variant text)
  end.
(** A class table, its package map and the model it implements. *)
Definition group (t : schema) (pm : list (name * name)) (M : list eclass) : Prop := ((t, pm), M) ∈ zip tables ecores.
