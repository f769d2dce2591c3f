(** What a class table should look like; nothing here uses the code model. *)
From Coq Require Import String.
From stdpp Require Import prelude gmap.
From Verif Require Import PyStr PyHeap Schema Assoc AssocSpec Names.

(** *** Metadata of one class *)
Record MetaOk (c : cls) : Prop := {
  (* the declared attributes are the parameters with a value as default *)
  mo_attrs : ∀ a, a ∈ c_attrs c ↔ ∃ d, (a, d) ∈ c_params c ∧ d ≠ VNone;
  (* with that default *)
  mo_defaults : ∀ a d, (a, d) ∈ c_defaults c ↔ (a, d) ∈ c_params c ∧ d ≠ VNone;
  (* references are the parameters defaulting to None *)
  mo_refs : ∀ r, r ∈ c_refs c ↔ (r, VNone) ∈ c_params c;
  (* collections are initialised to a list, all other references are not *)
  mo_many : ∀ r, r ∈ c_many c ↔ SMany r ∈ c_steps c ∨ SPlainMany r ∈ c_steps c;
  mo_many_refs : ∀ r, r ∈ c_many c → r ∈ c_refs c;
  mo_enums : ∀ e t, (e, t) ∈ c_enums c → e ∈ c_attrs c;
  mo_props : ∀ p k, (p, k) ∈ c_props c → p ∈ c_refs c;
  mo_nodup : NoDup (map fst (c_params c))
}.

(** The classes whose metadata disagrees with their constructor:
    CIM15/IEC61970/WiresPhaseModel/ACLineSegmentPhase.py:26-44 ([phase] defaults
    to None in the constructor and to "C" in [_defaults]),
    CIM15/IEC61970/WiresPhaseModel/EnergyConsumerPhase.py ([phase] is a
    parameter but not declared) and CIM14/ENTSOE/Dynamics/Thing.py (a declared
    reference without parameter). *)
Definition meta_exceptions : list name := [
  n_CIM15_IEC61970_WiresPhaseModel_ACLineSegmentPhase_ACLineSegmentPhase;
  n_CIM15_IEC61970_WiresPhaseModel_EnergyConsumerPhase_EnergyConsumerPhase;
  n_CIM14_ENTSOE_Dynamics_Thing_Thing].

(** *** Inverses *)
(** The dual end of an association end [(p, k)] of some class. *)
Definition dual (p : name) (k : prop) : option (name * prop) :=
  match k with
  | POneMany q => Some (q, PManyOne p)
  | PManyOne q | PManyOneDbl q => Some (q, POneMany p)
  | POneOne q => Some (q, POneOne p)
  | PManyMany q => Some (q, PManyMany p)
  | PPrivate | PAlias _ _ => None
  end.
Definition has_dual (S : schema) (p : name) (k : prop) : Prop :=
  ∀ q k', dual p k = Some (q, k') → ∃ c', c' ∈ S ∧ (q, k') ∈ c_props c'.

(** The association ends without a dual: CIM15/IEC61970/Core/Equipment.py:131-153,
    CIM15/IEC61970/Wires/ACLineSegment.py:129-142,
    CIM15/IEC61970/Wires/PerLengthPhaseImpedance.py,
    CIM15/IEC61970/Wires/PerLengthSequenceImpedance.py. *)
Definition dual_exceptions : list (name * name) := [
  (n_CIM15_IEC61970_Core_Equipment_Equipment, n_OperationalLimitSet);
  (n_CIM15_IEC61970_Wires_ACLineSegment_ACLineSegment, n_PerLengthImpedance);
  (n_CIM15_IEC61970_Wires_PerLengthPhaseImpedance_PerLengthPhaseImpedance, n_LineSegments);
  (n_CIM15_IEC61970_Wires_PerLengthSequenceImpedance_PerLengthSequenceImpedance, n_LineSegments)].

(** *** Construction *)
(** The default of attribute [a] as the first class along the base-class chain
    declares it in its constructor. *)
Fixpoint ctor_default (cs : list cls) (a : name) : option val :=
  match cs with
  | [] => None
  | c :: r => match assoc a (c_params c) with Some d => Some d | None => ctor_default r a end
  end.

Section blank.
Context (S : schema).

(** [v.p] yields a list that is empty and stored nowhere else. *)
Definition fresh_empty (h : heap) (o : nat) (p : name) : Prop :=
  ∃ l k, fst (getattr S (VRef o) p h) = inl (VList l) ∧ slot h o k = Some (VList l) ∧ h_lists h !! l = Some [] ∧
    ∀ o' k', slot h o' k' = Some (VList l) → o' = o ∧ k' = k.

(** [o] is new in [h'], of class [ck], and blank; nothing else has changed. *)
Record Blank (h h' : heap) (o : nat) (ck : name) (uuid : pystr) : Prop := {
  bl_new : cls_of h o = None;
  bl_cls : cls_of h' o = Some ck;
  bl_uuid : fst (getattr S (VRef o) (u "UUID") h') = inl (VStr uuid);
  bl_attrs : ∀ c a, c ∈ mro S ck → a ∈ c_attrs c → a ≠ u "UUID" →
    ∃ d, ctor_default (mro S ck) a = Some d ∧ fst (getattr S (VRef o) a h') = inl d;
  bl_single : ∀ c r, c ∈ mro S ck → r ∈ c_refs c → r ∉ c_many c →
    fst (getattr S (VRef o) r h') = inl VNone;
  (* a declared collection without constructor parameter is never created *)
  bl_many : ∀ c r, c ∈ mro S ck → r ∈ c_many c → r ∈ map fst (c_params c) → fresh_empty h' o r;
  bl_frame : ∀ o' k, o' ≠ o → cls_of h' o' = cls_of h o' ∧ view h' o' k = view h o' k
}.
End blank.

(** Classes that [C(UUID=u)] cannot instantiate.  The first eighteen derive from
    object and take no keyword arguments (for example
    CIM15/IEC61968/Common/Status.py); the constructors of the last two have a
    parameter named like the class, which [super] then receives
    (CIM15/IEC61970/Informative/InfERPSupport/ErpLedBudLineItem.py:27-42,
    ErpLedgerEntry.py:28-56). *)
Definition unconstructible : list name := [
  n_CIM15_IEC61968_PaymentMetering_AccountMovement_AccountMovement;
  n_CIM15_IEC61968_PaymentMetering_AccountingUnit_AccountingUnit;
  n_CIM15_IEC61968_PaymentMetering_BankAccountDetail_BankAccountDetail;
  n_CIM15_IEC61968_PaymentMetering_Due_Due;
  n_CIM15_IEC61968_PaymentMetering_LineDetail_LineDetail;
  n_CIM15_IEC61968_LoadControl_RemoteConnectDisconnectInfo_RemoteConnectDisconnectInfo;
  n_CIM15_IEC61968_Metering_DynamicDemand_DynamicDemand;
  n_CIM15_IEC61968_Metering_ReadingMultiplier_ReadingMultiplier;
  n_CIM15_IEC61968_Common_ElectronicAddress_ElectronicAddress;
  n_CIM15_IEC61968_Common_PostalAddress_PostalAddress;
  n_CIM15_IEC61968_Common_Status_Status;
  n_CIM15_IEC61968_Common_StreetAddress_StreetAddress;
  n_CIM15_IEC61968_Common_StreetDetail_StreetDetail;
  n_CIM15_IEC61968_Common_TelephoneNumber_TelephoneNumber;
  n_CIM15_IEC61968_Common_TownDetail_TownDetail;
  n_CIM15_IEC61968_Assets_AcceptanceTest_AcceptanceTest;
  n_CIM15_IEC61970_Domain_DateTimeInterval_DateTimeInterval;
  n_CIM15_IEC61970_Informative_InfCommon_Ratio_Ratio;
  n_CIM15_IEC61970_Informative_InfERPSupport_ErpLedBudLineItem_ErpLedBudLineItem;
  n_CIM15_IEC61970_Informative_InfERPSupport_ErpLedgerEntry_ErpLedgerEntry].
