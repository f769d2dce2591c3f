(** Vocabulary for documents that survive being read and written again. *)
From Coq Require Import String.
From stdpp Require Import prelude gmap.
From Verif Require Import PyStr PyHeap Schema AssocSpec TableSpec Names Reader ReaderSpec DocSpec XmlSpec XmlCalls.

(** The [repr] of a float is a text that is converted to a float with the same
    [repr]; [pf t] is the [repr] of [float(t)]. *)
Definition repr_law (pf : pystr → option pystr) : Prop :=
  pf (u "0.0") = Some (u "0.0") ∧ ∀ s r, pf s = Some r → r ≠ [] ∧ forallb data_char r = true ∧ pf r = Some r.

(** A document whose identifiers and texts hold only characters that an XML
    parser gives back unchanged, that gives no object a second identifier, and
    that states enumerations by resources and other attributes by texts. *)
Record clean_doc (base rdf : pystr) (S : schema) (pm : list (name * name)) (evs : list event) : Prop := {
  cd_ids : ∀ id k, declared_class base rdf pm evs id = Some k → forallb attr_char id = true;
  cd_uuid : ∀ id k, declared_class base rdf pm evs id = Some k → about base rdf pm evs [] id (u "UUID") = [];
  cd_attrs : ∀ id k c a e, declared_class base rdf pm evs id = Some k → c ∈ mro S k → a ∈ c_attrs c →
    e ∈ about base rdf pm evs [] id a →
    match assoc a (c_enums c) with
    | Some _ => ∃ r, resource rdf e = Some r ∧ forallb attr_char r = true
    | None => resource rdf e = None ∧ ∀ s, e_text e = Some s → forallb data_char s = true
    end;
  (* the only enumeration that starts without a literal
     (CIM15/IEC61970/WiresPhaseModel/ACLineSegmentPhase.py:25) *)
  cd_phase : ∀ id, declared_class base rdf pm evs id = Some n_CIM15_IEC61970_WiresPhaseModel_ACLineSegmentPhase_ACLineSegmentPhase →
    about base rdf pm evs [] id n_phase ≠ []
}.
