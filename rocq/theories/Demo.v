(** Object graphs used by the examples, built by client programs over the real
    class tables. *)
From Coq Require Import String.
From stdpp Require Import prelude gmap.
From Verif Require Import PyStr PyHeap Schema Assoc AssocSpec HeapFacts History HistorySpec HistoryFacts GraphCheck
  AdmCheck Names TabCIM14 TabCIM15.

(** Heaps written out as lists, so that the examples need not run the programs
    that build them again and again. *)
Definition dump (h : heap) : list (nat * (name * list (key * val))) * list (nat * list val) :=
  ((λ p, (p.1, (o_cls p.2, map_to_list (o_dict p.2)))) <$> map_to_list (h_objs h), map_to_list (h_lists h)).
Definition undump (d : list (nat * (name * list (key * val))) * list (nat * list val)) : heap :=
  Heap (list_to_map ((λ p, (p.1, Obj p.2.1 (list_to_map p.2.2))) <$> d.1)) (list_to_map d.2).
Local Instance obj_eq_dec : EqDecision obj.
Proof. solve_decision. Defined.
Local Instance heap_eq_dec : EqDecision heap.
Proof. solve_decision. Defined.

(** Two terminals (0, 1) at a connectivity node (2), another node (3), a power
    flow (4) at terminal 0, another power flow (5), a communication link (6)
    with remote unit 7, and another remote unit (8). *)
Definition prog14 : list op := [
  ONew n_CIM14_IEC61970_Core_Terminal_Terminal [];
  ONew n_CIM14_IEC61970_Core_Terminal_Terminal [];
  ONew n_CIM14_IEC61970_Core_ConnectivityNode_ConnectivityNode [(n_Terminals, AList [0; 1])];
  ONew n_CIM14_IEC61970_Core_ConnectivityNode_ConnectivityNode [];
  ONew n_CIM14_IEC61970_StateVariables_SvPowerFlow_SvPowerFlow [(n_Terminal, AVal (VRef 0))];
  ONew n_CIM14_IEC61970_StateVariables_SvPowerFlow_SvPowerFlow [];
  ONew n_CIM14_IEC61970_SCADA_CommunicationLink_CommunicationLink [];
  ONew n_CIM14_IEC61970_SCADA_RemoteUnit_RemoteUnit [];
  ONew n_CIM14_IEC61970_SCADA_RemoteUnit_RemoteUnit [];
  OAdd 6 n_RemoteUnits [7]].
Definition d14 := Eval vm_compute in dump (snd (run_ops cim14 20 prog14 heap_empty)).
Definition g14 : heap := undump d14.
Lemma g14_run : run_ops cim14 20 prog14 heap_empty = (inl tt, g14).
Proof.
  assert (bool_decide (fst (run_ops cim14 20 prog14 heap_empty) = inl tt ∧
                       snd (run_ops cim14 20 prog14 heap_empty) = g14) = true) as E%bool_decide_eq_true
    by (vm_compute; reflexivity).
  destruct (run_ops cim14 20 prog14 heap_empty) as [r h]. simpl in E. destruct E as [-> ->]. reflexivity.
Qed.
Lemma g14_inv : inv cim14 g14.
Proof. apply inv_b_ok. vm_compute. reflexivity. Qed.
Lemma g14_Consistent : Consistent cim14 g14.
Proof. apply g14_inv. Qed.
Lemma prog14_adm : adm_ops cim14 20 heap_empty prog14.
Proof. apply adm_ops_b_ok. vm_compute. reflexivity. Qed.

(** A line segment (0), a phase impedance (1), a breaker (2) and an operational
    limit set (3). *)
Definition prog15 : list op := [
  ONew n_CIM15_IEC61970_Wires_ACLineSegment_ACLineSegment [];
  ONew n_CIM15_IEC61970_Wires_PerLengthPhaseImpedance_PerLengthPhaseImpedance [];
  ONew n_CIM15_IEC61970_Wires_Breaker_Breaker [];
  ONew n_CIM15_IEC61970_OperationalLimits_OperationalLimitSet_OperationalLimitSet []].
Definition d15 := Eval vm_compute in dump (snd (run_ops cim15 20 prog15 heap_empty)).
Definition g15 : heap := undump d15.
Lemma g15_run : run_ops cim15 20 prog15 heap_empty = (inl tt, g15).
Proof.
  assert (bool_decide (fst (run_ops cim15 20 prog15 heap_empty) = inl tt ∧
                       snd (run_ops cim15 20 prog15 heap_empty) = g15) = true) as E%bool_decide_eq_true
    by (vm_compute; reflexivity).
  destruct (run_ops cim15 20 prog15 heap_empty) as [r h]. simpl in E. destruct E as [-> ->]. reflexivity.
Qed.
Lemma g15_inv : inv cim15 g15.
Proof. apply inv_b_ok. vm_compute. reflexivity. Qed.
Lemma g15_Consistent : Consistent cim15 g15.
Proof. apply g15_inv. Qed.
