(** Generated by tools/gen_tables.py from the CIM14 and CIM15 profile packages: do not edit. *)
From stdpp Require Import prelude.
From Verif Require Import PyStr PyHeap Schema Names.

(** Class table of CIM14.CDPSM.Balanced: 61 classes. *)
Definition cim14_cdpsm_balanced : schema := [
(* CIM14/CDPSM/Balanced/Element.py:22-38 *)
  Cls n_CIM14_CDPSM_Balanced_Element_Element n_Element None
    [(n_UUID, VStr n_)]
    [SAttr n_UUID]
    false true
    [n_UUID]
    [(n_UUID, VStr n_)]
    []
    []
    []
    [];
(* CIM14/CDPSM/Balanced/IEC61968/AssetModels/CableInfo.py:23-78 *)
  Cls n_CIM14_CDPSM_Balanced_IEC61968_AssetModels_CableInfo_CableInfo n_CableInfo (Some n_CIM14_CDPSM_Balanced_IEC61968_AssetModels_ConductorInfo_ConductorInfo)
    [(n_nominalTemperature, VFloat n_0_0); (n_diameterOverScreen, VFloat n_0_0); (n_sheathAsNeutral, VBool false); (n_diameterOverJacket, VFloat n_0_0); (n_diameterOverCore, VFloat n_0_0); (n_constructionKind, VStr n_solid); (n_outerJacketKind, VStr n_insulating); (n_isStrandFill, VBool false); (n_shieldMaterial, VStr n_other); (n_diameterOverInsulation, VFloat n_0_0)]
    [SAttr n_nominalTemperature; SAttr n_diameterOverScreen; SAttr n_sheathAsNeutral; SAttr n_diameterOverJacket; SAttr n_diameterOverCore; SAttr n_constructionKind; SAttr n_outerJacketKind; SAttr n_isStrandFill; SAttr n_shieldMaterial; SAttr n_diameterOverInsulation]
    true true
    [n_nominalTemperature; n_diameterOverScreen; n_sheathAsNeutral; n_diameterOverJacket; n_diameterOverCore; n_constructionKind; n_outerJacketKind; n_isStrandFill; n_shieldMaterial; n_diameterOverInsulation]
    [(n_nominalTemperature, VFloat n_0_0); (n_diameterOverScreen, VFloat n_0_0); (n_sheathAsNeutral, VBool false); (n_diameterOverJacket, VFloat n_0_0); (n_diameterOverCore, VFloat n_0_0); (n_constructionKind, VStr n_solid); (n_outerJacketKind, VStr n_insulating); (n_isStrandFill, VBool false); (n_shieldMaterial, VStr n_other); (n_diameterOverInsulation, VFloat n_0_0)]
    [(n_constructionKind, n_CableConstructionKind); (n_outerJacketKind, n_CableOuterJacketKind); (n_shieldMaterial, n_CableShieldMaterialKind)]
    []
    []
    [];
(* CIM14/CDPSM/Balanced/IEC61968/AssetModels/ConcentricNeutralCableInfo.py:23-67 *)
  Cls n_CIM14_CDPSM_Balanced_IEC61968_AssetModels_ConcentricNeutralCableInfo_ConcentricNeutralCableInfo n_ConcentricNeutralCableInfo (Some n_CIM14_CDPSM_Balanced_IEC61968_AssetModels_CableInfo_CableInfo)
    [(n_neutralStrandCount, VInt 0); (n_diameterOverNeutral, VFloat n_0_0); (n_WireType, VNone)]
    [SAttr n_neutralStrandCount; SAttr n_diameterOverNeutral; SOne n_WireType]
    true true
    [n_neutralStrandCount; n_diameterOverNeutral]
    [(n_neutralStrandCount, VInt 0); (n_diameterOverNeutral, VFloat n_0_0)]
    []
    [n_WireType]
    []
    [(n_WireType, POneMany n_ConcentricNeutralCableInfos)];
(* CIM14/CDPSM/Balanced/IEC61968/AssetModels/ConductorInfo.py:23-110 *)
  Cls n_CIM14_CDPSM_Balanced_IEC61968_AssetModels_ConductorInfo_ConductorInfo n_ConductorInfo (Some n_CIM14_CDPSM_Balanced_IEC61970_Core_IdentifiedObject_IdentifiedObject)
    [(n_phaseCount, VInt 0); (n_insulationMaterial, VStr n_crosslinkedPolyethylene); (n_insulationThickness, VFloat n_0_0); (n_insulated, VBool false); (n_usage, VStr n_secondary); (n_WireArrangements, VNone); (n_ConductorSegments, VNone)]
    [SAttr n_phaseCount; SAttr n_insulationMaterial; SAttr n_insulationThickness; SAttr n_insulated; SAttr n_usage; SMany n_WireArrangements; SMany n_ConductorSegments]
    true true
    [n_phaseCount; n_insulationMaterial; n_insulationThickness; n_insulated; n_usage]
    [(n_phaseCount, VInt 0); (n_insulationMaterial, VStr n_crosslinkedPolyethylene); (n_insulationThickness, VFloat n_0_0); (n_insulated, VBool false); (n_usage, VStr n_secondary)]
    [(n_insulationMaterial, n_ConductorInsulationKind); (n_usage, n_ConductorUsageKind)]
    [n_WireArrangements; n_ConductorSegments]
    [n_WireArrangements; n_ConductorSegments]
    [(n_WireArrangements, PManyOne n_ConductorInfo); (n_ConductorSegments, PManyOne n_ConductorInfo)];
(* CIM14/CDPSM/Balanced/IEC61968/AssetModels/DistributionWindingTest.py:23-63 *)
  Cls n_CIM14_CDPSM_Balanced_IEC61968_AssetModels_DistributionWindingTest_DistributionWindingTest n_DistributionWindingTest (Some n_CIM14_CDPSM_Balanced_IEC61970_Core_IdentifiedObject_IdentifiedObject)
    [(n_fromTapStep, VInt 0); (n_FromWinding, VNone)]
    [SAttr n_fromTapStep; SOne n_FromWinding]
    true true
    [n_fromTapStep]
    [(n_fromTapStep, VInt 0)]
    []
    [n_FromWinding]
    []
    [(n_FromWinding, POneMany n_WindingTests)];
(* CIM14/CDPSM/Balanced/IEC61968/AssetModels/OpenCircuitTest.py:23-87 *)
  Cls n_CIM14_CDPSM_Balanced_IEC61968_AssetModels_OpenCircuitTest_OpenCircuitTest n_OpenCircuitTest (Some n_CIM14_CDPSM_Balanced_IEC61968_AssetModels_DistributionWindingTest_DistributionWindingTest)
    [(n_noLoadLossZero, VFloat n_0_0); (n_noLoadLoss, VFloat n_0_0); (n_excitingCurrent, VFloat n_0_0); (n_excitingCurrentZero, VFloat n_0_0); (n_MeasuredWindingSpecs, VNone)]
    [SAttr n_noLoadLossZero; SAttr n_noLoadLoss; SAttr n_excitingCurrent; SAttr n_excitingCurrentZero; SMany n_MeasuredWindingSpecs]
    true true
    [n_noLoadLossZero; n_noLoadLoss; n_excitingCurrent; n_excitingCurrentZero]
    [(n_noLoadLossZero, VFloat n_0_0); (n_noLoadLoss, VFloat n_0_0); (n_excitingCurrent, VFloat n_0_0); (n_excitingCurrentZero, VFloat n_0_0)]
    []
    [n_MeasuredWindingSpecs]
    [n_MeasuredWindingSpecs]
    [(n_MeasuredWindingSpecs, PManyMany n_OpenCircuitTests)];
(* CIM14/CDPSM/Balanced/IEC61968/AssetModels/OverheadConductorInfo.py:23-50 *)
  Cls n_CIM14_CDPSM_Balanced_IEC61968_AssetModels_OverheadConductorInfo_OverheadConductorInfo n_OverheadConductorInfo (Some n_CIM14_CDPSM_Balanced_IEC61968_AssetModels_ConductorInfo_ConductorInfo)
    [(n_neutralInsulationThickness, VFloat n_0_0); (n_phaseConductorCount, VInt 0); (n_phaseConductorSpacing, VFloat n_0_0)]
    [SAttr n_neutralInsulationThickness; SAttr n_phaseConductorCount; SAttr n_phaseConductorSpacing]
    true true
    [n_neutralInsulationThickness; n_phaseConductorCount; n_phaseConductorSpacing]
    [(n_neutralInsulationThickness, VFloat n_0_0); (n_phaseConductorCount, VInt 0); (n_phaseConductorSpacing, VFloat n_0_0)]
    []
    []
    []
    [];
(* CIM14/CDPSM/Balanced/IEC61968/AssetModels/ShortCircuitTest.py:23-86 *)
  Cls n_CIM14_CDPSM_Balanced_IEC61968_AssetModels_ShortCircuitTest_ShortCircuitTest n_ShortCircuitTest (Some n_CIM14_CDPSM_Balanced_IEC61968_AssetModels_DistributionWindingTest_DistributionWindingTest)
    [(n_loadLossZero, VFloat n_0_0); (n_leakageImpedanceZero, VFloat n_0_0); (n_leakageImpedance, VFloat n_0_0); (n_loadLoss, VFloat n_0_0); (n_ShortedWindingSpecs, VNone)]
    [SAttr n_loadLossZero; SAttr n_leakageImpedanceZero; SAttr n_leakageImpedance; SAttr n_loadLoss; SMany n_ShortedWindingSpecs]
    true true
    [n_loadLossZero; n_leakageImpedanceZero; n_leakageImpedance; n_loadLoss]
    [(n_loadLossZero, VFloat n_0_0); (n_leakageImpedanceZero, VFloat n_0_0); (n_leakageImpedance, VFloat n_0_0); (n_loadLoss, VFloat n_0_0)]
    []
    [n_ShortedWindingSpecs]
    [n_ShortedWindingSpecs]
    [(n_ShortedWindingSpecs, PManyMany n_ShortCircuitTests)];
(* CIM14/CDPSM/Balanced/IEC61968/AssetModels/TapeShieldCableInfo.py:23-46 *)
  Cls n_CIM14_CDPSM_Balanced_IEC61968_AssetModels_TapeShieldCableInfo_TapeShieldCableInfo n_TapeShieldCableInfo (Some n_CIM14_CDPSM_Balanced_IEC61968_AssetModels_CableInfo_CableInfo)
    [(n_tapeThickness, VFloat n_0_0); (n_tapeLap, VFloat n_0_0)]
    [SAttr n_tapeThickness; SAttr n_tapeLap]
    true true
    [n_tapeThickness; n_tapeLap]
    [(n_tapeThickness, VFloat n_0_0); (n_tapeLap, VFloat n_0_0)]
    []
    []
    []
    [];
(* CIM14/CDPSM/Balanced/IEC61968/AssetModels/ToWindingSpec.py:23-136 *)
  Cls n_CIM14_CDPSM_Balanced_IEC61968_AssetModels_ToWindingSpec_ToWindingSpec n_ToWindingSpec (Some n_CIM14_CDPSM_Balanced_IEC61970_Core_IdentifiedObject_IdentifiedObject)
    [(n_toTapStep, VInt 0); (n_voltage, VFloat n_0_0); (n_phaseShift, VFloat n_0_0); (n_OpenCircuitTests, VNone); (n_ShortCircuitTests, VNone); (n_ToWinding, VNone)]
    [SAttr n_toTapStep; SAttr n_voltage; SAttr n_phaseShift; SMany n_OpenCircuitTests; SMany n_ShortCircuitTests; SOne n_ToWinding]
    true true
    [n_toTapStep; n_voltage; n_phaseShift]
    [(n_toTapStep, VInt 0); (n_voltage, VFloat n_0_0); (n_phaseShift, VFloat n_0_0)]
    []
    [n_OpenCircuitTests; n_ShortCircuitTests; n_ToWinding]
    [n_OpenCircuitTests; n_ShortCircuitTests]
    [(n_OpenCircuitTests, PManyMany n_MeasuredWindingSpecs); (n_ShortCircuitTests, PManyMany n_ShortedWindingSpecs); (n_ToWinding, POneMany n_ToWindingSpecs)];
(* CIM14/CDPSM/Balanced/IEC61968/AssetModels/TransformerInfo.py:23-90 *)
  Cls n_CIM14_CDPSM_Balanced_IEC61968_AssetModels_TransformerInfo_TransformerInfo n_TransformerInfo (Some n_CIM14_CDPSM_Balanced_IEC61970_Core_IdentifiedObject_IdentifiedObject)
    [(n_Transformers, VNone); (n_WindingInfos, VNone)]
    [SMany n_Transformers; SMany n_WindingInfos]
    true true
    []
    []
    []
    [n_Transformers; n_WindingInfos]
    [n_Transformers; n_WindingInfos]
    [(n_Transformers, PManyOne n_TransformerInfo); (n_WindingInfos, PManyOne n_TransformerInfo)];
(* CIM14/CDPSM/Balanced/IEC61968/AssetModels/WindingInfo.py:23-173 *)
  Cls n_CIM14_CDPSM_Balanced_IEC61968_AssetModels_WindingInfo_WindingInfo n_WindingInfo (Some n_CIM14_CDPSM_Balanced_IEC61970_Core_IdentifiedObject_IdentifiedObject)
    [(n_sequenceNumber, VInt 0); (n_ratedS, VFloat n_0_0); (n_ratedU, VFloat n_0_0); (n_connectionKind, VStr n_I); (n_emergencyS, VFloat n_0_0); (n_r, VFloat n_0_0); (n_phaseAngle, VInt 0); (n_insulationU, VFloat n_0_0); (n_shortTermS, VFloat n_0_0); (n_WindingTests, VNone); (n_ToWindingSpecs, VNone); (n_TransformerInfo, VNone); (n_Windings, VNone)]
    [SAttr n_sequenceNumber; SAttr n_ratedS; SAttr n_ratedU; SAttr n_connectionKind; SAttr n_emergencyS; SAttr n_r; SAttr n_phaseAngle; SAttr n_insulationU; SAttr n_shortTermS; SMany n_WindingTests; SMany n_ToWindingSpecs; SOne n_TransformerInfo; SMany n_Windings]
    true true
    [n_sequenceNumber; n_ratedS; n_ratedU; n_connectionKind; n_emergencyS; n_r; n_phaseAngle; n_insulationU; n_shortTermS]
    [(n_sequenceNumber, VInt 0); (n_ratedS, VFloat n_0_0); (n_ratedU, VFloat n_0_0); (n_connectionKind, VStr n_I); (n_emergencyS, VFloat n_0_0); (n_r, VFloat n_0_0); (n_phaseAngle, VInt 0); (n_insulationU, VFloat n_0_0); (n_shortTermS, VFloat n_0_0)]
    [(n_connectionKind, n_WindingConnection)]
    [n_WindingTests; n_ToWindingSpecs; n_TransformerInfo; n_Windings]
    [n_WindingTests; n_ToWindingSpecs; n_Windings]
    [(n_WindingTests, PManyOne n_FromWinding); (n_ToWindingSpecs, PManyOne n_ToWinding); (n_TransformerInfo, POneMany n_WindingInfos); (n_Windings, PManyOne n_WindingInfo)];
(* CIM14/CDPSM/Balanced/IEC61968/AssetModels/WireArrangement.py:23-92 *)
  Cls n_CIM14_CDPSM_Balanced_IEC61968_AssetModels_WireArrangement_WireArrangement n_WireArrangement (Some n_CIM14_CDPSM_Balanced_IEC61970_Core_IdentifiedObject_IdentifiedObject)
    [(n_mountingPointX, VFloat n_0_0); (n_mountingPointY, VFloat n_0_0); (n_position, VInt 0); (n_ConductorInfo, VNone); (n_WireType, VNone)]
    [SAttr n_mountingPointX; SAttr n_mountingPointY; SAttr n_position; SOne n_ConductorInfo; SOne n_WireType]
    true true
    [n_mountingPointX; n_mountingPointY; n_position]
    [(n_mountingPointX, VFloat n_0_0); (n_mountingPointY, VFloat n_0_0); (n_position, VInt 0)]
    []
    [n_ConductorInfo; n_WireType]
    []
    [(n_ConductorInfo, POneMany n_WireArrangements); (n_WireType, POneMany n_WireArrangements)];
(* CIM14/CDPSM/Balanced/IEC61968/AssetModels/WireType.py:23-138 *)
  Cls n_CIM14_CDPSM_Balanced_IEC61968_AssetModels_WireType_WireType n_WireType (Some n_CIM14_CDPSM_Balanced_IEC61970_Core_IdentifiedObject_IdentifiedObject)
    [(n_rAC75, VFloat n_0_0); (n_coreRadius, VFloat n_0_0); (n_coreStrandCount, VInt 0); (n_rAC25, VFloat n_0_0); (n_radius, VFloat n_0_0); (n_gmr, VFloat n_0_0); (n_rDC20, VFloat n_0_0); (n_rAC50, VFloat n_0_0); (n_material, VStr n_steel); (n_sizeDescription, VStr n_); (n_strandCount, VInt 0); (n_ratedCurrent, VFloat n_0_0); (n_ConcentricNeutralCableInfos, VNone); (n_WireArrangements, VNone)]
    [SAttr n_rAC75; SAttr n_coreRadius; SAttr n_coreStrandCount; SAttr n_rAC25; SAttr n_radius; SAttr n_gmr; SAttr n_rDC20; SAttr n_rAC50; SAttr n_material; SAttr n_sizeDescription; SAttr n_strandCount; SAttr n_ratedCurrent; SMany n_ConcentricNeutralCableInfos; SMany n_WireArrangements]
    true true
    [n_rAC75; n_coreRadius; n_coreStrandCount; n_rAC25; n_radius; n_gmr; n_rDC20; n_rAC50; n_material; n_sizeDescription; n_strandCount; n_ratedCurrent]
    [(n_rAC75, VFloat n_0_0); (n_coreRadius, VFloat n_0_0); (n_coreStrandCount, VInt 0); (n_rAC25, VFloat n_0_0); (n_radius, VFloat n_0_0); (n_gmr, VFloat n_0_0); (n_rDC20, VFloat n_0_0); (n_rAC50, VFloat n_0_0); (n_material, VStr n_steel); (n_sizeDescription, VStr n_); (n_strandCount, VInt 0); (n_ratedCurrent, VFloat n_0_0)]
    [(n_material, n_ConductorMaterialKind)]
    [n_ConcentricNeutralCableInfos; n_WireArrangements]
    [n_ConcentricNeutralCableInfos; n_WireArrangements]
    [(n_ConcentricNeutralCableInfos, PManyOne n_WireType); (n_WireArrangements, PManyOne n_WireType)];
(* CIM14/CDPSM/Balanced/IEC61968/Common/GeoLocation.py:23-64 *)
  Cls n_CIM14_CDPSM_Balanced_IEC61968_Common_GeoLocation_GeoLocation n_GeoLocation (Some n_CIM14_CDPSM_Balanced_IEC61968_Common_Location_Location)
    [(n_PowerSystemResources, VNone)]
    [SMany n_PowerSystemResources]
    true true
    []
    []
    []
    [n_PowerSystemResources]
    [n_PowerSystemResources]
    [(n_PowerSystemResources, PManyOne n_GeoLocation)];
(* CIM14/CDPSM/Balanced/IEC61968/Common/Location.py:23-66 *)
  Cls n_CIM14_CDPSM_Balanced_IEC61968_Common_Location_Location n_Location (Some n_CIM14_CDPSM_Balanced_IEC61970_Core_IdentifiedObject_IdentifiedObject)
    [(n_PositionPoints, VNone)]
    [SMany n_PositionPoints]
    true true
    []
    []
    []
    [n_PositionPoints]
    [n_PositionPoints]
    [(n_PositionPoints, PManyOne n_Location)];
(* CIM14/CDPSM/Balanced/IEC61968/Common/PositionPoint.py:23-73 *)
  Cls n_CIM14_CDPSM_Balanced_IEC61968_Common_PositionPoint_PositionPoint n_PositionPoint (Some n_CIM14_CDPSM_Balanced_Element_Element)
    [(n_xPosition, VStr n_); (n_sequenceNumber, VInt 0); (n_yPosition, VStr n_); (n_Location, VNone)]
    [SAttr n_xPosition; SAttr n_sequenceNumber; SAttr n_yPosition; SOne n_Location]
    true true
    [n_xPosition; n_sequenceNumber; n_yPosition]
    [(n_xPosition, VStr n_); (n_sequenceNumber, VInt 0); (n_yPosition, VStr n_)]
    []
    [n_Location]
    []
    [(n_Location, POneMany n_PositionPoints)];
(* CIM14/CDPSM/Balanced/IEC61968/WiresExt/DistributionLineSegment.py:23-107 *)
  Cls n_CIM14_CDPSM_Balanced_IEC61968_WiresExt_DistributionLineSegment_DistributionLineSegment n_DistributionLineSegment (Some n_CIM14_CDPSM_Balanced_IEC61970_Wires_ACLineSegment_ACLineSegment)
    [(n_ConductorInfo, VNone); (n_SequenceImpedance, VNone); (n_PhaseImpedance, VNone)]
    [SOne n_ConductorInfo; SOne n_SequenceImpedance; SOne n_PhaseImpedance]
    true true
    []
    []
    []
    [n_ConductorInfo; n_SequenceImpedance; n_PhaseImpedance]
    []
    [(n_ConductorInfo, POneMany n_ConductorSegments); (n_SequenceImpedance, POneMany n_ConductorSegments); (n_PhaseImpedance, POneMany n_ConductorSegments)];
(* CIM14/CDPSM/Balanced/IEC61968/WiresExt/DistributionTapChanger.py:23-85 *)
  Cls n_CIM14_CDPSM_Balanced_IEC61968_WiresExt_DistributionTapChanger_DistributionTapChanger n_DistributionTapChanger (Some n_CIM14_CDPSM_Balanced_IEC61970_Wires_RatioTapChanger_RatioTapChanger)
    [(n_lineDropR, VFloat n_0_0); (n_monitoredPhase, VStr n_ABC); (n_lineDropCompensation, VBool false); (n_ptRatio, VFloat n_0_0); (n_ctRatio, VFloat n_0_0); (n_reverseLineDropR, VFloat n_0_0); (n_limitVoltage, VFloat n_0_0); (n_reverseLineDropX, VFloat n_0_0); (n_bandVoltage, VFloat n_0_0); (n_targetVoltage, VFloat n_0_0); (n_lineDropX, VFloat n_0_0)]
    [SAttr n_lineDropR; SAttr n_monitoredPhase; SAttr n_lineDropCompensation; SAttr n_ptRatio; SAttr n_ctRatio; SAttr n_reverseLineDropR; SAttr n_limitVoltage; SAttr n_reverseLineDropX; SAttr n_bandVoltage; SAttr n_targetVoltage; SAttr n_lineDropX]
    true true
    [n_lineDropR; n_monitoredPhase; n_lineDropCompensation; n_ptRatio; n_ctRatio; n_reverseLineDropR; n_limitVoltage; n_reverseLineDropX; n_bandVoltage; n_targetVoltage; n_lineDropX]
    [(n_lineDropR, VFloat n_0_0); (n_monitoredPhase, VStr n_ABC); (n_lineDropCompensation, VBool false); (n_ptRatio, VFloat n_0_0); (n_ctRatio, VFloat n_0_0); (n_reverseLineDropR, VFloat n_0_0); (n_limitVoltage, VFloat n_0_0); (n_reverseLineDropX, VFloat n_0_0); (n_bandVoltage, VFloat n_0_0); (n_targetVoltage, VFloat n_0_0); (n_lineDropX, VFloat n_0_0)]
    [(n_monitoredPhase, n_PhaseCode)]
    []
    []
    [];
(* CIM14/CDPSM/Balanced/IEC61968/WiresExt/DistributionTransformer.py:23-109 *)
  Cls n_CIM14_CDPSM_Balanced_IEC61968_WiresExt_DistributionTransformer_DistributionTransformer n_DistributionTransformer (Some n_CIM14_CDPSM_Balanced_IEC61970_Core_Equipment_Equipment)
    [(n_TransformerInfo, VNone); (n_Windings, VNone); (n_TransformerBank, VNone)]
    [SOne n_TransformerInfo; SMany n_Windings; SOne n_TransformerBank]
    true true
    []
    []
    []
    [n_TransformerInfo; n_Windings; n_TransformerBank]
    [n_Windings]
    [(n_TransformerInfo, POneMany n_Transformers); (n_Windings, PManyOne n_Transformer); (n_TransformerBank, POneMany n_Transformers)];
(* CIM14/CDPSM/Balanced/IEC61968/WiresExt/DistributionTransformerWinding.py:23-138 *)
  Cls n_CIM14_CDPSM_Balanced_IEC61968_WiresExt_DistributionTransformerWinding_DistributionTransformerWinding n_DistributionTransformerWinding (Some n_CIM14_CDPSM_Balanced_IEC61970_Core_ConductingEquipment_ConductingEquipment)
    [(n_rground, VFloat n_0_0); (n_xground, VFloat n_0_0); (n_grounded, VBool false); (n_WindingInfo, VNone); (n_Transformer, VNone); (n_RatioTapChanger, VNone); (n_PiImpedance, VNone)]
    [SAttr n_rground; SAttr n_xground; SAttr n_grounded; SOne n_WindingInfo; SOne n_Transformer; SOne n_RatioTapChanger; SOne n_PiImpedance]
    true true
    [n_rground; n_xground; n_grounded]
    [(n_rground, VFloat n_0_0); (n_xground, VFloat n_0_0); (n_grounded, VBool false)]
    []
    [n_WindingInfo; n_Transformer; n_RatioTapChanger; n_PiImpedance]
    []
    [(n_WindingInfo, POneMany n_Windings); (n_Transformer, POneMany n_Windings); (n_RatioTapChanger, POneOne n_Winding); (n_PiImpedance, POneMany n_Windings)];
(* CIM14/CDPSM/Balanced/IEC61968/WiresExt/PerLengthPhaseImpedance.py:23-94 *)
  Cls n_CIM14_CDPSM_Balanced_IEC61968_WiresExt_PerLengthPhaseImpedance_PerLengthPhaseImpedance n_PerLengthPhaseImpedance (Some n_CIM14_CDPSM_Balanced_IEC61970_Core_IdentifiedObject_IdentifiedObject)
    [(n_conductorCount, VInt 0); (n_PhaseImpedanceData, VNone); (n_ConductorSegments, VNone)]
    [SAttr n_conductorCount; SMany n_PhaseImpedanceData; SMany n_ConductorSegments]
    true true
    [n_conductorCount]
    [(n_conductorCount, VInt 0)]
    []
    [n_PhaseImpedanceData; n_ConductorSegments]
    [n_PhaseImpedanceData; n_ConductorSegments]
    [(n_PhaseImpedanceData, PManyOne n_PhaseImpedance); (n_ConductorSegments, PManyOne n_PhaseImpedance)];
(* CIM14/CDPSM/Balanced/IEC61968/WiresExt/PerLengthSequenceImpedance.py:23-96 *)
  Cls n_CIM14_CDPSM_Balanced_IEC61968_WiresExt_PerLengthSequenceImpedance_PerLengthSequenceImpedance n_PerLengthSequenceImpedance (Some n_CIM14_CDPSM_Balanced_IEC61970_Core_IdentifiedObject_IdentifiedObject)
    [(n_x, VFloat n_0_0); (n_gch, VFloat n_0_0); (n_r0, VFloat n_0_0); (n_x0, VFloat n_0_0); (n_g0ch, VFloat n_0_0); (n_b0ch, VFloat n_0_0); (n_r, VFloat n_0_0); (n_bch, VFloat n_0_0); (n_ConductorSegments, VNone)]
    [SAttr n_x; SAttr n_gch; SAttr n_r0; SAttr n_x0; SAttr n_g0ch; SAttr n_b0ch; SAttr n_r; SAttr n_bch; SMany n_ConductorSegments]
    true true
    [n_x; n_gch; n_r0; n_x0; n_g0ch; n_b0ch; n_r; n_bch]
    [(n_x, VFloat n_0_0); (n_gch, VFloat n_0_0); (n_r0, VFloat n_0_0); (n_x0, VFloat n_0_0); (n_g0ch, VFloat n_0_0); (n_b0ch, VFloat n_0_0); (n_r, VFloat n_0_0); (n_bch, VFloat n_0_0)]
    []
    [n_ConductorSegments]
    [n_ConductorSegments]
    [(n_ConductorSegments, PManyOne n_SequenceImpedance)];
(* CIM14/CDPSM/Balanced/IEC61968/WiresExt/PhaseImpedanceData.py:23-75 *)
  Cls n_CIM14_CDPSM_Balanced_IEC61968_WiresExt_PhaseImpedanceData_PhaseImpedanceData n_PhaseImpedanceData (Some n_CIM14_CDPSM_Balanced_Element_Element)
    [(n_x, VFloat n_0_0); (n_sequenceNumber, VInt 0); (n_b, VFloat n_0_0); (n_r, VFloat n_0_0); (n_PhaseImpedance, VNone)]
    [SAttr n_x; SAttr n_sequenceNumber; SAttr n_b; SAttr n_r; SOne n_PhaseImpedance]
    true true
    [n_x; n_sequenceNumber; n_b; n_r]
    [(n_x, VFloat n_0_0); (n_sequenceNumber, VInt 0); (n_b, VFloat n_0_0); (n_r, VFloat n_0_0)]
    []
    [n_PhaseImpedance]
    []
    [(n_PhaseImpedance, POneMany n_PhaseImpedanceData)];
(* CIM14/CDPSM/Balanced/IEC61968/WiresExt/TransformerBank.py:23-68 *)
  Cls n_CIM14_CDPSM_Balanced_IEC61968_WiresExt_TransformerBank_TransformerBank n_TransformerBank (Some n_CIM14_CDPSM_Balanced_IEC61970_Core_Equipment_Equipment)
    [(n_vectorGroup, VStr n_); (n_Transformers, VNone)]
    [SAttr n_vectorGroup; SMany n_Transformers]
    true true
    [n_vectorGroup]
    [(n_vectorGroup, VStr n_)]
    []
    [n_Transformers]
    [n_Transformers]
    [(n_Transformers, PManyOne n_TransformerBank)];
(* CIM14/CDPSM/Balanced/IEC61968/WiresExt/WindingPiImpedance.py:23-96 *)
  Cls n_CIM14_CDPSM_Balanced_IEC61968_WiresExt_WindingPiImpedance_WindingPiImpedance n_WindingPiImpedance (Some n_CIM14_CDPSM_Balanced_IEC61970_Core_IdentifiedObject_IdentifiedObject)
    [(n_x, VFloat n_0_0); (n_g, VFloat n_0_0); (n_r0, VFloat n_0_0); (n_r, VFloat n_0_0); (n_b, VFloat n_0_0); (n_g0, VFloat n_0_0); (n_x0, VFloat n_0_0); (n_b0, VFloat n_0_0); (n_Windings, VNone)]
    [SAttr n_x; SAttr n_g; SAttr n_r0; SAttr n_r; SAttr n_b; SAttr n_g0; SAttr n_x0; SAttr n_b0; SMany n_Windings]
    true true
    [n_x; n_g; n_r0; n_r; n_b; n_g0; n_x0; n_b0]
    [(n_x, VFloat n_0_0); (n_g, VFloat n_0_0); (n_r0, VFloat n_0_0); (n_r, VFloat n_0_0); (n_b, VFloat n_0_0); (n_g0, VFloat n_0_0); (n_x0, VFloat n_0_0); (n_b0, VFloat n_0_0)]
    []
    [n_Windings]
    [n_Windings]
    [(n_Windings, PManyOne n_PiImpedance)];
(* CIM14/CDPSM/Balanced/IEC61970/Core/BaseVoltage.py:23-94 *)
  Cls n_CIM14_CDPSM_Balanced_IEC61970_Core_BaseVoltage_BaseVoltage n_BaseVoltage (Some n_CIM14_CDPSM_Balanced_IEC61970_Core_IdentifiedObject_IdentifiedObject)
    [(n_nominalVoltage, VFloat n_0_0); (n_ConductingEquipment, VNone); (n_VoltageLevel, VNone)]
    [SAttr n_nominalVoltage; SMany n_ConductingEquipment; SMany n_VoltageLevel]
    true true
    [n_nominalVoltage]
    [(n_nominalVoltage, VFloat n_0_0)]
    []
    [n_ConductingEquipment; n_VoltageLevel]
    [n_ConductingEquipment; n_VoltageLevel]
    [(n_ConductingEquipment, PManyOne n_BaseVoltage); (n_VoltageLevel, PManyOne n_BaseVoltage)];
(* CIM14/CDPSM/Balanced/IEC61970/Core/Bay.py:23-59 *)
  Cls n_CIM14_CDPSM_Balanced_IEC61970_Core_Bay_Bay n_Bay (Some n_CIM14_CDPSM_Balanced_IEC61970_Core_EquipmentContainer_EquipmentContainer)
    [(n_VoltageLevel, VNone)]
    [SOne n_VoltageLevel]
    true true
    []
    []
    []
    [n_VoltageLevel]
    []
    [(n_VoltageLevel, POneMany n_Bays)];
(* CIM14/CDPSM/Balanced/IEC61970/Core/ConductingEquipment.py:23-89 *)
  Cls n_CIM14_CDPSM_Balanced_IEC61970_Core_ConductingEquipment_ConductingEquipment n_ConductingEquipment (Some n_CIM14_CDPSM_Balanced_IEC61970_Core_Equipment_Equipment)
    [(n_phases, VStr n_ABC); (n_Terminals, VNone); (n_BaseVoltage, VNone)]
    [SAttr n_phases; SMany n_Terminals; SOne n_BaseVoltage]
    true true
    [n_phases]
    [(n_phases, VStr n_ABC)]
    [(n_phases, n_PhaseCode)]
    [n_Terminals; n_BaseVoltage]
    [n_Terminals]
    [(n_Terminals, PManyOne n_ConductingEquipment); (n_BaseVoltage, POneMany n_ConductingEquipment)];
(* CIM14/CDPSM/Balanced/IEC61970/Core/ConnectivityNodeContainer.py:23-64 *)
  Cls n_CIM14_CDPSM_Balanced_IEC61970_Core_ConnectivityNodeContainer_ConnectivityNodeContainer n_ConnectivityNodeContainer (Some n_CIM14_CDPSM_Balanced_IEC61970_Core_PowerSystemResource_PowerSystemResource)
    [(n_ConnectivityNodes, VNone)]
    [SMany n_ConnectivityNodes]
    true true
    []
    []
    []
    [n_ConnectivityNodes]
    [n_ConnectivityNodes]
    [(n_ConnectivityNodes, PManyOne n_ConnectivityNodeContainer)];
(* CIM14/CDPSM/Balanced/IEC61970/Core/Equipment.py:23-63 *)
  Cls n_CIM14_CDPSM_Balanced_IEC61970_Core_Equipment_Equipment n_Equipment (Some n_CIM14_CDPSM_Balanced_IEC61970_Core_PowerSystemResource_PowerSystemResource)
    [(n_normaIlyInService, VBool false); (n_EquipmentContainer, VNone)]
    [SAttr n_normaIlyInService; SOne n_EquipmentContainer]
    true true
    [n_normaIlyInService]
    [(n_normaIlyInService, VBool false)]
    []
    [n_EquipmentContainer]
    []
    [(n_EquipmentContainer, POneMany n_Equipments)];
(* CIM14/CDPSM/Balanced/IEC61970/Core/EquipmentContainer.py:23-64 *)
  Cls n_CIM14_CDPSM_Balanced_IEC61970_Core_EquipmentContainer_EquipmentContainer n_EquipmentContainer (Some n_CIM14_CDPSM_Balanced_IEC61970_Core_ConnectivityNodeContainer_ConnectivityNodeContainer)
    [(n_Equipments, VNone)]
    [SMany n_Equipments]
    true true
    []
    []
    []
    [n_Equipments]
    [n_Equipments]
    [(n_Equipments, PManyOne n_EquipmentContainer)];
(* CIM14/CDPSM/Balanced/IEC61970/Core/GeographicalRegion.py:23-64 *)
  Cls n_CIM14_CDPSM_Balanced_IEC61970_Core_GeographicalRegion_GeographicalRegion n_GeographicalRegion (Some n_CIM14_CDPSM_Balanced_IEC61970_Core_IdentifiedObject_IdentifiedObject)
    [(n_Regions, VNone)]
    [SMany n_Regions]
    true true
    []
    []
    []
    [n_Regions]
    [n_Regions]
    [(n_Regions, PManyOne n_Region)];
(* CIM14/CDPSM/Balanced/IEC61970/Core/IdentifiedObject.py:23-58 *)
  Cls n_CIM14_CDPSM_Balanced_IEC61970_Core_IdentifiedObject_IdentifiedObject n_IdentifiedObject (Some n_CIM14_CDPSM_Balanced_Element_Element)
    [(n_mRID, VStr n_); (n_description, VStr n_); (n_name, VStr n_); (n_localName, VStr n_); (n_aliasName, VStr n_)]
    [SAttr n_mRID; SAttr n_description; SAttr n_name; SAttr n_localName; SAttr n_aliasName]
    true true
    [n_mRID; n_description; n_name; n_localName; n_aliasName]
    [(n_mRID, VStr n_); (n_description, VStr n_); (n_name, VStr n_); (n_localName, VStr n_); (n_aliasName, VStr n_)]
    []
    []
    []
    [];
(* CIM14/CDPSM/Balanced/IEC61970/Core/PSRType.py:23-64 *)
  Cls n_CIM14_CDPSM_Balanced_IEC61970_Core_PSRType_PSRType n_PSRType (Some n_CIM14_CDPSM_Balanced_IEC61970_Core_IdentifiedObject_IdentifiedObject)
    [(n_PowerSystemResources, VNone)]
    [SMany n_PowerSystemResources]
    true true
    []
    []
    []
    [n_PowerSystemResources]
    [n_PowerSystemResources]
    [(n_PowerSystemResources, PManyOne n_PSRType)];
(* CIM14/CDPSM/Balanced/IEC61970/Core/PowerSystemResource.py:23-81 *)
  Cls n_CIM14_CDPSM_Balanced_IEC61970_Core_PowerSystemResource_PowerSystemResource n_PowerSystemResource (Some n_CIM14_CDPSM_Balanced_IEC61970_Core_IdentifiedObject_IdentifiedObject)
    [(n_GeoLocation, VNone); (n_PSRType, VNone)]
    [SOne n_GeoLocation; SOne n_PSRType]
    true true
    []
    []
    []
    [n_GeoLocation; n_PSRType]
    []
    [(n_GeoLocation, POneMany n_PowerSystemResources); (n_PSRType, POneMany n_PowerSystemResources)];
(* CIM14/CDPSM/Balanced/IEC61970/Core/SubGeographicalRegion.py:23-111 *)
  Cls n_CIM14_CDPSM_Balanced_IEC61970_Core_SubGeographicalRegion_SubGeographicalRegion n_SubGeographicalRegion (Some n_CIM14_CDPSM_Balanced_IEC61970_Core_IdentifiedObject_IdentifiedObject)
    [(n_Region, VNone); (n_Lines, VNone); (n_Substations, VNone)]
    [SOne n_Region; SMany n_Lines; SMany n_Substations]
    true true
    []
    []
    []
    [n_Region; n_Lines; n_Substations]
    [n_Lines; n_Substations]
    [(n_Region, POneMany n_Regions); (n_Lines, PManyOne n_Region); (n_Substations, PManyOne n_Region)];
(* CIM14/CDPSM/Balanced/IEC61970/Core/Substation.py:23-85 *)
  Cls n_CIM14_CDPSM_Balanced_IEC61970_Core_Substation_Substation n_Substation (Some n_CIM14_CDPSM_Balanced_IEC61970_Core_EquipmentContainer_EquipmentContainer)
    [(n_Region, VNone); (n_VoltageLevels, VNone)]
    [SOne n_Region; SMany n_VoltageLevels]
    true true
    []
    []
    []
    [n_Region; n_VoltageLevels]
    [n_VoltageLevels]
    [(n_Region, POneMany n_Substations); (n_VoltageLevels, PManyOne n_Substation)];
(* CIM14/CDPSM/Balanced/IEC61970/Core/Terminal.py:23-88 *)
  Cls n_CIM14_CDPSM_Balanced_IEC61970_Core_Terminal_Terminal n_Terminal (Some n_CIM14_CDPSM_Balanced_IEC61970_Core_IdentifiedObject_IdentifiedObject)
    [(n_sequenceNumber, VInt 0); (n_connected, VBool false); (n_ConductingEquipment, VNone); (n_ConnectivityNode, VNone)]
    [SAttr n_sequenceNumber; SAttr n_connected; SOne n_ConductingEquipment; SOne n_ConnectivityNode]
    true true
    [n_sequenceNumber; n_connected]
    [(n_sequenceNumber, VInt 0); (n_connected, VBool false)]
    []
    [n_ConductingEquipment; n_ConnectivityNode]
    []
    [(n_ConductingEquipment, POneMany n_Terminals); (n_ConnectivityNode, POneMany n_Terminals)];
(* CIM14/CDPSM/Balanced/IEC61970/Core/VoltageLevel.py:23-114 *)
  Cls n_CIM14_CDPSM_Balanced_IEC61970_Core_VoltageLevel_VoltageLevel n_VoltageLevel (Some n_CIM14_CDPSM_Balanced_IEC61970_Core_EquipmentContainer_EquipmentContainer)
    [(n_lowVoltageLimit, VFloat n_0_0); (n_highVoltageLimit, VFloat n_0_0); (n_BaseVoltage, VNone); (n_Bays, VNone); (n_Substation, VNone)]
    [SAttr n_lowVoltageLimit; SAttr n_highVoltageLimit; SOne n_BaseVoltage; SMany n_Bays; SOne n_Substation]
    true true
    [n_lowVoltageLimit; n_highVoltageLimit]
    [(n_lowVoltageLimit, VFloat n_0_0); (n_highVoltageLimit, VFloat n_0_0)]
    []
    [n_BaseVoltage; n_Bays; n_Substation]
    [n_Bays]
    [(n_BaseVoltage, POneMany n_VoltageLevel); (n_Bays, PManyOne n_VoltageLevel); (n_Substation, POneMany n_VoltageLevels)];
(* CIM14/CDPSM/Balanced/IEC61970/Generation/Production/GeneratingUnit.py:23-76 *)
  Cls n_CIM14_CDPSM_Balanced_IEC61970_Generation_Production_GeneratingUnit_GeneratingUnit n_GeneratingUnit (Some n_CIM14_CDPSM_Balanced_IEC61970_Core_Equipment_Equipment)
    [(n_ratedNetMaxP, VFloat n_0_0); (n_genControlSource, VStr n_onAGC); (n_initialP, VFloat n_0_0); (n_SynchronousMachines, VNone)]
    [SAttr n_ratedNetMaxP; SAttr n_genControlSource; SAttr n_initialP; SMany n_SynchronousMachines]
    true true
    [n_ratedNetMaxP; n_genControlSource; n_initialP]
    [(n_ratedNetMaxP, VFloat n_0_0); (n_genControlSource, VStr n_onAGC); (n_initialP, VFloat n_0_0)]
    [(n_genControlSource, n_GeneratorControlSource)]
    [n_SynchronousMachines]
    [n_SynchronousMachines]
    [(n_SynchronousMachines, PManyOne n_GeneratingUnit)];
(* CIM14/CDPSM/Balanced/IEC61970/IEC61970CIMVersion.py:23-46 *)
  Cls n_CIM14_CDPSM_Balanced_IEC61970_IEC61970CIMVersion_IEC61970CIMVersion n_IEC61970CIMVersion (Some n_CIM14_CDPSM_Balanced_Element_Element)
    [(n_date, VStr n_); (n_version, VStr n_)]
    [SAttr n_date; SAttr n_version]
    true true
    [n_date; n_version]
    [(n_date, VStr n_); (n_version, VStr n_)]
    []
    []
    []
    [];
(* CIM14/CDPSM/Balanced/IEC61970/LoadModel/LoadResponseCharacteristic.py:23-116 *)
  Cls n_CIM14_CDPSM_Balanced_IEC61970_LoadModel_LoadResponseCharacteristic_LoadResponseCharacteristic n_LoadResponseCharacteristic (Some n_CIM14_CDPSM_Balanced_IEC61970_Core_IdentifiedObject_IdentifiedObject)
    [(n_pVoltageExponent, VFloat n_0_0); (n_qConstantCurrent, VFloat n_0_0); (n_pFrequencyExponent, VFloat n_0_0); (n_exponentModel, VBool false); (n_qConstantImpedance, VFloat n_0_0); (n_pConstantCurrent, VFloat n_0_0); (n_qFrequencyExponent, VFloat n_0_0); (n_pConstantPower, VFloat n_0_0); (n_qVoltageExponent, VFloat n_0_0); (n_qConstantPower, VFloat n_0_0); (n_pConstantImpedance, VFloat n_0_0); (n_EnergyConsumer, VNone)]
    [SAttr n_pVoltageExponent; SAttr n_qConstantCurrent; SAttr n_pFrequencyExponent; SAttr n_exponentModel; SAttr n_qConstantImpedance; SAttr n_pConstantCurrent; SAttr n_qFrequencyExponent; SAttr n_pConstantPower; SAttr n_qVoltageExponent; SAttr n_qConstantPower; SAttr n_pConstantImpedance; SMany n_EnergyConsumer]
    true true
    [n_pVoltageExponent; n_qConstantCurrent; n_pFrequencyExponent; n_exponentModel; n_qConstantImpedance; n_pConstantCurrent; n_qFrequencyExponent; n_pConstantPower; n_qVoltageExponent; n_qConstantPower; n_pConstantImpedance]
    [(n_pVoltageExponent, VFloat n_0_0); (n_qConstantCurrent, VFloat n_0_0); (n_pFrequencyExponent, VFloat n_0_0); (n_exponentModel, VBool false); (n_qConstantImpedance, VFloat n_0_0); (n_pConstantCurrent, VFloat n_0_0); (n_qFrequencyExponent, VFloat n_0_0); (n_pConstantPower, VFloat n_0_0); (n_qVoltageExponent, VFloat n_0_0); (n_qConstantPower, VFloat n_0_0); (n_pConstantImpedance, VFloat n_0_0)]
    []
    [n_EnergyConsumer]
    [n_EnergyConsumer]
    [(n_EnergyConsumer, PManyOne n_LoadResponse)];
(* CIM14/CDPSM/Balanced/IEC61970/StateVariables/SvTapStep.py:23-66 *)
  Cls n_CIM14_CDPSM_Balanced_IEC61970_StateVariables_SvTapStep_SvTapStep n_SvTapStep (Some n_CIM14_CDPSM_Balanced_Element_Element)
    [(n_continuousPosition, VFloat n_0_0); (n_position, VInt 0); (n_TapChanger, VNone)]
    [SAttr n_continuousPosition; SAttr n_position; SOne n_TapChanger]
    true true
    [n_continuousPosition; n_position]
    [(n_continuousPosition, VFloat n_0_0); (n_position, VInt 0)]
    []
    [n_TapChanger]
    []
    [(n_TapChanger, POneOne n_SvTapStep)];
(* CIM14/CDPSM/Balanced/IEC61970/Topology/ConnectivityNode.py:23-85 *)
  Cls n_CIM14_CDPSM_Balanced_IEC61970_Topology_ConnectivityNode_ConnectivityNode n_ConnectivityNode (Some n_CIM14_CDPSM_Balanced_IEC61970_Core_IdentifiedObject_IdentifiedObject)
    [(n_Terminals, VNone); (n_ConnectivityNodeContainer, VNone)]
    [SMany n_Terminals; SOne n_ConnectivityNodeContainer]
    true true
    []
    []
    []
    [n_Terminals; n_ConnectivityNodeContainer]
    [n_Terminals]
    [(n_Terminals, PManyOne n_ConnectivityNode); (n_ConnectivityNodeContainer, POneMany n_ConnectivityNodes)];
(* CIM14/CDPSM/Balanced/IEC61970/Wires/ACLineSegment.py:23-62 *)
  Cls n_CIM14_CDPSM_Balanced_IEC61970_Wires_ACLineSegment_ACLineSegment n_ACLineSegment (Some n_CIM14_CDPSM_Balanced_IEC61970_Wires_Conductor_Conductor)
    [(n_r, VFloat n_0_0); (n_x0, VFloat n_0_0); (n_bch, VFloat n_0_0); (n_x, VFloat n_0_0); (n_b0ch, VFloat n_0_0); (n_r0, VFloat n_0_0)]
    [SAttr n_r; SAttr n_x0; SAttr n_bch; SAttr n_x; SAttr n_b0ch; SAttr n_r0]
    true true
    [n_r; n_x0; n_bch; n_x; n_b0ch; n_r0]
    [(n_r, VFloat n_0_0); (n_x0, VFloat n_0_0); (n_bch, VFloat n_0_0); (n_x, VFloat n_0_0); (n_b0ch, VFloat n_0_0); (n_r0, VFloat n_0_0)]
    []
    []
    []
    [];
(* CIM14/CDPSM/Balanced/IEC61970/Wires/Breaker.py:23-42 *)
  Cls n_CIM14_CDPSM_Balanced_IEC61970_Wires_Breaker_Breaker n_Breaker (Some n_CIM14_CDPSM_Balanced_IEC61970_Wires_Switch_Switch)
    [(n_ratedCurrent, VFloat n_0_0)]
    [SAttr n_ratedCurrent]
    true true
    [n_ratedCurrent]
    [(n_ratedCurrent, VFloat n_0_0)]
    []
    []
    []
    [];
(* CIM14/CDPSM/Balanced/IEC61970/Wires/BusbarSection.py:23-39 *)
  Cls n_CIM14_CDPSM_Balanced_IEC61970_Wires_BusbarSection_BusbarSection n_BusbarSection (Some n_CIM14_CDPSM_Balanced_IEC61970_Core_ConductingEquipment_ConductingEquipment)
    []
    []
    true true
    []
    []
    []
    []
    []
    [];
(* CIM14/CDPSM/Balanced/IEC61970/Wires/Conductor.py:23-42 *)
  Cls n_CIM14_CDPSM_Balanced_IEC61970_Wires_Conductor_Conductor n_Conductor (Some n_CIM14_CDPSM_Balanced_IEC61970_Core_ConductingEquipment_ConductingEquipment)
    [(n_length, VFloat n_0_0)]
    [SAttr n_length]
    true true
    [n_length]
    [(n_length, VFloat n_0_0)]
    []
    []
    []
    [];
(* CIM14/CDPSM/Balanced/IEC61970/Wires/Disconnector.py:23-38 *)
  Cls n_CIM14_CDPSM_Balanced_IEC61970_Wires_Disconnector_Disconnector n_Disconnector (Some n_CIM14_CDPSM_Balanced_IEC61970_Wires_Switch_Switch)
    []
    []
    true true
    []
    []
    []
    []
    []
    [];
(* CIM14/CDPSM/Balanced/IEC61970/Wires/EnergyConsumer.py:23-79 *)
  Cls n_CIM14_CDPSM_Balanced_IEC61970_Wires_EnergyConsumer_EnergyConsumer n_EnergyConsumer (Some n_CIM14_CDPSM_Balanced_IEC61970_Core_ConductingEquipment_ConductingEquipment)
    [(n_pfixed, VFloat n_0_0); (n_pfixedPct, VFloat n_0_0); (n_qfixedPct, VFloat n_0_0); (n_qfixed, VFloat n_0_0); (n_customerCount, VInt 0); (n_LoadResponse, VNone)]
    [SAttr n_pfixed; SAttr n_pfixedPct; SAttr n_qfixedPct; SAttr n_qfixed; SAttr n_customerCount; SOne n_LoadResponse]
    true true
    [n_pfixed; n_pfixedPct; n_qfixedPct; n_qfixed; n_customerCount]
    [(n_pfixed, VFloat n_0_0); (n_pfixedPct, VFloat n_0_0); (n_qfixedPct, VFloat n_0_0); (n_qfixed, VFloat n_0_0); (n_customerCount, VInt 0)]
    []
    [n_LoadResponse]
    []
    [(n_LoadResponse, POneMany n_EnergyConsumer)];
(* CIM14/CDPSM/Balanced/IEC61970/Wires/EnergySource.py:23-54 *)
  Cls n_CIM14_CDPSM_Balanced_IEC61970_Wires_EnergySource_EnergySource n_EnergySource (Some n_CIM14_CDPSM_Balanced_IEC61970_Core_ConductingEquipment_ConductingEquipment)
    [(n_x, VFloat n_0_0); (n_voltageMagnitude, VFloat n_0_0); (n_voltageAngle, VFloat n_0_0); (n_nominalVoltage, VFloat n_0_0)]
    [SAttr n_x; SAttr n_voltageMagnitude; SAttr n_voltageAngle; SAttr n_nominalVoltage]
    true true
    [n_x; n_voltageMagnitude; n_voltageAngle; n_nominalVoltage]
    [(n_x, VFloat n_0_0); (n_voltageMagnitude, VFloat n_0_0); (n_voltageAngle, VFloat n_0_0); (n_nominalVoltage, VFloat n_0_0)]
    []
    []
    []
    [];
(* CIM14/CDPSM/Balanced/IEC61970/Wires/Fuse.py:23-42 *)
  Cls n_CIM14_CDPSM_Balanced_IEC61970_Wires_Fuse_Fuse n_Fuse (Some n_CIM14_CDPSM_Balanced_IEC61970_Wires_Switch_Switch)
    [(n_ratingCurrent, VFloat n_0_0)]
    [SAttr n_ratingCurrent]
    true true
    [n_ratingCurrent]
    [(n_ratingCurrent, VFloat n_0_0)]
    []
    []
    []
    [];
(* CIM14/CDPSM/Balanced/IEC61970/Wires/Junction.py:23-38 *)
  Cls n_CIM14_CDPSM_Balanced_IEC61970_Wires_Junction_Junction n_Junction (Some n_CIM14_CDPSM_Balanced_IEC61970_Core_ConductingEquipment_ConductingEquipment)
    []
    []
    true true
    []
    []
    []
    []
    []
    [];
(* CIM14/CDPSM/Balanced/IEC61970/Wires/Line.py:23-59 *)
  Cls n_CIM14_CDPSM_Balanced_IEC61970_Wires_Line_Line n_Line (Some n_CIM14_CDPSM_Balanced_IEC61970_Core_EquipmentContainer_EquipmentContainer)
    [(n_Region, VNone)]
    [SOne n_Region]
    true true
    []
    []
    []
    [n_Region]
    []
    [(n_Region, POneMany n_Lines)];
(* CIM14/CDPSM/Balanced/IEC61970/Wires/LoadBreakSwitch.py:23-42 *)
  Cls n_CIM14_CDPSM_Balanced_IEC61970_Wires_LoadBreakSwitch_LoadBreakSwitch n_LoadBreakSwitch (Some n_CIM14_CDPSM_Balanced_IEC61970_Wires_Switch_Switch)
    [(n_ratedCurrent, VFloat n_0_0)]
    [SAttr n_ratedCurrent]
    true true
    [n_ratedCurrent]
    [(n_ratedCurrent, VFloat n_0_0)]
    []
    []
    []
    [];
(* CIM14/CDPSM/Balanced/IEC61970/Wires/RatioTapChanger.py:23-62 *)
  Cls n_CIM14_CDPSM_Balanced_IEC61970_Wires_RatioTapChanger_RatioTapChanger n_RatioTapChanger (Some n_CIM14_CDPSM_Balanced_IEC61970_Wires_TapChanger_TapChanger)
    [(n_tculControlMode, VStr n_reactive); (n_Winding, VNone)]
    [SAttr n_tculControlMode; SOne n_Winding]
    true true
    [n_tculControlMode]
    [(n_tculControlMode, VStr n_reactive)]
    [(n_tculControlMode, n_TransformerControlMode)]
    [n_Winding]
    []
    [(n_Winding, POneOne n_RatioTapChanger)];
(* CIM14/CDPSM/Balanced/IEC61970/Wires/ShuntCompensator.py:23-58 *)
  Cls n_CIM14_CDPSM_Balanced_IEC61970_Wires_ShuntCompensator_ShuntCompensator n_ShuntCompensator (Some n_CIM14_CDPSM_Balanced_IEC61970_Core_ConductingEquipment_ConductingEquipment)
    [(n_nomQ, VFloat n_0_0); (n_nomU, VFloat n_0_0); (n_normalSections, VInt 0); (n_maximumSections, VInt 0); (n_reactivePerSection, VFloat n_0_0)]
    [SAttr n_nomQ; SAttr n_nomU; SAttr n_normalSections; SAttr n_maximumSections; SAttr n_reactivePerSection]
    true true
    [n_nomQ; n_nomU; n_normalSections; n_maximumSections; n_reactivePerSection]
    [(n_nomQ, VFloat n_0_0); (n_nomU, VFloat n_0_0); (n_normalSections, VInt 0); (n_maximumSections, VInt 0); (n_reactivePerSection, VFloat n_0_0)]
    []
    []
    []
    [];
(* CIM14/CDPSM/Balanced/IEC61970/Wires/Switch.py:23-42 *)
  Cls n_CIM14_CDPSM_Balanced_IEC61970_Wires_Switch_Switch n_Switch (Some n_CIM14_CDPSM_Balanced_IEC61970_Core_ConductingEquipment_ConductingEquipment)
    [(n_normalOpen, VBool false)]
    [SAttr n_normalOpen]
    true true
    [n_normalOpen]
    [(n_normalOpen, VBool false)]
    []
    []
    []
    [];
(* CIM14/CDPSM/Balanced/IEC61970/Wires/SynchronousMachine.py:23-79 *)
  Cls n_CIM14_CDPSM_Balanced_IEC61970_Wires_SynchronousMachine_SynchronousMachine n_SynchronousMachine (Some n_CIM14_CDPSM_Balanced_IEC61970_Core_ConductingEquipment_ConductingEquipment)
    [(n_baseQ, VFloat n_0_0); (n_operatingMode, VStr n_condenser); (n_type, VStr n_condenser); (n_maxQ, VFloat n_0_0); (n_minQ, VFloat n_0_0); (n_GeneratingUnit, VNone)]
    [SAttr n_baseQ; SAttr n_operatingMode; SAttr n_type; SAttr n_maxQ; SAttr n_minQ; SOne n_GeneratingUnit]
    true true
    [n_baseQ; n_operatingMode; n_type; n_maxQ; n_minQ]
    [(n_baseQ, VFloat n_0_0); (n_operatingMode, VStr n_condenser); (n_type, VStr n_condenser); (n_maxQ, VFloat n_0_0); (n_minQ, VFloat n_0_0)]
    [(n_operatingMode, n_SynchronousMachineOperatingMode); (n_type, n_SynchronousMachineType)]
    [n_GeneratingUnit]
    []
    [(n_GeneratingUnit, POneMany n_SynchronousMachines)];
(* CIM14/CDPSM/Balanced/IEC61970/Wires/TapChanger.py:23-98 *)
  Cls n_CIM14_CDPSM_Balanced_IEC61970_Wires_TapChanger_TapChanger n_TapChanger (Some n_CIM14_CDPSM_Balanced_IEC61970_Core_PowerSystemResource_PowerSystemResource)
    [(n_stepVoltageIncrement, VFloat n_0_0); (n_subsequentDelay, VFloat n_0_0); (n_neutralStep, VInt 0); (n_normalStep, VInt 0); (n_ltcFlag, VBool false); (n_neutralU, VFloat n_0_0); (n_lowStep, VInt 0); (n_initialDelay, VFloat n_0_0); (n_regulationStatus, VBool false); (n_highStep, VInt 0); (n_SvTapStep, VNone)]
    [SAttr n_stepVoltageIncrement; SAttr n_subsequentDelay; SAttr n_neutralStep; SAttr n_normalStep; SAttr n_ltcFlag; SAttr n_neutralU; SAttr n_lowStep; SAttr n_initialDelay; SAttr n_regulationStatus; SAttr n_highStep; SOne n_SvTapStep]
    true true
    [n_stepVoltageIncrement; n_subsequentDelay; n_neutralStep; n_normalStep; n_ltcFlag; n_neutralU; n_lowStep; n_initialDelay; n_regulationStatus; n_highStep]
    [(n_stepVoltageIncrement, VFloat n_0_0); (n_subsequentDelay, VFloat n_0_0); (n_neutralStep, VInt 0); (n_normalStep, VInt 0); (n_ltcFlag, VBool false); (n_neutralU, VFloat n_0_0); (n_lowStep, VInt 0); (n_initialDelay, VFloat n_0_0); (n_regulationStatus, VBool false); (n_highStep, VInt 0)]
    []
    [n_SvTapStep]
    []
    [(n_SvTapStep, POneOne n_TapChanger)]
].

(** packageMap, CIM14/CDPSM/Balanced/__init__.py:29-91: tag to the class that the package exports under that name. *)
Definition cim14_cdpsm_balanced_map : list (name * name) := [
  (n_Element, n_CIM14_CDPSM_Balanced_Element_Element);
  (n_DistributionTransformerWinding, n_CIM14_CDPSM_Balanced_IEC61968_WiresExt_DistributionTransformerWinding_DistributionTransformerWinding);
  (n_DistributionLineSegment, n_CIM14_CDPSM_Balanced_IEC61968_WiresExt_DistributionLineSegment_DistributionLineSegment);
  (n_WindingPiImpedance, n_CIM14_CDPSM_Balanced_IEC61968_WiresExt_WindingPiImpedance_WindingPiImpedance);
  (n_DistributionTapChanger, n_CIM14_CDPSM_Balanced_IEC61968_WiresExt_DistributionTapChanger_DistributionTapChanger);
  (n_PerLengthSequenceImpedance, n_CIM14_CDPSM_Balanced_IEC61968_WiresExt_PerLengthSequenceImpedance_PerLengthSequenceImpedance);
  (n_TransformerBank, n_CIM14_CDPSM_Balanced_IEC61968_WiresExt_TransformerBank_TransformerBank);
  (n_PerLengthPhaseImpedance, n_CIM14_CDPSM_Balanced_IEC61968_WiresExt_PerLengthPhaseImpedance_PerLengthPhaseImpedance);
  (n_DistributionTransformer, n_CIM14_CDPSM_Balanced_IEC61968_WiresExt_DistributionTransformer_DistributionTransformer);
  (n_PhaseImpedanceData, n_CIM14_CDPSM_Balanced_IEC61968_WiresExt_PhaseImpedanceData_PhaseImpedanceData);
  (n_TransformerInfo, n_CIM14_CDPSM_Balanced_IEC61968_AssetModels_TransformerInfo_TransformerInfo);
  (n_ToWindingSpec, n_CIM14_CDPSM_Balanced_IEC61968_AssetModels_ToWindingSpec_ToWindingSpec);
  (n_WireArrangement, n_CIM14_CDPSM_Balanced_IEC61968_AssetModels_WireArrangement_WireArrangement);
  (n_CableInfo, n_CIM14_CDPSM_Balanced_IEC61968_AssetModels_CableInfo_CableInfo);
  (n_OpenCircuitTest, n_CIM14_CDPSM_Balanced_IEC61968_AssetModels_OpenCircuitTest_OpenCircuitTest);
  (n_ConcentricNeutralCableInfo, n_CIM14_CDPSM_Balanced_IEC61968_AssetModels_ConcentricNeutralCableInfo_ConcentricNeutralCableInfo);
  (n_ConductorInfo, n_CIM14_CDPSM_Balanced_IEC61968_AssetModels_ConductorInfo_ConductorInfo);
  (n_DistributionWindingTest, n_CIM14_CDPSM_Balanced_IEC61968_AssetModels_DistributionWindingTest_DistributionWindingTest);
  (n_WireType, n_CIM14_CDPSM_Balanced_IEC61968_AssetModels_WireType_WireType);
  (n_WindingInfo, n_CIM14_CDPSM_Balanced_IEC61968_AssetModels_WindingInfo_WindingInfo);
  (n_OverheadConductorInfo, n_CIM14_CDPSM_Balanced_IEC61968_AssetModels_OverheadConductorInfo_OverheadConductorInfo);
  (n_TapeShieldCableInfo, n_CIM14_CDPSM_Balanced_IEC61968_AssetModels_TapeShieldCableInfo_TapeShieldCableInfo);
  (n_ShortCircuitTest, n_CIM14_CDPSM_Balanced_IEC61968_AssetModels_ShortCircuitTest_ShortCircuitTest);
  (n_GeoLocation, n_CIM14_CDPSM_Balanced_IEC61968_Common_GeoLocation_GeoLocation);
  (n_Location, n_CIM14_CDPSM_Balanced_IEC61968_Common_Location_Location);
  (n_PositionPoint, n_CIM14_CDPSM_Balanced_IEC61968_Common_PositionPoint_PositionPoint);
  (n_IEC61970CIMVersion, n_CIM14_CDPSM_Balanced_IEC61970_IEC61970CIMVersion_IEC61970CIMVersion);
  (n_BusbarSection, n_CIM14_CDPSM_Balanced_IEC61970_Wires_BusbarSection_BusbarSection);
  (n_LoadBreakSwitch, n_CIM14_CDPSM_Balanced_IEC61970_Wires_LoadBreakSwitch_LoadBreakSwitch);
  (n_TapChanger, n_CIM14_CDPSM_Balanced_IEC61970_Wires_TapChanger_TapChanger);
  (n_Fuse, n_CIM14_CDPSM_Balanced_IEC61970_Wires_Fuse_Fuse);
  (n_Junction, n_CIM14_CDPSM_Balanced_IEC61970_Wires_Junction_Junction);
  (n_ACLineSegment, n_CIM14_CDPSM_Balanced_IEC61970_Wires_ACLineSegment_ACLineSegment);
  (n_Disconnector, n_CIM14_CDPSM_Balanced_IEC61970_Wires_Disconnector_Disconnector);
  (n_EnergySource, n_CIM14_CDPSM_Balanced_IEC61970_Wires_EnergySource_EnergySource);
  (n_SynchronousMachine, n_CIM14_CDPSM_Balanced_IEC61970_Wires_SynchronousMachine_SynchronousMachine);
  (n_RatioTapChanger, n_CIM14_CDPSM_Balanced_IEC61970_Wires_RatioTapChanger_RatioTapChanger);
  (n_EnergyConsumer, n_CIM14_CDPSM_Balanced_IEC61970_Wires_EnergyConsumer_EnergyConsumer);
  (n_Switch, n_CIM14_CDPSM_Balanced_IEC61970_Wires_Switch_Switch);
  (n_Line, n_CIM14_CDPSM_Balanced_IEC61970_Wires_Line_Line);
  (n_ShuntCompensator, n_CIM14_CDPSM_Balanced_IEC61970_Wires_ShuntCompensator_ShuntCompensator);
  (n_Breaker, n_CIM14_CDPSM_Balanced_IEC61970_Wires_Breaker_Breaker);
  (n_Conductor, n_CIM14_CDPSM_Balanced_IEC61970_Wires_Conductor_Conductor);
  (n_ConnectivityNodeContainer, n_CIM14_CDPSM_Balanced_IEC61970_Core_ConnectivityNodeContainer_ConnectivityNodeContainer);
  (n_VoltageLevel, n_CIM14_CDPSM_Balanced_IEC61970_Core_VoltageLevel_VoltageLevel);
  (n_Bay, n_CIM14_CDPSM_Balanced_IEC61970_Core_Bay_Bay);
  (n_Equipment, n_CIM14_CDPSM_Balanced_IEC61970_Core_Equipment_Equipment);
  (n_BaseVoltage, n_CIM14_CDPSM_Balanced_IEC61970_Core_BaseVoltage_BaseVoltage);
  (n_PSRType, n_CIM14_CDPSM_Balanced_IEC61970_Core_PSRType_PSRType);
  (n_EquipmentContainer, n_CIM14_CDPSM_Balanced_IEC61970_Core_EquipmentContainer_EquipmentContainer);
  (n_IdentifiedObject, n_CIM14_CDPSM_Balanced_IEC61970_Core_IdentifiedObject_IdentifiedObject);
  (n_Substation, n_CIM14_CDPSM_Balanced_IEC61970_Core_Substation_Substation);
  (n_ConductingEquipment, n_CIM14_CDPSM_Balanced_IEC61970_Core_ConductingEquipment_ConductingEquipment);
  (n_SubGeographicalRegion, n_CIM14_CDPSM_Balanced_IEC61970_Core_SubGeographicalRegion_SubGeographicalRegion);
  (n_Terminal, n_CIM14_CDPSM_Balanced_IEC61970_Core_Terminal_Terminal);
  (n_GeographicalRegion, n_CIM14_CDPSM_Balanced_IEC61970_Core_GeographicalRegion_GeographicalRegion);
  (n_PowerSystemResource, n_CIM14_CDPSM_Balanced_IEC61970_Core_PowerSystemResource_PowerSystemResource);
  (n_GeneratingUnit, n_CIM14_CDPSM_Balanced_IEC61970_Generation_Production_GeneratingUnit_GeneratingUnit);
  (n_LoadResponseCharacteristic, n_CIM14_CDPSM_Balanced_IEC61970_LoadModel_LoadResponseCharacteristic_LoadResponseCharacteristic);
  (n_SvTapStep, n_CIM14_CDPSM_Balanced_IEC61970_StateVariables_SvTapStep_SvTapStep);
  (n_ConnectivityNode, n_CIM14_CDPSM_Balanced_IEC61970_Topology_ConnectivityNode_ConnectivityNode)
].

(** nsURI and nsPrefix, CIM14/CDPSM/Balanced/__init__.py. *)
Definition cim14_cdpsm_balanced_uri : name := n_http___iec_ch_TC57_2009_CIM_schema_cim14_profile_http___iec_ch_TC57_2007_profile_CDPSM_Balanced.
Definition cim14_cdpsm_balanced_prefix : name := n_bal.

(** Class table of CIM14.CDPSM.GIS_Connectivity: 61 classes. *)
Definition cim14_cdpsm_gis_connectivity : schema := [
(* CIM14/CDPSM/GIS_Connectivity/Element.py:22-38 *)
  Cls n_CIM14_CDPSM_GIS_Connectivity_Element_Element n_Element None
    [(n_UUID, VStr n_)]
    [SAttr n_UUID]
    false true
    [n_UUID]
    [(n_UUID, VStr n_)]
    []
    []
    []
    [];
(* CIM14/CDPSM/GIS_Connectivity/IEC61968/AssetModels/CableInfo.py:23-78 *)
  Cls n_CIM14_CDPSM_GIS_Connectivity_IEC61968_AssetModels_CableInfo_CableInfo n_CableInfo (Some n_CIM14_CDPSM_GIS_Connectivity_IEC61968_AssetModels_ConductorInfo_ConductorInfo)
    [(n_nominalTemperature, VFloat n_0_0); (n_diameterOverScreen, VFloat n_0_0); (n_sheathAsNeutral, VBool false); (n_diameterOverJacket, VFloat n_0_0); (n_diameterOverCore, VFloat n_0_0); (n_constructionKind, VStr n_solid); (n_outerJacketKind, VStr n_insulating); (n_isStrandFill, VBool false); (n_shieldMaterial, VStr n_other); (n_diameterOverInsulation, VFloat n_0_0)]
    [SAttr n_nominalTemperature; SAttr n_diameterOverScreen; SAttr n_sheathAsNeutral; SAttr n_diameterOverJacket; SAttr n_diameterOverCore; SAttr n_constructionKind; SAttr n_outerJacketKind; SAttr n_isStrandFill; SAttr n_shieldMaterial; SAttr n_diameterOverInsulation]
    true true
    [n_nominalTemperature; n_diameterOverScreen; n_sheathAsNeutral; n_diameterOverJacket; n_diameterOverCore; n_constructionKind; n_outerJacketKind; n_isStrandFill; n_shieldMaterial; n_diameterOverInsulation]
    [(n_nominalTemperature, VFloat n_0_0); (n_diameterOverScreen, VFloat n_0_0); (n_sheathAsNeutral, VBool false); (n_diameterOverJacket, VFloat n_0_0); (n_diameterOverCore, VFloat n_0_0); (n_constructionKind, VStr n_solid); (n_outerJacketKind, VStr n_insulating); (n_isStrandFill, VBool false); (n_shieldMaterial, VStr n_other); (n_diameterOverInsulation, VFloat n_0_0)]
    [(n_constructionKind, n_CableConstructionKind); (n_outerJacketKind, n_CableOuterJacketKind); (n_shieldMaterial, n_CableShieldMaterialKind)]
    []
    []
    [];
(* CIM14/CDPSM/GIS_Connectivity/IEC61968/AssetModels/ConcentricNeutralCableInfo.py:23-67 *)
  Cls n_CIM14_CDPSM_GIS_Connectivity_IEC61968_AssetModels_ConcentricNeutralCableInfo_ConcentricNeutralCableInfo n_ConcentricNeutralCableInfo (Some n_CIM14_CDPSM_GIS_Connectivity_IEC61968_AssetModels_CableInfo_CableInfo)
    [(n_neutralStrandCount, VInt 0); (n_diameterOverNeutral, VFloat n_0_0); (n_WireType, VNone)]
    [SAttr n_neutralStrandCount; SAttr n_diameterOverNeutral; SOne n_WireType]
    true true
    [n_neutralStrandCount; n_diameterOverNeutral]
    [(n_neutralStrandCount, VInt 0); (n_diameterOverNeutral, VFloat n_0_0)]
    []
    [n_WireType]
    []
    [(n_WireType, POneMany n_ConcentricNeutralCableInfos)];
(* CIM14/CDPSM/GIS_Connectivity/IEC61968/AssetModels/ConductorInfo.py:23-110 *)
  Cls n_CIM14_CDPSM_GIS_Connectivity_IEC61968_AssetModels_ConductorInfo_ConductorInfo n_ConductorInfo (Some n_CIM14_CDPSM_GIS_Connectivity_IEC61970_Core_IdentifiedObject_IdentifiedObject)
    [(n_phaseCount, VInt 0); (n_insulationMaterial, VStr n_crosslinkedPolyethylene); (n_insulationThickness, VFloat n_0_0); (n_insulated, VBool false); (n_usage, VStr n_secondary); (n_WireArrangements, VNone); (n_ConductorSegments, VNone)]
    [SAttr n_phaseCount; SAttr n_insulationMaterial; SAttr n_insulationThickness; SAttr n_insulated; SAttr n_usage; SMany n_WireArrangements; SMany n_ConductorSegments]
    true true
    [n_phaseCount; n_insulationMaterial; n_insulationThickness; n_insulated; n_usage]
    [(n_phaseCount, VInt 0); (n_insulationMaterial, VStr n_crosslinkedPolyethylene); (n_insulationThickness, VFloat n_0_0); (n_insulated, VBool false); (n_usage, VStr n_secondary)]
    [(n_insulationMaterial, n_ConductorInsulationKind); (n_usage, n_ConductorUsageKind)]
    [n_WireArrangements; n_ConductorSegments]
    [n_WireArrangements; n_ConductorSegments]
    [(n_WireArrangements, PManyOne n_ConductorInfo); (n_ConductorSegments, PManyOne n_ConductorInfo)];
(* CIM14/CDPSM/GIS_Connectivity/IEC61968/AssetModels/DistributionWindingTest.py:23-63 *)
  Cls n_CIM14_CDPSM_GIS_Connectivity_IEC61968_AssetModels_DistributionWindingTest_DistributionWindingTest n_DistributionWindingTest (Some n_CIM14_CDPSM_GIS_Connectivity_IEC61970_Core_IdentifiedObject_IdentifiedObject)
    [(n_fromTapStep, VInt 0); (n_FromWinding, VNone)]
    [SAttr n_fromTapStep; SOne n_FromWinding]
    true true
    [n_fromTapStep]
    [(n_fromTapStep, VInt 0)]
    []
    [n_FromWinding]
    []
    [(n_FromWinding, POneMany n_WindingTests)];
(* CIM14/CDPSM/GIS_Connectivity/IEC61968/AssetModels/OpenCircuitTest.py:23-87 *)
  Cls n_CIM14_CDPSM_GIS_Connectivity_IEC61968_AssetModels_OpenCircuitTest_OpenCircuitTest n_OpenCircuitTest (Some n_CIM14_CDPSM_GIS_Connectivity_IEC61968_AssetModels_DistributionWindingTest_DistributionWindingTest)
    [(n_noLoadLossZero, VFloat n_0_0); (n_noLoadLoss, VFloat n_0_0); (n_excitingCurrent, VFloat n_0_0); (n_excitingCurrentZero, VFloat n_0_0); (n_MeasuredWindingSpecs, VNone)]
    [SAttr n_noLoadLossZero; SAttr n_noLoadLoss; SAttr n_excitingCurrent; SAttr n_excitingCurrentZero; SMany n_MeasuredWindingSpecs]
    true true
    [n_noLoadLossZero; n_noLoadLoss; n_excitingCurrent; n_excitingCurrentZero]
    [(n_noLoadLossZero, VFloat n_0_0); (n_noLoadLoss, VFloat n_0_0); (n_excitingCurrent, VFloat n_0_0); (n_excitingCurrentZero, VFloat n_0_0)]
    []
    [n_MeasuredWindingSpecs]
    [n_MeasuredWindingSpecs]
    [(n_MeasuredWindingSpecs, PManyMany n_OpenCircuitTests)];
(* CIM14/CDPSM/GIS_Connectivity/IEC61968/AssetModels/OverheadConductorInfo.py:23-50 *)
  Cls n_CIM14_CDPSM_GIS_Connectivity_IEC61968_AssetModels_OverheadConductorInfo_OverheadConductorInfo n_OverheadConductorInfo (Some n_CIM14_CDPSM_GIS_Connectivity_IEC61968_AssetModels_ConductorInfo_ConductorInfo)
    [(n_neutralInsulationThickness, VFloat n_0_0); (n_phaseConductorCount, VInt 0); (n_phaseConductorSpacing, VFloat n_0_0)]
    [SAttr n_neutralInsulationThickness; SAttr n_phaseConductorCount; SAttr n_phaseConductorSpacing]
    true true
    [n_neutralInsulationThickness; n_phaseConductorCount; n_phaseConductorSpacing]
    [(n_neutralInsulationThickness, VFloat n_0_0); (n_phaseConductorCount, VInt 0); (n_phaseConductorSpacing, VFloat n_0_0)]
    []
    []
    []
    [];
(* CIM14/CDPSM/GIS_Connectivity/IEC61968/AssetModels/ShortCircuitTest.py:23-86 *)
  Cls n_CIM14_CDPSM_GIS_Connectivity_IEC61968_AssetModels_ShortCircuitTest_ShortCircuitTest n_ShortCircuitTest (Some n_CIM14_CDPSM_GIS_Connectivity_IEC61968_AssetModels_DistributionWindingTest_DistributionWindingTest)
    [(n_loadLossZero, VFloat n_0_0); (n_leakageImpedanceZero, VFloat n_0_0); (n_leakageImpedance, VFloat n_0_0); (n_loadLoss, VFloat n_0_0); (n_ShortedWindingSpecs, VNone)]
    [SAttr n_loadLossZero; SAttr n_leakageImpedanceZero; SAttr n_leakageImpedance; SAttr n_loadLoss; SMany n_ShortedWindingSpecs]
    true true
    [n_loadLossZero; n_leakageImpedanceZero; n_leakageImpedance; n_loadLoss]
    [(n_loadLossZero, VFloat n_0_0); (n_leakageImpedanceZero, VFloat n_0_0); (n_leakageImpedance, VFloat n_0_0); (n_loadLoss, VFloat n_0_0)]
    []
    [n_ShortedWindingSpecs]
    [n_ShortedWindingSpecs]
    [(n_ShortedWindingSpecs, PManyMany n_ShortCircuitTests)];
(* CIM14/CDPSM/GIS_Connectivity/IEC61968/AssetModels/TapeShieldCableInfo.py:23-46 *)
  Cls n_CIM14_CDPSM_GIS_Connectivity_IEC61968_AssetModels_TapeShieldCableInfo_TapeShieldCableInfo n_TapeShieldCableInfo (Some n_CIM14_CDPSM_GIS_Connectivity_IEC61968_AssetModels_CableInfo_CableInfo)
    [(n_tapeThickness, VFloat n_0_0); (n_tapeLap, VFloat n_0_0)]
    [SAttr n_tapeThickness; SAttr n_tapeLap]
    true true
    [n_tapeThickness; n_tapeLap]
    [(n_tapeThickness, VFloat n_0_0); (n_tapeLap, VFloat n_0_0)]
    []
    []
    []
    [];
(* CIM14/CDPSM/GIS_Connectivity/IEC61968/AssetModels/ToWindingSpec.py:23-136 *)
  Cls n_CIM14_CDPSM_GIS_Connectivity_IEC61968_AssetModels_ToWindingSpec_ToWindingSpec n_ToWindingSpec (Some n_CIM14_CDPSM_GIS_Connectivity_IEC61970_Core_IdentifiedObject_IdentifiedObject)
    [(n_toTapStep, VInt 0); (n_voltage, VFloat n_0_0); (n_phaseShift, VFloat n_0_0); (n_OpenCircuitTests, VNone); (n_ShortCircuitTests, VNone); (n_ToWinding, VNone)]
    [SAttr n_toTapStep; SAttr n_voltage; SAttr n_phaseShift; SMany n_OpenCircuitTests; SMany n_ShortCircuitTests; SOne n_ToWinding]
    true true
    [n_toTapStep; n_voltage; n_phaseShift]
    [(n_toTapStep, VInt 0); (n_voltage, VFloat n_0_0); (n_phaseShift, VFloat n_0_0)]
    []
    [n_OpenCircuitTests; n_ShortCircuitTests; n_ToWinding]
    [n_OpenCircuitTests; n_ShortCircuitTests]
    [(n_OpenCircuitTests, PManyMany n_MeasuredWindingSpecs); (n_ShortCircuitTests, PManyMany n_ShortedWindingSpecs); (n_ToWinding, POneMany n_ToWindingSpecs)];
(* CIM14/CDPSM/GIS_Connectivity/IEC61968/AssetModels/TransformerInfo.py:23-64 *)
  Cls n_CIM14_CDPSM_GIS_Connectivity_IEC61968_AssetModels_TransformerInfo_TransformerInfo n_TransformerInfo (Some n_CIM14_CDPSM_GIS_Connectivity_IEC61970_Core_IdentifiedObject_IdentifiedObject)
    [(n_Transformers, VNone)]
    [SMany n_Transformers]
    true true
    []
    []
    []
    [n_Transformers]
    [n_Transformers]
    [(n_Transformers, PManyOne n_TransformerInfo)];
(* CIM14/CDPSM/GIS_Connectivity/IEC61968/AssetModels/WindingInfo.py:23-128 *)
  Cls n_CIM14_CDPSM_GIS_Connectivity_IEC61968_AssetModels_WindingInfo_WindingInfo n_WindingInfo (Some n_CIM14_CDPSM_GIS_Connectivity_IEC61970_Core_IdentifiedObject_IdentifiedObject)
    [(n_ratedS, VFloat n_0_0); (n_ratedU, VFloat n_0_0); (n_connectionKind, VStr n_I); (n_WindingTests, VNone); (n_ToWindingSpecs, VNone); (n_Windings, VNone)]
    [SAttr n_ratedS; SAttr n_ratedU; SAttr n_connectionKind; SMany n_WindingTests; SMany n_ToWindingSpecs; SMany n_Windings]
    true true
    [n_ratedS; n_ratedU; n_connectionKind]
    [(n_ratedS, VFloat n_0_0); (n_ratedU, VFloat n_0_0); (n_connectionKind, VStr n_I)]
    [(n_connectionKind, n_WindingConnection)]
    [n_WindingTests; n_ToWindingSpecs; n_Windings]
    [n_WindingTests; n_ToWindingSpecs; n_Windings]
    [(n_WindingTests, PManyOne n_FromWinding); (n_ToWindingSpecs, PManyOne n_ToWinding); (n_Windings, PManyOne n_WindingInfo)];
(* CIM14/CDPSM/GIS_Connectivity/IEC61968/AssetModels/WireArrangement.py:23-92 *)
  Cls n_CIM14_CDPSM_GIS_Connectivity_IEC61968_AssetModels_WireArrangement_WireArrangement n_WireArrangement (Some n_CIM14_CDPSM_GIS_Connectivity_IEC61970_Core_IdentifiedObject_IdentifiedObject)
    [(n_mountingPointX, VFloat n_0_0); (n_mountingPointY, VFloat n_0_0); (n_position, VInt 0); (n_ConductorInfo, VNone); (n_WireType, VNone)]
    [SAttr n_mountingPointX; SAttr n_mountingPointY; SAttr n_position; SOne n_ConductorInfo; SOne n_WireType]
    true true
    [n_mountingPointX; n_mountingPointY; n_position]
    [(n_mountingPointX, VFloat n_0_0); (n_mountingPointY, VFloat n_0_0); (n_position, VInt 0)]
    []
    [n_ConductorInfo; n_WireType]
    []
    [(n_ConductorInfo, POneMany n_WireArrangements); (n_WireType, POneMany n_WireArrangements)];
(* CIM14/CDPSM/GIS_Connectivity/IEC61968/AssetModels/WireType.py:23-138 *)
  Cls n_CIM14_CDPSM_GIS_Connectivity_IEC61968_AssetModels_WireType_WireType n_WireType (Some n_CIM14_CDPSM_GIS_Connectivity_IEC61970_Core_IdentifiedObject_IdentifiedObject)
    [(n_rAC75, VFloat n_0_0); (n_coreRadius, VFloat n_0_0); (n_coreStrandCount, VInt 0); (n_rAC25, VFloat n_0_0); (n_radius, VFloat n_0_0); (n_gmr, VFloat n_0_0); (n_rDC20, VFloat n_0_0); (n_rAC50, VFloat n_0_0); (n_material, VStr n_steel); (n_sizeDescription, VStr n_); (n_strandCount, VInt 0); (n_ratedCurrent, VFloat n_0_0); (n_ConcentricNeutralCableInfos, VNone); (n_WireArrangements, VNone)]
    [SAttr n_rAC75; SAttr n_coreRadius; SAttr n_coreStrandCount; SAttr n_rAC25; SAttr n_radius; SAttr n_gmr; SAttr n_rDC20; SAttr n_rAC50; SAttr n_material; SAttr n_sizeDescription; SAttr n_strandCount; SAttr n_ratedCurrent; SMany n_ConcentricNeutralCableInfos; SMany n_WireArrangements]
    true true
    [n_rAC75; n_coreRadius; n_coreStrandCount; n_rAC25; n_radius; n_gmr; n_rDC20; n_rAC50; n_material; n_sizeDescription; n_strandCount; n_ratedCurrent]
    [(n_rAC75, VFloat n_0_0); (n_coreRadius, VFloat n_0_0); (n_coreStrandCount, VInt 0); (n_rAC25, VFloat n_0_0); (n_radius, VFloat n_0_0); (n_gmr, VFloat n_0_0); (n_rDC20, VFloat n_0_0); (n_rAC50, VFloat n_0_0); (n_material, VStr n_steel); (n_sizeDescription, VStr n_); (n_strandCount, VInt 0); (n_ratedCurrent, VFloat n_0_0)]
    [(n_material, n_ConductorMaterialKind)]
    [n_ConcentricNeutralCableInfos; n_WireArrangements]
    [n_ConcentricNeutralCableInfos; n_WireArrangements]
    [(n_ConcentricNeutralCableInfos, PManyOne n_WireType); (n_WireArrangements, PManyOne n_WireType)];
(* CIM14/CDPSM/GIS_Connectivity/IEC61968/Common/GeoLocation.py:23-64 *)
  Cls n_CIM14_CDPSM_GIS_Connectivity_IEC61968_Common_GeoLocation_GeoLocation n_GeoLocation (Some n_CIM14_CDPSM_GIS_Connectivity_IEC61968_Common_Location_Location)
    [(n_PowerSystemResources, VNone)]
    [SMany n_PowerSystemResources]
    true true
    []
    []
    []
    [n_PowerSystemResources]
    [n_PowerSystemResources]
    [(n_PowerSystemResources, PManyOne n_GeoLocation)];
(* CIM14/CDPSM/GIS_Connectivity/IEC61968/Common/Location.py:23-66 *)
  Cls n_CIM14_CDPSM_GIS_Connectivity_IEC61968_Common_Location_Location n_Location (Some n_CIM14_CDPSM_GIS_Connectivity_IEC61970_Core_IdentifiedObject_IdentifiedObject)
    [(n_PositionPoints, VNone)]
    [SMany n_PositionPoints]
    true true
    []
    []
    []
    [n_PositionPoints]
    [n_PositionPoints]
    [(n_PositionPoints, PManyOne n_Location)];
(* CIM14/CDPSM/GIS_Connectivity/IEC61968/Common/PositionPoint.py:23-73 *)
  Cls n_CIM14_CDPSM_GIS_Connectivity_IEC61968_Common_PositionPoint_PositionPoint n_PositionPoint (Some n_CIM14_CDPSM_GIS_Connectivity_Element_Element)
    [(n_xPosition, VStr n_); (n_sequenceNumber, VInt 0); (n_yPosition, VStr n_); (n_Location, VNone)]
    [SAttr n_xPosition; SAttr n_sequenceNumber; SAttr n_yPosition; SOne n_Location]
    true true
    [n_xPosition; n_sequenceNumber; n_yPosition]
    [(n_xPosition, VStr n_); (n_sequenceNumber, VInt 0); (n_yPosition, VStr n_)]
    []
    [n_Location]
    []
    [(n_Location, POneMany n_PositionPoints)];
(* CIM14/CDPSM/GIS_Connectivity/IEC61968/WiresExt/DistributionLineSegment.py:23-107 *)
  Cls n_CIM14_CDPSM_GIS_Connectivity_IEC61968_WiresExt_DistributionLineSegment_DistributionLineSegment n_DistributionLineSegment (Some n_CIM14_CDPSM_GIS_Connectivity_IEC61970_Wires_ACLineSegment_ACLineSegment)
    [(n_ConductorInfo, VNone); (n_SequenceImpedance, VNone); (n_PhaseImpedance, VNone)]
    [SOne n_ConductorInfo; SOne n_SequenceImpedance; SOne n_PhaseImpedance]
    true true
    []
    []
    []
    [n_ConductorInfo; n_SequenceImpedance; n_PhaseImpedance]
    []
    [(n_ConductorInfo, POneMany n_ConductorSegments); (n_SequenceImpedance, POneMany n_ConductorSegments); (n_PhaseImpedance, POneMany n_ConductorSegments)];
(* CIM14/CDPSM/GIS_Connectivity/IEC61968/WiresExt/DistributionTapChanger.py:23-41 *)
  Cls n_CIM14_CDPSM_GIS_Connectivity_IEC61968_WiresExt_DistributionTapChanger_DistributionTapChanger n_DistributionTapChanger (Some n_CIM14_CDPSM_GIS_Connectivity_IEC61970_Wires_RatioTapChanger_RatioTapChanger)
    []
    []
    true true
    []
    []
    []
    []
    []
    [];
(* CIM14/CDPSM/GIS_Connectivity/IEC61968/WiresExt/DistributionTransformer.py:23-109 *)
  Cls n_CIM14_CDPSM_GIS_Connectivity_IEC61968_WiresExt_DistributionTransformer_DistributionTransformer n_DistributionTransformer (Some n_CIM14_CDPSM_GIS_Connectivity_IEC61970_Core_Equipment_Equipment)
    [(n_TransformerInfo, VNone); (n_Windings, VNone); (n_TransformerBank, VNone)]
    [SOne n_TransformerInfo; SMany n_Windings; SOne n_TransformerBank]
    true true
    []
    []
    []
    [n_TransformerInfo; n_Windings; n_TransformerBank]
    [n_Windings]
    [(n_TransformerInfo, POneMany n_Transformers); (n_Windings, PManyOne n_Transformer); (n_TransformerBank, POneMany n_Transformers)];
(* CIM14/CDPSM/GIS_Connectivity/IEC61968/WiresExt/DistributionTransformerWinding.py:23-105 *)
  Cls n_CIM14_CDPSM_GIS_Connectivity_IEC61968_WiresExt_DistributionTransformerWinding_DistributionTransformerWinding n_DistributionTransformerWinding (Some n_CIM14_CDPSM_GIS_Connectivity_IEC61970_Core_ConductingEquipment_ConductingEquipment)
    [(n_WindingInfo, VNone); (n_Transformer, VNone); (n_RatioTapChanger, VNone)]
    [SOne n_WindingInfo; SOne n_Transformer; SOne n_RatioTapChanger]
    true true
    []
    []
    []
    [n_WindingInfo; n_Transformer; n_RatioTapChanger]
    []
    [(n_WindingInfo, POneMany n_Windings); (n_Transformer, POneMany n_Windings); (n_RatioTapChanger, POneOne n_Winding)];
(* CIM14/CDPSM/GIS_Connectivity/IEC61968/WiresExt/PerLengthPhaseImpedance.py:23-94 *)
  Cls n_CIM14_CDPSM_GIS_Connectivity_IEC61968_WiresExt_PerLengthPhaseImpedance_PerLengthPhaseImpedance n_PerLengthPhaseImpedance (Some n_CIM14_CDPSM_GIS_Connectivity_IEC61970_Core_IdentifiedObject_IdentifiedObject)
    [(n_conductorCount, VInt 0); (n_PhaseImpedanceData, VNone); (n_ConductorSegments, VNone)]
    [SAttr n_conductorCount; SMany n_PhaseImpedanceData; SMany n_ConductorSegments]
    true true
    [n_conductorCount]
    [(n_conductorCount, VInt 0)]
    []
    [n_PhaseImpedanceData; n_ConductorSegments]
    [n_PhaseImpedanceData; n_ConductorSegments]
    [(n_PhaseImpedanceData, PManyOne n_PhaseImpedance); (n_ConductorSegments, PManyOne n_PhaseImpedance)];
(* CIM14/CDPSM/GIS_Connectivity/IEC61968/WiresExt/PerLengthSequenceImpedance.py:23-88 *)
  Cls n_CIM14_CDPSM_GIS_Connectivity_IEC61968_WiresExt_PerLengthSequenceImpedance_PerLengthSequenceImpedance n_PerLengthSequenceImpedance (Some n_CIM14_CDPSM_GIS_Connectivity_IEC61970_Core_IdentifiedObject_IdentifiedObject)
    [(n_x, VFloat n_0_0); (n_r0, VFloat n_0_0); (n_x0, VFloat n_0_0); (n_b0ch, VFloat n_0_0); (n_r, VFloat n_0_0); (n_bch, VFloat n_0_0); (n_ConductorSegments, VNone)]
    [SAttr n_x; SAttr n_r0; SAttr n_x0; SAttr n_b0ch; SAttr n_r; SAttr n_bch; SMany n_ConductorSegments]
    true true
    [n_x; n_r0; n_x0; n_b0ch; n_r; n_bch]
    [(n_x, VFloat n_0_0); (n_r0, VFloat n_0_0); (n_x0, VFloat n_0_0); (n_b0ch, VFloat n_0_0); (n_r, VFloat n_0_0); (n_bch, VFloat n_0_0)]
    []
    [n_ConductorSegments]
    [n_ConductorSegments]
    [(n_ConductorSegments, PManyOne n_SequenceImpedance)];
(* CIM14/CDPSM/GIS_Connectivity/IEC61968/WiresExt/PhaseImpedanceData.py:23-75 *)
  Cls n_CIM14_CDPSM_GIS_Connectivity_IEC61968_WiresExt_PhaseImpedanceData_PhaseImpedanceData n_PhaseImpedanceData (Some n_CIM14_CDPSM_GIS_Connectivity_Element_Element)
    [(n_x, VFloat n_0_0); (n_sequenceNumber, VInt 0); (n_b, VFloat n_0_0); (n_r, VFloat n_0_0); (n_PhaseImpedance, VNone)]
    [SAttr n_x; SAttr n_sequenceNumber; SAttr n_b; SAttr n_r; SOne n_PhaseImpedance]
    true true
    [n_x; n_sequenceNumber; n_b; n_r]
    [(n_x, VFloat n_0_0); (n_sequenceNumber, VInt 0); (n_b, VFloat n_0_0); (n_r, VFloat n_0_0)]
    []
    [n_PhaseImpedance]
    []
    [(n_PhaseImpedance, POneMany n_PhaseImpedanceData)];
(* CIM14/CDPSM/GIS_Connectivity/IEC61968/WiresExt/TransformerBank.py:23-64 *)
  Cls n_CIM14_CDPSM_GIS_Connectivity_IEC61968_WiresExt_TransformerBank_TransformerBank n_TransformerBank (Some n_CIM14_CDPSM_GIS_Connectivity_IEC61970_Core_Equipment_Equipment)
    [(n_Transformers, VNone)]
    [SMany n_Transformers]
    true true
    []
    []
    []
    [n_Transformers]
    [n_Transformers]
    [(n_Transformers, PManyOne n_TransformerBank)];
(* CIM14/CDPSM/GIS_Connectivity/IEC61968/WiresExt/WindingPiImpedance.py:23-70 *)
  Cls n_CIM14_CDPSM_GIS_Connectivity_IEC61968_WiresExt_WindingPiImpedance_WindingPiImpedance n_WindingPiImpedance (Some n_CIM14_CDPSM_GIS_Connectivity_IEC61970_Core_IdentifiedObject_IdentifiedObject)
    [(n_x, VFloat n_0_0); (n_g, VFloat n_0_0); (n_r0, VFloat n_0_0); (n_r, VFloat n_0_0); (n_b, VFloat n_0_0); (n_g0, VFloat n_0_0); (n_x0, VFloat n_0_0); (n_b0, VFloat n_0_0)]
    [SAttr n_x; SAttr n_g; SAttr n_r0; SAttr n_r; SAttr n_b; SAttr n_g0; SAttr n_x0; SAttr n_b0]
    true true
    [n_x; n_g; n_r0; n_r; n_b; n_g0; n_x0; n_b0]
    [(n_x, VFloat n_0_0); (n_g, VFloat n_0_0); (n_r0, VFloat n_0_0); (n_r, VFloat n_0_0); (n_b, VFloat n_0_0); (n_g0, VFloat n_0_0); (n_x0, VFloat n_0_0); (n_b0, VFloat n_0_0)]
    []
    []
    []
    [];
(* CIM14/CDPSM/GIS_Connectivity/IEC61970/Core/BaseVoltage.py:23-94 *)
  Cls n_CIM14_CDPSM_GIS_Connectivity_IEC61970_Core_BaseVoltage_BaseVoltage n_BaseVoltage (Some n_CIM14_CDPSM_GIS_Connectivity_IEC61970_Core_IdentifiedObject_IdentifiedObject)
    [(n_nominalVoltage, VFloat n_0_0); (n_ConductingEquipment, VNone); (n_VoltageLevel, VNone)]
    [SAttr n_nominalVoltage; SMany n_ConductingEquipment; SMany n_VoltageLevel]
    true true
    [n_nominalVoltage]
    [(n_nominalVoltage, VFloat n_0_0)]
    []
    [n_ConductingEquipment; n_VoltageLevel]
    [n_ConductingEquipment; n_VoltageLevel]
    [(n_ConductingEquipment, PManyOne n_BaseVoltage); (n_VoltageLevel, PManyOne n_BaseVoltage)];
(* CIM14/CDPSM/GIS_Connectivity/IEC61970/Core/Bay.py:23-59 *)
  Cls n_CIM14_CDPSM_GIS_Connectivity_IEC61970_Core_Bay_Bay n_Bay (Some n_CIM14_CDPSM_GIS_Connectivity_IEC61970_Core_EquipmentContainer_EquipmentContainer)
    [(n_VoltageLevel, VNone)]
    [SOne n_VoltageLevel]
    true true
    []
    []
    []
    [n_VoltageLevel]
    []
    [(n_VoltageLevel, POneMany n_Bays)];
(* CIM14/CDPSM/GIS_Connectivity/IEC61970/Core/ConductingEquipment.py:23-89 *)
  Cls n_CIM14_CDPSM_GIS_Connectivity_IEC61970_Core_ConductingEquipment_ConductingEquipment n_ConductingEquipment (Some n_CIM14_CDPSM_GIS_Connectivity_IEC61970_Core_Equipment_Equipment)
    [(n_phases, VStr n_ABC); (n_Terminals, VNone); (n_BaseVoltage, VNone)]
    [SAttr n_phases; SMany n_Terminals; SOne n_BaseVoltage]
    true true
    [n_phases]
    [(n_phases, VStr n_ABC)]
    [(n_phases, n_PhaseCode)]
    [n_Terminals; n_BaseVoltage]
    [n_Terminals]
    [(n_Terminals, PManyOne n_ConductingEquipment); (n_BaseVoltage, POneMany n_ConductingEquipment)];
(* CIM14/CDPSM/GIS_Connectivity/IEC61970/Core/ConnectivityNodeContainer.py:23-64 *)
  Cls n_CIM14_CDPSM_GIS_Connectivity_IEC61970_Core_ConnectivityNodeContainer_ConnectivityNodeContainer n_ConnectivityNodeContainer (Some n_CIM14_CDPSM_GIS_Connectivity_IEC61970_Core_PowerSystemResource_PowerSystemResource)
    [(n_ConnectivityNodes, VNone)]
    [SMany n_ConnectivityNodes]
    true true
    []
    []
    []
    [n_ConnectivityNodes]
    [n_ConnectivityNodes]
    [(n_ConnectivityNodes, PManyOne n_ConnectivityNodeContainer)];
(* CIM14/CDPSM/GIS_Connectivity/IEC61970/Core/Equipment.py:23-63 *)
  Cls n_CIM14_CDPSM_GIS_Connectivity_IEC61970_Core_Equipment_Equipment n_Equipment (Some n_CIM14_CDPSM_GIS_Connectivity_IEC61970_Core_PowerSystemResource_PowerSystemResource)
    [(n_normaIlyInService, VBool false); (n_EquipmentContainer, VNone)]
    [SAttr n_normaIlyInService; SOne n_EquipmentContainer]
    true true
    [n_normaIlyInService]
    [(n_normaIlyInService, VBool false)]
    []
    [n_EquipmentContainer]
    []
    [(n_EquipmentContainer, POneMany n_Equipments)];
(* CIM14/CDPSM/GIS_Connectivity/IEC61970/Core/EquipmentContainer.py:23-64 *)
  Cls n_CIM14_CDPSM_GIS_Connectivity_IEC61970_Core_EquipmentContainer_EquipmentContainer n_EquipmentContainer (Some n_CIM14_CDPSM_GIS_Connectivity_IEC61970_Core_ConnectivityNodeContainer_ConnectivityNodeContainer)
    [(n_Equipments, VNone)]
    [SMany n_Equipments]
    true true
    []
    []
    []
    [n_Equipments]
    [n_Equipments]
    [(n_Equipments, PManyOne n_EquipmentContainer)];
(* CIM14/CDPSM/GIS_Connectivity/IEC61970/Core/GeographicalRegion.py:23-64 *)
  Cls n_CIM14_CDPSM_GIS_Connectivity_IEC61970_Core_GeographicalRegion_GeographicalRegion n_GeographicalRegion (Some n_CIM14_CDPSM_GIS_Connectivity_IEC61970_Core_IdentifiedObject_IdentifiedObject)
    [(n_Regions, VNone)]
    [SMany n_Regions]
    true true
    []
    []
    []
    [n_Regions]
    [n_Regions]
    [(n_Regions, PManyOne n_Region)];
(* CIM14/CDPSM/GIS_Connectivity/IEC61970/Core/IdentifiedObject.py:23-58 *)
  Cls n_CIM14_CDPSM_GIS_Connectivity_IEC61970_Core_IdentifiedObject_IdentifiedObject n_IdentifiedObject (Some n_CIM14_CDPSM_GIS_Connectivity_Element_Element)
    [(n_mRID, VStr n_); (n_description, VStr n_); (n_name, VStr n_); (n_localName, VStr n_); (n_aliasName, VStr n_)]
    [SAttr n_mRID; SAttr n_description; SAttr n_name; SAttr n_localName; SAttr n_aliasName]
    true true
    [n_mRID; n_description; n_name; n_localName; n_aliasName]
    [(n_mRID, VStr n_); (n_description, VStr n_); (n_name, VStr n_); (n_localName, VStr n_); (n_aliasName, VStr n_)]
    []
    []
    []
    [];
(* CIM14/CDPSM/GIS_Connectivity/IEC61970/Core/PSRType.py:23-64 *)
  Cls n_CIM14_CDPSM_GIS_Connectivity_IEC61970_Core_PSRType_PSRType n_PSRType (Some n_CIM14_CDPSM_GIS_Connectivity_IEC61970_Core_IdentifiedObject_IdentifiedObject)
    [(n_PowerSystemResources, VNone)]
    [SMany n_PowerSystemResources]
    true true
    []
    []
    []
    [n_PowerSystemResources]
    [n_PowerSystemResources]
    [(n_PowerSystemResources, PManyOne n_PSRType)];
(* CIM14/CDPSM/GIS_Connectivity/IEC61970/Core/PowerSystemResource.py:23-81 *)
  Cls n_CIM14_CDPSM_GIS_Connectivity_IEC61970_Core_PowerSystemResource_PowerSystemResource n_PowerSystemResource (Some n_CIM14_CDPSM_GIS_Connectivity_IEC61970_Core_IdentifiedObject_IdentifiedObject)
    [(n_GeoLocation, VNone); (n_PSRType, VNone)]
    [SOne n_GeoLocation; SOne n_PSRType]
    true true
    []
    []
    []
    [n_GeoLocation; n_PSRType]
    []
    [(n_GeoLocation, POneMany n_PowerSystemResources); (n_PSRType, POneMany n_PowerSystemResources)];
(* CIM14/CDPSM/GIS_Connectivity/IEC61970/Core/SubGeographicalRegion.py:23-111 *)
  Cls n_CIM14_CDPSM_GIS_Connectivity_IEC61970_Core_SubGeographicalRegion_SubGeographicalRegion n_SubGeographicalRegion (Some n_CIM14_CDPSM_GIS_Connectivity_IEC61970_Core_IdentifiedObject_IdentifiedObject)
    [(n_Region, VNone); (n_Lines, VNone); (n_Substations, VNone)]
    [SOne n_Region; SMany n_Lines; SMany n_Substations]
    true true
    []
    []
    []
    [n_Region; n_Lines; n_Substations]
    [n_Lines; n_Substations]
    [(n_Region, POneMany n_Regions); (n_Lines, PManyOne n_Region); (n_Substations, PManyOne n_Region)];
(* CIM14/CDPSM/GIS_Connectivity/IEC61970/Core/Substation.py:23-85 *)
  Cls n_CIM14_CDPSM_GIS_Connectivity_IEC61970_Core_Substation_Substation n_Substation (Some n_CIM14_CDPSM_GIS_Connectivity_IEC61970_Core_EquipmentContainer_EquipmentContainer)
    [(n_Region, VNone); (n_VoltageLevels, VNone)]
    [SOne n_Region; SMany n_VoltageLevels]
    true true
    []
    []
    []
    [n_Region; n_VoltageLevels]
    [n_VoltageLevels]
    [(n_Region, POneMany n_Substations); (n_VoltageLevels, PManyOne n_Substation)];
(* CIM14/CDPSM/GIS_Connectivity/IEC61970/Core/Terminal.py:23-88 *)
  Cls n_CIM14_CDPSM_GIS_Connectivity_IEC61970_Core_Terminal_Terminal n_Terminal (Some n_CIM14_CDPSM_GIS_Connectivity_IEC61970_Core_IdentifiedObject_IdentifiedObject)
    [(n_sequenceNumber, VInt 0); (n_connected, VBool false); (n_ConductingEquipment, VNone); (n_ConnectivityNode, VNone)]
    [SAttr n_sequenceNumber; SAttr n_connected; SOne n_ConductingEquipment; SOne n_ConnectivityNode]
    true true
    [n_sequenceNumber; n_connected]
    [(n_sequenceNumber, VInt 0); (n_connected, VBool false)]
    []
    [n_ConductingEquipment; n_ConnectivityNode]
    []
    [(n_ConductingEquipment, POneMany n_Terminals); (n_ConnectivityNode, POneMany n_Terminals)];
(* CIM14/CDPSM/GIS_Connectivity/IEC61970/Core/VoltageLevel.py:23-114 *)
  Cls n_CIM14_CDPSM_GIS_Connectivity_IEC61970_Core_VoltageLevel_VoltageLevel n_VoltageLevel (Some n_CIM14_CDPSM_GIS_Connectivity_IEC61970_Core_EquipmentContainer_EquipmentContainer)
    [(n_lowVoltageLimit, VFloat n_0_0); (n_highVoltageLimit, VFloat n_0_0); (n_BaseVoltage, VNone); (n_Bays, VNone); (n_Substation, VNone)]
    [SAttr n_lowVoltageLimit; SAttr n_highVoltageLimit; SOne n_BaseVoltage; SMany n_Bays; SOne n_Substation]
    true true
    [n_lowVoltageLimit; n_highVoltageLimit]
    [(n_lowVoltageLimit, VFloat n_0_0); (n_highVoltageLimit, VFloat n_0_0)]
    []
    [n_BaseVoltage; n_Bays; n_Substation]
    [n_Bays]
    [(n_BaseVoltage, POneMany n_VoltageLevel); (n_Bays, PManyOne n_VoltageLevel); (n_Substation, POneMany n_VoltageLevels)];
(* CIM14/CDPSM/GIS_Connectivity/IEC61970/Generation/Production/GeneratingUnit.py:23-76 *)
  Cls n_CIM14_CDPSM_GIS_Connectivity_IEC61970_Generation_Production_GeneratingUnit_GeneratingUnit n_GeneratingUnit (Some n_CIM14_CDPSM_GIS_Connectivity_IEC61970_Core_Equipment_Equipment)
    [(n_ratedNetMaxP, VFloat n_0_0); (n_genControlSource, VStr n_onAGC); (n_initialP, VFloat n_0_0); (n_SynchronousMachines, VNone)]
    [SAttr n_ratedNetMaxP; SAttr n_genControlSource; SAttr n_initialP; SMany n_SynchronousMachines]
    true true
    [n_ratedNetMaxP; n_genControlSource; n_initialP]
    [(n_ratedNetMaxP, VFloat n_0_0); (n_genControlSource, VStr n_onAGC); (n_initialP, VFloat n_0_0)]
    [(n_genControlSource, n_GeneratorControlSource)]
    [n_SynchronousMachines]
    [n_SynchronousMachines]
    [(n_SynchronousMachines, PManyOne n_GeneratingUnit)];
(* CIM14/CDPSM/GIS_Connectivity/IEC61970/IEC61970CIMVersion.py:23-46 *)
  Cls n_CIM14_CDPSM_GIS_Connectivity_IEC61970_IEC61970CIMVersion_IEC61970CIMVersion n_IEC61970CIMVersion (Some n_CIM14_CDPSM_GIS_Connectivity_Element_Element)
    [(n_date, VStr n_); (n_version, VStr n_)]
    [SAttr n_date; SAttr n_version]
    true true
    [n_date; n_version]
    [(n_date, VStr n_); (n_version, VStr n_)]
    []
    []
    []
    [];
(* CIM14/CDPSM/GIS_Connectivity/IEC61970/LoadModel/LoadResponseCharacteristic.py:23-90 *)
  Cls n_CIM14_CDPSM_GIS_Connectivity_IEC61970_LoadModel_LoadResponseCharacteristic_LoadResponseCharacteristic n_LoadResponseCharacteristic (Some n_CIM14_CDPSM_GIS_Connectivity_IEC61970_Core_IdentifiedObject_IdentifiedObject)
    [(n_pVoltageExponent, VFloat n_0_0); (n_qConstantCurrent, VFloat n_0_0); (n_pFrequencyExponent, VFloat n_0_0); (n_exponentModel, VBool false); (n_qConstantImpedance, VFloat n_0_0); (n_pConstantCurrent, VFloat n_0_0); (n_qFrequencyExponent, VFloat n_0_0); (n_pConstantPower, VFloat n_0_0); (n_qVoltageExponent, VFloat n_0_0); (n_qConstantPower, VFloat n_0_0); (n_pConstantImpedance, VFloat n_0_0)]
    [SAttr n_pVoltageExponent; SAttr n_qConstantCurrent; SAttr n_pFrequencyExponent; SAttr n_exponentModel; SAttr n_qConstantImpedance; SAttr n_pConstantCurrent; SAttr n_qFrequencyExponent; SAttr n_pConstantPower; SAttr n_qVoltageExponent; SAttr n_qConstantPower; SAttr n_pConstantImpedance]
    true true
    [n_pVoltageExponent; n_qConstantCurrent; n_pFrequencyExponent; n_exponentModel; n_qConstantImpedance; n_pConstantCurrent; n_qFrequencyExponent; n_pConstantPower; n_qVoltageExponent; n_qConstantPower; n_pConstantImpedance]
    [(n_pVoltageExponent, VFloat n_0_0); (n_qConstantCurrent, VFloat n_0_0); (n_pFrequencyExponent, VFloat n_0_0); (n_exponentModel, VBool false); (n_qConstantImpedance, VFloat n_0_0); (n_pConstantCurrent, VFloat n_0_0); (n_qFrequencyExponent, VFloat n_0_0); (n_pConstantPower, VFloat n_0_0); (n_qVoltageExponent, VFloat n_0_0); (n_qConstantPower, VFloat n_0_0); (n_pConstantImpedance, VFloat n_0_0)]
    []
    []
    []
    [];
(* CIM14/CDPSM/GIS_Connectivity/IEC61970/StateVariables/SvTapStep.py:23-66 *)
  Cls n_CIM14_CDPSM_GIS_Connectivity_IEC61970_StateVariables_SvTapStep_SvTapStep n_SvTapStep (Some n_CIM14_CDPSM_GIS_Connectivity_Element_Element)
    [(n_continuousPosition, VFloat n_0_0); (n_position, VInt 0); (n_TapChanger, VNone)]
    [SAttr n_continuousPosition; SAttr n_position; SOne n_TapChanger]
    true true
    [n_continuousPosition; n_position]
    [(n_continuousPosition, VFloat n_0_0); (n_position, VInt 0)]
    []
    [n_TapChanger]
    []
    [(n_TapChanger, POneOne n_SvTapStep)];
(* CIM14/CDPSM/GIS_Connectivity/IEC61970/Topology/ConnectivityNode.py:23-85 *)
  Cls n_CIM14_CDPSM_GIS_Connectivity_IEC61970_Topology_ConnectivityNode_ConnectivityNode n_ConnectivityNode (Some n_CIM14_CDPSM_GIS_Connectivity_IEC61970_Core_IdentifiedObject_IdentifiedObject)
    [(n_Terminals, VNone); (n_ConnectivityNodeContainer, VNone)]
    [SMany n_Terminals; SOne n_ConnectivityNodeContainer]
    true true
    []
    []
    []
    [n_Terminals; n_ConnectivityNodeContainer]
    [n_Terminals]
    [(n_Terminals, PManyOne n_ConnectivityNode); (n_ConnectivityNodeContainer, POneMany n_ConnectivityNodes)];
(* CIM14/CDPSM/GIS_Connectivity/IEC61970/Wires/ACLineSegment.py:23-62 *)
  Cls n_CIM14_CDPSM_GIS_Connectivity_IEC61970_Wires_ACLineSegment_ACLineSegment n_ACLineSegment (Some n_CIM14_CDPSM_GIS_Connectivity_IEC61970_Wires_Conductor_Conductor)
    [(n_r, VFloat n_0_0); (n_x0, VFloat n_0_0); (n_bch, VFloat n_0_0); (n_x, VFloat n_0_0); (n_b0ch, VFloat n_0_0); (n_r0, VFloat n_0_0)]
    [SAttr n_r; SAttr n_x0; SAttr n_bch; SAttr n_x; SAttr n_b0ch; SAttr n_r0]
    true true
    [n_r; n_x0; n_bch; n_x; n_b0ch; n_r0]
    [(n_r, VFloat n_0_0); (n_x0, VFloat n_0_0); (n_bch, VFloat n_0_0); (n_x, VFloat n_0_0); (n_b0ch, VFloat n_0_0); (n_r0, VFloat n_0_0)]
    []
    []
    []
    [];
(* CIM14/CDPSM/GIS_Connectivity/IEC61970/Wires/Breaker.py:23-42 *)
  Cls n_CIM14_CDPSM_GIS_Connectivity_IEC61970_Wires_Breaker_Breaker n_Breaker (Some n_CIM14_CDPSM_GIS_Connectivity_IEC61970_Wires_Switch_Switch)
    [(n_ratedCurrent, VFloat n_0_0)]
    [SAttr n_ratedCurrent]
    true true
    [n_ratedCurrent]
    [(n_ratedCurrent, VFloat n_0_0)]
    []
    []
    []
    [];
(* CIM14/CDPSM/GIS_Connectivity/IEC61970/Wires/BusbarSection.py:23-39 *)
  Cls n_CIM14_CDPSM_GIS_Connectivity_IEC61970_Wires_BusbarSection_BusbarSection n_BusbarSection (Some n_CIM14_CDPSM_GIS_Connectivity_IEC61970_Core_ConductingEquipment_ConductingEquipment)
    []
    []
    true true
    []
    []
    []
    []
    []
    [];
(* CIM14/CDPSM/GIS_Connectivity/IEC61970/Wires/Conductor.py:23-42 *)
  Cls n_CIM14_CDPSM_GIS_Connectivity_IEC61970_Wires_Conductor_Conductor n_Conductor (Some n_CIM14_CDPSM_GIS_Connectivity_IEC61970_Core_ConductingEquipment_ConductingEquipment)
    [(n_length, VFloat n_0_0)]
    [SAttr n_length]
    true true
    [n_length]
    [(n_length, VFloat n_0_0)]
    []
    []
    []
    [];
(* CIM14/CDPSM/GIS_Connectivity/IEC61970/Wires/Disconnector.py:23-38 *)
  Cls n_CIM14_CDPSM_GIS_Connectivity_IEC61970_Wires_Disconnector_Disconnector n_Disconnector (Some n_CIM14_CDPSM_GIS_Connectivity_IEC61970_Wires_Switch_Switch)
    []
    []
    true true
    []
    []
    []
    []
    []
    [];
(* CIM14/CDPSM/GIS_Connectivity/IEC61970/Wires/EnergyConsumer.py:23-50 *)
  Cls n_CIM14_CDPSM_GIS_Connectivity_IEC61970_Wires_EnergyConsumer_EnergyConsumer n_EnergyConsumer (Some n_CIM14_CDPSM_GIS_Connectivity_IEC61970_Core_ConductingEquipment_ConductingEquipment)
    [(n_pfixed, VFloat n_0_0); (n_qfixed, VFloat n_0_0); (n_customerCount, VInt 0)]
    [SAttr n_pfixed; SAttr n_qfixed; SAttr n_customerCount]
    true true
    [n_pfixed; n_qfixed; n_customerCount]
    [(n_pfixed, VFloat n_0_0); (n_qfixed, VFloat n_0_0); (n_customerCount, VInt 0)]
    []
    []
    []
    [];
(* CIM14/CDPSM/GIS_Connectivity/IEC61970/Wires/EnergySource.py:23-54 *)
  Cls n_CIM14_CDPSM_GIS_Connectivity_IEC61970_Wires_EnergySource_EnergySource n_EnergySource (Some n_CIM14_CDPSM_GIS_Connectivity_IEC61970_Core_ConductingEquipment_ConductingEquipment)
    [(n_x, VFloat n_0_0); (n_voltageMagnitude, VFloat n_0_0); (n_voltageAngle, VFloat n_0_0); (n_nominalVoltage, VFloat n_0_0)]
    [SAttr n_x; SAttr n_voltageMagnitude; SAttr n_voltageAngle; SAttr n_nominalVoltage]
    true true
    [n_x; n_voltageMagnitude; n_voltageAngle; n_nominalVoltage]
    [(n_x, VFloat n_0_0); (n_voltageMagnitude, VFloat n_0_0); (n_voltageAngle, VFloat n_0_0); (n_nominalVoltage, VFloat n_0_0)]
    []
    []
    []
    [];
(* CIM14/CDPSM/GIS_Connectivity/IEC61970/Wires/Fuse.py:23-42 *)
  Cls n_CIM14_CDPSM_GIS_Connectivity_IEC61970_Wires_Fuse_Fuse n_Fuse (Some n_CIM14_CDPSM_GIS_Connectivity_IEC61970_Wires_Switch_Switch)
    [(n_ratingCurrent, VFloat n_0_0)]
    [SAttr n_ratingCurrent]
    true true
    [n_ratingCurrent]
    [(n_ratingCurrent, VFloat n_0_0)]
    []
    []
    []
    [];
(* CIM14/CDPSM/GIS_Connectivity/IEC61970/Wires/Junction.py:23-38 *)
  Cls n_CIM14_CDPSM_GIS_Connectivity_IEC61970_Wires_Junction_Junction n_Junction (Some n_CIM14_CDPSM_GIS_Connectivity_IEC61970_Core_ConductingEquipment_ConductingEquipment)
    []
    []
    true true
    []
    []
    []
    []
    []
    [];
(* CIM14/CDPSM/GIS_Connectivity/IEC61970/Wires/Line.py:23-59 *)
  Cls n_CIM14_CDPSM_GIS_Connectivity_IEC61970_Wires_Line_Line n_Line (Some n_CIM14_CDPSM_GIS_Connectivity_IEC61970_Core_EquipmentContainer_EquipmentContainer)
    [(n_Region, VNone)]
    [SOne n_Region]
    true true
    []
    []
    []
    [n_Region]
    []
    [(n_Region, POneMany n_Lines)];
(* CIM14/CDPSM/GIS_Connectivity/IEC61970/Wires/LoadBreakSwitch.py:23-42 *)
  Cls n_CIM14_CDPSM_GIS_Connectivity_IEC61970_Wires_LoadBreakSwitch_LoadBreakSwitch n_LoadBreakSwitch (Some n_CIM14_CDPSM_GIS_Connectivity_IEC61970_Wires_Switch_Switch)
    [(n_ratedCurrent, VFloat n_0_0)]
    [SAttr n_ratedCurrent]
    true true
    [n_ratedCurrent]
    [(n_ratedCurrent, VFloat n_0_0)]
    []
    []
    []
    [];
(* CIM14/CDPSM/GIS_Connectivity/IEC61970/Wires/RatioTapChanger.py:23-62 *)
  Cls n_CIM14_CDPSM_GIS_Connectivity_IEC61970_Wires_RatioTapChanger_RatioTapChanger n_RatioTapChanger (Some n_CIM14_CDPSM_GIS_Connectivity_IEC61970_Wires_TapChanger_TapChanger)
    [(n_tculControlMode, VStr n_reactive); (n_Winding, VNone)]
    [SAttr n_tculControlMode; SOne n_Winding]
    true true
    [n_tculControlMode]
    [(n_tculControlMode, VStr n_reactive)]
    [(n_tculControlMode, n_TransformerControlMode)]
    [n_Winding]
    []
    [(n_Winding, POneOne n_RatioTapChanger)];
(* CIM14/CDPSM/GIS_Connectivity/IEC61970/Wires/ShuntCompensator.py:23-46 *)
  Cls n_CIM14_CDPSM_GIS_Connectivity_IEC61970_Wires_ShuntCompensator_ShuntCompensator n_ShuntCompensator (Some n_CIM14_CDPSM_GIS_Connectivity_IEC61970_Core_ConductingEquipment_ConductingEquipment)
    [(n_nomQ, VFloat n_0_0); (n_nomU, VFloat n_0_0)]
    [SAttr n_nomQ; SAttr n_nomU]
    true true
    [n_nomQ; n_nomU]
    [(n_nomQ, VFloat n_0_0); (n_nomU, VFloat n_0_0)]
    []
    []
    []
    [];
(* CIM14/CDPSM/GIS_Connectivity/IEC61970/Wires/Switch.py:23-42 *)
  Cls n_CIM14_CDPSM_GIS_Connectivity_IEC61970_Wires_Switch_Switch n_Switch (Some n_CIM14_CDPSM_GIS_Connectivity_IEC61970_Core_ConductingEquipment_ConductingEquipment)
    [(n_normalOpen, VBool false)]
    [SAttr n_normalOpen]
    true true
    [n_normalOpen]
    [(n_normalOpen, VBool false)]
    []
    []
    []
    [];
(* CIM14/CDPSM/GIS_Connectivity/IEC61970/Wires/SynchronousMachine.py:23-79 *)
  Cls n_CIM14_CDPSM_GIS_Connectivity_IEC61970_Wires_SynchronousMachine_SynchronousMachine n_SynchronousMachine (Some n_CIM14_CDPSM_GIS_Connectivity_IEC61970_Core_ConductingEquipment_ConductingEquipment)
    [(n_baseQ, VFloat n_0_0); (n_operatingMode, VStr n_condenser); (n_type, VStr n_condenser); (n_maxQ, VFloat n_0_0); (n_minQ, VFloat n_0_0); (n_GeneratingUnit, VNone)]
    [SAttr n_baseQ; SAttr n_operatingMode; SAttr n_type; SAttr n_maxQ; SAttr n_minQ; SOne n_GeneratingUnit]
    true true
    [n_baseQ; n_operatingMode; n_type; n_maxQ; n_minQ]
    [(n_baseQ, VFloat n_0_0); (n_operatingMode, VStr n_condenser); (n_type, VStr n_condenser); (n_maxQ, VFloat n_0_0); (n_minQ, VFloat n_0_0)]
    [(n_operatingMode, n_SynchronousMachineOperatingMode); (n_type, n_SynchronousMachineType)]
    [n_GeneratingUnit]
    []
    [(n_GeneratingUnit, POneMany n_SynchronousMachines)];
(* CIM14/CDPSM/GIS_Connectivity/IEC61970/Wires/TapChanger.py:23-98 *)
  Cls n_CIM14_CDPSM_GIS_Connectivity_IEC61970_Wires_TapChanger_TapChanger n_TapChanger (Some n_CIM14_CDPSM_GIS_Connectivity_IEC61970_Core_PowerSystemResource_PowerSystemResource)
    [(n_stepVoltageIncrement, VFloat n_0_0); (n_subsequentDelay, VFloat n_0_0); (n_neutralStep, VInt 0); (n_normalStep, VInt 0); (n_ltcFlag, VBool false); (n_neutralU, VFloat n_0_0); (n_lowStep, VInt 0); (n_initialDelay, VFloat n_0_0); (n_regulationStatus, VBool false); (n_highStep, VInt 0); (n_SvTapStep, VNone)]
    [SAttr n_stepVoltageIncrement; SAttr n_subsequentDelay; SAttr n_neutralStep; SAttr n_normalStep; SAttr n_ltcFlag; SAttr n_neutralU; SAttr n_lowStep; SAttr n_initialDelay; SAttr n_regulationStatus; SAttr n_highStep; SOne n_SvTapStep]
    true true
    [n_stepVoltageIncrement; n_subsequentDelay; n_neutralStep; n_normalStep; n_ltcFlag; n_neutralU; n_lowStep; n_initialDelay; n_regulationStatus; n_highStep]
    [(n_stepVoltageIncrement, VFloat n_0_0); (n_subsequentDelay, VFloat n_0_0); (n_neutralStep, VInt 0); (n_normalStep, VInt 0); (n_ltcFlag, VBool false); (n_neutralU, VFloat n_0_0); (n_lowStep, VInt 0); (n_initialDelay, VFloat n_0_0); (n_regulationStatus, VBool false); (n_highStep, VInt 0)]
    []
    [n_SvTapStep]
    []
    [(n_SvTapStep, POneOne n_TapChanger)]
].

(** packageMap, CIM14/CDPSM/GIS_Connectivity/__init__.py:29-91: tag to the class that the package exports under that name. *)
Definition cim14_cdpsm_gis_connectivity_map : list (name * name) := [
  (n_Element, n_CIM14_CDPSM_GIS_Connectivity_Element_Element);
  (n_DistributionTransformerWinding, n_CIM14_CDPSM_GIS_Connectivity_IEC61968_WiresExt_DistributionTransformerWinding_DistributionTransformerWinding);
  (n_DistributionLineSegment, n_CIM14_CDPSM_GIS_Connectivity_IEC61968_WiresExt_DistributionLineSegment_DistributionLineSegment);
  (n_WindingPiImpedance, n_CIM14_CDPSM_GIS_Connectivity_IEC61968_WiresExt_WindingPiImpedance_WindingPiImpedance);
  (n_DistributionTapChanger, n_CIM14_CDPSM_GIS_Connectivity_IEC61968_WiresExt_DistributionTapChanger_DistributionTapChanger);
  (n_PerLengthSequenceImpedance, n_CIM14_CDPSM_GIS_Connectivity_IEC61968_WiresExt_PerLengthSequenceImpedance_PerLengthSequenceImpedance);
  (n_TransformerBank, n_CIM14_CDPSM_GIS_Connectivity_IEC61968_WiresExt_TransformerBank_TransformerBank);
  (n_PerLengthPhaseImpedance, n_CIM14_CDPSM_GIS_Connectivity_IEC61968_WiresExt_PerLengthPhaseImpedance_PerLengthPhaseImpedance);
  (n_DistributionTransformer, n_CIM14_CDPSM_GIS_Connectivity_IEC61968_WiresExt_DistributionTransformer_DistributionTransformer);
  (n_PhaseImpedanceData, n_CIM14_CDPSM_GIS_Connectivity_IEC61968_WiresExt_PhaseImpedanceData_PhaseImpedanceData);
  (n_TransformerInfo, n_CIM14_CDPSM_GIS_Connectivity_IEC61968_AssetModels_TransformerInfo_TransformerInfo);
  (n_ToWindingSpec, n_CIM14_CDPSM_GIS_Connectivity_IEC61968_AssetModels_ToWindingSpec_ToWindingSpec);
  (n_WireArrangement, n_CIM14_CDPSM_GIS_Connectivity_IEC61968_AssetModels_WireArrangement_WireArrangement);
  (n_CableInfo, n_CIM14_CDPSM_GIS_Connectivity_IEC61968_AssetModels_CableInfo_CableInfo);
  (n_OpenCircuitTest, n_CIM14_CDPSM_GIS_Connectivity_IEC61968_AssetModels_OpenCircuitTest_OpenCircuitTest);
  (n_ConcentricNeutralCableInfo, n_CIM14_CDPSM_GIS_Connectivity_IEC61968_AssetModels_ConcentricNeutralCableInfo_ConcentricNeutralCableInfo);
  (n_ConductorInfo, n_CIM14_CDPSM_GIS_Connectivity_IEC61968_AssetModels_ConductorInfo_ConductorInfo);
  (n_DistributionWindingTest, n_CIM14_CDPSM_GIS_Connectivity_IEC61968_AssetModels_DistributionWindingTest_DistributionWindingTest);
  (n_WireType, n_CIM14_CDPSM_GIS_Connectivity_IEC61968_AssetModels_WireType_WireType);
  (n_WindingInfo, n_CIM14_CDPSM_GIS_Connectivity_IEC61968_AssetModels_WindingInfo_WindingInfo);
  (n_OverheadConductorInfo, n_CIM14_CDPSM_GIS_Connectivity_IEC61968_AssetModels_OverheadConductorInfo_OverheadConductorInfo);
  (n_TapeShieldCableInfo, n_CIM14_CDPSM_GIS_Connectivity_IEC61968_AssetModels_TapeShieldCableInfo_TapeShieldCableInfo);
  (n_ShortCircuitTest, n_CIM14_CDPSM_GIS_Connectivity_IEC61968_AssetModels_ShortCircuitTest_ShortCircuitTest);
  (n_GeoLocation, n_CIM14_CDPSM_GIS_Connectivity_IEC61968_Common_GeoLocation_GeoLocation);
  (n_Location, n_CIM14_CDPSM_GIS_Connectivity_IEC61968_Common_Location_Location);
  (n_PositionPoint, n_CIM14_CDPSM_GIS_Connectivity_IEC61968_Common_PositionPoint_PositionPoint);
  (n_IEC61970CIMVersion, n_CIM14_CDPSM_GIS_Connectivity_IEC61970_IEC61970CIMVersion_IEC61970CIMVersion);
  (n_BusbarSection, n_CIM14_CDPSM_GIS_Connectivity_IEC61970_Wires_BusbarSection_BusbarSection);
  (n_LoadBreakSwitch, n_CIM14_CDPSM_GIS_Connectivity_IEC61970_Wires_LoadBreakSwitch_LoadBreakSwitch);
  (n_TapChanger, n_CIM14_CDPSM_GIS_Connectivity_IEC61970_Wires_TapChanger_TapChanger);
  (n_Fuse, n_CIM14_CDPSM_GIS_Connectivity_IEC61970_Wires_Fuse_Fuse);
  (n_Junction, n_CIM14_CDPSM_GIS_Connectivity_IEC61970_Wires_Junction_Junction);
  (n_ACLineSegment, n_CIM14_CDPSM_GIS_Connectivity_IEC61970_Wires_ACLineSegment_ACLineSegment);
  (n_Disconnector, n_CIM14_CDPSM_GIS_Connectivity_IEC61970_Wires_Disconnector_Disconnector);
  (n_EnergySource, n_CIM14_CDPSM_GIS_Connectivity_IEC61970_Wires_EnergySource_EnergySource);
  (n_SynchronousMachine, n_CIM14_CDPSM_GIS_Connectivity_IEC61970_Wires_SynchronousMachine_SynchronousMachine);
  (n_RatioTapChanger, n_CIM14_CDPSM_GIS_Connectivity_IEC61970_Wires_RatioTapChanger_RatioTapChanger);
  (n_EnergyConsumer, n_CIM14_CDPSM_GIS_Connectivity_IEC61970_Wires_EnergyConsumer_EnergyConsumer);
  (n_Switch, n_CIM14_CDPSM_GIS_Connectivity_IEC61970_Wires_Switch_Switch);
  (n_Line, n_CIM14_CDPSM_GIS_Connectivity_IEC61970_Wires_Line_Line);
  (n_ShuntCompensator, n_CIM14_CDPSM_GIS_Connectivity_IEC61970_Wires_ShuntCompensator_ShuntCompensator);
  (n_Breaker, n_CIM14_CDPSM_GIS_Connectivity_IEC61970_Wires_Breaker_Breaker);
  (n_Conductor, n_CIM14_CDPSM_GIS_Connectivity_IEC61970_Wires_Conductor_Conductor);
  (n_ConnectivityNodeContainer, n_CIM14_CDPSM_GIS_Connectivity_IEC61970_Core_ConnectivityNodeContainer_ConnectivityNodeContainer);
  (n_VoltageLevel, n_CIM14_CDPSM_GIS_Connectivity_IEC61970_Core_VoltageLevel_VoltageLevel);
  (n_Bay, n_CIM14_CDPSM_GIS_Connectivity_IEC61970_Core_Bay_Bay);
  (n_Equipment, n_CIM14_CDPSM_GIS_Connectivity_IEC61970_Core_Equipment_Equipment);
  (n_BaseVoltage, n_CIM14_CDPSM_GIS_Connectivity_IEC61970_Core_BaseVoltage_BaseVoltage);
  (n_PSRType, n_CIM14_CDPSM_GIS_Connectivity_IEC61970_Core_PSRType_PSRType);
  (n_EquipmentContainer, n_CIM14_CDPSM_GIS_Connectivity_IEC61970_Core_EquipmentContainer_EquipmentContainer);
  (n_IdentifiedObject, n_CIM14_CDPSM_GIS_Connectivity_IEC61970_Core_IdentifiedObject_IdentifiedObject);
  (n_Substation, n_CIM14_CDPSM_GIS_Connectivity_IEC61970_Core_Substation_Substation);
  (n_ConductingEquipment, n_CIM14_CDPSM_GIS_Connectivity_IEC61970_Core_ConductingEquipment_ConductingEquipment);
  (n_SubGeographicalRegion, n_CIM14_CDPSM_GIS_Connectivity_IEC61970_Core_SubGeographicalRegion_SubGeographicalRegion);
  (n_Terminal, n_CIM14_CDPSM_GIS_Connectivity_IEC61970_Core_Terminal_Terminal);
  (n_GeographicalRegion, n_CIM14_CDPSM_GIS_Connectivity_IEC61970_Core_GeographicalRegion_GeographicalRegion);
  (n_PowerSystemResource, n_CIM14_CDPSM_GIS_Connectivity_IEC61970_Core_PowerSystemResource_PowerSystemResource);
  (n_GeneratingUnit, n_CIM14_CDPSM_GIS_Connectivity_IEC61970_Generation_Production_GeneratingUnit_GeneratingUnit);
  (n_LoadResponseCharacteristic, n_CIM14_CDPSM_GIS_Connectivity_IEC61970_LoadModel_LoadResponseCharacteristic_LoadResponseCharacteristic);
  (n_SvTapStep, n_CIM14_CDPSM_GIS_Connectivity_IEC61970_StateVariables_SvTapStep_SvTapStep);
  (n_ConnectivityNode, n_CIM14_CDPSM_GIS_Connectivity_IEC61970_Topology_ConnectivityNode_ConnectivityNode)
].

(** nsURI and nsPrefix, CIM14/CDPSM/GIS_Connectivity/__init__.py. *)
Definition cim14_cdpsm_gis_connectivity_uri : name := n_http___iec_ch_TC57_2009_CIM_schema_cim14_profile_http___iec_ch_TC57_2007_profile_CDPSM_GIS_Connectivity.
Definition cim14_cdpsm_gis_connectivity_prefix : name := n_conn.

(** Class table of CIM14.CDPSM.Unbalanced: 61 classes. *)
Definition cim14_cdpsm_unbalanced : schema := [
(* CIM14/CDPSM/Unbalanced/Element.py:22-38 *)
  Cls n_CIM14_CDPSM_Unbalanced_Element_Element n_Element None
    [(n_UUID, VStr n_)]
    [SAttr n_UUID]
    false true
    [n_UUID]
    [(n_UUID, VStr n_)]
    []
    []
    []
    [];
(* CIM14/CDPSM/Unbalanced/IEC61968/AssetModels/CableInfo.py:23-78 *)
  Cls n_CIM14_CDPSM_Unbalanced_IEC61968_AssetModels_CableInfo_CableInfo n_CableInfo (Some n_CIM14_CDPSM_Unbalanced_IEC61968_AssetModels_ConductorInfo_ConductorInfo)
    [(n_nominalTemperature, VFloat n_0_0); (n_diameterOverScreen, VFloat n_0_0); (n_sheathAsNeutral, VBool false); (n_diameterOverJacket, VFloat n_0_0); (n_diameterOverCore, VFloat n_0_0); (n_constructionKind, VStr n_solid); (n_outerJacketKind, VStr n_insulating); (n_isStrandFill, VBool false); (n_shieldMaterial, VStr n_other); (n_diameterOverInsulation, VFloat n_0_0)]
    [SAttr n_nominalTemperature; SAttr n_diameterOverScreen; SAttr n_sheathAsNeutral; SAttr n_diameterOverJacket; SAttr n_diameterOverCore; SAttr n_constructionKind; SAttr n_outerJacketKind; SAttr n_isStrandFill; SAttr n_shieldMaterial; SAttr n_diameterOverInsulation]
    true true
    [n_nominalTemperature; n_diameterOverScreen; n_sheathAsNeutral; n_diameterOverJacket; n_diameterOverCore; n_constructionKind; n_outerJacketKind; n_isStrandFill; n_shieldMaterial; n_diameterOverInsulation]
    [(n_nominalTemperature, VFloat n_0_0); (n_diameterOverScreen, VFloat n_0_0); (n_sheathAsNeutral, VBool false); (n_diameterOverJacket, VFloat n_0_0); (n_diameterOverCore, VFloat n_0_0); (n_constructionKind, VStr n_solid); (n_outerJacketKind, VStr n_insulating); (n_isStrandFill, VBool false); (n_shieldMaterial, VStr n_other); (n_diameterOverInsulation, VFloat n_0_0)]
    [(n_constructionKind, n_CableConstructionKind); (n_outerJacketKind, n_CableOuterJacketKind); (n_shieldMaterial, n_CableShieldMaterialKind)]
    []
    []
    [];
(* CIM14/CDPSM/Unbalanced/IEC61968/AssetModels/ConcentricNeutralCableInfo.py:23-67 *)
  Cls n_CIM14_CDPSM_Unbalanced_IEC61968_AssetModels_ConcentricNeutralCableInfo_ConcentricNeutralCableInfo n_ConcentricNeutralCableInfo (Some n_CIM14_CDPSM_Unbalanced_IEC61968_AssetModels_CableInfo_CableInfo)
    [(n_neutralStrandCount, VInt 0); (n_diameterOverNeutral, VFloat n_0_0); (n_WireType, VNone)]
    [SAttr n_neutralStrandCount; SAttr n_diameterOverNeutral; SOne n_WireType]
    true true
    [n_neutralStrandCount; n_diameterOverNeutral]
    [(n_neutralStrandCount, VInt 0); (n_diameterOverNeutral, VFloat n_0_0)]
    []
    [n_WireType]
    []
    [(n_WireType, POneMany n_ConcentricNeutralCableInfos)];
(* CIM14/CDPSM/Unbalanced/IEC61968/AssetModels/ConductorInfo.py:23-110 *)
  Cls n_CIM14_CDPSM_Unbalanced_IEC61968_AssetModels_ConductorInfo_ConductorInfo n_ConductorInfo (Some n_CIM14_CDPSM_Unbalanced_IEC61970_Core_IdentifiedObject_IdentifiedObject)
    [(n_phaseCount, VInt 0); (n_insulationMaterial, VStr n_crosslinkedPolyethylene); (n_insulationThickness, VFloat n_0_0); (n_insulated, VBool false); (n_usage, VStr n_secondary); (n_WireArrangements, VNone); (n_ConductorSegments, VNone)]
    [SAttr n_phaseCount; SAttr n_insulationMaterial; SAttr n_insulationThickness; SAttr n_insulated; SAttr n_usage; SMany n_WireArrangements; SMany n_ConductorSegments]
    true true
    [n_phaseCount; n_insulationMaterial; n_insulationThickness; n_insulated; n_usage]
    [(n_phaseCount, VInt 0); (n_insulationMaterial, VStr n_crosslinkedPolyethylene); (n_insulationThickness, VFloat n_0_0); (n_insulated, VBool false); (n_usage, VStr n_secondary)]
    [(n_insulationMaterial, n_ConductorInsulationKind); (n_usage, n_ConductorUsageKind)]
    [n_WireArrangements; n_ConductorSegments]
    [n_WireArrangements; n_ConductorSegments]
    [(n_WireArrangements, PManyOne n_ConductorInfo); (n_ConductorSegments, PManyOne n_ConductorInfo)];
(* CIM14/CDPSM/Unbalanced/IEC61968/AssetModels/DistributionWindingTest.py:23-63 *)
  Cls n_CIM14_CDPSM_Unbalanced_IEC61968_AssetModels_DistributionWindingTest_DistributionWindingTest n_DistributionWindingTest (Some n_CIM14_CDPSM_Unbalanced_IEC61970_Core_IdentifiedObject_IdentifiedObject)
    [(n_fromTapStep, VInt 0); (n_FromWinding, VNone)]
    [SAttr n_fromTapStep; SOne n_FromWinding]
    true true
    [n_fromTapStep]
    [(n_fromTapStep, VInt 0)]
    []
    [n_FromWinding]
    []
    [(n_FromWinding, POneMany n_WindingTests)];
(* CIM14/CDPSM/Unbalanced/IEC61968/AssetModels/OpenCircuitTest.py:23-87 *)
  Cls n_CIM14_CDPSM_Unbalanced_IEC61968_AssetModels_OpenCircuitTest_OpenCircuitTest n_OpenCircuitTest (Some n_CIM14_CDPSM_Unbalanced_IEC61968_AssetModels_DistributionWindingTest_DistributionWindingTest)
    [(n_noLoadLossZero, VFloat n_0_0); (n_noLoadLoss, VFloat n_0_0); (n_excitingCurrent, VFloat n_0_0); (n_excitingCurrentZero, VFloat n_0_0); (n_MeasuredWindingSpecs, VNone)]
    [SAttr n_noLoadLossZero; SAttr n_noLoadLoss; SAttr n_excitingCurrent; SAttr n_excitingCurrentZero; SMany n_MeasuredWindingSpecs]
    true true
    [n_noLoadLossZero; n_noLoadLoss; n_excitingCurrent; n_excitingCurrentZero]
    [(n_noLoadLossZero, VFloat n_0_0); (n_noLoadLoss, VFloat n_0_0); (n_excitingCurrent, VFloat n_0_0); (n_excitingCurrentZero, VFloat n_0_0)]
    []
    [n_MeasuredWindingSpecs]
    [n_MeasuredWindingSpecs]
    [(n_MeasuredWindingSpecs, PManyMany n_OpenCircuitTests)];
(* CIM14/CDPSM/Unbalanced/IEC61968/AssetModels/OverheadConductorInfo.py:23-50 *)
  Cls n_CIM14_CDPSM_Unbalanced_IEC61968_AssetModels_OverheadConductorInfo_OverheadConductorInfo n_OverheadConductorInfo (Some n_CIM14_CDPSM_Unbalanced_IEC61968_AssetModels_ConductorInfo_ConductorInfo)
    [(n_neutralInsulationThickness, VFloat n_0_0); (n_phaseConductorCount, VInt 0); (n_phaseConductorSpacing, VFloat n_0_0)]
    [SAttr n_neutralInsulationThickness; SAttr n_phaseConductorCount; SAttr n_phaseConductorSpacing]
    true true
    [n_neutralInsulationThickness; n_phaseConductorCount; n_phaseConductorSpacing]
    [(n_neutralInsulationThickness, VFloat n_0_0); (n_phaseConductorCount, VInt 0); (n_phaseConductorSpacing, VFloat n_0_0)]
    []
    []
    []
    [];
(* CIM14/CDPSM/Unbalanced/IEC61968/AssetModels/ShortCircuitTest.py:23-86 *)
  Cls n_CIM14_CDPSM_Unbalanced_IEC61968_AssetModels_ShortCircuitTest_ShortCircuitTest n_ShortCircuitTest (Some n_CIM14_CDPSM_Unbalanced_IEC61968_AssetModels_DistributionWindingTest_DistributionWindingTest)
    [(n_loadLossZero, VFloat n_0_0); (n_leakageImpedanceZero, VFloat n_0_0); (n_leakageImpedance, VFloat n_0_0); (n_loadLoss, VFloat n_0_0); (n_ShortedWindingSpecs, VNone)]
    [SAttr n_loadLossZero; SAttr n_leakageImpedanceZero; SAttr n_leakageImpedance; SAttr n_loadLoss; SMany n_ShortedWindingSpecs]
    true true
    [n_loadLossZero; n_leakageImpedanceZero; n_leakageImpedance; n_loadLoss]
    [(n_loadLossZero, VFloat n_0_0); (n_leakageImpedanceZero, VFloat n_0_0); (n_leakageImpedance, VFloat n_0_0); (n_loadLoss, VFloat n_0_0)]
    []
    [n_ShortedWindingSpecs]
    [n_ShortedWindingSpecs]
    [(n_ShortedWindingSpecs, PManyMany n_ShortCircuitTests)];
(* CIM14/CDPSM/Unbalanced/IEC61968/AssetModels/TapeShieldCableInfo.py:23-46 *)
  Cls n_CIM14_CDPSM_Unbalanced_IEC61968_AssetModels_TapeShieldCableInfo_TapeShieldCableInfo n_TapeShieldCableInfo (Some n_CIM14_CDPSM_Unbalanced_IEC61968_AssetModels_CableInfo_CableInfo)
    [(n_tapeThickness, VFloat n_0_0); (n_tapeLap, VFloat n_0_0)]
    [SAttr n_tapeThickness; SAttr n_tapeLap]
    true true
    [n_tapeThickness; n_tapeLap]
    [(n_tapeThickness, VFloat n_0_0); (n_tapeLap, VFloat n_0_0)]
    []
    []
    []
    [];
(* CIM14/CDPSM/Unbalanced/IEC61968/AssetModels/ToWindingSpec.py:23-136 *)
  Cls n_CIM14_CDPSM_Unbalanced_IEC61968_AssetModels_ToWindingSpec_ToWindingSpec n_ToWindingSpec (Some n_CIM14_CDPSM_Unbalanced_IEC61970_Core_IdentifiedObject_IdentifiedObject)
    [(n_toTapStep, VInt 0); (n_voltage, VFloat n_0_0); (n_phaseShift, VFloat n_0_0); (n_OpenCircuitTests, VNone); (n_ShortCircuitTests, VNone); (n_ToWinding, VNone)]
    [SAttr n_toTapStep; SAttr n_voltage; SAttr n_phaseShift; SMany n_OpenCircuitTests; SMany n_ShortCircuitTests; SOne n_ToWinding]
    true true
    [n_toTapStep; n_voltage; n_phaseShift]
    [(n_toTapStep, VInt 0); (n_voltage, VFloat n_0_0); (n_phaseShift, VFloat n_0_0)]
    []
    [n_OpenCircuitTests; n_ShortCircuitTests; n_ToWinding]
    [n_OpenCircuitTests; n_ShortCircuitTests]
    [(n_OpenCircuitTests, PManyMany n_MeasuredWindingSpecs); (n_ShortCircuitTests, PManyMany n_ShortedWindingSpecs); (n_ToWinding, POneMany n_ToWindingSpecs)];
(* CIM14/CDPSM/Unbalanced/IEC61968/AssetModels/TransformerInfo.py:23-90 *)
  Cls n_CIM14_CDPSM_Unbalanced_IEC61968_AssetModels_TransformerInfo_TransformerInfo n_TransformerInfo (Some n_CIM14_CDPSM_Unbalanced_IEC61970_Core_IdentifiedObject_IdentifiedObject)
    [(n_Transformers, VNone); (n_WindingInfos, VNone)]
    [SMany n_Transformers; SMany n_WindingInfos]
    true true
    []
    []
    []
    [n_Transformers; n_WindingInfos]
    [n_Transformers; n_WindingInfos]
    [(n_Transformers, PManyOne n_TransformerInfo); (n_WindingInfos, PManyOne n_TransformerInfo)];
(* CIM14/CDPSM/Unbalanced/IEC61968/AssetModels/WindingInfo.py:23-173 *)
  Cls n_CIM14_CDPSM_Unbalanced_IEC61968_AssetModels_WindingInfo_WindingInfo n_WindingInfo (Some n_CIM14_CDPSM_Unbalanced_IEC61970_Core_IdentifiedObject_IdentifiedObject)
    [(n_sequenceNumber, VInt 0); (n_ratedS, VFloat n_0_0); (n_ratedU, VFloat n_0_0); (n_connectionKind, VStr n_I); (n_emergencyS, VFloat n_0_0); (n_r, VFloat n_0_0); (n_phaseAngle, VInt 0); (n_insulationU, VFloat n_0_0); (n_shortTermS, VFloat n_0_0); (n_WindingTests, VNone); (n_ToWindingSpecs, VNone); (n_TransformerInfo, VNone); (n_Windings, VNone)]
    [SAttr n_sequenceNumber; SAttr n_ratedS; SAttr n_ratedU; SAttr n_connectionKind; SAttr n_emergencyS; SAttr n_r; SAttr n_phaseAngle; SAttr n_insulationU; SAttr n_shortTermS; SMany n_WindingTests; SMany n_ToWindingSpecs; SOne n_TransformerInfo; SMany n_Windings]
    true true
    [n_sequenceNumber; n_ratedS; n_ratedU; n_connectionKind; n_emergencyS; n_r; n_phaseAngle; n_insulationU; n_shortTermS]
    [(n_sequenceNumber, VInt 0); (n_ratedS, VFloat n_0_0); (n_ratedU, VFloat n_0_0); (n_connectionKind, VStr n_I); (n_emergencyS, VFloat n_0_0); (n_r, VFloat n_0_0); (n_phaseAngle, VInt 0); (n_insulationU, VFloat n_0_0); (n_shortTermS, VFloat n_0_0)]
    [(n_connectionKind, n_WindingConnection)]
    [n_WindingTests; n_ToWindingSpecs; n_TransformerInfo; n_Windings]
    [n_WindingTests; n_ToWindingSpecs; n_Windings]
    [(n_WindingTests, PManyOne n_FromWinding); (n_ToWindingSpecs, PManyOne n_ToWinding); (n_TransformerInfo, POneMany n_WindingInfos); (n_Windings, PManyOne n_WindingInfo)];
(* CIM14/CDPSM/Unbalanced/IEC61968/AssetModels/WireArrangement.py:23-92 *)
  Cls n_CIM14_CDPSM_Unbalanced_IEC61968_AssetModels_WireArrangement_WireArrangement n_WireArrangement (Some n_CIM14_CDPSM_Unbalanced_IEC61970_Core_IdentifiedObject_IdentifiedObject)
    [(n_mountingPointX, VFloat n_0_0); (n_mountingPointY, VFloat n_0_0); (n_position, VInt 0); (n_ConductorInfo, VNone); (n_WireType, VNone)]
    [SAttr n_mountingPointX; SAttr n_mountingPointY; SAttr n_position; SOne n_ConductorInfo; SOne n_WireType]
    true true
    [n_mountingPointX; n_mountingPointY; n_position]
    [(n_mountingPointX, VFloat n_0_0); (n_mountingPointY, VFloat n_0_0); (n_position, VInt 0)]
    []
    [n_ConductorInfo; n_WireType]
    []
    [(n_ConductorInfo, POneMany n_WireArrangements); (n_WireType, POneMany n_WireArrangements)];
(* CIM14/CDPSM/Unbalanced/IEC61968/AssetModels/WireType.py:23-138 *)
  Cls n_CIM14_CDPSM_Unbalanced_IEC61968_AssetModels_WireType_WireType n_WireType (Some n_CIM14_CDPSM_Unbalanced_IEC61970_Core_IdentifiedObject_IdentifiedObject)
    [(n_rAC75, VFloat n_0_0); (n_coreRadius, VFloat n_0_0); (n_coreStrandCount, VInt 0); (n_rAC25, VFloat n_0_0); (n_radius, VFloat n_0_0); (n_gmr, VFloat n_0_0); (n_rDC20, VFloat n_0_0); (n_rAC50, VFloat n_0_0); (n_material, VStr n_steel); (n_sizeDescription, VStr n_); (n_strandCount, VInt 0); (n_ratedCurrent, VFloat n_0_0); (n_ConcentricNeutralCableInfos, VNone); (n_WireArrangements, VNone)]
    [SAttr n_rAC75; SAttr n_coreRadius; SAttr n_coreStrandCount; SAttr n_rAC25; SAttr n_radius; SAttr n_gmr; SAttr n_rDC20; SAttr n_rAC50; SAttr n_material; SAttr n_sizeDescription; SAttr n_strandCount; SAttr n_ratedCurrent; SMany n_ConcentricNeutralCableInfos; SMany n_WireArrangements]
    true true
    [n_rAC75; n_coreRadius; n_coreStrandCount; n_rAC25; n_radius; n_gmr; n_rDC20; n_rAC50; n_material; n_sizeDescription; n_strandCount; n_ratedCurrent]
    [(n_rAC75, VFloat n_0_0); (n_coreRadius, VFloat n_0_0); (n_coreStrandCount, VInt 0); (n_rAC25, VFloat n_0_0); (n_radius, VFloat n_0_0); (n_gmr, VFloat n_0_0); (n_rDC20, VFloat n_0_0); (n_rAC50, VFloat n_0_0); (n_material, VStr n_steel); (n_sizeDescription, VStr n_); (n_strandCount, VInt 0); (n_ratedCurrent, VFloat n_0_0)]
    [(n_material, n_ConductorMaterialKind)]
    [n_ConcentricNeutralCableInfos; n_WireArrangements]
    [n_ConcentricNeutralCableInfos; n_WireArrangements]
    [(n_ConcentricNeutralCableInfos, PManyOne n_WireType); (n_WireArrangements, PManyOne n_WireType)];
(* CIM14/CDPSM/Unbalanced/IEC61968/Common/GeoLocation.py:23-64 *)
  Cls n_CIM14_CDPSM_Unbalanced_IEC61968_Common_GeoLocation_GeoLocation n_GeoLocation (Some n_CIM14_CDPSM_Unbalanced_IEC61968_Common_Location_Location)
    [(n_PowerSystemResources, VNone)]
    [SMany n_PowerSystemResources]
    true true
    []
    []
    []
    [n_PowerSystemResources]
    [n_PowerSystemResources]
    [(n_PowerSystemResources, PManyOne n_GeoLocation)];
(* CIM14/CDPSM/Unbalanced/IEC61968/Common/Location.py:23-66 *)
  Cls n_CIM14_CDPSM_Unbalanced_IEC61968_Common_Location_Location n_Location (Some n_CIM14_CDPSM_Unbalanced_IEC61970_Core_IdentifiedObject_IdentifiedObject)
    [(n_PositionPoints, VNone)]
    [SMany n_PositionPoints]
    true true
    []
    []
    []
    [n_PositionPoints]
    [n_PositionPoints]
    [(n_PositionPoints, PManyOne n_Location)];
(* CIM14/CDPSM/Unbalanced/IEC61968/Common/PositionPoint.py:23-73 *)
  Cls n_CIM14_CDPSM_Unbalanced_IEC61968_Common_PositionPoint_PositionPoint n_PositionPoint (Some n_CIM14_CDPSM_Unbalanced_Element_Element)
    [(n_sequenceNumber, VInt 0); (n_xPosition, VStr n_); (n_yPosition, VStr n_); (n_Location, VNone)]
    [SAttr n_sequenceNumber; SAttr n_xPosition; SAttr n_yPosition; SOne n_Location]
    true true
    [n_sequenceNumber; n_xPosition; n_yPosition]
    [(n_sequenceNumber, VInt 0); (n_xPosition, VStr n_); (n_yPosition, VStr n_)]
    []
    [n_Location]
    []
    [(n_Location, POneMany n_PositionPoints)];
(* CIM14/CDPSM/Unbalanced/IEC61968/WiresExt/DistributionLineSegment.py:23-107 *)
  Cls n_CIM14_CDPSM_Unbalanced_IEC61968_WiresExt_DistributionLineSegment_DistributionLineSegment n_DistributionLineSegment (Some n_CIM14_CDPSM_Unbalanced_IEC61970_Wires_ACLineSegment_ACLineSegment)
    [(n_ConductorInfo, VNone); (n_SequenceImpedance, VNone); (n_PhaseImpedance, VNone)]
    [SOne n_ConductorInfo; SOne n_SequenceImpedance; SOne n_PhaseImpedance]
    true true
    []
    []
    []
    [n_ConductorInfo; n_SequenceImpedance; n_PhaseImpedance]
    []
    [(n_ConductorInfo, POneMany n_ConductorSegments); (n_SequenceImpedance, POneMany n_ConductorSegments); (n_PhaseImpedance, POneMany n_ConductorSegments)];
(* CIM14/CDPSM/Unbalanced/IEC61968/WiresExt/DistributionTapChanger.py:23-85 *)
  Cls n_CIM14_CDPSM_Unbalanced_IEC61968_WiresExt_DistributionTapChanger_DistributionTapChanger n_DistributionTapChanger (Some n_CIM14_CDPSM_Unbalanced_IEC61970_Wires_RatioTapChanger_RatioTapChanger)
    [(n_lineDropR, VFloat n_0_0); (n_monitoredPhase, VStr n_ABC); (n_lineDropCompensation, VBool false); (n_ptRatio, VFloat n_0_0); (n_ctRatio, VFloat n_0_0); (n_reverseLineDropR, VFloat n_0_0); (n_limitVoltage, VFloat n_0_0); (n_reverseLineDropX, VFloat n_0_0); (n_bandVoltage, VFloat n_0_0); (n_targetVoltage, VFloat n_0_0); (n_lineDropX, VFloat n_0_0)]
    [SAttr n_lineDropR; SAttr n_monitoredPhase; SAttr n_lineDropCompensation; SAttr n_ptRatio; SAttr n_ctRatio; SAttr n_reverseLineDropR; SAttr n_limitVoltage; SAttr n_reverseLineDropX; SAttr n_bandVoltage; SAttr n_targetVoltage; SAttr n_lineDropX]
    true true
    [n_lineDropR; n_monitoredPhase; n_lineDropCompensation; n_ptRatio; n_ctRatio; n_reverseLineDropR; n_limitVoltage; n_reverseLineDropX; n_bandVoltage; n_targetVoltage; n_lineDropX]
    [(n_lineDropR, VFloat n_0_0); (n_monitoredPhase, VStr n_ABC); (n_lineDropCompensation, VBool false); (n_ptRatio, VFloat n_0_0); (n_ctRatio, VFloat n_0_0); (n_reverseLineDropR, VFloat n_0_0); (n_limitVoltage, VFloat n_0_0); (n_reverseLineDropX, VFloat n_0_0); (n_bandVoltage, VFloat n_0_0); (n_targetVoltage, VFloat n_0_0); (n_lineDropX, VFloat n_0_0)]
    [(n_monitoredPhase, n_PhaseCode)]
    []
    []
    [];
(* CIM14/CDPSM/Unbalanced/IEC61968/WiresExt/DistributionTransformer.py:23-109 *)
  Cls n_CIM14_CDPSM_Unbalanced_IEC61968_WiresExt_DistributionTransformer_DistributionTransformer n_DistributionTransformer (Some n_CIM14_CDPSM_Unbalanced_IEC61970_Core_Equipment_Equipment)
    [(n_TransformerInfo, VNone); (n_Windings, VNone); (n_TransformerBank, VNone)]
    [SOne n_TransformerInfo; SMany n_Windings; SOne n_TransformerBank]
    true true
    []
    []
    []
    [n_TransformerInfo; n_Windings; n_TransformerBank]
    [n_Windings]
    [(n_TransformerInfo, POneMany n_Transformers); (n_Windings, PManyOne n_Transformer); (n_TransformerBank, POneMany n_Transformers)];
(* CIM14/CDPSM/Unbalanced/IEC61968/WiresExt/DistributionTransformerWinding.py:23-138 *)
  Cls n_CIM14_CDPSM_Unbalanced_IEC61968_WiresExt_DistributionTransformerWinding_DistributionTransformerWinding n_DistributionTransformerWinding (Some n_CIM14_CDPSM_Unbalanced_IEC61970_Core_ConductingEquipment_ConductingEquipment)
    [(n_rground, VFloat n_0_0); (n_xground, VFloat n_0_0); (n_grounded, VBool false); (n_WindingInfo, VNone); (n_Transformer, VNone); (n_RatioTapChanger, VNone); (n_PiImpedance, VNone)]
    [SAttr n_rground; SAttr n_xground; SAttr n_grounded; SOne n_WindingInfo; SOne n_Transformer; SOne n_RatioTapChanger; SOne n_PiImpedance]
    true true
    [n_rground; n_xground; n_grounded]
    [(n_rground, VFloat n_0_0); (n_xground, VFloat n_0_0); (n_grounded, VBool false)]
    []
    [n_WindingInfo; n_Transformer; n_RatioTapChanger; n_PiImpedance]
    []
    [(n_WindingInfo, POneMany n_Windings); (n_Transformer, POneMany n_Windings); (n_RatioTapChanger, POneOne n_Winding); (n_PiImpedance, POneMany n_Windings)];
(* CIM14/CDPSM/Unbalanced/IEC61968/WiresExt/PerLengthPhaseImpedance.py:23-94 *)
  Cls n_CIM14_CDPSM_Unbalanced_IEC61968_WiresExt_PerLengthPhaseImpedance_PerLengthPhaseImpedance n_PerLengthPhaseImpedance (Some n_CIM14_CDPSM_Unbalanced_IEC61970_Core_IdentifiedObject_IdentifiedObject)
    [(n_conductorCount, VInt 0); (n_PhaseImpedanceData, VNone); (n_ConductorSegments, VNone)]
    [SAttr n_conductorCount; SMany n_PhaseImpedanceData; SMany n_ConductorSegments]
    true true
    [n_conductorCount]
    [(n_conductorCount, VInt 0)]
    []
    [n_PhaseImpedanceData; n_ConductorSegments]
    [n_PhaseImpedanceData; n_ConductorSegments]
    [(n_PhaseImpedanceData, PManyOne n_PhaseImpedance); (n_ConductorSegments, PManyOne n_PhaseImpedance)];
(* CIM14/CDPSM/Unbalanced/IEC61968/WiresExt/PerLengthSequenceImpedance.py:23-88 *)
  Cls n_CIM14_CDPSM_Unbalanced_IEC61968_WiresExt_PerLengthSequenceImpedance_PerLengthSequenceImpedance n_PerLengthSequenceImpedance (Some n_CIM14_CDPSM_Unbalanced_IEC61970_Core_IdentifiedObject_IdentifiedObject)
    [(n_x, VFloat n_0_0); (n_r0, VFloat n_0_0); (n_x0, VFloat n_0_0); (n_b0ch, VFloat n_0_0); (n_r, VFloat n_0_0); (n_bch, VFloat n_0_0); (n_ConductorSegments, VNone)]
    [SAttr n_x; SAttr n_r0; SAttr n_x0; SAttr n_b0ch; SAttr n_r; SAttr n_bch; SMany n_ConductorSegments]
    true true
    [n_x; n_r0; n_x0; n_b0ch; n_r; n_bch]
    [(n_x, VFloat n_0_0); (n_r0, VFloat n_0_0); (n_x0, VFloat n_0_0); (n_b0ch, VFloat n_0_0); (n_r, VFloat n_0_0); (n_bch, VFloat n_0_0)]
    []
    [n_ConductorSegments]
    [n_ConductorSegments]
    [(n_ConductorSegments, PManyOne n_SequenceImpedance)];
(* CIM14/CDPSM/Unbalanced/IEC61968/WiresExt/PhaseImpedanceData.py:23-75 *)
  Cls n_CIM14_CDPSM_Unbalanced_IEC61968_WiresExt_PhaseImpedanceData_PhaseImpedanceData n_PhaseImpedanceData (Some n_CIM14_CDPSM_Unbalanced_Element_Element)
    [(n_x, VFloat n_0_0); (n_sequenceNumber, VInt 0); (n_b, VFloat n_0_0); (n_r, VFloat n_0_0); (n_PhaseImpedance, VNone)]
    [SAttr n_x; SAttr n_sequenceNumber; SAttr n_b; SAttr n_r; SOne n_PhaseImpedance]
    true true
    [n_x; n_sequenceNumber; n_b; n_r]
    [(n_x, VFloat n_0_0); (n_sequenceNumber, VInt 0); (n_b, VFloat n_0_0); (n_r, VFloat n_0_0)]
    []
    [n_PhaseImpedance]
    []
    [(n_PhaseImpedance, POneMany n_PhaseImpedanceData)];
(* CIM14/CDPSM/Unbalanced/IEC61968/WiresExt/TransformerBank.py:23-68 *)
  Cls n_CIM14_CDPSM_Unbalanced_IEC61968_WiresExt_TransformerBank_TransformerBank n_TransformerBank (Some n_CIM14_CDPSM_Unbalanced_IEC61970_Core_Equipment_Equipment)
    [(n_vectorGroup, VStr n_); (n_Transformers, VNone)]
    [SAttr n_vectorGroup; SMany n_Transformers]
    true true
    [n_vectorGroup]
    [(n_vectorGroup, VStr n_)]
    []
    [n_Transformers]
    [n_Transformers]
    [(n_Transformers, PManyOne n_TransformerBank)];
(* CIM14/CDPSM/Unbalanced/IEC61968/WiresExt/WindingPiImpedance.py:23-96 *)
  Cls n_CIM14_CDPSM_Unbalanced_IEC61968_WiresExt_WindingPiImpedance_WindingPiImpedance n_WindingPiImpedance (Some n_CIM14_CDPSM_Unbalanced_IEC61970_Core_IdentifiedObject_IdentifiedObject)
    [(n_x, VFloat n_0_0); (n_g, VFloat n_0_0); (n_r0, VFloat n_0_0); (n_r, VFloat n_0_0); (n_b, VFloat n_0_0); (n_g0, VFloat n_0_0); (n_x0, VFloat n_0_0); (n_b0, VFloat n_0_0); (n_Windings, VNone)]
    [SAttr n_x; SAttr n_g; SAttr n_r0; SAttr n_r; SAttr n_b; SAttr n_g0; SAttr n_x0; SAttr n_b0; SMany n_Windings]
    true true
    [n_x; n_g; n_r0; n_r; n_b; n_g0; n_x0; n_b0]
    [(n_x, VFloat n_0_0); (n_g, VFloat n_0_0); (n_r0, VFloat n_0_0); (n_r, VFloat n_0_0); (n_b, VFloat n_0_0); (n_g0, VFloat n_0_0); (n_x0, VFloat n_0_0); (n_b0, VFloat n_0_0)]
    []
    [n_Windings]
    [n_Windings]
    [(n_Windings, PManyOne n_PiImpedance)];
(* CIM14/CDPSM/Unbalanced/IEC61970/Core/BaseVoltage.py:23-94 *)
  Cls n_CIM14_CDPSM_Unbalanced_IEC61970_Core_BaseVoltage_BaseVoltage n_BaseVoltage (Some n_CIM14_CDPSM_Unbalanced_IEC61970_Core_IdentifiedObject_IdentifiedObject)
    [(n_nominalVoltage, VFloat n_0_0); (n_ConductingEquipment, VNone); (n_VoltageLevel, VNone)]
    [SAttr n_nominalVoltage; SMany n_ConductingEquipment; SMany n_VoltageLevel]
    true true
    [n_nominalVoltage]
    [(n_nominalVoltage, VFloat n_0_0)]
    []
    [n_ConductingEquipment; n_VoltageLevel]
    [n_ConductingEquipment; n_VoltageLevel]
    [(n_ConductingEquipment, PManyOne n_BaseVoltage); (n_VoltageLevel, PManyOne n_BaseVoltage)];
(* CIM14/CDPSM/Unbalanced/IEC61970/Core/Bay.py:23-59 *)
  Cls n_CIM14_CDPSM_Unbalanced_IEC61970_Core_Bay_Bay n_Bay (Some n_CIM14_CDPSM_Unbalanced_IEC61970_Core_EquipmentContainer_EquipmentContainer)
    [(n_VoltageLevel, VNone)]
    [SOne n_VoltageLevel]
    true true
    []
    []
    []
    [n_VoltageLevel]
    []
    [(n_VoltageLevel, POneMany n_Bays)];
(* CIM14/CDPSM/Unbalanced/IEC61970/Core/ConductingEquipment.py:23-89 *)
  Cls n_CIM14_CDPSM_Unbalanced_IEC61970_Core_ConductingEquipment_ConductingEquipment n_ConductingEquipment (Some n_CIM14_CDPSM_Unbalanced_IEC61970_Core_Equipment_Equipment)
    [(n_phases, VStr n_ABC); (n_Terminals, VNone); (n_BaseVoltage, VNone)]
    [SAttr n_phases; SMany n_Terminals; SOne n_BaseVoltage]
    true true
    [n_phases]
    [(n_phases, VStr n_ABC)]
    [(n_phases, n_PhaseCode)]
    [n_Terminals; n_BaseVoltage]
    [n_Terminals]
    [(n_Terminals, PManyOne n_ConductingEquipment); (n_BaseVoltage, POneMany n_ConductingEquipment)];
(* CIM14/CDPSM/Unbalanced/IEC61970/Core/ConnectivityNodeContainer.py:23-64 *)
  Cls n_CIM14_CDPSM_Unbalanced_IEC61970_Core_ConnectivityNodeContainer_ConnectivityNodeContainer n_ConnectivityNodeContainer (Some n_CIM14_CDPSM_Unbalanced_IEC61970_Core_PowerSystemResource_PowerSystemResource)
    [(n_ConnectivityNodes, VNone)]
    [SMany n_ConnectivityNodes]
    true true
    []
    []
    []
    [n_ConnectivityNodes]
    [n_ConnectivityNodes]
    [(n_ConnectivityNodes, PManyOne n_ConnectivityNodeContainer)];
(* CIM14/CDPSM/Unbalanced/IEC61970/Core/Equipment.py:23-63 *)
  Cls n_CIM14_CDPSM_Unbalanced_IEC61970_Core_Equipment_Equipment n_Equipment (Some n_CIM14_CDPSM_Unbalanced_IEC61970_Core_PowerSystemResource_PowerSystemResource)
    [(n_normaIlyInService, VBool false); (n_EquipmentContainer, VNone)]
    [SAttr n_normaIlyInService; SOne n_EquipmentContainer]
    true true
    [n_normaIlyInService]
    [(n_normaIlyInService, VBool false)]
    []
    [n_EquipmentContainer]
    []
    [(n_EquipmentContainer, POneMany n_Equipments)];
(* CIM14/CDPSM/Unbalanced/IEC61970/Core/EquipmentContainer.py:23-64 *)
  Cls n_CIM14_CDPSM_Unbalanced_IEC61970_Core_EquipmentContainer_EquipmentContainer n_EquipmentContainer (Some n_CIM14_CDPSM_Unbalanced_IEC61970_Core_ConnectivityNodeContainer_ConnectivityNodeContainer)
    [(n_Equipments, VNone)]
    [SMany n_Equipments]
    true true
    []
    []
    []
    [n_Equipments]
    [n_Equipments]
    [(n_Equipments, PManyOne n_EquipmentContainer)];
(* CIM14/CDPSM/Unbalanced/IEC61970/Core/GeographicalRegion.py:23-64 *)
  Cls n_CIM14_CDPSM_Unbalanced_IEC61970_Core_GeographicalRegion_GeographicalRegion n_GeographicalRegion (Some n_CIM14_CDPSM_Unbalanced_IEC61970_Core_IdentifiedObject_IdentifiedObject)
    [(n_Regions, VNone)]
    [SMany n_Regions]
    true true
    []
    []
    []
    [n_Regions]
    [n_Regions]
    [(n_Regions, PManyOne n_Region)];
(* CIM14/CDPSM/Unbalanced/IEC61970/Core/IdentifiedObject.py:23-58 *)
  Cls n_CIM14_CDPSM_Unbalanced_IEC61970_Core_IdentifiedObject_IdentifiedObject n_IdentifiedObject (Some n_CIM14_CDPSM_Unbalanced_Element_Element)
    [(n_mRID, VStr n_); (n_description, VStr n_); (n_name, VStr n_); (n_localName, VStr n_); (n_aliasName, VStr n_)]
    [SAttr n_mRID; SAttr n_description; SAttr n_name; SAttr n_localName; SAttr n_aliasName]
    true true
    [n_mRID; n_description; n_name; n_localName; n_aliasName]
    [(n_mRID, VStr n_); (n_description, VStr n_); (n_name, VStr n_); (n_localName, VStr n_); (n_aliasName, VStr n_)]
    []
    []
    []
    [];
(* CIM14/CDPSM/Unbalanced/IEC61970/Core/PSRType.py:23-64 *)
  Cls n_CIM14_CDPSM_Unbalanced_IEC61970_Core_PSRType_PSRType n_PSRType (Some n_CIM14_CDPSM_Unbalanced_IEC61970_Core_IdentifiedObject_IdentifiedObject)
    [(n_PowerSystemResources, VNone)]
    [SMany n_PowerSystemResources]
    true true
    []
    []
    []
    [n_PowerSystemResources]
    [n_PowerSystemResources]
    [(n_PowerSystemResources, PManyOne n_PSRType)];
(* CIM14/CDPSM/Unbalanced/IEC61970/Core/PowerSystemResource.py:23-81 *)
  Cls n_CIM14_CDPSM_Unbalanced_IEC61970_Core_PowerSystemResource_PowerSystemResource n_PowerSystemResource (Some n_CIM14_CDPSM_Unbalanced_IEC61970_Core_IdentifiedObject_IdentifiedObject)
    [(n_GeoLocation, VNone); (n_PSRType, VNone)]
    [SOne n_GeoLocation; SOne n_PSRType]
    true true
    []
    []
    []
    [n_GeoLocation; n_PSRType]
    []
    [(n_GeoLocation, POneMany n_PowerSystemResources); (n_PSRType, POneMany n_PowerSystemResources)];
(* CIM14/CDPSM/Unbalanced/IEC61970/Core/SubGeographicalRegion.py:23-111 *)
  Cls n_CIM14_CDPSM_Unbalanced_IEC61970_Core_SubGeographicalRegion_SubGeographicalRegion n_SubGeographicalRegion (Some n_CIM14_CDPSM_Unbalanced_IEC61970_Core_IdentifiedObject_IdentifiedObject)
    [(n_Region, VNone); (n_Lines, VNone); (n_Substations, VNone)]
    [SOne n_Region; SMany n_Lines; SMany n_Substations]
    true true
    []
    []
    []
    [n_Region; n_Lines; n_Substations]
    [n_Lines; n_Substations]
    [(n_Region, POneMany n_Regions); (n_Lines, PManyOne n_Region); (n_Substations, PManyOne n_Region)];
(* CIM14/CDPSM/Unbalanced/IEC61970/Core/Substation.py:23-85 *)
  Cls n_CIM14_CDPSM_Unbalanced_IEC61970_Core_Substation_Substation n_Substation (Some n_CIM14_CDPSM_Unbalanced_IEC61970_Core_EquipmentContainer_EquipmentContainer)
    [(n_Region, VNone); (n_VoltageLevels, VNone)]
    [SOne n_Region; SMany n_VoltageLevels]
    true true
    []
    []
    []
    [n_Region; n_VoltageLevels]
    [n_VoltageLevels]
    [(n_Region, POneMany n_Substations); (n_VoltageLevels, PManyOne n_Substation)];
(* CIM14/CDPSM/Unbalanced/IEC61970/Core/Terminal.py:23-88 *)
  Cls n_CIM14_CDPSM_Unbalanced_IEC61970_Core_Terminal_Terminal n_Terminal (Some n_CIM14_CDPSM_Unbalanced_IEC61970_Core_IdentifiedObject_IdentifiedObject)
    [(n_sequenceNumber, VInt 0); (n_connected, VBool false); (n_ConductingEquipment, VNone); (n_ConnectivityNode, VNone)]
    [SAttr n_sequenceNumber; SAttr n_connected; SOne n_ConductingEquipment; SOne n_ConnectivityNode]
    true true
    [n_sequenceNumber; n_connected]
    [(n_sequenceNumber, VInt 0); (n_connected, VBool false)]
    []
    [n_ConductingEquipment; n_ConnectivityNode]
    []
    [(n_ConductingEquipment, POneMany n_Terminals); (n_ConnectivityNode, POneMany n_Terminals)];
(* CIM14/CDPSM/Unbalanced/IEC61970/Core/VoltageLevel.py:23-114 *)
  Cls n_CIM14_CDPSM_Unbalanced_IEC61970_Core_VoltageLevel_VoltageLevel n_VoltageLevel (Some n_CIM14_CDPSM_Unbalanced_IEC61970_Core_EquipmentContainer_EquipmentContainer)
    [(n_lowVoltageLimit, VFloat n_0_0); (n_highVoltageLimit, VFloat n_0_0); (n_BaseVoltage, VNone); (n_Bays, VNone); (n_Substation, VNone)]
    [SAttr n_lowVoltageLimit; SAttr n_highVoltageLimit; SOne n_BaseVoltage; SMany n_Bays; SOne n_Substation]
    true true
    [n_lowVoltageLimit; n_highVoltageLimit]
    [(n_lowVoltageLimit, VFloat n_0_0); (n_highVoltageLimit, VFloat n_0_0)]
    []
    [n_BaseVoltage; n_Bays; n_Substation]
    [n_Bays]
    [(n_BaseVoltage, POneMany n_VoltageLevel); (n_Bays, PManyOne n_VoltageLevel); (n_Substation, POneMany n_VoltageLevels)];
(* CIM14/CDPSM/Unbalanced/IEC61970/Generation/Production/GeneratingUnit.py:23-76 *)
  Cls n_CIM14_CDPSM_Unbalanced_IEC61970_Generation_Production_GeneratingUnit_GeneratingUnit n_GeneratingUnit (Some n_CIM14_CDPSM_Unbalanced_IEC61970_Core_Equipment_Equipment)
    [(n_ratedNetMaxP, VFloat n_0_0); (n_genControlSource, VStr n_onAGC); (n_initialP, VFloat n_0_0); (n_SynchronousMachines, VNone)]
    [SAttr n_ratedNetMaxP; SAttr n_genControlSource; SAttr n_initialP; SMany n_SynchronousMachines]
    true true
    [n_ratedNetMaxP; n_genControlSource; n_initialP]
    [(n_ratedNetMaxP, VFloat n_0_0); (n_genControlSource, VStr n_onAGC); (n_initialP, VFloat n_0_0)]
    [(n_genControlSource, n_GeneratorControlSource)]
    [n_SynchronousMachines]
    [n_SynchronousMachines]
    [(n_SynchronousMachines, PManyOne n_GeneratingUnit)];
(* CIM14/CDPSM/Unbalanced/IEC61970/IEC61970CIMVersion.py:23-46 *)
  Cls n_CIM14_CDPSM_Unbalanced_IEC61970_IEC61970CIMVersion_IEC61970CIMVersion n_IEC61970CIMVersion (Some n_CIM14_CDPSM_Unbalanced_Element_Element)
    [(n_date, VStr n_); (n_version, VStr n_)]
    [SAttr n_date; SAttr n_version]
    true true
    [n_date; n_version]
    [(n_date, VStr n_); (n_version, VStr n_)]
    []
    []
    []
    [];
(* CIM14/CDPSM/Unbalanced/IEC61970/LoadModel/LoadResponseCharacteristic.py:23-116 *)
  Cls n_CIM14_CDPSM_Unbalanced_IEC61970_LoadModel_LoadResponseCharacteristic_LoadResponseCharacteristic n_LoadResponseCharacteristic (Some n_CIM14_CDPSM_Unbalanced_IEC61970_Core_IdentifiedObject_IdentifiedObject)
    [(n_pVoltageExponent, VFloat n_0_0); (n_qConstantCurrent, VFloat n_0_0); (n_pFrequencyExponent, VFloat n_0_0); (n_exponentModel, VBool false); (n_qConstantImpedance, VFloat n_0_0); (n_pConstantCurrent, VFloat n_0_0); (n_qFrequencyExponent, VFloat n_0_0); (n_pConstantPower, VFloat n_0_0); (n_qVoltageExponent, VFloat n_0_0); (n_qConstantPower, VFloat n_0_0); (n_pConstantImpedance, VFloat n_0_0); (n_EnergyConsumer, VNone)]
    [SAttr n_pVoltageExponent; SAttr n_qConstantCurrent; SAttr n_pFrequencyExponent; SAttr n_exponentModel; SAttr n_qConstantImpedance; SAttr n_pConstantCurrent; SAttr n_qFrequencyExponent; SAttr n_pConstantPower; SAttr n_qVoltageExponent; SAttr n_qConstantPower; SAttr n_pConstantImpedance; SMany n_EnergyConsumer]
    true true
    [n_pVoltageExponent; n_qConstantCurrent; n_pFrequencyExponent; n_exponentModel; n_qConstantImpedance; n_pConstantCurrent; n_qFrequencyExponent; n_pConstantPower; n_qVoltageExponent; n_qConstantPower; n_pConstantImpedance]
    [(n_pVoltageExponent, VFloat n_0_0); (n_qConstantCurrent, VFloat n_0_0); (n_pFrequencyExponent, VFloat n_0_0); (n_exponentModel, VBool false); (n_qConstantImpedance, VFloat n_0_0); (n_pConstantCurrent, VFloat n_0_0); (n_qFrequencyExponent, VFloat n_0_0); (n_pConstantPower, VFloat n_0_0); (n_qVoltageExponent, VFloat n_0_0); (n_qConstantPower, VFloat n_0_0); (n_pConstantImpedance, VFloat n_0_0)]
    []
    [n_EnergyConsumer]
    [n_EnergyConsumer]
    [(n_EnergyConsumer, PManyOne n_LoadResponse)];
(* CIM14/CDPSM/Unbalanced/IEC61970/StateVariables/SvTapStep.py:23-66 *)
  Cls n_CIM14_CDPSM_Unbalanced_IEC61970_StateVariables_SvTapStep_SvTapStep n_SvTapStep (Some n_CIM14_CDPSM_Unbalanced_Element_Element)
    [(n_continuousPosition, VFloat n_0_0); (n_position, VInt 0); (n_TapChanger, VNone)]
    [SAttr n_continuousPosition; SAttr n_position; SOne n_TapChanger]
    true true
    [n_continuousPosition; n_position]
    [(n_continuousPosition, VFloat n_0_0); (n_position, VInt 0)]
    []
    [n_TapChanger]
    []
    [(n_TapChanger, POneOne n_SvTapStep)];
(* CIM14/CDPSM/Unbalanced/IEC61970/Topology/ConnectivityNode.py:23-85 *)
  Cls n_CIM14_CDPSM_Unbalanced_IEC61970_Topology_ConnectivityNode_ConnectivityNode n_ConnectivityNode (Some n_CIM14_CDPSM_Unbalanced_IEC61970_Core_IdentifiedObject_IdentifiedObject)
    [(n_Terminals, VNone); (n_ConnectivityNodeContainer, VNone)]
    [SMany n_Terminals; SOne n_ConnectivityNodeContainer]
    true true
    []
    []
    []
    [n_Terminals; n_ConnectivityNodeContainer]
    [n_Terminals]
    [(n_Terminals, PManyOne n_ConnectivityNode); (n_ConnectivityNodeContainer, POneMany n_ConnectivityNodes)];
(* CIM14/CDPSM/Unbalanced/IEC61970/Wires/ACLineSegment.py:23-62 *)
  Cls n_CIM14_CDPSM_Unbalanced_IEC61970_Wires_ACLineSegment_ACLineSegment n_ACLineSegment (Some n_CIM14_CDPSM_Unbalanced_IEC61970_Wires_Conductor_Conductor)
    [(n_r, VFloat n_0_0); (n_x0, VFloat n_0_0); (n_bch, VFloat n_0_0); (n_x, VFloat n_0_0); (n_b0ch, VFloat n_0_0); (n_r0, VFloat n_0_0)]
    [SAttr n_r; SAttr n_x0; SAttr n_bch; SAttr n_x; SAttr n_b0ch; SAttr n_r0]
    true true
    [n_r; n_x0; n_bch; n_x; n_b0ch; n_r0]
    [(n_r, VFloat n_0_0); (n_x0, VFloat n_0_0); (n_bch, VFloat n_0_0); (n_x, VFloat n_0_0); (n_b0ch, VFloat n_0_0); (n_r0, VFloat n_0_0)]
    []
    []
    []
    [];
(* CIM14/CDPSM/Unbalanced/IEC61970/Wires/Breaker.py:23-42 *)
  Cls n_CIM14_CDPSM_Unbalanced_IEC61970_Wires_Breaker_Breaker n_Breaker (Some n_CIM14_CDPSM_Unbalanced_IEC61970_Wires_Switch_Switch)
    [(n_ratedCurrent, VFloat n_0_0)]
    [SAttr n_ratedCurrent]
    true true
    [n_ratedCurrent]
    [(n_ratedCurrent, VFloat n_0_0)]
    []
    []
    []
    [];
(* CIM14/CDPSM/Unbalanced/IEC61970/Wires/BusbarSection.py:23-39 *)
  Cls n_CIM14_CDPSM_Unbalanced_IEC61970_Wires_BusbarSection_BusbarSection n_BusbarSection (Some n_CIM14_CDPSM_Unbalanced_IEC61970_Core_ConductingEquipment_ConductingEquipment)
    []
    []
    true true
    []
    []
    []
    []
    []
    [];
(* CIM14/CDPSM/Unbalanced/IEC61970/Wires/Conductor.py:23-42 *)
  Cls n_CIM14_CDPSM_Unbalanced_IEC61970_Wires_Conductor_Conductor n_Conductor (Some n_CIM14_CDPSM_Unbalanced_IEC61970_Core_ConductingEquipment_ConductingEquipment)
    [(n_length, VFloat n_0_0)]
    [SAttr n_length]
    true true
    [n_length]
    [(n_length, VFloat n_0_0)]
    []
    []
    []
    [];
(* CIM14/CDPSM/Unbalanced/IEC61970/Wires/Disconnector.py:23-38 *)
  Cls n_CIM14_CDPSM_Unbalanced_IEC61970_Wires_Disconnector_Disconnector n_Disconnector (Some n_CIM14_CDPSM_Unbalanced_IEC61970_Wires_Switch_Switch)
    []
    []
    true true
    []
    []
    []
    []
    []
    [];
(* CIM14/CDPSM/Unbalanced/IEC61970/Wires/EnergyConsumer.py:23-79 *)
  Cls n_CIM14_CDPSM_Unbalanced_IEC61970_Wires_EnergyConsumer_EnergyConsumer n_EnergyConsumer (Some n_CIM14_CDPSM_Unbalanced_IEC61970_Core_ConductingEquipment_ConductingEquipment)
    [(n_pfixed, VFloat n_0_0); (n_pfixedPct, VFloat n_0_0); (n_qfixedPct, VFloat n_0_0); (n_qfixed, VFloat n_0_0); (n_customerCount, VInt 0); (n_LoadResponse, VNone)]
    [SAttr n_pfixed; SAttr n_pfixedPct; SAttr n_qfixedPct; SAttr n_qfixed; SAttr n_customerCount; SOne n_LoadResponse]
    true true
    [n_pfixed; n_pfixedPct; n_qfixedPct; n_qfixed; n_customerCount]
    [(n_pfixed, VFloat n_0_0); (n_pfixedPct, VFloat n_0_0); (n_qfixedPct, VFloat n_0_0); (n_qfixed, VFloat n_0_0); (n_customerCount, VInt 0)]
    []
    [n_LoadResponse]
    []
    [(n_LoadResponse, POneMany n_EnergyConsumer)];
(* CIM14/CDPSM/Unbalanced/IEC61970/Wires/EnergySource.py:23-54 *)
  Cls n_CIM14_CDPSM_Unbalanced_IEC61970_Wires_EnergySource_EnergySource n_EnergySource (Some n_CIM14_CDPSM_Unbalanced_IEC61970_Core_ConductingEquipment_ConductingEquipment)
    [(n_x, VFloat n_0_0); (n_voltageMagnitude, VFloat n_0_0); (n_voltageAngle, VFloat n_0_0); (n_nominalVoltage, VFloat n_0_0)]
    [SAttr n_x; SAttr n_voltageMagnitude; SAttr n_voltageAngle; SAttr n_nominalVoltage]
    true true
    [n_x; n_voltageMagnitude; n_voltageAngle; n_nominalVoltage]
    [(n_x, VFloat n_0_0); (n_voltageMagnitude, VFloat n_0_0); (n_voltageAngle, VFloat n_0_0); (n_nominalVoltage, VFloat n_0_0)]
    []
    []
    []
    [];
(* CIM14/CDPSM/Unbalanced/IEC61970/Wires/Fuse.py:23-42 *)
  Cls n_CIM14_CDPSM_Unbalanced_IEC61970_Wires_Fuse_Fuse n_Fuse (Some n_CIM14_CDPSM_Unbalanced_IEC61970_Wires_Switch_Switch)
    [(n_ratingCurrent, VFloat n_0_0)]
    [SAttr n_ratingCurrent]
    true true
    [n_ratingCurrent]
    [(n_ratingCurrent, VFloat n_0_0)]
    []
    []
    []
    [];
(* CIM14/CDPSM/Unbalanced/IEC61970/Wires/Junction.py:23-38 *)
  Cls n_CIM14_CDPSM_Unbalanced_IEC61970_Wires_Junction_Junction n_Junction (Some n_CIM14_CDPSM_Unbalanced_IEC61970_Core_ConductingEquipment_ConductingEquipment)
    []
    []
    true true
    []
    []
    []
    []
    []
    [];
(* CIM14/CDPSM/Unbalanced/IEC61970/Wires/Line.py:23-59 *)
  Cls n_CIM14_CDPSM_Unbalanced_IEC61970_Wires_Line_Line n_Line (Some n_CIM14_CDPSM_Unbalanced_IEC61970_Core_EquipmentContainer_EquipmentContainer)
    [(n_Region, VNone)]
    [SOne n_Region]
    true true
    []
    []
    []
    [n_Region]
    []
    [(n_Region, POneMany n_Lines)];
(* CIM14/CDPSM/Unbalanced/IEC61970/Wires/LoadBreakSwitch.py:23-42 *)
  Cls n_CIM14_CDPSM_Unbalanced_IEC61970_Wires_LoadBreakSwitch_LoadBreakSwitch n_LoadBreakSwitch (Some n_CIM14_CDPSM_Unbalanced_IEC61970_Wires_Switch_Switch)
    [(n_ratedCurrent, VFloat n_0_0)]
    [SAttr n_ratedCurrent]
    true true
    [n_ratedCurrent]
    [(n_ratedCurrent, VFloat n_0_0)]
    []
    []
    []
    [];
(* CIM14/CDPSM/Unbalanced/IEC61970/Wires/RatioTapChanger.py:23-62 *)
  Cls n_CIM14_CDPSM_Unbalanced_IEC61970_Wires_RatioTapChanger_RatioTapChanger n_RatioTapChanger (Some n_CIM14_CDPSM_Unbalanced_IEC61970_Wires_TapChanger_TapChanger)
    [(n_tculControlMode, VStr n_reactive); (n_Winding, VNone)]
    [SAttr n_tculControlMode; SOne n_Winding]
    true true
    [n_tculControlMode]
    [(n_tculControlMode, VStr n_reactive)]
    [(n_tculControlMode, n_TransformerControlMode)]
    [n_Winding]
    []
    [(n_Winding, POneOne n_RatioTapChanger)];
(* CIM14/CDPSM/Unbalanced/IEC61970/Wires/ShuntCompensator.py:23-58 *)
  Cls n_CIM14_CDPSM_Unbalanced_IEC61970_Wires_ShuntCompensator_ShuntCompensator n_ShuntCompensator (Some n_CIM14_CDPSM_Unbalanced_IEC61970_Core_ConductingEquipment_ConductingEquipment)
    [(n_nomQ, VFloat n_0_0); (n_nomU, VFloat n_0_0); (n_normalSections, VInt 0); (n_maximumSections, VInt 0); (n_reactivePerSection, VFloat n_0_0)]
    [SAttr n_nomQ; SAttr n_nomU; SAttr n_normalSections; SAttr n_maximumSections; SAttr n_reactivePerSection]
    true true
    [n_nomQ; n_nomU; n_normalSections; n_maximumSections; n_reactivePerSection]
    [(n_nomQ, VFloat n_0_0); (n_nomU, VFloat n_0_0); (n_normalSections, VInt 0); (n_maximumSections, VInt 0); (n_reactivePerSection, VFloat n_0_0)]
    []
    []
    []
    [];
(* CIM14/CDPSM/Unbalanced/IEC61970/Wires/Switch.py:23-42 *)
  Cls n_CIM14_CDPSM_Unbalanced_IEC61970_Wires_Switch_Switch n_Switch (Some n_CIM14_CDPSM_Unbalanced_IEC61970_Core_ConductingEquipment_ConductingEquipment)
    [(n_normalOpen, VBool false)]
    [SAttr n_normalOpen]
    true true
    [n_normalOpen]
    [(n_normalOpen, VBool false)]
    []
    []
    []
    [];
(* CIM14/CDPSM/Unbalanced/IEC61970/Wires/SynchronousMachine.py:23-79 *)
  Cls n_CIM14_CDPSM_Unbalanced_IEC61970_Wires_SynchronousMachine_SynchronousMachine n_SynchronousMachine (Some n_CIM14_CDPSM_Unbalanced_IEC61970_Core_ConductingEquipment_ConductingEquipment)
    [(n_baseQ, VFloat n_0_0); (n_operatingMode, VStr n_condenser); (n_type, VStr n_condenser); (n_maxQ, VFloat n_0_0); (n_minQ, VFloat n_0_0); (n_GeneratingUnit, VNone)]
    [SAttr n_baseQ; SAttr n_operatingMode; SAttr n_type; SAttr n_maxQ; SAttr n_minQ; SOne n_GeneratingUnit]
    true true
    [n_baseQ; n_operatingMode; n_type; n_maxQ; n_minQ]
    [(n_baseQ, VFloat n_0_0); (n_operatingMode, VStr n_condenser); (n_type, VStr n_condenser); (n_maxQ, VFloat n_0_0); (n_minQ, VFloat n_0_0)]
    [(n_operatingMode, n_SynchronousMachineOperatingMode); (n_type, n_SynchronousMachineType)]
    [n_GeneratingUnit]
    []
    [(n_GeneratingUnit, POneMany n_SynchronousMachines)];
(* CIM14/CDPSM/Unbalanced/IEC61970/Wires/TapChanger.py:23-98 *)
  Cls n_CIM14_CDPSM_Unbalanced_IEC61970_Wires_TapChanger_TapChanger n_TapChanger (Some n_CIM14_CDPSM_Unbalanced_IEC61970_Core_PowerSystemResource_PowerSystemResource)
    [(n_stepVoltageIncrement, VFloat n_0_0); (n_subsequentDelay, VFloat n_0_0); (n_neutralStep, VInt 0); (n_normalStep, VInt 0); (n_ltcFlag, VBool false); (n_neutralU, VFloat n_0_0); (n_lowStep, VInt 0); (n_initialDelay, VFloat n_0_0); (n_regulationStatus, VBool false); (n_highStep, VInt 0); (n_SvTapStep, VNone)]
    [SAttr n_stepVoltageIncrement; SAttr n_subsequentDelay; SAttr n_neutralStep; SAttr n_normalStep; SAttr n_ltcFlag; SAttr n_neutralU; SAttr n_lowStep; SAttr n_initialDelay; SAttr n_regulationStatus; SAttr n_highStep; SOne n_SvTapStep]
    true true
    [n_stepVoltageIncrement; n_subsequentDelay; n_neutralStep; n_normalStep; n_ltcFlag; n_neutralU; n_lowStep; n_initialDelay; n_regulationStatus; n_highStep]
    [(n_stepVoltageIncrement, VFloat n_0_0); (n_subsequentDelay, VFloat n_0_0); (n_neutralStep, VInt 0); (n_normalStep, VInt 0); (n_ltcFlag, VBool false); (n_neutralU, VFloat n_0_0); (n_lowStep, VInt 0); (n_initialDelay, VFloat n_0_0); (n_regulationStatus, VBool false); (n_highStep, VInt 0)]
    []
    [n_SvTapStep]
    []
    [(n_SvTapStep, POneOne n_TapChanger)]
].

(** packageMap, CIM14/CDPSM/Unbalanced/__init__.py:29-91: tag to the class that the package exports under that name. *)
Definition cim14_cdpsm_unbalanced_map : list (name * name) := [
  (n_Element, n_CIM14_CDPSM_Unbalanced_Element_Element);
  (n_DistributionTransformerWinding, n_CIM14_CDPSM_Unbalanced_IEC61968_WiresExt_DistributionTransformerWinding_DistributionTransformerWinding);
  (n_DistributionLineSegment, n_CIM14_CDPSM_Unbalanced_IEC61968_WiresExt_DistributionLineSegment_DistributionLineSegment);
  (n_WindingPiImpedance, n_CIM14_CDPSM_Unbalanced_IEC61968_WiresExt_WindingPiImpedance_WindingPiImpedance);
  (n_DistributionTapChanger, n_CIM14_CDPSM_Unbalanced_IEC61968_WiresExt_DistributionTapChanger_DistributionTapChanger);
  (n_PerLengthSequenceImpedance, n_CIM14_CDPSM_Unbalanced_IEC61968_WiresExt_PerLengthSequenceImpedance_PerLengthSequenceImpedance);
  (n_TransformerBank, n_CIM14_CDPSM_Unbalanced_IEC61968_WiresExt_TransformerBank_TransformerBank);
  (n_PerLengthPhaseImpedance, n_CIM14_CDPSM_Unbalanced_IEC61968_WiresExt_PerLengthPhaseImpedance_PerLengthPhaseImpedance);
  (n_DistributionTransformer, n_CIM14_CDPSM_Unbalanced_IEC61968_WiresExt_DistributionTransformer_DistributionTransformer);
  (n_PhaseImpedanceData, n_CIM14_CDPSM_Unbalanced_IEC61968_WiresExt_PhaseImpedanceData_PhaseImpedanceData);
  (n_TransformerInfo, n_CIM14_CDPSM_Unbalanced_IEC61968_AssetModels_TransformerInfo_TransformerInfo);
  (n_ToWindingSpec, n_CIM14_CDPSM_Unbalanced_IEC61968_AssetModels_ToWindingSpec_ToWindingSpec);
  (n_WireArrangement, n_CIM14_CDPSM_Unbalanced_IEC61968_AssetModels_WireArrangement_WireArrangement);
  (n_CableInfo, n_CIM14_CDPSM_Unbalanced_IEC61968_AssetModels_CableInfo_CableInfo);
  (n_OpenCircuitTest, n_CIM14_CDPSM_Unbalanced_IEC61968_AssetModels_OpenCircuitTest_OpenCircuitTest);
  (n_ConcentricNeutralCableInfo, n_CIM14_CDPSM_Unbalanced_IEC61968_AssetModels_ConcentricNeutralCableInfo_ConcentricNeutralCableInfo);
  (n_ConductorInfo, n_CIM14_CDPSM_Unbalanced_IEC61968_AssetModels_ConductorInfo_ConductorInfo);
  (n_DistributionWindingTest, n_CIM14_CDPSM_Unbalanced_IEC61968_AssetModels_DistributionWindingTest_DistributionWindingTest);
  (n_WireType, n_CIM14_CDPSM_Unbalanced_IEC61968_AssetModels_WireType_WireType);
  (n_WindingInfo, n_CIM14_CDPSM_Unbalanced_IEC61968_AssetModels_WindingInfo_WindingInfo);
  (n_OverheadConductorInfo, n_CIM14_CDPSM_Unbalanced_IEC61968_AssetModels_OverheadConductorInfo_OverheadConductorInfo);
  (n_TapeShieldCableInfo, n_CIM14_CDPSM_Unbalanced_IEC61968_AssetModels_TapeShieldCableInfo_TapeShieldCableInfo);
  (n_ShortCircuitTest, n_CIM14_CDPSM_Unbalanced_IEC61968_AssetModels_ShortCircuitTest_ShortCircuitTest);
  (n_GeoLocation, n_CIM14_CDPSM_Unbalanced_IEC61968_Common_GeoLocation_GeoLocation);
  (n_Location, n_CIM14_CDPSM_Unbalanced_IEC61968_Common_Location_Location);
  (n_PositionPoint, n_CIM14_CDPSM_Unbalanced_IEC61968_Common_PositionPoint_PositionPoint);
  (n_IEC61970CIMVersion, n_CIM14_CDPSM_Unbalanced_IEC61970_IEC61970CIMVersion_IEC61970CIMVersion);
  (n_BusbarSection, n_CIM14_CDPSM_Unbalanced_IEC61970_Wires_BusbarSection_BusbarSection);
  (n_LoadBreakSwitch, n_CIM14_CDPSM_Unbalanced_IEC61970_Wires_LoadBreakSwitch_LoadBreakSwitch);
  (n_TapChanger, n_CIM14_CDPSM_Unbalanced_IEC61970_Wires_TapChanger_TapChanger);
  (n_Fuse, n_CIM14_CDPSM_Unbalanced_IEC61970_Wires_Fuse_Fuse);
  (n_Junction, n_CIM14_CDPSM_Unbalanced_IEC61970_Wires_Junction_Junction);
  (n_ACLineSegment, n_CIM14_CDPSM_Unbalanced_IEC61970_Wires_ACLineSegment_ACLineSegment);
  (n_Disconnector, n_CIM14_CDPSM_Unbalanced_IEC61970_Wires_Disconnector_Disconnector);
  (n_EnergySource, n_CIM14_CDPSM_Unbalanced_IEC61970_Wires_EnergySource_EnergySource);
  (n_SynchronousMachine, n_CIM14_CDPSM_Unbalanced_IEC61970_Wires_SynchronousMachine_SynchronousMachine);
  (n_RatioTapChanger, n_CIM14_CDPSM_Unbalanced_IEC61970_Wires_RatioTapChanger_RatioTapChanger);
  (n_EnergyConsumer, n_CIM14_CDPSM_Unbalanced_IEC61970_Wires_EnergyConsumer_EnergyConsumer);
  (n_Switch, n_CIM14_CDPSM_Unbalanced_IEC61970_Wires_Switch_Switch);
  (n_Line, n_CIM14_CDPSM_Unbalanced_IEC61970_Wires_Line_Line);
  (n_ShuntCompensator, n_CIM14_CDPSM_Unbalanced_IEC61970_Wires_ShuntCompensator_ShuntCompensator);
  (n_Breaker, n_CIM14_CDPSM_Unbalanced_IEC61970_Wires_Breaker_Breaker);
  (n_Conductor, n_CIM14_CDPSM_Unbalanced_IEC61970_Wires_Conductor_Conductor);
  (n_ConnectivityNodeContainer, n_CIM14_CDPSM_Unbalanced_IEC61970_Core_ConnectivityNodeContainer_ConnectivityNodeContainer);
  (n_VoltageLevel, n_CIM14_CDPSM_Unbalanced_IEC61970_Core_VoltageLevel_VoltageLevel);
  (n_Bay, n_CIM14_CDPSM_Unbalanced_IEC61970_Core_Bay_Bay);
  (n_Equipment, n_CIM14_CDPSM_Unbalanced_IEC61970_Core_Equipment_Equipment);
  (n_BaseVoltage, n_CIM14_CDPSM_Unbalanced_IEC61970_Core_BaseVoltage_BaseVoltage);
  (n_PSRType, n_CIM14_CDPSM_Unbalanced_IEC61970_Core_PSRType_PSRType);
  (n_EquipmentContainer, n_CIM14_CDPSM_Unbalanced_IEC61970_Core_EquipmentContainer_EquipmentContainer);
  (n_IdentifiedObject, n_CIM14_CDPSM_Unbalanced_IEC61970_Core_IdentifiedObject_IdentifiedObject);
  (n_Substation, n_CIM14_CDPSM_Unbalanced_IEC61970_Core_Substation_Substation);
  (n_ConductingEquipment, n_CIM14_CDPSM_Unbalanced_IEC61970_Core_ConductingEquipment_ConductingEquipment);
  (n_SubGeographicalRegion, n_CIM14_CDPSM_Unbalanced_IEC61970_Core_SubGeographicalRegion_SubGeographicalRegion);
  (n_Terminal, n_CIM14_CDPSM_Unbalanced_IEC61970_Core_Terminal_Terminal);
  (n_GeographicalRegion, n_CIM14_CDPSM_Unbalanced_IEC61970_Core_GeographicalRegion_GeographicalRegion);
  (n_PowerSystemResource, n_CIM14_CDPSM_Unbalanced_IEC61970_Core_PowerSystemResource_PowerSystemResource);
  (n_GeneratingUnit, n_CIM14_CDPSM_Unbalanced_IEC61970_Generation_Production_GeneratingUnit_GeneratingUnit);
  (n_LoadResponseCharacteristic, n_CIM14_CDPSM_Unbalanced_IEC61970_LoadModel_LoadResponseCharacteristic_LoadResponseCharacteristic);
  (n_SvTapStep, n_CIM14_CDPSM_Unbalanced_IEC61970_StateVariables_SvTapStep_SvTapStep);
  (n_ConnectivityNode, n_CIM14_CDPSM_Unbalanced_IEC61970_Topology_ConnectivityNode_ConnectivityNode)
].

(** nsURI and nsPrefix, CIM14/CDPSM/Unbalanced/__init__.py. *)
Definition cim14_cdpsm_unbalanced_uri : name := n_http___iec_ch_TC57_2009_CIM_schema_cim14_profile_http___iec_ch_TC57_2007_profile_CDPSM_Unbalanced.
Definition cim14_cdpsm_unbalanced_prefix : name := n_unbal.

(** Class table of CIM14.CPSM.Equipment: 97 classes. *)
Definition cim14_cpsm_equipment : schema := [
(* CIM14/CPSM/Equipment/ControlArea/ControlArea.py:23-122 *)
  Cls n_CIM14_CPSM_Equipment_ControlArea_ControlArea_ControlArea n_ControlArea (Some n_CIM14_CPSM_Equipment_Core_PowerSystemResource_PowerSystemResource)
    [(n_netInterchange, VFloat n_0_0); (n_type, VStr n_Interchange); (n_pTolerance, VFloat n_0_0); (n_ControlAreaGeneratingUnit, VNone); (n_EnergyArea, VNone); (n_TieFlow, VNone)]
    [SAttr n_netInterchange; SAttr n_type; SAttr n_pTolerance; SMany n_ControlAreaGeneratingUnit; SOne n_EnergyArea; SMany n_TieFlow]
    true true
    [n_netInterchange; n_type; n_pTolerance]
    [(n_netInterchange, VFloat n_0_0); (n_type, VStr n_Interchange); (n_pTolerance, VFloat n_0_0)]
    [(n_type, n_ControlAreaTypeKind)]
    [n_ControlAreaGeneratingUnit; n_EnergyArea; n_TieFlow]
    [n_ControlAreaGeneratingUnit; n_TieFlow]
    [(n_ControlAreaGeneratingUnit, PManyOne n_ControlArea); (n_EnergyArea, POneOne n_ControlArea); (n_TieFlow, PManyOne n_ControlArea)];
(* CIM14/CPSM/Equipment/ControlArea/ControlAreaGeneratingUnit.py:23-80 *)
  Cls n_CIM14_CPSM_Equipment_ControlArea_ControlAreaGeneratingUnit_ControlAreaGeneratingUnit n_ControlAreaGeneratingUnit (Some n_CIM14_CPSM_Equipment_Element_Element)
    [(n_ControlArea, VNone); (n_GeneratingUnit, VNone)]
    [SOne n_ControlArea; SOne n_GeneratingUnit]
    true true
    []
    []
    []
    [n_ControlArea; n_GeneratingUnit]
    []
    [(n_ControlArea, POneMany n_ControlAreaGeneratingUnit); (n_GeneratingUnit, POneMany n_ControlAreaGeneratingUnit)];
(* CIM14/CPSM/Equipment/ControlArea/TieFlow.py:23-84 *)
  Cls n_CIM14_CPSM_Equipment_ControlArea_TieFlow_TieFlow n_TieFlow (Some n_CIM14_CPSM_Equipment_Element_Element)
    [(n_positiveFlowIn, VBool false); (n_ControlArea, VNone); (n_Terminal, VNone)]
    [SAttr n_positiveFlowIn; SOne n_ControlArea; SOne n_Terminal]
    true true
    [n_positiveFlowIn]
    [(n_positiveFlowIn, VBool false)]
    []
    [n_ControlArea; n_Terminal]
    []
    [(n_ControlArea, POneMany n_TieFlow); (n_Terminal, POneMany n_TieFlow)];
(* CIM14/CPSM/Equipment/Core/BaseVoltage.py:23-94 *)
  Cls n_CIM14_CPSM_Equipment_Core_BaseVoltage_BaseVoltage n_BaseVoltage (Some n_CIM14_CPSM_Equipment_Core_IdentifiedObject_IdentifiedObject)
    [(n_nominalVoltage, VFloat n_0_0); (n_ConductingEquipment, VNone); (n_VoltageLevel, VNone)]
    [SAttr n_nominalVoltage; SMany n_ConductingEquipment; SMany n_VoltageLevel]
    true true
    [n_nominalVoltage]
    [(n_nominalVoltage, VFloat n_0_0)]
    []
    [n_ConductingEquipment; n_VoltageLevel]
    [n_ConductingEquipment; n_VoltageLevel]
    [(n_ConductingEquipment, PManyOne n_BaseVoltage); (n_VoltageLevel, PManyOne n_BaseVoltage)];
(* CIM14/CPSM/Equipment/Core/BasicIntervalSchedule.py:23-50 *)
  Cls n_CIM14_CPSM_Equipment_Core_BasicIntervalSchedule_BasicIntervalSchedule n_BasicIntervalSchedule (Some n_CIM14_CPSM_Equipment_Core_IdentifiedObject_IdentifiedObject)
    [(n_startTime, VStr n_); (n_value1Unit, VStr n_A); (n_value2Unit, VStr n_A)]
    [SAttr n_startTime; SAttr n_value1Unit; SAttr n_value2Unit]
    true true
    [n_startTime; n_value1Unit; n_value2Unit]
    [(n_startTime, VStr n_); (n_value1Unit, VStr n_A); (n_value2Unit, VStr n_A)]
    [(n_value1Unit, n_UnitSymbol); (n_value2Unit, n_UnitSymbol)]
    []
    []
    [];
(* CIM14/CPSM/Equipment/Core/Bay.py:23-59 *)
  Cls n_CIM14_CPSM_Equipment_Core_Bay_Bay n_Bay (Some n_CIM14_CPSM_Equipment_Core_EquipmentContainer_EquipmentContainer)
    [(n_VoltageLevel, VNone)]
    [SOne n_VoltageLevel]
    true true
    []
    []
    []
    [n_VoltageLevel]
    []
    [(n_VoltageLevel, POneMany n_Bays)];
(* CIM14/CPSM/Equipment/Core/ConductingEquipment.py:23-85 *)
  Cls n_CIM14_CPSM_Equipment_Core_ConductingEquipment_ConductingEquipment n_ConductingEquipment (Some n_CIM14_CPSM_Equipment_Core_Equipment_Equipment)
    [(n_Terminals, VNone); (n_BaseVoltage, VNone)]
    [SMany n_Terminals; SOne n_BaseVoltage]
    true true
    []
    []
    []
    [n_Terminals; n_BaseVoltage]
    [n_Terminals]
    [(n_Terminals, PManyOne n_ConductingEquipment); (n_BaseVoltage, POneMany n_ConductingEquipment)];
(* CIM14/CPSM/Equipment/Core/ConnectivityNode.py:23-85 *)
  Cls n_CIM14_CPSM_Equipment_Core_ConnectivityNode_ConnectivityNode n_ConnectivityNode (Some n_CIM14_CPSM_Equipment_Core_IdentifiedObject_IdentifiedObject)
    [(n_Terminals, VNone); (n_ConnectivityNodeContainer, VNone)]
    [SMany n_Terminals; SOne n_ConnectivityNodeContainer]
    true true
    []
    []
    []
    [n_Terminals; n_ConnectivityNodeContainer]
    [n_Terminals]
    [(n_Terminals, PManyOne n_ConnectivityNode); (n_ConnectivityNodeContainer, POneMany n_ConnectivityNodes)];
(* CIM14/CPSM/Equipment/Core/ConnectivityNodeContainer.py:23-64 *)
  Cls n_CIM14_CPSM_Equipment_Core_ConnectivityNodeContainer_ConnectivityNodeContainer n_ConnectivityNodeContainer (Some n_CIM14_CPSM_Equipment_Core_PowerSystemResource_PowerSystemResource)
    [(n_ConnectivityNodes, VNone)]
    [SMany n_ConnectivityNodes]
    true true
    []
    []
    []
    [n_ConnectivityNodes]
    [n_ConnectivityNodes]
    [(n_ConnectivityNodes, PManyOne n_ConnectivityNodeContainer)];
(* CIM14/CPSM/Equipment/Core/Curve.py:23-84 *)
  Cls n_CIM14_CPSM_Equipment_Core_Curve_Curve n_Curve (Some n_CIM14_CPSM_Equipment_Core_IdentifiedObject_IdentifiedObject)
    [(n_y1Unit, VStr n_A); (n_y2Unit, VStr n_A); (n_y3Unit, VStr n_A); (n_curveStyle, VStr n_straightLineYValues); (n_xUnit, VStr n_A); (n_CurveDatas, VNone)]
    [SAttr n_y1Unit; SAttr n_y2Unit; SAttr n_y3Unit; SAttr n_curveStyle; SAttr n_xUnit; SMany n_CurveDatas]
    true true
    [n_y1Unit; n_y2Unit; n_y3Unit; n_curveStyle; n_xUnit]
    [(n_y1Unit, VStr n_A); (n_y2Unit, VStr n_A); (n_y3Unit, VStr n_A); (n_curveStyle, VStr n_straightLineYValues); (n_xUnit, VStr n_A)]
    [(n_y1Unit, n_UnitSymbol); (n_y2Unit, n_UnitSymbol); (n_y3Unit, n_UnitSymbol); (n_curveStyle, n_CurveStyle); (n_xUnit, n_UnitSymbol)]
    [n_CurveDatas]
    [n_CurveDatas]
    [(n_CurveDatas, PManyOne n_Curve)];
(* CIM14/CPSM/Equipment/Core/CurveData.py:23-75 *)
  Cls n_CIM14_CPSM_Equipment_Core_CurveData_CurveData n_CurveData (Some n_CIM14_CPSM_Equipment_Element_Element)
    [(n_y1value, VFloat n_0_0); (n_xvalue, VFloat n_0_0); (n_y3value, VFloat n_0_0); (n_y2value, VFloat n_0_0); (n_Curve, VNone)]
    [SAttr n_y1value; SAttr n_xvalue; SAttr n_y3value; SAttr n_y2value; SOne n_Curve]
    true true
    [n_y1value; n_xvalue; n_y3value; n_y2value]
    [(n_y1value, VFloat n_0_0); (n_xvalue, VFloat n_0_0); (n_y3value, VFloat n_0_0); (n_y2value, VFloat n_0_0)]
    []
    [n_Curve]
    []
    [(n_Curve, POneMany n_CurveDatas)];
(* CIM14/CPSM/Equipment/Core/Equipment.py:23-89 *)
  Cls n_CIM14_CPSM_Equipment_Core_Equipment_Equipment n_Equipment (Some n_CIM14_CPSM_Equipment_Core_PowerSystemResource_PowerSystemResource)
    [(n_aggregate, VBool false); (n_OperationalLimitSet, VNone); (n_EquipmentContainer, VNone)]
    [SAttr n_aggregate; SMany n_OperationalLimitSet; SOne n_EquipmentContainer]
    true true
    [n_aggregate]
    [(n_aggregate, VBool false)]
    []
    [n_OperationalLimitSet; n_EquipmentContainer]
    [n_OperationalLimitSet]
    [(n_OperationalLimitSet, PManyOne n_Equipment); (n_EquipmentContainer, POneMany n_Equipments)];
(* CIM14/CPSM/Equipment/Core/EquipmentContainer.py:23-64 *)
  Cls n_CIM14_CPSM_Equipment_Core_EquipmentContainer_EquipmentContainer n_EquipmentContainer (Some n_CIM14_CPSM_Equipment_Core_ConnectivityNodeContainer_ConnectivityNodeContainer)
    [(n_Equipments, VNone)]
    [SMany n_Equipments]
    true true
    []
    []
    []
    [n_Equipments]
    [n_Equipments]
    [(n_Equipments, PManyOne n_EquipmentContainer)];
(* CIM14/CPSM/Equipment/Core/GeographicalRegion.py:23-64 *)
  Cls n_CIM14_CPSM_Equipment_Core_GeographicalRegion_GeographicalRegion n_GeographicalRegion (Some n_CIM14_CPSM_Equipment_Core_IdentifiedObject_IdentifiedObject)
    [(n_Regions, VNone)]
    [SMany n_Regions]
    true true
    []
    []
    []
    [n_Regions]
    [n_Regions]
    [(n_Regions, PManyOne n_Region)];
(* CIM14/CPSM/Equipment/Core/IdentifiedObject.py:23-54 *)
  Cls n_CIM14_CPSM_Equipment_Core_IdentifiedObject_IdentifiedObject n_IdentifiedObject (Some n_CIM14_CPSM_Equipment_Element_Element)
    [(n_description, VStr n_); (n_name, VStr n_); (n_aliasName, VStr n_); (n_pathName, VStr n_)]
    [SAttr n_description; SAttr n_name; SAttr n_aliasName; SAttr n_pathName]
    true true
    [n_description; n_name; n_aliasName; n_pathName]
    [(n_description, VStr n_); (n_name, VStr n_); (n_aliasName, VStr n_); (n_pathName, VStr n_)]
    []
    []
    []
    [];
(* CIM14/CPSM/Equipment/Core/PowerSystemResource.py:23-64 *)
  Cls n_CIM14_CPSM_Equipment_Core_PowerSystemResource_PowerSystemResource n_PowerSystemResource (Some n_CIM14_CPSM_Equipment_Core_IdentifiedObject_IdentifiedObject)
    [(n_Measurements, VNone)]
    [SMany n_Measurements]
    true true
    []
    []
    []
    [n_Measurements]
    [n_Measurements]
    [(n_Measurements, PManyOne n_PowerSystemResource)];
(* CIM14/CPSM/Equipment/Core/RegularIntervalSchedule.py:23-72 *)
  Cls n_CIM14_CPSM_Equipment_Core_RegularIntervalSchedule_RegularIntervalSchedule n_RegularIntervalSchedule (Some n_CIM14_CPSM_Equipment_Core_BasicIntervalSchedule_BasicIntervalSchedule)
    [(n_timeStep, VFloat n_0_0); (n_endTime, VStr n_); (n_TimePoints, VNone)]
    [SAttr n_timeStep; SAttr n_endTime; SMany n_TimePoints]
    true true
    [n_timeStep; n_endTime]
    [(n_timeStep, VFloat n_0_0); (n_endTime, VStr n_)]
    []
    [n_TimePoints]
    [n_TimePoints]
    [(n_TimePoints, PManyOne n_IntervalSchedule)];
(* CIM14/CPSM/Equipment/Core/RegularTimePoint.py:23-71 *)
  Cls n_CIM14_CPSM_Equipment_Core_RegularTimePoint_RegularTimePoint n_RegularTimePoint (Some n_CIM14_CPSM_Equipment_Element_Element)
    [(n_sequenceNumber, VInt 0); (n_value1, VFloat n_0_0); (n_value2, VFloat n_0_0); (n_IntervalSchedule, VNone)]
    [SAttr n_sequenceNumber; SAttr n_value1; SAttr n_value2; SOne n_IntervalSchedule]
    true true
    [n_sequenceNumber; n_value1; n_value2]
    [(n_sequenceNumber, VInt 0); (n_value1, VFloat n_0_0); (n_value2, VFloat n_0_0)]
    []
    [n_IntervalSchedule]
    []
    [(n_IntervalSchedule, POneMany n_TimePoints)];
(* CIM14/CPSM/Equipment/Core/SubGeographicalRegion.py:23-111 *)
  Cls n_CIM14_CPSM_Equipment_Core_SubGeographicalRegion_SubGeographicalRegion n_SubGeographicalRegion (Some n_CIM14_CPSM_Equipment_Core_IdentifiedObject_IdentifiedObject)
    [(n_Region, VNone); (n_Lines, VNone); (n_Substations, VNone)]
    [SOne n_Region; SMany n_Lines; SMany n_Substations]
    true true
    []
    []
    []
    [n_Region; n_Lines; n_Substations]
    [n_Lines; n_Substations]
    [(n_Region, POneMany n_Regions); (n_Lines, PManyOne n_Region); (n_Substations, PManyOne n_Region)];
(* CIM14/CPSM/Equipment/Core/Substation.py:23-85 *)
  Cls n_CIM14_CPSM_Equipment_Core_Substation_Substation n_Substation (Some n_CIM14_CPSM_Equipment_Core_EquipmentContainer_EquipmentContainer)
    [(n_Region, VNone); (n_VoltageLevels, VNone)]
    [SOne n_Region; SMany n_VoltageLevels]
    true true
    []
    []
    []
    [n_Region; n_VoltageLevels]
    [n_VoltageLevels]
    [(n_Region, POneMany n_Substations); (n_VoltageLevels, PManyOne n_Substation)];
(* CIM14/CPSM/Equipment/Core/Terminal.py:23-240 *)
  Cls n_CIM14_CPSM_Equipment_Core_Terminal_Terminal n_Terminal (Some n_CIM14_CPSM_Equipment_Core_IdentifiedObject_IdentifiedObject)
    [(n_sequenceNumber, VInt 0); (n_OperationalLimitSet, VNone); (n_ConductingEquipment, VNone); (n_HasFirst_MutualCoupling, VNone); (n_Measurements, VNone); (n_ConnectivityNode, VNone); (n_RegulatingControl, VNone); (n_TieFlow, VNone); (n_HasSecond_MutualCoupling, VNone)]
    [SAttr n_sequenceNumber; SMany n_OperationalLimitSet; SOne n_ConductingEquipment; SMany n_HasFirst_MutualCoupling; SMany n_Measurements; SOne n_ConnectivityNode; SMany n_RegulatingControl; SMany n_TieFlow; SMany n_HasSecond_MutualCoupling]
    true true
    [n_sequenceNumber]
    [(n_sequenceNumber, VInt 0)]
    []
    [n_OperationalLimitSet; n_ConductingEquipment; n_HasFirst_MutualCoupling; n_Measurements; n_ConnectivityNode; n_RegulatingControl; n_TieFlow; n_HasSecond_MutualCoupling]
    [n_OperationalLimitSet; n_HasFirst_MutualCoupling; n_Measurements; n_RegulatingControl; n_TieFlow; n_HasSecond_MutualCoupling]
    [(n_OperationalLimitSet, PManyOne n_Terminal); (n_ConductingEquipment, POneMany n_Terminals); (n_HasFirst_MutualCoupling, PManyOne n_First_Terminal); (n_Measurements, PManyOne n_Terminal); (n_ConnectivityNode, POneMany n_Terminals); (n_RegulatingControl, PManyOne n_Terminal); (n_TieFlow, PManyOne n_Terminal); (n_HasSecond_MutualCoupling, PManyOne n_Second_Terminal)];
(* CIM14/CPSM/Equipment/Core/Unit.py:23-64 *)
  Cls n_CIM14_CPSM_Equipment_Core_Unit_Unit n_Unit (Some n_CIM14_CPSM_Equipment_Core_IdentifiedObject_IdentifiedObject)
    [(n_Measurements, VNone)]
    [SMany n_Measurements]
    true true
    []
    []
    []
    [n_Measurements]
    [n_Measurements]
    [(n_Measurements, PManyOne n_Unit)];
(* CIM14/CPSM/Equipment/Core/VoltageLevel.py:23-114 *)
  Cls n_CIM14_CPSM_Equipment_Core_VoltageLevel_VoltageLevel n_VoltageLevel (Some n_CIM14_CPSM_Equipment_Core_EquipmentContainer_EquipmentContainer)
    [(n_lowVoltageLimit, VFloat n_0_0); (n_highVoltageLimit, VFloat n_0_0); (n_BaseVoltage, VNone); (n_Bays, VNone); (n_Substation, VNone)]
    [SAttr n_lowVoltageLimit; SAttr n_highVoltageLimit; SOne n_BaseVoltage; SMany n_Bays; SOne n_Substation]
    true true
    [n_lowVoltageLimit; n_highVoltageLimit]
    [(n_lowVoltageLimit, VFloat n_0_0); (n_highVoltageLimit, VFloat n_0_0)]
    []
    [n_BaseVoltage; n_Bays; n_Substation]
    [n_Bays]
    [(n_BaseVoltage, POneMany n_VoltageLevel); (n_Bays, PManyOne n_VoltageLevel); (n_Substation, POneMany n_VoltageLevels)];
(* CIM14/CPSM/Equipment/Element.py:22-38 *)
  Cls n_CIM14_CPSM_Equipment_Element_Element n_Element None
    [(n_UUID, VStr n_)]
    [SAttr n_UUID]
    false true
    [n_UUID]
    [(n_UUID, VStr n_)]
    []
    []
    []
    [];
(* CIM14/CPSM/Equipment/Equivalents/EquivalentBranch.py:23-46 *)
  Cls n_CIM14_CPSM_Equipment_Equivalents_EquivalentBranch_EquivalentBranch n_EquivalentBranch (Some n_CIM14_CPSM_Equipment_Equivalents_EquivalentEquipment_EquivalentEquipment)
    [(n_r, VFloat n_0_0); (n_x, VFloat n_0_0)]
    [SAttr n_r; SAttr n_x]
    true true
    [n_r; n_x]
    [(n_r, VFloat n_0_0); (n_x, VFloat n_0_0)]
    []
    []
    []
    [];
(* CIM14/CPSM/Equipment/Equivalents/EquivalentEquipment.py:23-59 *)
  Cls n_CIM14_CPSM_Equipment_Equivalents_EquivalentEquipment_EquivalentEquipment n_EquivalentEquipment (Some n_CIM14_CPSM_Equipment_Core_ConductingEquipment_ConductingEquipment)
    [(n_EquivalentNetwork, VNone)]
    [SOne n_EquivalentNetwork]
    true true
    []
    []
    []
    [n_EquivalentNetwork]
    []
    [(n_EquivalentNetwork, POneMany n_EquivalentEquipments)];
(* CIM14/CPSM/Equipment/Equivalents/EquivalentInjection.py:23-58 *)
  Cls n_CIM14_CPSM_Equipment_Equivalents_EquivalentInjection_EquivalentInjection n_EquivalentInjection (Some n_CIM14_CPSM_Equipment_Equivalents_EquivalentEquipment_EquivalentEquipment)
    [(n_regulationCapability, VBool false); (n_maxP, VFloat n_0_0); (n_regulationStatus, VBool false); (n_minP, VFloat n_0_0); (n_regulationTarget, VFloat n_0_0)]
    [SAttr n_regulationCapability; SAttr n_maxP; SAttr n_regulationStatus; SAttr n_minP; SAttr n_regulationTarget]
    true true
    [n_regulationCapability; n_maxP; n_regulationStatus; n_minP; n_regulationTarget]
    [(n_regulationCapability, VBool false); (n_maxP, VFloat n_0_0); (n_regulationStatus, VBool false); (n_minP, VFloat n_0_0); (n_regulationTarget, VFloat n_0_0)]
    []
    []
    []
    [];
(* CIM14/CPSM/Equipment/Equivalents/EquivalentNetwork.py:23-64 *)
  Cls n_CIM14_CPSM_Equipment_Equivalents_EquivalentNetwork_EquivalentNetwork n_EquivalentNetwork (Some n_CIM14_CPSM_Equipment_Core_ConnectivityNodeContainer_ConnectivityNodeContainer)
    [(n_EquivalentEquipments, VNone)]
    [SMany n_EquivalentEquipments]
    true true
    []
    []
    []
    [n_EquivalentEquipments]
    [n_EquivalentEquipments]
    [(n_EquivalentEquipments, PManyOne n_EquivalentNetwork)];
(* CIM14/CPSM/Equipment/Equivalents/EquivalentShunt.py:23-46 *)
  Cls n_CIM14_CPSM_Equipment_Equivalents_EquivalentShunt_EquivalentShunt n_EquivalentShunt (Some n_CIM14_CPSM_Equipment_Equivalents_EquivalentEquipment_EquivalentEquipment)
    [(n_b, VFloat n_0_0); (n_g, VFloat n_0_0)]
    [SAttr n_b; SAttr n_g]
    true true
    [n_b; n_g]
    [(n_b, VFloat n_0_0); (n_g, VFloat n_0_0)]
    []
    []
    []
    [];
(* CIM14/CPSM/Equipment/Generation/Production/FossilFuel.py:23-62 *)
  Cls n_CIM14_CPSM_Equipment_Generation_Production_FossilFuel_FossilFuel n_FossilFuel (Some n_CIM14_CPSM_Equipment_Core_IdentifiedObject_IdentifiedObject)
    [(n_fossilFuelType, VStr n_oil); (n_ThermalGeneratingUnit, VNone)]
    [SAttr n_fossilFuelType; SOne n_ThermalGeneratingUnit]
    true true
    [n_fossilFuelType]
    [(n_fossilFuelType, VStr n_oil)]
    [(n_fossilFuelType, n_FuelType)]
    [n_ThermalGeneratingUnit]
    []
    [(n_ThermalGeneratingUnit, POneOne n_FossilFuels)];
(* CIM14/CPSM/Equipment/Generation/Production/GeneratingUnit.py:23-176 *)
  Cls n_CIM14_CPSM_Equipment_Generation_Production_GeneratingUnit_GeneratingUnit n_GeneratingUnit (Some n_CIM14_CPSM_Equipment_Core_Equipment_Equipment)
    [(n_maxOperatingP, VFloat n_0_0); (n_ratedGrossMaxP, VFloat n_0_0); (n_variableCost, VFloat n_0_0); (n_minOperatingP, VFloat n_0_0); (n_ratedGrossMinP, VFloat n_0_0); (n_shortPF, VFloat n_0_0); (n_ratedNetMaxP, VFloat n_0_0); (n_longPF, VFloat n_0_0); (n_startupCost, VFloat n_0_0); (n_genControlSource, VStr n_onAGC); (n_nominalP, VFloat n_0_0); (n_governorSCD, VFloat n_0_0); (n_maximumAllowableSpinningReserve, VFloat n_0_0); (n_initialP, VFloat n_0_0); (n_normalPF, VFloat n_0_0); (n_SynchronousMachines, VNone); (n_ControlAreaGeneratingUnit, VNone); (n_GrossToNetActivePowerCurves, VNone)]
    [SAttr n_maxOperatingP; SAttr n_ratedGrossMaxP; SAttr n_variableCost; SAttr n_minOperatingP; SAttr n_ratedGrossMinP; SAttr n_shortPF; SAttr n_ratedNetMaxP; SAttr n_longPF; SAttr n_startupCost; SAttr n_genControlSource; SAttr n_nominalP; SAttr n_governorSCD; SAttr n_maximumAllowableSpinningReserve; SAttr n_initialP; SAttr n_normalPF; SMany n_SynchronousMachines; SMany n_ControlAreaGeneratingUnit; SMany n_GrossToNetActivePowerCurves]
    true true
    [n_maxOperatingP; n_ratedGrossMaxP; n_variableCost; n_minOperatingP; n_ratedGrossMinP; n_shortPF; n_ratedNetMaxP; n_longPF; n_startupCost; n_genControlSource; n_nominalP; n_governorSCD; n_maximumAllowableSpinningReserve; n_initialP; n_normalPF]
    [(n_maxOperatingP, VFloat n_0_0); (n_ratedGrossMaxP, VFloat n_0_0); (n_variableCost, VFloat n_0_0); (n_minOperatingP, VFloat n_0_0); (n_ratedGrossMinP, VFloat n_0_0); (n_shortPF, VFloat n_0_0); (n_ratedNetMaxP, VFloat n_0_0); (n_longPF, VFloat n_0_0); (n_startupCost, VFloat n_0_0); (n_genControlSource, VStr n_onAGC); (n_nominalP, VFloat n_0_0); (n_governorSCD, VFloat n_0_0); (n_maximumAllowableSpinningReserve, VFloat n_0_0); (n_initialP, VFloat n_0_0); (n_normalPF, VFloat n_0_0)]
    [(n_genControlSource, n_GeneratorControlSource)]
    [n_SynchronousMachines; n_ControlAreaGeneratingUnit; n_GrossToNetActivePowerCurves]
    [n_SynchronousMachines; n_ControlAreaGeneratingUnit; n_GrossToNetActivePowerCurves]
    [(n_SynchronousMachines, PManyOne n_GeneratingUnit); (n_ControlAreaGeneratingUnit, PManyOne n_GeneratingUnit); (n_GrossToNetActivePowerCurves, PManyOne n_GeneratingUnit)];
(* CIM14/CPSM/Equipment/Generation/Production/GrossToNetActivePowerCurve.py:23-59 *)
  Cls n_CIM14_CPSM_Equipment_Generation_Production_GrossToNetActivePowerCurve_GrossToNetActivePowerCurve n_GrossToNetActivePowerCurve (Some n_CIM14_CPSM_Equipment_Core_Curve_Curve)
    [(n_GeneratingUnit, VNone)]
    [SOne n_GeneratingUnit]
    true true
    []
    []
    []
    [n_GeneratingUnit]
    []
    [(n_GeneratingUnit, POneMany n_GrossToNetActivePowerCurves)];
(* CIM14/CPSM/Equipment/Generation/Production/HydroGeneratingUnit.py:23-38 *)
  Cls n_CIM14_CPSM_Equipment_Generation_Production_HydroGeneratingUnit_HydroGeneratingUnit n_HydroGeneratingUnit (Some n_CIM14_CPSM_Equipment_Generation_Production_GeneratingUnit_GeneratingUnit)
    []
    []
    true true
    []
    []
    []
    []
    []
    [];
(* CIM14/CPSM/Equipment/Generation/Production/HydroPump.py:23-58 *)
  Cls n_CIM14_CPSM_Equipment_Generation_Production_HydroPump_HydroPump n_HydroPump (Some n_CIM14_CPSM_Equipment_Core_PowerSystemResource_PowerSystemResource)
    [(n_SynchronousMachine, VNone)]
    [SOne n_SynchronousMachine]
    true true
    []
    []
    []
    [n_SynchronousMachine]
    []
    [(n_SynchronousMachine, POneOne n_HydroPump)];
(* CIM14/CPSM/Equipment/Generation/Production/NuclearGeneratingUnit.py:23-38 *)
  Cls n_CIM14_CPSM_Equipment_Generation_Production_NuclearGeneratingUnit_NuclearGeneratingUnit n_NuclearGeneratingUnit (Some n_CIM14_CPSM_Equipment_Generation_Production_GeneratingUnit_GeneratingUnit)
    []
    []
    true true
    []
    []
    []
    []
    []
    [];
(* CIM14/CPSM/Equipment/Generation/Production/ThermalGeneratingUnit.py:23-58 *)
  Cls n_CIM14_CPSM_Equipment_Generation_Production_ThermalGeneratingUnit_ThermalGeneratingUnit n_ThermalGeneratingUnit (Some n_CIM14_CPSM_Equipment_Generation_Production_GeneratingUnit_GeneratingUnit)
    [(n_FossilFuels, VNone)]
    [SOne n_FossilFuels]
    true true
    []
    []
    []
    [n_FossilFuels]
    []
    [(n_FossilFuels, POneOne n_ThermalGeneratingUnit)];
(* CIM14/CPSM/Equipment/Generation/Production/WindGeneratingUnit.py:23-38 *)
  Cls n_CIM14_CPSM_Equipment_Generation_Production_WindGeneratingUnit_WindGeneratingUnit n_WindGeneratingUnit (Some n_CIM14_CPSM_Equipment_Generation_Production_GeneratingUnit_GeneratingUnit)
    []
    []
    true true
    []
    []
    []
    []
    []
    [];
(* CIM14/CPSM/Equipment/IEC61970CIMVersion.py:23-46 *)
  Cls n_CIM14_CPSM_Equipment_IEC61970CIMVersion_IEC61970CIMVersion n_IEC61970CIMVersion (Some n_CIM14_CPSM_Equipment_Element_Element)
    [(n_date, VStr n_); (n_version, VStr n_)]
    [SAttr n_date; SAttr n_version]
    true true
    [n_date; n_version]
    [(n_date, VStr n_); (n_version, VStr n_)]
    []
    []
    []
    [];
(* CIM14/CPSM/Equipment/LoadModel/ConformLoad.py:23-59 *)
  Cls n_CIM14_CPSM_Equipment_LoadModel_ConformLoad_ConformLoad n_ConformLoad (Some n_CIM14_CPSM_Equipment_Wires_EnergyConsumer_EnergyConsumer)
    [(n_LoadGroup, VNone)]
    [SOne n_LoadGroup]
    true true
    []
    []
    []
    [n_LoadGroup]
    []
    [(n_LoadGroup, POneMany n_EnergyConsumers)];
(* CIM14/CPSM/Equipment/LoadModel/ConformLoadGroup.py:23-90 *)
  Cls n_CIM14_CPSM_Equipment_LoadModel_ConformLoadGroup_ConformLoadGroup n_ConformLoadGroup (Some n_CIM14_CPSM_Equipment_LoadModel_LoadGroup_LoadGroup)
    [(n_EnergyConsumers, VNone); (n_ConformLoadSchedules, VNone)]
    [SMany n_EnergyConsumers; SMany n_ConformLoadSchedules]
    true true
    []
    []
    []
    [n_EnergyConsumers; n_ConformLoadSchedules]
    [n_EnergyConsumers; n_ConformLoadSchedules]
    [(n_EnergyConsumers, PManyOne n_LoadGroup); (n_ConformLoadSchedules, PManyOne n_ConformLoadGroup)];
(* CIM14/CPSM/Equipment/LoadModel/ConformLoadSchedule.py:23-59 *)
  Cls n_CIM14_CPSM_Equipment_LoadModel_ConformLoadSchedule_ConformLoadSchedule n_ConformLoadSchedule (Some n_CIM14_CPSM_Equipment_LoadModel_SeasonDayTypeSchedule_SeasonDayTypeSchedule)
    [(n_ConformLoadGroup, VNone)]
    [SOne n_ConformLoadGroup]
    true true
    []
    []
    []
    [n_ConformLoadGroup]
    []
    [(n_ConformLoadGroup, POneMany n_ConformLoadSchedules)];
(* CIM14/CPSM/Equipment/LoadModel/DayType.py:23-64 *)
  Cls n_CIM14_CPSM_Equipment_LoadModel_DayType_DayType n_DayType (Some n_CIM14_CPSM_Equipment_Core_IdentifiedObject_IdentifiedObject)
    [(n_SeasonDayTypeSchedules, VNone)]
    [SMany n_SeasonDayTypeSchedules]
    true true
    []
    []
    []
    [n_SeasonDayTypeSchedules]
    [n_SeasonDayTypeSchedules]
    [(n_SeasonDayTypeSchedules, PManyOne n_DayType)];
(* CIM14/CPSM/Equipment/LoadModel/EnergyArea.py:23-58 *)
  Cls n_CIM14_CPSM_Equipment_LoadModel_EnergyArea_EnergyArea n_EnergyArea (Some n_CIM14_CPSM_Equipment_Core_IdentifiedObject_IdentifiedObject)
    [(n_ControlArea, VNone)]
    [SOne n_ControlArea]
    true true
    []
    []
    []
    [n_ControlArea]
    []
    [(n_ControlArea, POneOne n_EnergyArea)];
(* CIM14/CPSM/Equipment/LoadModel/LoadArea.py:23-64 *)
  Cls n_CIM14_CPSM_Equipment_LoadModel_LoadArea_LoadArea n_LoadArea (Some n_CIM14_CPSM_Equipment_LoadModel_EnergyArea_EnergyArea)
    [(n_SubLoadAreas, VNone)]
    [SMany n_SubLoadAreas]
    true true
    []
    []
    []
    [n_SubLoadAreas]
    [n_SubLoadAreas]
    [(n_SubLoadAreas, PManyOne n_LoadArea)];
(* CIM14/CPSM/Equipment/LoadModel/LoadGroup.py:23-59 *)
  Cls n_CIM14_CPSM_Equipment_LoadModel_LoadGroup_LoadGroup n_LoadGroup (Some n_CIM14_CPSM_Equipment_Core_IdentifiedObject_IdentifiedObject)
    [(n_SubLoadArea, VNone)]
    [SOne n_SubLoadArea]
    true true
    []
    []
    []
    [n_SubLoadArea]
    []
    [(n_SubLoadArea, POneMany n_LoadGroups)];
(* CIM14/CPSM/Equipment/LoadModel/LoadResponseCharacteristic.py:23-108 *)
  Cls n_CIM14_CPSM_Equipment_LoadModel_LoadResponseCharacteristic_LoadResponseCharacteristic n_LoadResponseCharacteristic (Some n_CIM14_CPSM_Equipment_Core_IdentifiedObject_IdentifiedObject)
    [(n_pVoltageExponent, VFloat n_0_0); (n_qConstantCurrent, VFloat n_0_0); (n_pFrequencyExponent, VFloat n_0_0); (n_exponentModel, VBool false); (n_qConstantImpedance, VFloat n_0_0); (n_pConstantCurrent, VFloat n_0_0); (n_qFrequencyExponent, VFloat n_0_0); (n_pConstantPower, VFloat n_0_0); (n_qVoltageExponent, VFloat n_0_0); (n_qConstantPower, VFloat n_0_0); (n_pConstantImpedance, VFloat n_0_0); (n_EnergyConsumer, VNone)]
    [SAttr n_pVoltageExponent; SAttr n_qConstantCurrent; SAttr n_pFrequencyExponent; SAttr n_exponentModel; SAttr n_qConstantImpedance; SAttr n_pConstantCurrent; SAttr n_qFrequencyExponent; SAttr n_pConstantPower; SAttr n_qVoltageExponent; SAttr n_qConstantPower; SAttr n_pConstantImpedance; SMany n_EnergyConsumer]
    true true
    [n_pVoltageExponent; n_qConstantCurrent; n_pFrequencyExponent; n_exponentModel; n_qConstantImpedance; n_pConstantCurrent; n_qFrequencyExponent; n_pConstantPower; n_qVoltageExponent; n_qConstantPower; n_pConstantImpedance]
    [(n_pVoltageExponent, VFloat n_0_0); (n_qConstantCurrent, VFloat n_0_0); (n_pFrequencyExponent, VFloat n_0_0); (n_exponentModel, VBool false); (n_qConstantImpedance, VFloat n_0_0); (n_pConstantCurrent, VFloat n_0_0); (n_qFrequencyExponent, VFloat n_0_0); (n_pConstantPower, VFloat n_0_0); (n_qVoltageExponent, VFloat n_0_0); (n_qConstantPower, VFloat n_0_0); (n_pConstantImpedance, VFloat n_0_0)]
    []
    [n_EnergyConsumer]
    [n_EnergyConsumer]
    [(n_EnergyConsumer, PManyOne n_LoadResponse)];
(* CIM14/CPSM/Equipment/LoadModel/NonConformLoad.py:23-59 *)
  Cls n_CIM14_CPSM_Equipment_LoadModel_NonConformLoad_NonConformLoad n_NonConformLoad (Some n_CIM14_CPSM_Equipment_Wires_EnergyConsumer_EnergyConsumer)
    [(n_LoadGroup, VNone)]
    [SOne n_LoadGroup]
    true true
    []
    []
    []
    [n_LoadGroup]
    []
    [(n_LoadGroup, POneMany n_EnergyConsumers)];
(* CIM14/CPSM/Equipment/LoadModel/NonConformLoadGroup.py:23-90 *)
  Cls n_CIM14_CPSM_Equipment_LoadModel_NonConformLoadGroup_NonConformLoadGroup n_NonConformLoadGroup (Some n_CIM14_CPSM_Equipment_LoadModel_LoadGroup_LoadGroup)
    [(n_NonConformLoadSchedules, VNone); (n_EnergyConsumers, VNone)]
    [SMany n_NonConformLoadSchedules; SMany n_EnergyConsumers]
    true true
    []
    []
    []
    [n_NonConformLoadSchedules; n_EnergyConsumers]
    [n_NonConformLoadSchedules; n_EnergyConsumers]
    [(n_NonConformLoadSchedules, PManyOne n_NonConformLoadGroup); (n_EnergyConsumers, PManyOne n_LoadGroup)];
(* CIM14/CPSM/Equipment/LoadModel/NonConformLoadSchedule.py:23-59 *)
  Cls n_CIM14_CPSM_Equipment_LoadModel_NonConformLoadSchedule_NonConformLoadSchedule n_NonConformLoadSchedule (Some n_CIM14_CPSM_Equipment_LoadModel_SeasonDayTypeSchedule_SeasonDayTypeSchedule)
    [(n_NonConformLoadGroup, VNone)]
    [SOne n_NonConformLoadGroup]
    true true
    []
    []
    []
    [n_NonConformLoadGroup]
    []
    [(n_NonConformLoadGroup, POneMany n_NonConformLoadSchedules)];
(* CIM14/CPSM/Equipment/LoadModel/Season.py:23-76 *)
  Cls n_CIM14_CPSM_Equipment_LoadModel_Season_Season n_Season (Some n_CIM14_CPSM_Equipment_Element_Element)
    [(n_startDate, VStr n_); (n_endDate, VStr n_); (n_name, VStr n_fall); (n_SeasonDayTypeSchedules, VNone)]
    [SAttr n_startDate; SAttr n_endDate; SAttr n_name; SMany n_SeasonDayTypeSchedules]
    true true
    [n_startDate; n_endDate; n_name]
    [(n_startDate, VStr n_); (n_endDate, VStr n_); (n_name, VStr n_fall)]
    [(n_name, n_SeasonName)]
    [n_SeasonDayTypeSchedules]
    [n_SeasonDayTypeSchedules]
    [(n_SeasonDayTypeSchedules, PManyOne n_Season)];
(* CIM14/CPSM/Equipment/LoadModel/SeasonDayTypeSchedule.py:23-80 *)
  Cls n_CIM14_CPSM_Equipment_LoadModel_SeasonDayTypeSchedule_SeasonDayTypeSchedule n_SeasonDayTypeSchedule (Some n_CIM14_CPSM_Equipment_Core_RegularIntervalSchedule_RegularIntervalSchedule)
    [(n_DayType, VNone); (n_Season, VNone)]
    [SOne n_DayType; SOne n_Season]
    true true
    []
    []
    []
    [n_DayType; n_Season]
    []
    [(n_DayType, POneMany n_SeasonDayTypeSchedules); (n_Season, POneMany n_SeasonDayTypeSchedules)];
(* CIM14/CPSM/Equipment/LoadModel/StationSupply.py:23-38 *)
  Cls n_CIM14_CPSM_Equipment_LoadModel_StationSupply_StationSupply n_StationSupply (Some n_CIM14_CPSM_Equipment_Wires_EnergyConsumer_EnergyConsumer)
    []
    []
    true true
    []
    []
    []
    []
    []
    [];
(* CIM14/CPSM/Equipment/LoadModel/SubLoadArea.py:23-85 *)
  Cls n_CIM14_CPSM_Equipment_LoadModel_SubLoadArea_SubLoadArea n_SubLoadArea (Some n_CIM14_CPSM_Equipment_LoadModel_EnergyArea_EnergyArea)
    [(n_LoadGroups, VNone); (n_LoadArea, VNone)]
    [SMany n_LoadGroups; SOne n_LoadArea]
    true true
    []
    []
    []
    [n_LoadGroups; n_LoadArea]
    [n_LoadGroups]
    [(n_LoadGroups, PManyOne n_SubLoadArea); (n_LoadArea, POneMany n_SubLoadAreas)];
(* CIM14/CPSM/Equipment/Meas/Accumulator.py:23-64 *)
  Cls n_CIM14_CPSM_Equipment_Meas_Accumulator_Accumulator n_Accumulator (Some n_CIM14_CPSM_Equipment_Meas_Measurement_Measurement)
    [(n_AccumulatorValues, VNone)]
    [SMany n_AccumulatorValues]
    true true
    []
    []
    []
    [n_AccumulatorValues]
    [n_AccumulatorValues]
    [(n_AccumulatorValues, PManyOne n_Accumulator)];
(* CIM14/CPSM/Equipment/Meas/AccumulatorValue.py:23-59 *)
  Cls n_CIM14_CPSM_Equipment_Meas_AccumulatorValue_AccumulatorValue n_AccumulatorValue (Some n_CIM14_CPSM_Equipment_Meas_MeasurementValue_MeasurementValue)
    [(n_Accumulator, VNone)]
    [SOne n_Accumulator]
    true true
    []
    []
    []
    [n_Accumulator]
    []
    [(n_Accumulator, POneMany n_AccumulatorValues)];
(* CIM14/CPSM/Equipment/Meas/Analog.py:23-68 *)
  Cls n_CIM14_CPSM_Equipment_Meas_Analog_Analog n_Analog (Some n_CIM14_CPSM_Equipment_Meas_Measurement_Measurement)
    [(n_positiveFlowIn, VBool false); (n_AnalogValues, VNone)]
    [SAttr n_positiveFlowIn; SMany n_AnalogValues]
    true true
    [n_positiveFlowIn]
    [(n_positiveFlowIn, VBool false)]
    []
    [n_AnalogValues]
    [n_AnalogValues]
    [(n_AnalogValues, PManyOne n_Analog)];
(* CIM14/CPSM/Equipment/Meas/AnalogValue.py:23-59 *)
  Cls n_CIM14_CPSM_Equipment_Meas_AnalogValue_AnalogValue n_AnalogValue (Some n_CIM14_CPSM_Equipment_Meas_MeasurementValue_MeasurementValue)
    [(n_Analog, VNone)]
    [SOne n_Analog]
    true true
    []
    []
    []
    [n_Analog]
    []
    [(n_Analog, POneMany n_AnalogValues)];
(* CIM14/CPSM/Equipment/Meas/Discrete.py:23-64 *)
  Cls n_CIM14_CPSM_Equipment_Meas_Discrete_Discrete n_Discrete (Some n_CIM14_CPSM_Equipment_Meas_Measurement_Measurement)
    [(n_DiscreteValues, VNone)]
    [SMany n_DiscreteValues]
    true true
    []
    []
    []
    [n_DiscreteValues]
    [n_DiscreteValues]
    [(n_DiscreteValues, PManyOne n_Discrete)];
(* CIM14/CPSM/Equipment/Meas/DiscreteValue.py:23-59 *)
  Cls n_CIM14_CPSM_Equipment_Meas_DiscreteValue_DiscreteValue n_DiscreteValue (Some n_CIM14_CPSM_Equipment_Meas_MeasurementValue_MeasurementValue)
    [(n_Discrete, VNone)]
    [SOne n_Discrete]
    true true
    []
    []
    []
    [n_Discrete]
    []
    [(n_Discrete, POneMany n_DiscreteValues)];
(* CIM14/CPSM/Equipment/Meas/Measurement.py:23-105 *)
  Cls n_CIM14_CPSM_Equipment_Meas_Measurement_Measurement n_Measurement (Some n_CIM14_CPSM_Equipment_Core_IdentifiedObject_IdentifiedObject)
    [(n_measurementType, VStr n_); (n_Unit, VNone); (n_Terminal, VNone); (n_PowerSystemResource, VNone)]
    [SAttr n_measurementType; SOne n_Unit; SOne n_Terminal; SOne n_PowerSystemResource]
    true true
    [n_measurementType]
    [(n_measurementType, VStr n_)]
    []
    [n_Unit; n_Terminal; n_PowerSystemResource]
    []
    [(n_Unit, POneMany n_Measurements); (n_Terminal, POneMany n_Measurements); (n_PowerSystemResource, POneMany n_Measurements)];
(* CIM14/CPSM/Equipment/Meas/MeasurementValue.py:23-59 *)
  Cls n_CIM14_CPSM_Equipment_Meas_MeasurementValue_MeasurementValue n_MeasurementValue (Some n_CIM14_CPSM_Equipment_Core_IdentifiedObject_IdentifiedObject)
    [(n_MeasurementValueSource, VNone)]
    [SOne n_MeasurementValueSource]
    true true
    []
    []
    []
    [n_MeasurementValueSource]
    []
    [(n_MeasurementValueSource, POneMany n_MeasurementValues)];
(* CIM14/CPSM/Equipment/Meas/MeasurementValueSource.py:23-64 *)
  Cls n_CIM14_CPSM_Equipment_Meas_MeasurementValueSource_MeasurementValueSource n_MeasurementValueSource (Some n_CIM14_CPSM_Equipment_Core_IdentifiedObject_IdentifiedObject)
    [(n_MeasurementValues, VNone)]
    [SMany n_MeasurementValues]
    true true
    []
    []
    []
    [n_MeasurementValues]
    [n_MeasurementValues]
    [(n_MeasurementValues, PManyOne n_MeasurementValueSource)];
(* CIM14/CPSM/Equipment/OperationalLimits/ActivePowerLimit.py:23-42 *)
  Cls n_CIM14_CPSM_Equipment_OperationalLimits_ActivePowerLimit_ActivePowerLimit n_ActivePowerLimit (Some n_CIM14_CPSM_Equipment_OperationalLimits_OperationalLimit_OperationalLimit)
    [(n_value, VFloat n_0_0)]
    [SAttr n_value]
    true true
    [n_value]
    [(n_value, VFloat n_0_0)]
    []
    []
    []
    [];
(* CIM14/CPSM/Equipment/OperationalLimits/ApparentPowerLimit.py:23-42 *)
  Cls n_CIM14_CPSM_Equipment_OperationalLimits_ApparentPowerLimit_ApparentPowerLimit n_ApparentPowerLimit (Some n_CIM14_CPSM_Equipment_OperationalLimits_OperationalLimit_OperationalLimit)
    [(n_value, VFloat n_0_0)]
    [SAttr n_value]
    true true
    [n_value]
    [(n_value, VFloat n_0_0)]
    []
    []
    []
    [];
(* CIM14/CPSM/Equipment/OperationalLimits/CurrentLimit.py:23-42 *)
  Cls n_CIM14_CPSM_Equipment_OperationalLimits_CurrentLimit_CurrentLimit n_CurrentLimit (Some n_CIM14_CPSM_Equipment_OperationalLimits_OperationalLimit_OperationalLimit)
    [(n_value, VFloat n_0_0)]
    [SAttr n_value]
    true true
    [n_value]
    [(n_value, VFloat n_0_0)]
    []
    []
    []
    [];
(* CIM14/CPSM/Equipment/OperationalLimits/OperationalLimit.py:23-63 *)
  Cls n_CIM14_CPSM_Equipment_OperationalLimits_OperationalLimit_OperationalLimit n_OperationalLimit (Some n_CIM14_CPSM_Equipment_Core_IdentifiedObject_IdentifiedObject)
    [(n_type, VStr n_); (n_OperationalLimitSet, VNone)]
    [SAttr n_type; SOne n_OperationalLimitSet]
    true true
    [n_type]
    [(n_type, VStr n_)]
    []
    [n_OperationalLimitSet]
    []
    [(n_OperationalLimitSet, POneMany n_OperationalLimitValue)];
(* CIM14/CPSM/Equipment/OperationalLimits/OperationalLimitSet.py:23-106 *)
  Cls n_CIM14_CPSM_Equipment_OperationalLimits_OperationalLimitSet_OperationalLimitSet n_OperationalLimitSet (Some n_CIM14_CPSM_Equipment_Core_IdentifiedObject_IdentifiedObject)
    [(n_Terminal, VNone); (n_Equipment, VNone); (n_OperationalLimitValue, VNone)]
    [SOne n_Terminal; SOne n_Equipment; SMany n_OperationalLimitValue]
    true true
    []
    []
    []
    [n_Terminal; n_Equipment; n_OperationalLimitValue]
    [n_OperationalLimitValue]
    [(n_Terminal, POneMany n_OperationalLimitSet); (n_Equipment, POneMany n_OperationalLimitSet); (n_OperationalLimitValue, PManyOne n_OperationalLimitSet)];
(* CIM14/CPSM/Equipment/OperationalLimits/OperationalLimitType.py:23-46 *)
  Cls n_CIM14_CPSM_Equipment_OperationalLimits_OperationalLimitType_OperationalLimitType n_OperationalLimitType (Some n_CIM14_CPSM_Equipment_Core_IdentifiedObject_IdentifiedObject)
    [(n_direction, VStr n_high); (n_acceptableDuration, VFloat n_0_0)]
    [SAttr n_direction; SAttr n_acceptableDuration]
    true true
    [n_direction; n_acceptableDuration]
    [(n_direction, VStr n_high); (n_acceptableDuration, VFloat n_0_0)]
    [(n_direction, n_OperationalLimitDirectionKind)]
    []
    []
    [];
(* CIM14/CPSM/Equipment/OperationalLimits/VoltageLimit.py:23-42 *)
  Cls n_CIM14_CPSM_Equipment_OperationalLimits_VoltageLimit_VoltageLimit n_VoltageLimit (Some n_CIM14_CPSM_Equipment_OperationalLimits_OperationalLimit_OperationalLimit)
    [(n_value, VFloat n_0_0)]
    [SAttr n_value]
    true true
    [n_value]
    [(n_value, VFloat n_0_0)]
    []
    []
    []
    [];
(* CIM14/CPSM/Equipment/Wires/ACLineSegment.py:23-70 *)
  Cls n_CIM14_CPSM_Equipment_Wires_ACLineSegment_ACLineSegment n_ACLineSegment (Some n_CIM14_CPSM_Equipment_Wires_Conductor_Conductor)
    [(n_g0ch, VFloat n_0_0); (n_r, VFloat n_0_0); (n_x0, VFloat n_0_0); (n_bch, VFloat n_0_0); (n_x, VFloat n_0_0); (n_b0ch, VFloat n_0_0); (n_gch, VFloat n_0_0); (n_r0, VFloat n_0_0)]
    [SAttr n_g0ch; SAttr n_r; SAttr n_x0; SAttr n_bch; SAttr n_x; SAttr n_b0ch; SAttr n_gch; SAttr n_r0]
    true true
    [n_g0ch; n_r; n_x0; n_bch; n_x; n_b0ch; n_gch; n_r0]
    [(n_g0ch, VFloat n_0_0); (n_r, VFloat n_0_0); (n_x0, VFloat n_0_0); (n_bch, VFloat n_0_0); (n_x, VFloat n_0_0); (n_b0ch, VFloat n_0_0); (n_gch, VFloat n_0_0); (n_r0, VFloat n_0_0)]
    []
    []
    []
    [];
(* CIM14/CPSM/Equipment/Wires/Breaker.py:23-42 *)
  Cls n_CIM14_CPSM_Equipment_Wires_Breaker_Breaker n_Breaker (Some n_CIM14_CPSM_Equipment_Wires_Switch_Switch)
    [(n_ratedCurrent, VFloat n_0_0)]
    [SAttr n_ratedCurrent]
    true true
    [n_ratedCurrent]
    [(n_ratedCurrent, VFloat n_0_0)]
    []
    []
    []
    [];
(* CIM14/CPSM/Equipment/Wires/BusbarSection.py:23-38 *)
  Cls n_CIM14_CPSM_Equipment_Wires_BusbarSection_BusbarSection n_BusbarSection (Some n_CIM14_CPSM_Equipment_Core_ConductingEquipment_ConductingEquipment)
    []
    []
    true true
    []
    []
    []
    []
    []
    [];
(* CIM14/CPSM/Equipment/Wires/Conductor.py:23-42 *)
  Cls n_CIM14_CPSM_Equipment_Wires_Conductor_Conductor n_Conductor (Some n_CIM14_CPSM_Equipment_Core_ConductingEquipment_ConductingEquipment)
    [(n_length, VFloat n_0_0)]
    [SAttr n_length]
    true true
    [n_length]
    [(n_length, VFloat n_0_0)]
    []
    []
    []
    [];
(* CIM14/CPSM/Equipment/Wires/Disconnector.py:23-38 *)
  Cls n_CIM14_CPSM_Equipment_Wires_Disconnector_Disconnector n_Disconnector (Some n_CIM14_CPSM_Equipment_Wires_Switch_Switch)
    []
    []
    true true
    []
    []
    []
    []
    []
    [];
(* CIM14/CPSM/Equipment/Wires/EnergyConsumer.py:23-75 *)
  Cls n_CIM14_CPSM_Equipment_Wires_EnergyConsumer_EnergyConsumer n_EnergyConsumer (Some n_CIM14_CPSM_Equipment_Core_ConductingEquipment_ConductingEquipment)
    [(n_pfixed, VFloat n_0_0); (n_pfixedPct, VFloat n_0_0); (n_qfixedPct, VFloat n_0_0); (n_qfixed, VFloat n_0_0); (n_LoadResponse, VNone)]
    [SAttr n_pfixed; SAttr n_pfixedPct; SAttr n_qfixedPct; SAttr n_qfixed; SOne n_LoadResponse]
    true true
    [n_pfixed; n_pfixedPct; n_qfixedPct; n_qfixed]
    [(n_pfixed, VFloat n_0_0); (n_pfixedPct, VFloat n_0_0); (n_qfixedPct, VFloat n_0_0); (n_qfixed, VFloat n_0_0)]
    []
    [n_LoadResponse]
    []
    [(n_LoadResponse, POneMany n_EnergyConsumer)];
(* CIM14/CPSM/Equipment/Wires/ImpedanceVariationCurve.py:23-58 *)
  Cls n_CIM14_CPSM_Equipment_Wires_ImpedanceVariationCurve_ImpedanceVariationCurve n_ImpedanceVariationCurve (Some n_CIM14_CPSM_Equipment_Core_Curve_Curve)
    [(n_TapChanger, VNone)]
    [SOne n_TapChanger]
    true true
    []
    []
    []
    [n_TapChanger]
    []
    [(n_TapChanger, POneOne n_ImpedanceVariationCurve)];
(* CIM14/CPSM/Equipment/Wires/Line.py:23-59 *)
  Cls n_CIM14_CPSM_Equipment_Wires_Line_Line n_Line (Some n_CIM14_CPSM_Equipment_Core_EquipmentContainer_EquipmentContainer)
    [(n_Region, VNone)]
    [SOne n_Region]
    true true
    []
    []
    []
    [n_Region]
    []
    [(n_Region, POneMany n_Lines)];
(* CIM14/CPSM/Equipment/Wires/LoadBreakSwitch.py:23-42 *)
  Cls n_CIM14_CPSM_Equipment_Wires_LoadBreakSwitch_LoadBreakSwitch n_LoadBreakSwitch (Some n_CIM14_CPSM_Equipment_Wires_Switch_Switch)
    [(n_ratedCurrent, VFloat n_0_0)]
    [SAttr n_ratedCurrent]
    true true
    [n_ratedCurrent]
    [(n_ratedCurrent, VFloat n_0_0)]
    []
    []
    []
    [];
(* CIM14/CPSM/Equipment/Wires/MutualCoupling.py:23-112 *)
  Cls n_CIM14_CPSM_Equipment_Wires_MutualCoupling_MutualCoupling n_MutualCoupling (Some n_CIM14_CPSM_Equipment_Core_IdentifiedObject_IdentifiedObject)
    [(n_g0ch, VFloat n_0_0); (n_r0, VFloat n_0_0); (n_x0, VFloat n_0_0); (n_distance11, VFloat n_0_0); (n_distance12, VFloat n_0_0); (n_distance22, VFloat n_0_0); (n_distance21, VFloat n_0_0); (n_b0ch, VFloat n_0_0); (n_Second_Terminal, VNone); (n_First_Terminal, VNone)]
    [SAttr n_g0ch; SAttr n_r0; SAttr n_x0; SAttr n_distance11; SAttr n_distance12; SAttr n_distance22; SAttr n_distance21; SAttr n_b0ch; SOne n_Second_Terminal; SOne n_First_Terminal]
    true true
    [n_g0ch; n_r0; n_x0; n_distance11; n_distance12; n_distance22; n_distance21; n_b0ch]
    [(n_g0ch, VFloat n_0_0); (n_r0, VFloat n_0_0); (n_x0, VFloat n_0_0); (n_distance11, VFloat n_0_0); (n_distance12, VFloat n_0_0); (n_distance22, VFloat n_0_0); (n_distance21, VFloat n_0_0); (n_b0ch, VFloat n_0_0)]
    []
    [n_Second_Terminal; n_First_Terminal]
    []
    [(n_Second_Terminal, POneMany n_HasSecond_MutualCoupling); (n_First_Terminal, POneMany n_HasFirst_MutualCoupling)];
(* CIM14/CPSM/Equipment/Wires/PhaseTapChanger.py:23-106 *)
  Cls n_CIM14_CPSM_Equipment_Wires_PhaseTapChanger_PhaseTapChanger n_PhaseTapChanger (Some n_CIM14_CPSM_Equipment_Wires_TapChanger_TapChanger)
    [(n_nominalVoltageOutOfPhase, VFloat n_0_0); (n_windingConnectionAngle, VFloat n_0_0); (n_phaseTapChangerType, VStr n_asymmetrical); (n_xStepMin, VFloat n_0_0); (n_xStepMax, VFloat n_0_0); (n_stepPhaseShiftIncrement, VFloat n_0_0); (n_voltageStepIncrementOutOfPhase, VFloat n_0_0); (n_TransformerWinding, VNone); (n_PhaseVariationCurve, VNone)]
    [SAttr n_nominalVoltageOutOfPhase; SAttr n_windingConnectionAngle; SAttr n_phaseTapChangerType; SAttr n_xStepMin; SAttr n_xStepMax; SAttr n_stepPhaseShiftIncrement; SAttr n_voltageStepIncrementOutOfPhase; SOne n_TransformerWinding; SOne n_PhaseVariationCurve]
    true true
    [n_nominalVoltageOutOfPhase; n_windingConnectionAngle; n_phaseTapChangerType; n_xStepMin; n_xStepMax; n_stepPhaseShiftIncrement; n_voltageStepIncrementOutOfPhase]
    [(n_nominalVoltageOutOfPhase, VFloat n_0_0); (n_windingConnectionAngle, VFloat n_0_0); (n_phaseTapChangerType, VStr n_asymmetrical); (n_xStepMin, VFloat n_0_0); (n_xStepMax, VFloat n_0_0); (n_stepPhaseShiftIncrement, VFloat n_0_0); (n_voltageStepIncrementOutOfPhase, VFloat n_0_0)]
    [(n_phaseTapChangerType, n_PhaseTapChangerKind)]
    [n_TransformerWinding; n_PhaseVariationCurve]
    []
    [(n_TransformerWinding, POneOne n_PhaseTapChanger); (n_PhaseVariationCurve, POneOne n_PhaseTapChanger)];
(* CIM14/CPSM/Equipment/Wires/PhaseVariationCurve.py:23-58 *)
  Cls n_CIM14_CPSM_Equipment_Wires_PhaseVariationCurve_PhaseVariationCurve n_PhaseVariationCurve (Some n_CIM14_CPSM_Equipment_Core_Curve_Curve)
    [(n_PhaseTapChanger, VNone)]
    [SOne n_PhaseTapChanger]
    true true
    []
    []
    []
    [n_PhaseTapChanger]
    []
    [(n_PhaseTapChanger, POneOne n_PhaseVariationCurve)];
(* CIM14/CPSM/Equipment/Wires/PowerTransformer.py:23-64 *)
  Cls n_CIM14_CPSM_Equipment_Wires_PowerTransformer_PowerTransformer n_PowerTransformer (Some n_CIM14_CPSM_Equipment_Core_Equipment_Equipment)
    [(n_TransformerWindings, VNone)]
    [SMany n_TransformerWindings]
    true true
    []
    []
    []
    [n_TransformerWindings]
    [n_TransformerWindings]
    [(n_TransformerWindings, PManyOne n_PowerTransformer)];
(* CIM14/CPSM/Equipment/Wires/RatioTapChanger.py:23-82 *)
  Cls n_CIM14_CPSM_Equipment_Wires_RatioTapChanger_RatioTapChanger n_RatioTapChanger (Some n_CIM14_CPSM_Equipment_Wires_TapChanger_TapChanger)
    [(n_tculControlMode, VStr n_reactive); (n_RatioVariationCurve, VNone); (n_TransformerWinding, VNone)]
    [SAttr n_tculControlMode; SOne n_RatioVariationCurve; SOne n_TransformerWinding]
    true true
    [n_tculControlMode]
    [(n_tculControlMode, VStr n_reactive)]
    [(n_tculControlMode, n_TransformerControlMode)]
    [n_RatioVariationCurve; n_TransformerWinding]
    []
    [(n_RatioVariationCurve, POneOne n_RatioTapChanger); (n_TransformerWinding, POneOne n_RatioTapChanger)];
(* CIM14/CPSM/Equipment/Wires/RatioVariationCurve.py:23-58 *)
  Cls n_CIM14_CPSM_Equipment_Wires_RatioVariationCurve_RatioVariationCurve n_RatioVariationCurve (Some n_CIM14_CPSM_Equipment_Core_Curve_Curve)
    [(n_RatioTapChanger, VNone)]
    [SOne n_RatioTapChanger]
    true true
    []
    []
    []
    [n_RatioTapChanger]
    []
    [(n_RatioTapChanger, POneOne n_RatioVariationCurve)];
(* CIM14/CPSM/Equipment/Wires/ReactiveCapabilityCurve.py:23-64 *)
  Cls n_CIM14_CPSM_Equipment_Wires_ReactiveCapabilityCurve_ReactiveCapabilityCurve n_ReactiveCapabilityCurve (Some n_CIM14_CPSM_Equipment_Core_Curve_Curve)
    [(n_InitiallyUsedBySynchronousMachines, VNone)]
    [SMany n_InitiallyUsedBySynchronousMachines]
    true true
    []
    []
    []
    [n_InitiallyUsedBySynchronousMachines]
    [n_InitiallyUsedBySynchronousMachines]
    [(n_InitiallyUsedBySynchronousMachines, PManyOne n_InitialReactiveCapabilityCurve)];
(* CIM14/CPSM/Equipment/Wires/RegulatingCondEq.py:23-59 *)
  Cls n_CIM14_CPSM_Equipment_Wires_RegulatingCondEq_RegulatingCondEq n_RegulatingCondEq (Some n_CIM14_CPSM_Equipment_Core_ConductingEquipment_ConductingEquipment)
    [(n_RegulatingControl, VNone)]
    [SOne n_RegulatingControl]
    true true
    []
    []
    []
    [n_RegulatingControl]
    []
    [(n_RegulatingControl, POneMany n_RegulatingCondEq)];
(* CIM14/CPSM/Equipment/Wires/RegulatingControl.py:23-153 *)
  Cls n_CIM14_CPSM_Equipment_Wires_RegulatingControl_RegulatingControl n_RegulatingControl (Some n_CIM14_CPSM_Equipment_Core_PowerSystemResource_PowerSystemResource)
    [(n_targetRange, VFloat n_0_0); (n_mode, VStr n_reactivePower); (n_discrete, VBool false); (n_targetValue, VFloat n_0_0); (n_RegulationSchedule, VNone); (n_Terminal, VNone); (n_RegulatingCondEq, VNone); (n_TapChanger, VNone)]
    [SAttr n_targetRange; SAttr n_mode; SAttr n_discrete; SAttr n_targetValue; SMany n_RegulationSchedule; SOne n_Terminal; SMany n_RegulatingCondEq; SMany n_TapChanger]
    true true
    [n_targetRange; n_mode; n_discrete; n_targetValue]
    [(n_targetRange, VFloat n_0_0); (n_mode, VStr n_reactivePower); (n_discrete, VBool false); (n_targetValue, VFloat n_0_0)]
    [(n_mode, n_RegulatingControlModeKind)]
    [n_RegulationSchedule; n_Terminal; n_RegulatingCondEq; n_TapChanger]
    [n_RegulationSchedule; n_RegulatingCondEq; n_TapChanger]
    [(n_RegulationSchedule, PManyOne n_RegulatingControl); (n_Terminal, POneMany n_RegulatingControl); (n_RegulatingCondEq, PManyOne n_RegulatingControl); (n_TapChanger, PManyOne n_RegulatingControl)];
(* CIM14/CPSM/Equipment/Wires/RegulationSchedule.py:23-59 *)
  Cls n_CIM14_CPSM_Equipment_Wires_RegulationSchedule_RegulationSchedule n_RegulationSchedule (Some n_CIM14_CPSM_Equipment_LoadModel_SeasonDayTypeSchedule_SeasonDayTypeSchedule)
    [(n_RegulatingControl, VNone)]
    [SOne n_RegulatingControl]
    true true
    []
    []
    []
    [n_RegulatingControl]
    []
    [(n_RegulatingControl, POneMany n_RegulationSchedule)];
(* CIM14/CPSM/Equipment/Wires/SeriesCompensator.py:23-46 *)
  Cls n_CIM14_CPSM_Equipment_Wires_SeriesCompensator_SeriesCompensator n_SeriesCompensator (Some n_CIM14_CPSM_Equipment_Core_ConductingEquipment_ConductingEquipment)
    [(n_r, VFloat n_0_0); (n_x, VFloat n_0_0)]
    [SAttr n_r; SAttr n_x]
    true true
    [n_r; n_x]
    [(n_r, VFloat n_0_0); (n_x, VFloat n_0_0)]
    []
    []
    []
    [];
(* CIM14/CPSM/Equipment/Wires/ShuntCompensator.py:23-66 *)
  Cls n_CIM14_CPSM_Equipment_Wires_ShuntCompensator_ShuntCompensator n_ShuntCompensator (Some n_CIM14_CPSM_Equipment_Wires_RegulatingCondEq_RegulatingCondEq)
    [(n_g0PerSection, VFloat n_0_0); (n_bPerSection, VFloat n_0_0); (n_nomU, VFloat n_0_0); (n_gPerSection, VFloat n_0_0); (n_normalSections, VInt 0); (n_b0PerSection, VFloat n_0_0); (n_maximumSections, VInt 0)]
    [SAttr n_g0PerSection; SAttr n_bPerSection; SAttr n_nomU; SAttr n_gPerSection; SAttr n_normalSections; SAttr n_b0PerSection; SAttr n_maximumSections]
    true true
    [n_g0PerSection; n_bPerSection; n_nomU; n_gPerSection; n_normalSections; n_b0PerSection; n_maximumSections]
    [(n_g0PerSection, VFloat n_0_0); (n_bPerSection, VFloat n_0_0); (n_nomU, VFloat n_0_0); (n_gPerSection, VFloat n_0_0); (n_normalSections, VInt 0); (n_b0PerSection, VFloat n_0_0); (n_maximumSections, VInt 0)]
    []
    []
    []
    [];
(* CIM14/CPSM/Equipment/Wires/StaticVarCompensator.py:23-58 *)
  Cls n_CIM14_CPSM_Equipment_Wires_StaticVarCompensator_StaticVarCompensator n_StaticVarCompensator (Some n_CIM14_CPSM_Equipment_Wires_RegulatingCondEq_RegulatingCondEq)
    [(n_voltageSetPoint, VFloat n_0_0); (n_capacitiveRating, VFloat n_0_0); (n_slope, VFloat n_0_0); (n_inductiveRating, VFloat n_0_0); (n_sVCControlMode, VStr n_voltage)]
    [SAttr n_voltageSetPoint; SAttr n_capacitiveRating; SAttr n_slope; SAttr n_inductiveRating; SAttr n_sVCControlMode]
    true true
    [n_voltageSetPoint; n_capacitiveRating; n_slope; n_inductiveRating; n_sVCControlMode]
    [(n_voltageSetPoint, VFloat n_0_0); (n_capacitiveRating, VFloat n_0_0); (n_slope, VFloat n_0_0); (n_inductiveRating, VFloat n_0_0); (n_sVCControlMode, VStr n_voltage)]
    [(n_sVCControlMode, n_SVCControlMode)]
    []
    []
    [];
(* CIM14/CPSM/Equipment/Wires/Switch.py:23-68 *)
  Cls n_CIM14_CPSM_Equipment_Wires_Switch_Switch n_Switch (Some n_CIM14_CPSM_Equipment_Core_ConductingEquipment_ConductingEquipment)
    [(n_normalOpen, VBool false); (n_SwitchSchedules, VNone)]
    [SAttr n_normalOpen; SMany n_SwitchSchedules]
    true true
    [n_normalOpen]
    [(n_normalOpen, VBool false)]
    []
    [n_SwitchSchedules]
    [n_SwitchSchedules]
    [(n_SwitchSchedules, PManyOne n_Switch)];
(* CIM14/CPSM/Equipment/Wires/SwitchSchedule.py:23-59 *)
  Cls n_CIM14_CPSM_Equipment_Wires_SwitchSchedule_SwitchSchedule n_SwitchSchedule (Some n_CIM14_CPSM_Equipment_LoadModel_SeasonDayTypeSchedule_SeasonDayTypeSchedule)
    [(n_Switch, VNone)]
    [SOne n_Switch]
    true true
    []
    []
    []
    [n_Switch]
    []
    [(n_Switch, POneMany n_SwitchSchedules)];
(* CIM14/CPSM/Equipment/Wires/SynchronousMachine.py:23-148 *)
  Cls n_CIM14_CPSM_Equipment_Wires_SynchronousMachine_SynchronousMachine n_SynchronousMachine (Some n_CIM14_CPSM_Equipment_Wires_RegulatingCondEq_RegulatingCondEq)
    [(n_x0, VFloat n_0_0); (n_qPercent, VFloat n_0_0); (n_x2, VFloat n_0_0); (n_r, VFloat n_0_0); (n_operatingMode, VStr n_condenser); (n_r0, VFloat n_0_0); (n_type, VStr n_condenser); (n_r2, VFloat n_0_0); (n_maxQ, VFloat n_0_0); (n_x, VFloat n_0_0); (n_ratedS, VFloat n_0_0); (n_minQ, VFloat n_0_0); (n_InitialReactiveCapabilityCurve, VNone); (n_HydroPump, VNone); (n_GeneratingUnit, VNone)]
    [SAttr n_x0; SAttr n_qPercent; SAttr n_x2; SAttr n_r; SAttr n_operatingMode; SAttr n_r0; SAttr n_type; SAttr n_r2; SAttr n_maxQ; SAttr n_x; SAttr n_ratedS; SAttr n_minQ; SOne n_InitialReactiveCapabilityCurve; SOne n_HydroPump; SOne n_GeneratingUnit]
    true true
    [n_x0; n_qPercent; n_x2; n_r; n_operatingMode; n_r0; n_type; n_r2; n_maxQ; n_x; n_ratedS; n_minQ]
    [(n_x0, VFloat n_0_0); (n_qPercent, VFloat n_0_0); (n_x2, VFloat n_0_0); (n_r, VFloat n_0_0); (n_operatingMode, VStr n_condenser); (n_r0, VFloat n_0_0); (n_type, VStr n_condenser); (n_r2, VFloat n_0_0); (n_maxQ, VFloat n_0_0); (n_x, VFloat n_0_0); (n_ratedS, VFloat n_0_0); (n_minQ, VFloat n_0_0)]
    [(n_operatingMode, n_SynchronousMachineOperatingMode); (n_type, n_SynchronousMachineType)]
    [n_InitialReactiveCapabilityCurve; n_HydroPump; n_GeneratingUnit]
    []
    [(n_InitialReactiveCapabilityCurve, POneMany n_InitiallyUsedBySynchronousMachines); (n_HydroPump, POneOne n_SynchronousMachine); (n_GeneratingUnit, POneMany n_SynchronousMachines)];
(* CIM14/CPSM/Equipment/Wires/TapChanger.py:23-136 *)
  Cls n_CIM14_CPSM_Equipment_Wires_TapChanger_TapChanger n_TapChanger (Some n_CIM14_CPSM_Equipment_Core_PowerSystemResource_PowerSystemResource)
    [(n_stepVoltageIncrement, VFloat n_0_0); (n_neutralStep, VInt 0); (n_normalStep, VInt 0); (n_ltcFlag, VBool false); (n_neutralU, VFloat n_0_0); (n_lowStep, VInt 0); (n_regulationStatus, VBool false); (n_highStep, VInt 0); (n_TapSchedules, VNone); (n_ImpedanceVariationCurve, VNone); (n_RegulatingControl, VNone)]
    [SAttr n_stepVoltageIncrement; SAttr n_neutralStep; SAttr n_normalStep; SAttr n_ltcFlag; SAttr n_neutralU; SAttr n_lowStep; SAttr n_regulationStatus; SAttr n_highStep; SMany n_TapSchedules; SOne n_ImpedanceVariationCurve; SOne n_RegulatingControl]
    true true
    [n_stepVoltageIncrement; n_neutralStep; n_normalStep; n_ltcFlag; n_neutralU; n_lowStep; n_regulationStatus; n_highStep]
    [(n_stepVoltageIncrement, VFloat n_0_0); (n_neutralStep, VInt 0); (n_normalStep, VInt 0); (n_ltcFlag, VBool false); (n_neutralU, VFloat n_0_0); (n_lowStep, VInt 0); (n_regulationStatus, VBool false); (n_highStep, VInt 0)]
    []
    [n_TapSchedules; n_ImpedanceVariationCurve; n_RegulatingControl]
    [n_TapSchedules]
    [(n_TapSchedules, PManyOne n_TapChanger); (n_ImpedanceVariationCurve, POneOne n_TapChanger); (n_RegulatingControl, POneMany n_TapChanger)];
(* CIM14/CPSM/Equipment/Wires/TapSchedule.py:23-59 *)
  Cls n_CIM14_CPSM_Equipment_Wires_TapSchedule_TapSchedule n_TapSchedule (Some n_CIM14_CPSM_Equipment_LoadModel_SeasonDayTypeSchedule_SeasonDayTypeSchedule)
    [(n_TapChanger, VNone)]
    [SOne n_TapChanger]
    true true
    []
    []
    []
    [n_TapChanger]
    []
    [(n_TapChanger, POneMany n_TapSchedules)];
(* CIM14/CPSM/Equipment/Wires/TransformerWinding.py:23-151 *)
  Cls n_CIM14_CPSM_Equipment_Wires_TransformerWinding_TransformerWinding n_TransformerWinding (Some n_CIM14_CPSM_Equipment_Core_ConductingEquipment_ConductingEquipment)
    [(n_x, VFloat n_0_0); (n_x0, VFloat n_0_0); (n_b0, VFloat n_0_0); (n_g0, VFloat n_0_0); (n_rground, VFloat n_0_0); (n_b, VFloat n_0_0); (n_connectionType, VStr n_I); (n_ratedS, VFloat n_0_0); (n_r, VFloat n_0_0); (n_r0, VFloat n_0_0); (n_ratedU, VFloat n_0_0); (n_xground, VFloat n_0_0); (n_windingType, VStr n_tertiary); (n_RatioTapChanger, VNone); (n_PhaseTapChanger, VNone); (n_PowerTransformer, VNone)]
    [SAttr n_x; SAttr n_x0; SAttr n_b0; SAttr n_g0; SAttr n_rground; SAttr n_b; SAttr n_connectionType; SAttr n_ratedS; SAttr n_r; SAttr n_r0; SAttr n_ratedU; SAttr n_xground; SAttr n_windingType; SOne n_RatioTapChanger; SOne n_PhaseTapChanger; SOne n_PowerTransformer]
    true true
    [n_x; n_x0; n_b0; n_g0; n_rground; n_b; n_connectionType; n_ratedS; n_r; n_r0; n_ratedU; n_xground; n_windingType]
    [(n_x, VFloat n_0_0); (n_x0, VFloat n_0_0); (n_b0, VFloat n_0_0); (n_g0, VFloat n_0_0); (n_rground, VFloat n_0_0); (n_b, VFloat n_0_0); (n_connectionType, VStr n_I); (n_ratedS, VFloat n_0_0); (n_r, VFloat n_0_0); (n_r0, VFloat n_0_0); (n_ratedU, VFloat n_0_0); (n_xground, VFloat n_0_0); (n_windingType, VStr n_tertiary)]
    [(n_connectionType, n_WindingConnection); (n_windingType, n_WindingType)]
    [n_RatioTapChanger; n_PhaseTapChanger; n_PowerTransformer]
    []
    [(n_RatioTapChanger, POneOne n_TransformerWinding); (n_PhaseTapChanger, POneOne n_TransformerWinding); (n_PowerTransformer, POneMany n_TransformerWindings)]
].

(** packageMap, CIM14/CPSM/Equipment/__init__.py:30-128: tag to the class that the package exports under that name. *)
Definition cim14_cpsm_equipment_map : list (name * name) := [
  (n_Element, n_CIM14_CPSM_Equipment_Element_Element);
  (n_IEC61970CIMVersion, n_CIM14_CPSM_Equipment_IEC61970CIMVersion_IEC61970CIMVersion);
  (n_FossilFuel, n_CIM14_CPSM_Equipment_Generation_Production_FossilFuel_FossilFuel);
  (n_HydroGeneratingUnit, n_CIM14_CPSM_Equipment_Generation_Production_HydroGeneratingUnit_HydroGeneratingUnit);
  (n_GrossToNetActivePowerCurve, n_CIM14_CPSM_Equipment_Generation_Production_GrossToNetActivePowerCurve_GrossToNetActivePowerCurve);
  (n_ThermalGeneratingUnit, n_CIM14_CPSM_Equipment_Generation_Production_ThermalGeneratingUnit_ThermalGeneratingUnit);
  (n_HydroPump, n_CIM14_CPSM_Equipment_Generation_Production_HydroPump_HydroPump);
  (n_WindGeneratingUnit, n_CIM14_CPSM_Equipment_Generation_Production_WindGeneratingUnit_WindGeneratingUnit);
  (n_GeneratingUnit, n_CIM14_CPSM_Equipment_Generation_Production_GeneratingUnit_GeneratingUnit);
  (n_NuclearGeneratingUnit, n_CIM14_CPSM_Equipment_Generation_Production_NuclearGeneratingUnit_NuclearGeneratingUnit);
  (n_EquivalentShunt, n_CIM14_CPSM_Equipment_Equivalents_EquivalentShunt_EquivalentShunt);
  (n_EquivalentBranch, n_CIM14_CPSM_Equipment_Equivalents_EquivalentBranch_EquivalentBranch);
  (n_EquivalentInjection, n_CIM14_CPSM_Equipment_Equivalents_EquivalentInjection_EquivalentInjection);
  (n_EquivalentEquipment, n_CIM14_CPSM_Equipment_Equivalents_EquivalentEquipment_EquivalentEquipment);
  (n_EquivalentNetwork, n_CIM14_CPSM_Equipment_Equivalents_EquivalentNetwork_EquivalentNetwork);
  (n_ApparentPowerLimit, n_CIM14_CPSM_Equipment_OperationalLimits_ApparentPowerLimit_ApparentPowerLimit);
  (n_OperationalLimit, n_CIM14_CPSM_Equipment_OperationalLimits_OperationalLimit_OperationalLimit);
  (n_CurrentLimit, n_CIM14_CPSM_Equipment_OperationalLimits_CurrentLimit_CurrentLimit);
  (n_VoltageLimit, n_CIM14_CPSM_Equipment_OperationalLimits_VoltageLimit_VoltageLimit);
  (n_ActivePowerLimit, n_CIM14_CPSM_Equipment_OperationalLimits_ActivePowerLimit_ActivePowerLimit);
  (n_OperationalLimitSet, n_CIM14_CPSM_Equipment_OperationalLimits_OperationalLimitSet_OperationalLimitSet);
  (n_OperationalLimitType, n_CIM14_CPSM_Equipment_OperationalLimits_OperationalLimitType_OperationalLimitType);
  (n_EnergyArea, n_CIM14_CPSM_Equipment_LoadModel_EnergyArea_EnergyArea);
  (n_Season, n_CIM14_CPSM_Equipment_LoadModel_Season_Season);
  (n_SubLoadArea, n_CIM14_CPSM_Equipment_LoadModel_SubLoadArea_SubLoadArea);
  (n_NonConformLoadSchedule, n_CIM14_CPSM_Equipment_LoadModel_NonConformLoadSchedule_NonConformLoadSchedule);
  (n_LoadResponseCharacteristic, n_CIM14_CPSM_Equipment_LoadModel_LoadResponseCharacteristic_LoadResponseCharacteristic);
  (n_ConformLoadSchedule, n_CIM14_CPSM_Equipment_LoadModel_ConformLoadSchedule_ConformLoadSchedule);
  (n_NonConformLoadGroup, n_CIM14_CPSM_Equipment_LoadModel_NonConformLoadGroup_NonConformLoadGroup);
  (n_ConformLoadGroup, n_CIM14_CPSM_Equipment_LoadModel_ConformLoadGroup_ConformLoadGroup);
  (n_ConformLoad, n_CIM14_CPSM_Equipment_LoadModel_ConformLoad_ConformLoad);
  (n_NonConformLoad, n_CIM14_CPSM_Equipment_LoadModel_NonConformLoad_NonConformLoad);
  (n_StationSupply, n_CIM14_CPSM_Equipment_LoadModel_StationSupply_StationSupply);
  (n_SeasonDayTypeSchedule, n_CIM14_CPSM_Equipment_LoadModel_SeasonDayTypeSchedule_SeasonDayTypeSchedule);
  (n_LoadArea, n_CIM14_CPSM_Equipment_LoadModel_LoadArea_LoadArea);
  (n_DayType, n_CIM14_CPSM_Equipment_LoadModel_DayType_DayType);
  (n_LoadGroup, n_CIM14_CPSM_Equipment_LoadModel_LoadGroup_LoadGroup);
  (n_ControlAreaGeneratingUnit, n_CIM14_CPSM_Equipment_ControlArea_ControlAreaGeneratingUnit_ControlAreaGeneratingUnit);
  (n_TieFlow, n_CIM14_CPSM_Equipment_ControlArea_TieFlow_TieFlow);
  (n_ControlArea, n_CIM14_CPSM_Equipment_ControlArea_ControlArea_ControlArea);
  (n_AccumulatorValue, n_CIM14_CPSM_Equipment_Meas_AccumulatorValue_AccumulatorValue);
  (n_Accumulator, n_CIM14_CPSM_Equipment_Meas_Accumulator_Accumulator);
  (n_Discrete, n_CIM14_CPSM_Equipment_Meas_Discrete_Discrete);
  (n_AnalogValue, n_CIM14_CPSM_Equipment_Meas_AnalogValue_AnalogValue);
  (n_Analog, n_CIM14_CPSM_Equipment_Meas_Analog_Analog);
  (n_MeasurementValueSource, n_CIM14_CPSM_Equipment_Meas_MeasurementValueSource_MeasurementValueSource);
  (n_Measurement, n_CIM14_CPSM_Equipment_Meas_Measurement_Measurement);
  (n_DiscreteValue, n_CIM14_CPSM_Equipment_Meas_DiscreteValue_DiscreteValue);
  (n_MeasurementValue, n_CIM14_CPSM_Equipment_Meas_MeasurementValue_MeasurementValue);
  (n_LoadBreakSwitch, n_CIM14_CPSM_Equipment_Wires_LoadBreakSwitch_LoadBreakSwitch);
  (n_TransformerWinding, n_CIM14_CPSM_Equipment_Wires_TransformerWinding_TransformerWinding);
  (n_SwitchSchedule, n_CIM14_CPSM_Equipment_Wires_SwitchSchedule_SwitchSchedule);
  (n_PhaseVariationCurve, n_CIM14_CPSM_Equipment_Wires_PhaseVariationCurve_PhaseVariationCurve);
  (n_RegulatingControl, n_CIM14_CPSM_Equipment_Wires_RegulatingControl_RegulatingControl);
  (n_ACLineSegment, n_CIM14_CPSM_Equipment_Wires_ACLineSegment_ACLineSegment);
  (n_PhaseTapChanger, n_CIM14_CPSM_Equipment_Wires_PhaseTapChanger_PhaseTapChanger);
  (n_SeriesCompensator, n_CIM14_CPSM_Equipment_Wires_SeriesCompensator_SeriesCompensator);
  (n_PowerTransformer, n_CIM14_CPSM_Equipment_Wires_PowerTransformer_PowerTransformer);
  (n_EnergyConsumer, n_CIM14_CPSM_Equipment_Wires_EnergyConsumer_EnergyConsumer);
  (n_Switch, n_CIM14_CPSM_Equipment_Wires_Switch_Switch);
  (n_RegulationSchedule, n_CIM14_CPSM_Equipment_Wires_RegulationSchedule_RegulationSchedule);
  (n_ShuntCompensator, n_CIM14_CPSM_Equipment_Wires_ShuntCompensator_ShuntCompensator);
  (n_Conductor, n_CIM14_CPSM_Equipment_Wires_Conductor_Conductor);
  (n_BusbarSection, n_CIM14_CPSM_Equipment_Wires_BusbarSection_BusbarSection);
  (n_TapChanger, n_CIM14_CPSM_Equipment_Wires_TapChanger_TapChanger);
  (n_ImpedanceVariationCurve, n_CIM14_CPSM_Equipment_Wires_ImpedanceVariationCurve_ImpedanceVariationCurve);
  (n_ReactiveCapabilityCurve, n_CIM14_CPSM_Equipment_Wires_ReactiveCapabilityCurve_ReactiveCapabilityCurve);
  (n_Disconnector, n_CIM14_CPSM_Equipment_Wires_Disconnector_Disconnector);
  (n_RatioVariationCurve, n_CIM14_CPSM_Equipment_Wires_RatioVariationCurve_RatioVariationCurve);
  (n_TapSchedule, n_CIM14_CPSM_Equipment_Wires_TapSchedule_TapSchedule);
  (n_MutualCoupling, n_CIM14_CPSM_Equipment_Wires_MutualCoupling_MutualCoupling);
  (n_SynchronousMachine, n_CIM14_CPSM_Equipment_Wires_SynchronousMachine_SynchronousMachine);
  (n_RatioTapChanger, n_CIM14_CPSM_Equipment_Wires_RatioTapChanger_RatioTapChanger);
  (n_RegulatingCondEq, n_CIM14_CPSM_Equipment_Wires_RegulatingCondEq_RegulatingCondEq);
  (n_Line, n_CIM14_CPSM_Equipment_Wires_Line_Line);
  (n_StaticVarCompensator, n_CIM14_CPSM_Equipment_Wires_StaticVarCompensator_StaticVarCompensator);
  (n_Breaker, n_CIM14_CPSM_Equipment_Wires_Breaker_Breaker);
  (n_ConnectivityNodeContainer, n_CIM14_CPSM_Equipment_Core_ConnectivityNodeContainer_ConnectivityNodeContainer);
  (n_RegularIntervalSchedule, n_CIM14_CPSM_Equipment_Core_RegularIntervalSchedule_RegularIntervalSchedule);
  (n_RegularTimePoint, n_CIM14_CPSM_Equipment_Core_RegularTimePoint_RegularTimePoint);
  (n_Bay, n_CIM14_CPSM_Equipment_Core_Bay_Bay);
  (n_Equipment, n_CIM14_CPSM_Equipment_Core_Equipment_Equipment);
  (n_EquipmentContainer, n_CIM14_CPSM_Equipment_Core_EquipmentContainer_EquipmentContainer);
  (n_IdentifiedObject, n_CIM14_CPSM_Equipment_Core_IdentifiedObject_IdentifiedObject);
  (n_SubGeographicalRegion, n_CIM14_CPSM_Equipment_Core_SubGeographicalRegion_SubGeographicalRegion);
  (n_PowerSystemResource, n_CIM14_CPSM_Equipment_Core_PowerSystemResource_PowerSystemResource);
  (n_BasicIntervalSchedule, n_CIM14_CPSM_Equipment_Core_BasicIntervalSchedule_BasicIntervalSchedule);
  (n_Curve, n_CIM14_CPSM_Equipment_Core_Curve_Curve);
  (n_VoltageLevel, n_CIM14_CPSM_Equipment_Core_VoltageLevel_VoltageLevel);
  (n_Unit, n_CIM14_CPSM_Equipment_Core_Unit_Unit);
  (n_BaseVoltage, n_CIM14_CPSM_Equipment_Core_BaseVoltage_BaseVoltage);
  (n_ConnectivityNode, n_CIM14_CPSM_Equipment_Core_ConnectivityNode_ConnectivityNode);
  (n_Substation, n_CIM14_CPSM_Equipment_Core_Substation_Substation);
  (n_ConductingEquipment, n_CIM14_CPSM_Equipment_Core_ConductingEquipment_ConductingEquipment);
  (n_Terminal, n_CIM14_CPSM_Equipment_Core_Terminal_Terminal);
  (n_GeographicalRegion, n_CIM14_CPSM_Equipment_Core_GeographicalRegion_GeographicalRegion);
  (n_CurveData, n_CIM14_CPSM_Equipment_Core_CurveData_CurveData)
].

(** nsURI and nsPrefix, CIM14/CPSM/Equipment/__init__.py. *)
Definition cim14_cpsm_equipment_uri : name := n_http___iec_ch_TC57_2009_CIM_schema_cim14_profile_http___iec_ch_TC57_2007_profile_CPSM_Equipment.
Definition cim14_cpsm_equipment_prefix : name := n_eq.

(** Class table of CIM14.CPSM.StateVariables: 12 classes. *)
Definition cim14_cpsm_statevariables : schema := [
(* CIM14/CPSM/StateVariables/Core/Terminal.py:23-58 *)
  Cls n_CIM14_CPSM_StateVariables_Core_Terminal_Terminal n_Terminal (Some n_CIM14_CPSM_StateVariables_Element_Element)
    [(n_SvPowerFlow, VNone)]
    [SOne n_SvPowerFlow]
    true true
    []
    []
    []
    [n_SvPowerFlow]
    []
    [(n_SvPowerFlow, POneOne n_Terminal)];
(* CIM14/CPSM/StateVariables/Element.py:22-38 *)
  Cls n_CIM14_CPSM_StateVariables_Element_Element n_Element None
    [(n_UUID, VStr n_)]
    [SAttr n_UUID]
    false true
    [n_UUID]
    [(n_UUID, VStr n_)]
    []
    []
    []
    [];
(* CIM14/CPSM/StateVariables/StateVariables/SvInjection.py:23-66 *)
  Cls n_CIM14_CPSM_StateVariables_StateVariables_SvInjection_SvInjection n_SvInjection (Some n_CIM14_CPSM_StateVariables_Element_Element)
    [(n_qNetInjection, VFloat n_0_0); (n_pNetInjection, VFloat n_0_0); (n_TopologicalNode, VNone)]
    [SAttr n_qNetInjection; SAttr n_pNetInjection; SOne n_TopologicalNode]
    true true
    [n_qNetInjection; n_pNetInjection]
    [(n_qNetInjection, VFloat n_0_0); (n_pNetInjection, VFloat n_0_0)]
    []
    [n_TopologicalNode]
    []
    [(n_TopologicalNode, POneOne n_SvInjection)];
(* CIM14/CPSM/StateVariables/StateVariables/SvPowerFlow.py:23-66 *)
  Cls n_CIM14_CPSM_StateVariables_StateVariables_SvPowerFlow_SvPowerFlow n_SvPowerFlow (Some n_CIM14_CPSM_StateVariables_Element_Element)
    [(n_p, VFloat n_0_0); (n_q, VFloat n_0_0); (n_Terminal, VNone)]
    [SAttr n_p; SAttr n_q; SOne n_Terminal]
    true true
    [n_p; n_q]
    [(n_p, VFloat n_0_0); (n_q, VFloat n_0_0)]
    []
    [n_Terminal]
    []
    [(n_Terminal, POneOne n_SvPowerFlow)];
(* CIM14/CPSM/StateVariables/StateVariables/SvShortCircuit.py:23-74 *)
  Cls n_CIM14_CPSM_StateVariables_StateVariables_SvShortCircuit_SvShortCircuit n_SvShortCircuit (Some n_CIM14_CPSM_StateVariables_Element_Element)
    [(n_sShortCircuit, VFloat n_0_0); (n_x0PerX, VFloat n_0_0); (n_r0PerR, VFloat n_0_0); (n_xPerR, VFloat n_0_0); (n_TopologicalNode, VNone)]
    [SAttr n_sShortCircuit; SAttr n_x0PerX; SAttr n_r0PerR; SAttr n_xPerR; SOne n_TopologicalNode]
    true true
    [n_sShortCircuit; n_x0PerX; n_r0PerR; n_xPerR]
    [(n_sShortCircuit, VFloat n_0_0); (n_x0PerX, VFloat n_0_0); (n_r0PerR, VFloat n_0_0); (n_xPerR, VFloat n_0_0)]
    []
    [n_TopologicalNode]
    []
    [(n_TopologicalNode, POneOne n_SvShortCircuit)];
(* CIM14/CPSM/StateVariables/StateVariables/SvShuntCompensatorSections.py:23-66 *)
  Cls n_CIM14_CPSM_StateVariables_StateVariables_SvShuntCompensatorSections_SvShuntCompensatorSections n_SvShuntCompensatorSections (Some n_CIM14_CPSM_StateVariables_Element_Element)
    [(n_sections, VInt 0); (n_continuousSections, VFloat n_0_0); (n_ShuntCompensator, VNone)]
    [SAttr n_sections; SAttr n_continuousSections; SOne n_ShuntCompensator]
    true true
    [n_sections; n_continuousSections]
    [(n_sections, VInt 0); (n_continuousSections, VFloat n_0_0)]
    []
    [n_ShuntCompensator]
    []
    [(n_ShuntCompensator, POneOne n_SvShuntCompensatorSections)];
(* CIM14/CPSM/StateVariables/StateVariables/SvTapStep.py:23-66 *)
  Cls n_CIM14_CPSM_StateVariables_StateVariables_SvTapStep_SvTapStep n_SvTapStep (Some n_CIM14_CPSM_StateVariables_Element_Element)
    [(n_position, VInt 0); (n_continuousPosition, VFloat n_0_0); (n_TapChanger, VNone)]
    [SAttr n_position; SAttr n_continuousPosition; SOne n_TapChanger]
    true true
    [n_position; n_continuousPosition]
    [(n_position, VInt 0); (n_continuousPosition, VFloat n_0_0)]
    []
    [n_TapChanger]
    []
    [(n_TapChanger, POneOne n_SvTapStep)];
(* CIM14/CPSM/StateVariables/StateVariables/SvVoltage.py:23-66 *)
  Cls n_CIM14_CPSM_StateVariables_StateVariables_SvVoltage_SvVoltage n_SvVoltage (Some n_CIM14_CPSM_StateVariables_Element_Element)
    [(n_angle, VFloat n_0_0); (n_v, VFloat n_0_0); (n_TopologicalNode, VNone)]
    [SAttr n_angle; SAttr n_v; SOne n_TopologicalNode]
    true true
    [n_angle; n_v]
    [(n_angle, VFloat n_0_0); (n_v, VFloat n_0_0)]
    []
    [n_TopologicalNode]
    []
    [(n_TopologicalNode, POneOne n_SvVoltage)];
(* CIM14/CPSM/StateVariables/StateVariables/TopologicalIsland.py:23-84 *)
  Cls n_CIM14_CPSM_StateVariables_StateVariables_TopologicalIsland_TopologicalIsland n_TopologicalIsland (Some n_CIM14_CPSM_StateVariables_Element_Element)
    [(n_AngleRef_TopologicalNode, VNone); (n_TopologicalNodes, VNone)]
    [SOne n_AngleRef_TopologicalNode; SMany n_TopologicalNodes]
    true true
    []
    []
    []
    [n_AngleRef_TopologicalNode; n_TopologicalNodes]
    [n_TopologicalNodes]
    [(n_AngleRef_TopologicalNode, POneOne n_AngleRef_TopologicalIsland); (n_TopologicalNodes, PManyOne n_TopologicalIsland)];
(* CIM14/CPSM/StateVariables/Topology/TopologicalNode.py:23-139 *)
  Cls n_CIM14_CPSM_StateVariables_Topology_TopologicalNode_TopologicalNode n_TopologicalNode (Some n_CIM14_CPSM_StateVariables_Element_Element)
    [(n_TopologicalIsland, VNone); (n_SvShortCircuit, VNone); (n_SvVoltage, VNone); (n_SvInjection, VNone); (n_AngleRef_TopologicalIsland, VNone)]
    [SOne n_TopologicalIsland; SOne n_SvShortCircuit; SOne n_SvVoltage; SOne n_SvInjection; SOne n_AngleRef_TopologicalIsland]
    true true
    []
    []
    []
    [n_TopologicalIsland; n_SvShortCircuit; n_SvVoltage; n_SvInjection; n_AngleRef_TopologicalIsland]
    []
    [(n_TopologicalIsland, POneMany n_TopologicalNodes); (n_SvShortCircuit, POneOne n_TopologicalNode); (n_SvVoltage, POneOne n_TopologicalNode); (n_SvInjection, POneOne n_TopologicalNode); (n_AngleRef_TopologicalIsland, POneOne n_AngleRef_TopologicalNode)];
(* CIM14/CPSM/StateVariables/Wires/ShuntCompensator.py:23-58 *)
  Cls n_CIM14_CPSM_StateVariables_Wires_ShuntCompensator_ShuntCompensator n_ShuntCompensator (Some n_CIM14_CPSM_StateVariables_Element_Element)
    [(n_SvShuntCompensatorSections, VNone)]
    [SOne n_SvShuntCompensatorSections]
    true true
    []
    []
    []
    [n_SvShuntCompensatorSections]
    []
    [(n_SvShuntCompensatorSections, POneOne n_ShuntCompensator)];
(* CIM14/CPSM/StateVariables/Wires/TapChanger.py:23-58 *)
  Cls n_CIM14_CPSM_StateVariables_Wires_TapChanger_TapChanger n_TapChanger (Some n_CIM14_CPSM_StateVariables_Element_Element)
    [(n_SvTapStep, VNone)]
    [SOne n_SvTapStep]
    true true
    []
    []
    []
    [n_SvTapStep]
    []
    [(n_SvTapStep, POneOne n_TapChanger)]
].

(** packageMap, CIM14/CPSM/StateVariables/__init__.py:29-42: tag to the class that the package exports under that name. *)
Definition cim14_cpsm_statevariables_map : list (name * name) := [
  (n_Element, n_CIM14_CPSM_StateVariables_Element_Element);
  (n_TopologicalNode, n_CIM14_CPSM_StateVariables_Topology_TopologicalNode_TopologicalNode);
  (n_Terminal, n_CIM14_CPSM_StateVariables_Core_Terminal_Terminal);
  (n_SvTapStep, n_CIM14_CPSM_StateVariables_StateVariables_SvTapStep_SvTapStep);
  (n_SvInjection, n_CIM14_CPSM_StateVariables_StateVariables_SvInjection_SvInjection);
  (n_SvVoltage, n_CIM14_CPSM_StateVariables_StateVariables_SvVoltage_SvVoltage);
  (n_TopologicalIsland, n_CIM14_CPSM_StateVariables_StateVariables_TopologicalIsland_TopologicalIsland);
  (n_SvPowerFlow, n_CIM14_CPSM_StateVariables_StateVariables_SvPowerFlow_SvPowerFlow);
  (n_SvShortCircuit, n_CIM14_CPSM_StateVariables_StateVariables_SvShortCircuit_SvShortCircuit);
  (n_SvShuntCompensatorSections, n_CIM14_CPSM_StateVariables_StateVariables_SvShuntCompensatorSections_SvShuntCompensatorSections);
  (n_ShuntCompensator, n_CIM14_CPSM_StateVariables_Wires_ShuntCompensator_ShuntCompensator);
  (n_TapChanger, n_CIM14_CPSM_StateVariables_Wires_TapChanger_TapChanger)
].

(** nsURI and nsPrefix, CIM14/CPSM/StateVariables/__init__.py. *)
Definition cim14_cpsm_statevariables_uri : name := n_http___iec_ch_TC57_2009_CIM_schema_cim14_profile_http___iec_ch_TC57_2007_profile_CPSM_StateVariables.
Definition cim14_cpsm_statevariables_prefix : name := n_sv.

(** Class table of CIM14.CPSM.Topology: 6 classes. *)
Definition cim14_cpsm_topology : schema := [
(* CIM14/CPSM/Topology/Core/BaseVoltage.py:23-64 *)
  Cls n_CIM14_CPSM_Topology_Core_BaseVoltage_BaseVoltage n_BaseVoltage (Some n_CIM14_CPSM_Topology_Core_IdentifiedObject_IdentifiedObject)
    [(n_TopologicalNode, VNone)]
    [SMany n_TopologicalNode]
    true true
    []
    []
    []
    [n_TopologicalNode]
    [n_TopologicalNode]
    [(n_TopologicalNode, PManyOne n_BaseVoltage)];
(* CIM14/CPSM/Topology/Core/ConnectivityNode.py:23-59 *)
  Cls n_CIM14_CPSM_Topology_Core_ConnectivityNode_ConnectivityNode n_ConnectivityNode (Some n_CIM14_CPSM_Topology_Core_IdentifiedObject_IdentifiedObject)
    [(n_TopologicalNode, VNone)]
    [SOne n_TopologicalNode]
    true true
    []
    []
    []
    [n_TopologicalNode]
    []
    [(n_TopologicalNode, POneMany n_ConnectivityNodes)];
(* CIM14/CPSM/Topology/Core/IdentifiedObject.py:23-46 *)
  Cls n_CIM14_CPSM_Topology_Core_IdentifiedObject_IdentifiedObject n_IdentifiedObject (Some n_CIM14_CPSM_Topology_Element_Element)
    [(n_name, VStr n_); (n_description, VStr n_)]
    [SAttr n_name; SAttr n_description]
    true true
    [n_name; n_description]
    [(n_name, VStr n_); (n_description, VStr n_)]
    []
    []
    []
    [];
(* CIM14/CPSM/Topology/Core/Terminal.py:23-63 *)
  Cls n_CIM14_CPSM_Topology_Core_Terminal_Terminal n_Terminal (Some n_CIM14_CPSM_Topology_Core_IdentifiedObject_IdentifiedObject)
    [(n_connected, VBool false); (n_TopologicalNode, VNone)]
    [SAttr n_connected; SOne n_TopologicalNode]
    true true
    [n_connected]
    [(n_connected, VBool false)]
    []
    [n_TopologicalNode]
    []
    [(n_TopologicalNode, POneMany n_Terminal)];
(* CIM14/CPSM/Topology/Element.py:22-38 *)
  Cls n_CIM14_CPSM_Topology_Element_Element n_Element None
    [(n_UUID, VStr n_)]
    [SAttr n_UUID]
    false true
    [n_UUID]
    [(n_UUID, VStr n_)]
    []
    []
    []
    [];
(* CIM14/CPSM/Topology/Topology/TopologicalNode.py:23-111 *)
  Cls n_CIM14_CPSM_Topology_Topology_TopologicalNode_TopologicalNode n_TopologicalNode (Some n_CIM14_CPSM_Topology_Core_IdentifiedObject_IdentifiedObject)
    [(n_ConnectivityNodes, VNone); (n_BaseVoltage, VNone); (n_Terminal, VNone)]
    [SMany n_ConnectivityNodes; SOne n_BaseVoltage; SMany n_Terminal]
    true true
    []
    []
    []
    [n_ConnectivityNodes; n_BaseVoltage; n_Terminal]
    [n_ConnectivityNodes; n_Terminal]
    [(n_ConnectivityNodes, PManyOne n_TopologicalNode); (n_BaseVoltage, POneMany n_TopologicalNode); (n_Terminal, PManyOne n_TopologicalNode)]
].

(** packageMap, CIM14/CPSM/Topology/__init__.py:29-36: tag to the class that the package exports under that name. *)
Definition cim14_cpsm_topology_map : list (name * name) := [
  (n_Element, n_CIM14_CPSM_Topology_Element_Element);
  (n_ConnectivityNode, n_CIM14_CPSM_Topology_Core_ConnectivityNode_ConnectivityNode);
  (n_Terminal, n_CIM14_CPSM_Topology_Core_Terminal_Terminal);
  (n_IdentifiedObject, n_CIM14_CPSM_Topology_Core_IdentifiedObject_IdentifiedObject);
  (n_BaseVoltage, n_CIM14_CPSM_Topology_Core_BaseVoltage_BaseVoltage);
  (n_TopologicalNode, n_CIM14_CPSM_Topology_Topology_TopologicalNode_TopologicalNode)
].

(** nsURI and nsPrefix, CIM14/CPSM/Topology/__init__.py. *)
Definition cim14_cpsm_topology_uri : name := n_http___iec_ch_TC57_2009_CIM_schema_cim14_profile_http___iec_ch_TC57_2007_profile_CPSM_Topology.
Definition cim14_cpsm_topology_prefix : name := n_topo.

(** Class table of CIM14.ENTSOE.Dynamics: 85 classes. *)
Definition cim14_entsoe_dynamics : schema := [
(* CIM14/ENTSOE/Dynamics/Element.py:22-38 *)
  Cls n_CIM14_ENTSOE_Dynamics_Element_Element n_Element None
    [(n_UUID, VStr n_)]
    [SAttr n_UUID]
    false true
    [n_UUID]
    [(n_UUID, VStr n_)]
    []
    []
    []
    [];
(* CIM14/ENTSOE/Dynamics/IEC61968/Assets/AssetsAsset.py:23-68 *)
  Cls n_CIM14_ENTSOE_Dynamics_IEC61968_Assets_AssetsAsset_AssetsAsset n_AssetsAsset (Some n_CIM14_ENTSOE_Dynamics_IEC61970_Core_CoreIdentifiedObject_CoreIdentifiedObject)
    [(n_PowerSystemResources, VNone)]
    [SMany n_PowerSystemResources]
    true true
    []
    []
    []
    [n_PowerSystemResources]
    [n_PowerSystemResources]
    [(n_PowerSystemResources, PManyMany n_Assets)];
(* CIM14/ENTSOE/Dynamics/IEC61968/Common/CommonLocation.py:23-62 *)
  Cls n_CIM14_ENTSOE_Dynamics_IEC61968_Common_CommonLocation_CommonLocation n_CommonLocation (Some n_CIM14_ENTSOE_Dynamics_IEC61970_Core_CoreIdentifiedObject_CoreIdentifiedObject)
    [(n_PowerSystemResources, VNone)]
    [SMany n_PowerSystemResources]
    true true
    []
    []
    []
    [n_PowerSystemResources]
    [n_PowerSystemResources]
    [(n_PowerSystemResources, PManyOne n_Location)];
(* CIM14/ENTSOE/Dynamics/IEC61968/Customers/CustomersCustomerAgreement.py:23-68 *)
  Cls n_CIM14_ENTSOE_Dynamics_IEC61968_Customers_CustomersCustomerAgreement_CustomersCustomerAgreement n_CustomersCustomerAgreement (Some n_CIM14_ENTSOE_Dynamics_IEC61970_Core_CoreIdentifiedObject_CoreIdentifiedObject)
    [(n_Equipments, VNone)]
    [SMany n_Equipments]
    true true
    []
    []
    []
    [n_Equipments]
    [n_Equipments]
    [(n_Equipments, PManyMany n_CustomerAgreements)];
(* CIM14/ENTSOE/Dynamics/IEC61970/Contingency/ContingencyContingencyEquipment.py:23-57 *)
  Cls n_CIM14_ENTSOE_Dynamics_IEC61970_Contingency_ContingencyContingencyEquipment_ContingencyContingencyEquipment n_ContingencyContingencyEquipment (Some n_CIM14_ENTSOE_Dynamics_IEC61970_Core_CoreIdentifiedObject_CoreIdentifiedObject)
    [(n_Equipment, VNone)]
    [SOne n_Equipment]
    true true
    []
    []
    []
    [n_Equipment]
    []
    [(n_Equipment, POneMany n_ContingencyEquipment)];
(* CIM14/ENTSOE/Dynamics/IEC61970/Core/CoreBaseVoltage.py:23-62 *)
  Cls n_CIM14_ENTSOE_Dynamics_IEC61970_Core_CoreBaseVoltage_CoreBaseVoltage n_CoreBaseVoltage (Some n_CIM14_ENTSOE_Dynamics_IEC61970_Core_CoreIdentifiedObject_CoreIdentifiedObject)
    [(n_ConductingEquipment, VNone)]
    [SMany n_ConductingEquipment]
    true true
    []
    []
    []
    [n_ConductingEquipment]
    [n_ConductingEquipment]
    [(n_ConductingEquipment, PManyOne n_BaseVoltage)];
(* CIM14/ENTSOE/Dynamics/IEC61970/Core/CoreConductingEquipment.py:23-160 *)
  Cls n_CIM14_ENTSOE_Dynamics_IEC61970_Core_CoreConductingEquipment_CoreConductingEquipment n_CoreConductingEquipment (Some n_CIM14_ENTSOE_Dynamics_IEC61970_Core_CoreEquipment_CoreEquipment)
    [(n_phases, VStr n_ABC); (n_SvStatus, VNone); (n_ClearanceTags, VNone); (n_Terminals, VNone); (n_ProtectionEquipments, VNone); (n_BaseVoltage, VNone)]
    [SAttr n_phases; SOne n_SvStatus; SMany n_ClearanceTags; SMany n_Terminals; SMany n_ProtectionEquipments; SOne n_BaseVoltage]
    true true
    [n_phases]
    [(n_phases, VStr n_ABC)]
    [(n_phases, n_CorePhaseCode)]
    [n_SvStatus; n_ClearanceTags; n_Terminals; n_ProtectionEquipments; n_BaseVoltage]
    [n_ClearanceTags; n_Terminals; n_ProtectionEquipments]
    [(n_SvStatus, POneOne n_ConductingEquipment); (n_ClearanceTags, PManyOne n_ConductingEquipment); (n_Terminals, PManyOne n_ConductingEquipment); (n_ProtectionEquipments, PManyMany n_ConductingEquipments); (n_BaseVoltage, POneMany n_ConductingEquipment)];
(* CIM14/ENTSOE/Dynamics/IEC61970/Core/CoreEquipment.py:23-145 *)
  Cls n_CIM14_ENTSOE_Dynamics_IEC61970_Core_CoreEquipment_CoreEquipment n_CoreEquipment (Some n_CIM14_ENTSOE_Dynamics_IEC61970_Core_CorePowerSystemResource_CorePowerSystemResource)
    [(n_normaIlyInService, VBool false); (n_aggregate, VBool false); (n_ContingencyEquipment, VNone); (n_EquipmentContainer, VNone); (n_CustomerAgreements, VNone); (n_OperationalLimitSet, VNone)]
    [SAttr n_normaIlyInService; SAttr n_aggregate; SMany n_ContingencyEquipment; SOne n_EquipmentContainer; SMany n_CustomerAgreements; SMany n_OperationalLimitSet]
    true true
    [n_normaIlyInService; n_aggregate]
    [(n_normaIlyInService, VBool false); (n_aggregate, VBool false)]
    []
    [n_ContingencyEquipment; n_EquipmentContainer; n_CustomerAgreements; n_OperationalLimitSet]
    [n_ContingencyEquipment; n_CustomerAgreements; n_OperationalLimitSet]
    [(n_ContingencyEquipment, PManyOne n_Equipment); (n_EquipmentContainer, POneMany n_Equipments); (n_CustomerAgreements, PManyMany n_Equipments); (n_OperationalLimitSet, PManyOne n_Equipment)];
(* CIM14/ENTSOE/Dynamics/IEC61970/Core/CoreEquipmentContainer.py:23-62 *)
  Cls n_CIM14_ENTSOE_Dynamics_IEC61970_Core_CoreEquipmentContainer_CoreEquipmentContainer n_CoreEquipmentContainer (Some n_CIM14_ENTSOE_Dynamics_IEC61970_Core_CorePowerSystemResource_CorePowerSystemResource)
    [(n_Equipments, VNone)]
    [SMany n_Equipments]
    true true
    []
    []
    []
    [n_Equipments]
    [n_Equipments]
    [(n_Equipments, PManyOne n_EquipmentContainer)];
(* CIM14/ENTSOE/Dynamics/IEC61970/Core/CoreIdentifiedObject.py:23-80 *)
  Cls n_CIM14_ENTSOE_Dynamics_IEC61970_Core_CoreIdentifiedObject_CoreIdentifiedObject n_CoreIdentifiedObject (Some n_CIM14_ENTSOE_Dynamics_Element_Element)
    [(n_mRID, VStr n_); (n_description, VStr n_); (n_name, VStr n_); (n_localName, VStr n_); (n_aliasName, VStr n_); (n_pathName, VStr n_); (n_ModelingAuthoritySet, VNone)]
    [SAttr n_mRID; SAttr n_description; SAttr n_name; SAttr n_localName; SAttr n_aliasName; SAttr n_pathName; SOne n_ModelingAuthoritySet]
    true true
    [n_mRID; n_description; n_name; n_localName; n_aliasName; n_pathName]
    [(n_mRID, VStr n_); (n_description, VStr n_); (n_name, VStr n_); (n_localName, VStr n_); (n_aliasName, VStr n_); (n_pathName, VStr n_)]
    []
    [n_ModelingAuthoritySet]
    []
    [(n_ModelingAuthoritySet, POneMany n_IdentifiedObjects)];
(* CIM14/ENTSOE/Dynamics/IEC61970/Core/CoreOperatingShare.py:23-57 *)
  Cls n_CIM14_ENTSOE_Dynamics_IEC61970_Core_CoreOperatingShare_CoreOperatingShare n_CoreOperatingShare (Some n_CIM14_ENTSOE_Dynamics_Element_Element)
    [(n_PowerSystemResource, VNone)]
    [SOne n_PowerSystemResource]
    true true
    []
    []
    []
    [n_PowerSystemResource]
    []
    [(n_PowerSystemResource, POneMany n_OperatingShare)];
(* CIM14/ENTSOE/Dynamics/IEC61970/Core/CorePSRType.py:23-62 *)
  Cls n_CIM14_ENTSOE_Dynamics_IEC61970_Core_CorePSRType_CorePSRType n_CorePSRType (Some n_CIM14_ENTSOE_Dynamics_IEC61970_Core_CoreIdentifiedObject_CoreIdentifiedObject)
    [(n_PowerSystemResources, VNone)]
    [SMany n_PowerSystemResources]
    true true
    []
    []
    []
    [n_PowerSystemResources]
    [n_PowerSystemResources]
    [(n_PowerSystemResources, PManyOne n_PSRType)];
(* CIM14/ENTSOE/Dynamics/IEC61970/Core/CorePowerSystemResource.py:23-263 *)
  Cls n_CIM14_ENTSOE_Dynamics_IEC61970_Core_CorePowerSystemResource_CorePowerSystemResource n_CorePowerSystemResource (Some n_CIM14_ENTSOE_Dynamics_IEC61970_Core_CoreIdentifiedObject_CoreIdentifiedObject)
    [(n_Block, VNone); (n_Location, VNone); (n_ReportingGroup, VNone); (n_PsrLists, VNone); (n_OperatingShare, VNone); (n_OutageSchedule, VNone); (n_Measurements, VNone); (n_Assets, VNone); (n_PSRType, VNone)]
    [SMany n_Block; SOne n_Location; SMany n_ReportingGroup; SMany n_PsrLists; SMany n_OperatingShare; SOne n_OutageSchedule; SMany n_Measurements; SMany n_Assets; SOne n_PSRType]
    true true
    []
    []
    []
    [n_Block; n_Location; n_ReportingGroup; n_PsrLists; n_OperatingShare; n_OutageSchedule; n_Measurements; n_Assets; n_PSRType]
    [n_Block; n_ReportingGroup; n_PsrLists; n_OperatingShare; n_Measurements; n_Assets]
    [(n_Block, PManyOne n_PowerSystemResource); (n_Location, POneMany n_PowerSystemResources); (n_ReportingGroup, PManyMany n_PowerSystemResource); (n_PsrLists, PManyMany n_PowerSystemResources); (n_OperatingShare, PManyOne n_PowerSystemResource); (n_OutageSchedule, POneOne n_PowerSystemResource); (n_Measurements, PManyOne n_PowerSystemResource); (n_Assets, PManyMany n_PowerSystemResources); (n_PSRType, POneMany n_PowerSystemResources)];
(* CIM14/ENTSOE/Dynamics/IEC61970/Core/CorePsrList.py:23-68 *)
  Cls n_CIM14_ENTSOE_Dynamics_IEC61970_Core_CorePsrList_CorePsrList n_CorePsrList (Some n_CIM14_ENTSOE_Dynamics_IEC61970_Core_CoreIdentifiedObject_CoreIdentifiedObject)
    [(n_PowerSystemResources, VNone)]
    [SMany n_PowerSystemResources]
    true true
    []
    []
    []
    [n_PowerSystemResources]
    [n_PowerSystemResources]
    [(n_PowerSystemResources, PManyMany n_PsrLists)];
(* CIM14/ENTSOE/Dynamics/IEC61970/Core/CoreReportingGroup.py:23-68 *)
  Cls n_CIM14_ENTSOE_Dynamics_IEC61970_Core_CoreReportingGroup_CoreReportingGroup n_CoreReportingGroup (Some n_CIM14_ENTSOE_Dynamics_IEC61970_Core_CoreIdentifiedObject_CoreIdentifiedObject)
    [(n_PowerSystemResource, VNone)]
    [SMany n_PowerSystemResource]
    true true
    []
    []
    []
    [n_PowerSystemResource]
    [n_PowerSystemResource]
    [(n_PowerSystemResource, PManyMany n_ReportingGroup)];
(* CIM14/ENTSOE/Dynamics/IEC61970/Core/CoreTerminal.py:23-57 *)
  Cls n_CIM14_ENTSOE_Dynamics_IEC61970_Core_CoreTerminal_CoreTerminal n_CoreTerminal (Some n_CIM14_ENTSOE_Dynamics_IEC61970_Core_CoreIdentifiedObject_CoreIdentifiedObject)
    [(n_ConductingEquipment, VNone)]
    [SOne n_ConductingEquipment]
    true true
    []
    []
    []
    [n_ConductingEquipment]
    []
    [(n_ConductingEquipment, POneMany n_Terminals)];
(* CIM14/ENTSOE/Dynamics/IEC61970/Dynamics/DynamicsAsynchronousMachine.py:23-76 *)
  Cls n_CIM14_ENTSOE_Dynamics_IEC61970_Dynamics_DynamicsAsynchronousMachine_DynamicsAsynchronousMachine n_DynamicsAsynchronousMachine (Some n_CIM14_ENTSOE_Dynamics_IEC61970_Dynamics_DynamicsRotatingMachine_DynamicsRotatingMachine)
    [(n_rr1, VFloat n_0_0); (n_xp, VFloat n_0_0); (n_tpo, VFloat n_0_0); (n_xm, VFloat n_0_0); (n_xs, VFloat n_0_0); (n_rr2, VFloat n_0_0); (n_xlr1, VFloat n_0_0); (n_xlr2, VFloat n_0_0); (n_tppo, VFloat n_0_0); (n_xpp, VFloat n_0_0)]
    [SAttr n_rr1; SAttr n_xp; SAttr n_tpo; SAttr n_xm; SAttr n_xs; SAttr n_rr2; SAttr n_xlr1; SAttr n_xlr2; SAttr n_tppo; SAttr n_xpp]
    true true
    [n_rr1; n_xp; n_tpo; n_xm; n_xs; n_rr2; n_xlr1; n_xlr2; n_tppo; n_xpp]
    [(n_rr1, VFloat n_0_0); (n_xp, VFloat n_0_0); (n_tpo, VFloat n_0_0); (n_xm, VFloat n_0_0); (n_xs, VFloat n_0_0); (n_rr2, VFloat n_0_0); (n_xlr1, VFloat n_0_0); (n_xlr2, VFloat n_0_0); (n_tppo, VFloat n_0_0); (n_xpp, VFloat n_0_0)]
    []
    []
    []
    [];
(* CIM14/ENTSOE/Dynamics/IEC61970/Dynamics/DynamicsAttributeBlockParameter.py:23-40 *)
  Cls n_CIM14_ENTSOE_Dynamics_IEC61970_Dynamics_DynamicsAttributeBlockParameter_DynamicsAttributeBlockParameter n_DynamicsAttributeBlockParameter (Some n_CIM14_ENTSOE_Dynamics_IEC61970_Dynamics_DynamicsMetaBlockParameter_DynamicsMetaBlockParameter)
    [(n_attributeName, VStr n_)]
    [SAttr n_attributeName]
    true true
    [n_attributeName]
    [(n_attributeName, VStr n_)]
    []
    []
    []
    [];
(* CIM14/ENTSOE/Dynamics/IEC61970/Dynamics/DynamicsBlock.py:23-156 *)
  Cls n_CIM14_ENTSOE_Dynamics_IEC61970_Dynamics_DynamicsBlock_DynamicsBlock n_DynamicsBlock (Some n_CIM14_ENTSOE_Dynamics_IEC61970_Core_CorePowerSystemResource_CorePowerSystemResource)
    [(n_inService, VBool false); (n_positiveFlowIn, VBool false); (n_BlockParameter, VNone); (n_PowerSystemResource, VNone); (n_BlockConnection, VNone); (n_MemberOf_BlockConnectivity, VNone); (n_MetaBlock, VNone)]
    [SAttr n_inService; SAttr n_positiveFlowIn; SMany n_BlockParameter; SOne n_PowerSystemResource; SMany n_BlockConnection; SOne n_MemberOf_BlockConnectivity; SOne n_MetaBlock]
    true true
    [n_inService; n_positiveFlowIn]
    [(n_inService, VBool false); (n_positiveFlowIn, VBool false)]
    []
    [n_BlockParameter; n_PowerSystemResource; n_BlockConnection; n_MemberOf_BlockConnectivity; n_MetaBlock]
    [n_BlockParameter; n_BlockConnection]
    [(n_BlockParameter, PManyOne n_MemberOf_Block); (n_PowerSystemResource, POneMany n_Block); (n_BlockConnection, PManyOne n_Block); (n_MemberOf_BlockConnectivity, POneMany n_Block); (n_MetaBlock, POneMany n_Block)];
(* CIM14/ENTSOE/Dynamics/IEC61970/Dynamics/DynamicsBlockConnection.py:23-96 *)
  Cls n_CIM14_ENTSOE_Dynamics_IEC61970_Dynamics_DynamicsBlockConnection_DynamicsBlockConnection n_DynamicsBlockConnection (Some n_CIM14_ENTSOE_Dynamics_IEC61970_Core_CoreIdentifiedObject_CoreIdentifiedObject)
    [(n_MemberOf_BlockConnectivity, VNone); (n_MetaBlockConnection, VNone); (n_Block, VNone)]
    [SOne n_MemberOf_BlockConnectivity; SOne n_MetaBlockConnection; SOne n_Block]
    true true
    []
    []
    []
    [n_MemberOf_BlockConnectivity; n_MetaBlockConnection; n_Block]
    []
    [(n_MemberOf_BlockConnectivity, POneMany n_BlockConnection); (n_MetaBlockConnection, POneMany n_BlockConnection); (n_Block, POneMany n_BlockConnection)];
(* CIM14/ENTSOE/Dynamics/IEC61970/Dynamics/DynamicsBlockConnectivity.py:23-108 *)
  Cls n_CIM14_ENTSOE_Dynamics_IEC61970_Dynamics_DynamicsBlockConnectivity_DynamicsBlockConnectivity n_DynamicsBlockConnectivity (Some n_CIM14_ENTSOE_Dynamics_IEC61970_Core_CoreIdentifiedObject_CoreIdentifiedObject)
    [(n_Block, VNone); (n_BlockConnection, VNone); (n_MetaBlockConnectivity, VNone)]
    [SMany n_Block; SMany n_BlockConnection; SOne n_MetaBlockConnectivity]
    true true
    []
    []
    []
    [n_Block; n_BlockConnection; n_MetaBlockConnectivity]
    [n_Block; n_BlockConnection]
    [(n_Block, PManyOne n_MemberOf_BlockConnectivity); (n_BlockConnection, PManyOne n_MemberOf_BlockConnectivity); (n_MetaBlockConnectivity, POneMany n_BlockConnectivity)];
(* CIM14/ENTSOE/Dynamics/IEC61970/Dynamics/DynamicsBlockParameter.py:23-100 *)
  Cls n_CIM14_ENTSOE_Dynamics_IEC61970_Dynamics_DynamicsBlockParameter_DynamicsBlockParameter n_DynamicsBlockParameter (Some n_CIM14_ENTSOE_Dynamics_IEC61970_Core_CoreIdentifiedObject_CoreIdentifiedObject)
    [(n_value, VFloat n_0_0); (n_MetaBlockParameter, VNone); (n_MemberOf_MetaBlockReference, VNone); (n_MemberOf_Block, VNone)]
    [SAttr n_value; SOne n_MetaBlockParameter; SOne n_MemberOf_MetaBlockReference; SOne n_MemberOf_Block]
    true true
    [n_value]
    [(n_value, VFloat n_0_0)]
    []
    [n_MetaBlockParameter; n_MemberOf_MetaBlockReference; n_MemberOf_Block]
    []
    [(n_MetaBlockParameter, POneMany n_BlockParameter); (n_MemberOf_MetaBlockReference, POneMany n_BlockParameter); (n_MemberOf_Block, POneMany n_BlockParameter)];
(* CIM14/ENTSOE/Dynamics/IEC61970/Dynamics/DynamicsMetaBlock.py:23-226 *)
  Cls n_CIM14_ENTSOE_Dynamics_IEC61970_Dynamics_DynamicsMetaBlock_DynamicsMetaBlock n_DynamicsMetaBlock (Some n_CIM14_ENTSOE_Dynamics_IEC61970_Core_CoreIdentifiedObject_CoreIdentifiedObject)
    [(n_blockKind, VStr n_); (n_proprietary, VBool false); (n_Block, VNone); (n_MetaBlockSignal, VNone); (n_MetaBlockReference, VNone); (n_MetaBlockParameter, VNone); (n_MetaBlockOutput, VNone); (n_MetaBlockInput, VNone); (n_MetaBlockState, VNone)]
    [SAttr n_blockKind; SAttr n_proprietary; SMany n_Block; SMany n_MetaBlockSignal; SMany n_MetaBlockReference; SMany n_MetaBlockParameter; SMany n_MetaBlockOutput; SMany n_MetaBlockInput; SMany n_MetaBlockState]
    true true
    [n_blockKind; n_proprietary]
    [(n_blockKind, VStr n_); (n_proprietary, VBool false)]
    [(n_blockKind, n_DynamicsBlockKind)]
    [n_Block; n_MetaBlockSignal; n_MetaBlockReference; n_MetaBlockParameter; n_MetaBlockOutput; n_MetaBlockInput; n_MetaBlockState]
    [n_Block; n_MetaBlockSignal; n_MetaBlockReference; n_MetaBlockParameter; n_MetaBlockOutput; n_MetaBlockInput; n_MetaBlockState]
    [(n_Block, PManyOne n_MetaBlock); (n_MetaBlockSignal, PManyOne n_MemberOf_MetaBlock); (n_MetaBlockReference, PManyOne n_MemberOf_MetaBlock); (n_MetaBlockParameter, PManyOne n_MemberOf_MetaBlock); (n_MetaBlockOutput, PManyOne n_MemberOf_MetaBlock); (n_MetaBlockInput, PManyOne n_MemberOf_MetaBlock); (n_MetaBlockState, PManyOne n_MemberOf_MetaBlock)];
(* CIM14/ENTSOE/Dynamics/IEC61970/Dynamics/DynamicsMetaBlockConInput.py:23-76 *)
  Cls n_CIM14_ENTSOE_Dynamics_IEC61970_Dynamics_DynamicsMetaBlockConInput_DynamicsMetaBlockConInput n_DynamicsMetaBlockConInput (Some n_CIM14_ENTSOE_Dynamics_IEC61970_Core_CoreIdentifiedObject_CoreIdentifiedObject)
    [(n_MetaBlockConSignal, VNone); (n_MemberOf_MetaBlockConnection, VNone)]
    [SOne n_MetaBlockConSignal; SOne n_MemberOf_MetaBlockConnection]
    true true
    []
    []
    []
    [n_MetaBlockConSignal; n_MemberOf_MetaBlockConnection]
    []
    [(n_MetaBlockConSignal, POneOne n_MetaBlockConInput); (n_MemberOf_MetaBlockConnection, POneMany n_MetaBlockConInput)];
(* CIM14/ENTSOE/Dynamics/IEC61970/Dynamics/DynamicsMetaBlockConOutput.py:23-82 *)
  Cls n_CIM14_ENTSOE_Dynamics_IEC61970_Dynamics_DynamicsMetaBlockConOutput_DynamicsMetaBlockConOutput n_DynamicsMetaBlockConOutput (Some n_CIM14_ENTSOE_Dynamics_IEC61970_Core_CoreIdentifiedObject_CoreIdentifiedObject)
    [(n_MemberOf_MetaBlockConnection, VNone); (n_MetaBlockConSignal, VNone)]
    [SOne n_MemberOf_MetaBlockConnection; SMany n_MetaBlockConSignal]
    true true
    []
    []
    []
    [n_MemberOf_MetaBlockConnection; n_MetaBlockConSignal]
    [n_MetaBlockConSignal]
    [(n_MemberOf_MetaBlockConnection, POneMany n_MetaBlockConOutput); (n_MetaBlockConSignal, PManyOne n_MetaBlockConOutput)];
(* CIM14/ENTSOE/Dynamics/IEC61970/Dynamics/DynamicsMetaBlockConSignal.py:23-75 *)
  Cls n_CIM14_ENTSOE_Dynamics_IEC61970_Dynamics_DynamicsMetaBlockConSignal_DynamicsMetaBlockConSignal n_DynamicsMetaBlockConSignal (Some n_CIM14_ENTSOE_Dynamics_IEC61970_Core_CoreIdentifiedObject_CoreIdentifiedObject)
    [(n_MetaBlockConInput, VNone); (n_MetaBlockConOutput, VNone)]
    [SOne n_MetaBlockConInput; SOne n_MetaBlockConOutput]
    true true
    []
    []
    []
    [n_MetaBlockConInput; n_MetaBlockConOutput]
    []
    [(n_MetaBlockConInput, POneOne n_MetaBlockConSignal); (n_MetaBlockConOutput, POneMany n_MetaBlockConSignal)];
(* CIM14/ENTSOE/Dynamics/IEC61970/Dynamics/DynamicsMetaBlockConnectable.py:23-244 *)
  Cls n_CIM14_ENTSOE_Dynamics_IEC61970_Dynamics_DynamicsMetaBlockConnectable_DynamicsMetaBlockConnectable n_DynamicsMetaBlockConnectable (Some n_CIM14_ENTSOE_Dynamics_IEC61970_Core_CoreIdentifiedObject_CoreIdentifiedObject)
    [(n_MetaBlockParameterReference, VNone); (n_StandardControlBlock_MetaBlockInputReference, VNone); (n_MetaBlockStateReference, VNone); (n_StandardControlBlock_MetaBlockStateReference, VNone); (n_MetaBlockInputReference, VNone); (n_StandardControlBlock_MetaBlockParameterReference, VNone); (n_StandardControlBlock_MetaBlockOutputReference, VNone); (n_MetaBlockOutputReference, VNone)]
    [SMany n_MetaBlockParameterReference; SMany n_StandardControlBlock_MetaBlockInputReference; SMany n_MetaBlockStateReference; SMany n_StandardControlBlock_MetaBlockStateReference; SMany n_MetaBlockInputReference; SMany n_StandardControlBlock_MetaBlockParameterReference; SMany n_StandardControlBlock_MetaBlockOutputReference; SMany n_MetaBlockOutputReference]
    true true
    []
    []
    []
    [n_MetaBlockParameterReference; n_StandardControlBlock_MetaBlockInputReference; n_MetaBlockStateReference; n_StandardControlBlock_MetaBlockStateReference; n_MetaBlockInputReference; n_StandardControlBlock_MetaBlockParameterReference; n_StandardControlBlock_MetaBlockOutputReference; n_MetaBlockOutputReference]
    [n_MetaBlockParameterReference; n_StandardControlBlock_MetaBlockInputReference; n_MetaBlockStateReference; n_StandardControlBlock_MetaBlockStateReference; n_MetaBlockInputReference; n_StandardControlBlock_MetaBlockParameterReference; n_StandardControlBlock_MetaBlockOutputReference; n_MetaBlockOutputReference]
    [(n_MetaBlockParameterReference, PManyOne n_MetaBlockConnectable); (n_StandardControlBlock_MetaBlockInputReference, PManyOne n_StandardControlBlock_MetaBlockConnectable); (n_MetaBlockStateReference, PManyOne n_MetaBlockConnectable); (n_StandardControlBlock_MetaBlockStateReference, PManyOne n_StandardControlBlock_MetaBlockConnectable); (n_MetaBlockInputReference, PManyOne n_MetaBlockConnectable); (n_StandardControlBlock_MetaBlockParameterReference, PManyOne n_StandardControlBlock_MetaBlockConnectable); (n_StandardControlBlock_MetaBlockOutputReference, PManyOne n_StandardControlBlock_MetaBlockConnectable); (n_MetaBlockOutputReference, PManyOne n_MetaBlockConnectable)];
(* CIM14/ENTSOE/Dynamics/IEC61970/Dynamics/DynamicsMetaBlockConnection.py:23-134 *)
  Cls n_CIM14_ENTSOE_Dynamics_IEC61970_Dynamics_DynamicsMetaBlockConnection_DynamicsMetaBlockConnection n_DynamicsMetaBlockConnection (Some n_CIM14_ENTSOE_Dynamics_IEC61970_Core_CoreIdentifiedObject_CoreIdentifiedObject)
    [(n_MetaBlockConOutput, VNone); (n_MemberOf_MetaBlockConnectivity, VNone); (n_BlockConnection, VNone); (n_MetaBlockConInput, VNone)]
    [SMany n_MetaBlockConOutput; SOne n_MemberOf_MetaBlockConnectivity; SMany n_BlockConnection; SMany n_MetaBlockConInput]
    true true
    []
    []
    []
    [n_MetaBlockConOutput; n_MemberOf_MetaBlockConnectivity; n_BlockConnection; n_MetaBlockConInput]
    [n_MetaBlockConOutput; n_BlockConnection; n_MetaBlockConInput]
    [(n_MetaBlockConOutput, PManyOne n_MemberOf_MetaBlockConnection); (n_MemberOf_MetaBlockConnectivity, POneMany n_MetaBlockConnection); (n_BlockConnection, PManyOne n_MetaBlockConnection); (n_MetaBlockConInput, PManyOne n_MemberOf_MetaBlockConnection)];
(* CIM14/ENTSOE/Dynamics/IEC61970/Dynamics/DynamicsMetaBlockConnectivity.py:23-88 *)
  Cls n_CIM14_ENTSOE_Dynamics_IEC61970_Dynamics_DynamicsMetaBlockConnectivity_DynamicsMetaBlockConnectivity n_DynamicsMetaBlockConnectivity (Some n_CIM14_ENTSOE_Dynamics_IEC61970_Core_CoreIdentifiedObject_CoreIdentifiedObject)
    [(n_BlockConnectivity, VNone); (n_MetaBlockConnection, VNone)]
    [SMany n_BlockConnectivity; SMany n_MetaBlockConnection]
    true true
    []
    []
    []
    [n_BlockConnectivity; n_MetaBlockConnection]
    [n_BlockConnectivity; n_MetaBlockConnection]
    [(n_BlockConnectivity, PManyOne n_MetaBlockConnectivity); (n_MetaBlockConnection, PManyOne n_MemberOf_MetaBlockConnectivity)];
(* CIM14/ENTSOE/Dynamics/IEC61970/Dynamics/DynamicsMetaBlockInput.py:23-56 *)
  Cls n_CIM14_ENTSOE_Dynamics_IEC61970_Dynamics_DynamicsMetaBlockInput_DynamicsMetaBlockInput n_DynamicsMetaBlockInput (Some n_CIM14_ENTSOE_Dynamics_IEC61970_Dynamics_DynamicsMetaBlockConnectable_DynamicsMetaBlockConnectable)
    [(n_MemberOf_MetaBlock, VNone)]
    [SOne n_MemberOf_MetaBlock]
    true true
    []
    []
    []
    [n_MemberOf_MetaBlock]
    []
    [(n_MemberOf_MetaBlock, POneMany n_MetaBlockInput)];
(* CIM14/ENTSOE/Dynamics/IEC61970/Dynamics/DynamicsMetaBlockInputReference.py:23-116 *)
  Cls n_CIM14_ENTSOE_Dynamics_IEC61970_Dynamics_DynamicsMetaBlockInputReference_DynamicsMetaBlockInputReference n_DynamicsMetaBlockInputReference (Some n_CIM14_ENTSOE_Dynamics_IEC61970_Core_CoreIdentifiedObject_CoreIdentifiedObject)
    [(n_MemberOf_MetaBlockReference, VNone); (n_MetaBlockSignal, VNone); (n_MetaBlockConnectable, VNone); (n_StandardControlBlock_MetaBlockConnectable, VNone)]
    [SOne n_MemberOf_MetaBlockReference; SOne n_MetaBlockSignal; SOne n_MetaBlockConnectable; SOne n_StandardControlBlock_MetaBlockConnectable]
    true true
    []
    []
    []
    [n_MemberOf_MetaBlockReference; n_MetaBlockSignal; n_MetaBlockConnectable; n_StandardControlBlock_MetaBlockConnectable]
    []
    [(n_MemberOf_MetaBlockReference, POneMany n_MetaBlockInputReference); (n_MetaBlockSignal, POneOne n_From); (n_MetaBlockConnectable, POneMany n_MetaBlockInputReference); (n_StandardControlBlock_MetaBlockConnectable, POneMany n_StandardControlBlock_MetaBlockInputReference)];
(* CIM14/ENTSOE/Dynamics/IEC61970/Dynamics/DynamicsMetaBlockOutput.py:23-56 *)
  Cls n_CIM14_ENTSOE_Dynamics_IEC61970_Dynamics_DynamicsMetaBlockOutput_DynamicsMetaBlockOutput n_DynamicsMetaBlockOutput (Some n_CIM14_ENTSOE_Dynamics_IEC61970_Dynamics_DynamicsMetaBlockConnectable_DynamicsMetaBlockConnectable)
    [(n_MemberOf_MetaBlock, VNone)]
    [SOne n_MemberOf_MetaBlock]
    true true
    []
    []
    []
    [n_MemberOf_MetaBlock]
    []
    [(n_MemberOf_MetaBlock, POneMany n_MetaBlockOutput)];
(* CIM14/ENTSOE/Dynamics/IEC61970/Dynamics/DynamicsMetaBlockOutputReference.py:23-122 *)
  Cls n_CIM14_ENTSOE_Dynamics_IEC61970_Dynamics_DynamicsMetaBlockOutputReference_DynamicsMetaBlockOutputReference n_DynamicsMetaBlockOutputReference (Some n_CIM14_ENTSOE_Dynamics_IEC61970_Core_CoreIdentifiedObject_CoreIdentifiedObject)
    [(n_MetaBlockSignal, VNone); (n_MetaBlockConnectable, VNone); (n_StandardControlBlock_MetaBlockConnectable, VNone); (n_MemberOf_MetaBlockReference, VNone)]
    [SMany n_MetaBlockSignal; SOne n_MetaBlockConnectable; SOne n_StandardControlBlock_MetaBlockConnectable; SOne n_MemberOf_MetaBlockReference]
    true true
    []
    []
    []
    [n_MetaBlockSignal; n_MetaBlockConnectable; n_StandardControlBlock_MetaBlockConnectable; n_MemberOf_MetaBlockReference]
    [n_MetaBlockSignal]
    [(n_MetaBlockSignal, PManyOne n_To); (n_MetaBlockConnectable, POneMany n_MetaBlockOutputReference); (n_StandardControlBlock_MetaBlockConnectable, POneMany n_StandardControlBlock_MetaBlockOutputReference); (n_MemberOf_MetaBlockReference, POneMany n_MetaBlockOutputReference)];
(* CIM14/ENTSOE/Dynamics/IEC61970/Dynamics/DynamicsMetaBlockParameter.py:23-82 *)
  Cls n_CIM14_ENTSOE_Dynamics_IEC61970_Dynamics_DynamicsMetaBlockParameter_DynamicsMetaBlockParameter n_DynamicsMetaBlockParameter (Some n_CIM14_ENTSOE_Dynamics_IEC61970_Dynamics_DynamicsMetaBlockConnectable_DynamicsMetaBlockConnectable)
    [(n_MemberOf_MetaBlock, VNone); (n_BlockParameter, VNone)]
    [SOne n_MemberOf_MetaBlock; SMany n_BlockParameter]
    true true
    []
    []
    []
    [n_MemberOf_MetaBlock; n_BlockParameter]
    [n_BlockParameter]
    [(n_MemberOf_MetaBlock, POneMany n_MetaBlockParameter); (n_BlockParameter, PManyOne n_MetaBlockParameter)];
(* CIM14/ENTSOE/Dynamics/IEC61970/Dynamics/DynamicsMetaBlockParameterReference.py:23-96 *)
  Cls n_CIM14_ENTSOE_Dynamics_IEC61970_Dynamics_DynamicsMetaBlockParameterReference_DynamicsMetaBlockParameterReference n_DynamicsMetaBlockParameterReference (Some n_CIM14_ENTSOE_Dynamics_IEC61970_Core_CoreIdentifiedObject_CoreIdentifiedObject)
    [(n_StandardControlBlock_MetaBlockConnectable, VNone); (n_MetaBlockConnectable, VNone); (n_MemberOf_MetaBlockReference, VNone)]
    [SOne n_StandardControlBlock_MetaBlockConnectable; SOne n_MetaBlockConnectable; SOne n_MemberOf_MetaBlockReference]
    true true
    []
    []
    []
    [n_StandardControlBlock_MetaBlockConnectable; n_MetaBlockConnectable; n_MemberOf_MetaBlockReference]
    []
    [(n_StandardControlBlock_MetaBlockConnectable, POneMany n_StandardControlBlock_MetaBlockParameterReference); (n_MetaBlockConnectable, POneMany n_MetaBlockParameterReference); (n_MemberOf_MetaBlockReference, POneMany n_MetaBlockParameterReference)];
(* CIM14/ENTSOE/Dynamics/IEC61970/Dynamics/DynamicsMetaBlockReference.py:23-201 *)
  Cls n_CIM14_ENTSOE_Dynamics_IEC61970_Dynamics_DynamicsMetaBlockReference_DynamicsMetaBlockReference n_DynamicsMetaBlockReference (Some n_CIM14_ENTSOE_Dynamics_IEC61970_Core_CoreIdentifiedObject_CoreIdentifiedObject)
    [(n_equationType, VStr n_); (n_MetaBlockStateReference, VNone); (n_MemberOf_MetaBlock, VNone); (n_MetaBlockInputReference, VNone); (n_BlockParameter, VNone); (n_MetaBlock, VNone); (n_MetaBlockOutputReference, VNone); (n_MetaBlockParameterReference, VNone)]
    [SAttr n_equationType; SMany n_MetaBlockStateReference; SOne n_MemberOf_MetaBlock; SMany n_MetaBlockInputReference; SMany n_BlockParameter; SPlainMany n_MetaBlock; SMany n_MetaBlockOutputReference; SMany n_MetaBlockParameterReference]
    true true
    [n_equationType]
    [(n_equationType, VStr n_)]
    []
    [n_MetaBlockStateReference; n_MemberOf_MetaBlock; n_MetaBlockInputReference; n_BlockParameter; n_MetaBlock; n_MetaBlockOutputReference; n_MetaBlockParameterReference]
    [n_MetaBlockStateReference; n_MetaBlockInputReference; n_BlockParameter; n_MetaBlock; n_MetaBlockOutputReference; n_MetaBlockParameterReference]
    [(n_MetaBlockStateReference, PManyOne n_MemberOf_MetaBlockReference); (n_MemberOf_MetaBlock, POneMany n_MetaBlockReference); (n_MetaBlockInputReference, PManyOne n_MemberOf_MetaBlockReference); (n_BlockParameter, PManyOne n_MemberOf_MetaBlockReference); (n_MetaBlockOutputReference, PManyOne n_MemberOf_MetaBlockReference); (n_MetaBlockParameterReference, PManyOne n_MemberOf_MetaBlockReference)];
(* CIM14/ENTSOE/Dynamics/IEC61970/Dynamics/DynamicsMetaBlockSignal.py:23-95 *)
  Cls n_CIM14_ENTSOE_Dynamics_IEC61970_Dynamics_DynamicsMetaBlockSignal_DynamicsMetaBlockSignal n_DynamicsMetaBlockSignal (Some n_CIM14_ENTSOE_Dynamics_IEC61970_Core_CoreIdentifiedObject_CoreIdentifiedObject)
    [(n_To, VNone); (n_From, VNone); (n_MemberOf_MetaBlock, VNone)]
    [SOne n_To; SOne n_From; SOne n_MemberOf_MetaBlock]
    true true
    []
    []
    []
    [n_To; n_From; n_MemberOf_MetaBlock]
    []
    [(n_To, POneMany n_MetaBlockSignal); (n_From, POneOne n_MetaBlockSignal); (n_MemberOf_MetaBlock, POneMany n_MetaBlockSignal)];
(* CIM14/ENTSOE/Dynamics/IEC61970/Dynamics/DynamicsMetaBlockState.py:23-56 *)
  Cls n_CIM14_ENTSOE_Dynamics_IEC61970_Dynamics_DynamicsMetaBlockState_DynamicsMetaBlockState n_DynamicsMetaBlockState (Some n_CIM14_ENTSOE_Dynamics_IEC61970_Dynamics_DynamicsMetaBlockConnectable_DynamicsMetaBlockConnectable)
    [(n_MemberOf_MetaBlock, VNone)]
    [SOne n_MemberOf_MetaBlock]
    true true
    []
    []
    []
    [n_MemberOf_MetaBlock]
    []
    [(n_MemberOf_MetaBlock, POneMany n_MetaBlockState)];
(* CIM14/ENTSOE/Dynamics/IEC61970/Dynamics/DynamicsMetaBlockStateReference.py:23-100 *)
  Cls n_CIM14_ENTSOE_Dynamics_IEC61970_Dynamics_DynamicsMetaBlockStateReference_DynamicsMetaBlockStateReference n_DynamicsMetaBlockStateReference (Some n_CIM14_ENTSOE_Dynamics_IEC61970_Core_CoreIdentifiedObject_CoreIdentifiedObject)
    [(n_positiveFlowIn, VBool false); (n_MetaBlockConnectable, VNone); (n_StandardControlBlock_MetaBlockConnectable, VNone); (n_MemberOf_MetaBlockReference, VNone)]
    [SAttr n_positiveFlowIn; SOne n_MetaBlockConnectable; SOne n_StandardControlBlock_MetaBlockConnectable; SOne n_MemberOf_MetaBlockReference]
    true true
    [n_positiveFlowIn]
    [(n_positiveFlowIn, VBool false)]
    []
    [n_MetaBlockConnectable; n_StandardControlBlock_MetaBlockConnectable; n_MemberOf_MetaBlockReference]
    []
    [(n_MetaBlockConnectable, POneMany n_MetaBlockStateReference); (n_StandardControlBlock_MetaBlockConnectable, POneMany n_StandardControlBlock_MetaBlockStateReference); (n_MemberOf_MetaBlockReference, POneMany n_MetaBlockStateReference)];
(* CIM14/ENTSOE/Dynamics/IEC61970/Dynamics/DynamicsRotatingMachine.py:23-68 *)
  Cls n_CIM14_ENTSOE_Dynamics_IEC61970_Dynamics_DynamicsRotatingMachine_DynamicsRotatingMachine n_DynamicsRotatingMachine (Some n_CIM14_ENTSOE_Dynamics_IEC61970_Wires_WiresRegulatingCondEq_WiresRegulatingCondEq)
    [(n_ratedS, VFloat n_0_0); (n_s1, VFloat n_0_0); (n_s12, VFloat n_0_0); (n_h, VFloat n_0_0); (n_parametersFormType, VStr n_equivalentCircuit); (n_d, VFloat n_0_0); (n_rs, VFloat n_0_0); (n_xls, VFloat n_0_0)]
    [SAttr n_ratedS; SAttr n_s1; SAttr n_s12; SAttr n_h; SAttr n_parametersFormType; SAttr n_d; SAttr n_rs; SAttr n_xls]
    true true
    [n_ratedS; n_s1; n_s12; n_h; n_parametersFormType; n_d; n_rs; n_xls]
    [(n_ratedS, VFloat n_0_0); (n_s1, VFloat n_0_0); (n_s12, VFloat n_0_0); (n_h, VFloat n_0_0); (n_parametersFormType, VStr n_equivalentCircuit); (n_d, VFloat n_0_0); (n_rs, VFloat n_0_0); (n_xls, VFloat n_0_0)]
    [(n_parametersFormType, n_GeneratorsParametersFormType)]
    []
    []
    [];
(* CIM14/ENTSOE/Dynamics/IEC61970/Dynamics/ExcitationSystems/ExcitationSystemsExcAC1A.py:23-112 *)
  Cls n_CIM14_ENTSOE_Dynamics_IEC61970_Dynamics_ExcitationSystems_ExcitationSystemsExcAC1A_ExcitationSystemsExcAC1A n_ExcitationSystemsExcAC1A (Some n_CIM14_ENTSOE_Dynamics_IEC61970_Core_CorePowerSystemResource_CorePowerSystemResource)
    [(n_se1, VFloat n_0_0); (n_se2, VFloat n_0_0); (n_e2, VFloat n_0_0); (n_e1, VFloat n_0_0); (n_tr, VFloat n_0_0); (n_vamin, VFloat n_0_0); (n_vamax, VFloat n_0_0); (n_vrmax, VFloat n_0_0); (n_tb, VFloat n_0_0); (n_kd, VFloat n_0_0); (n_tc, VFloat n_0_0); (n_kc, VFloat n_0_0); (n_kf, VFloat n_0_0); (n_ta, VFloat n_0_0); (n_vrmin, VFloat n_0_0); (n_ke, VFloat n_0_0); (n_te, VFloat n_0_0); (n_tf, VFloat n_0_0); (n_ka, VFloat n_0_0)]
    [SAttr n_se1; SAttr n_se2; SAttr n_e2; SAttr n_e1; SAttr n_tr; SAttr n_vamin; SAttr n_vamax; SAttr n_vrmax; SAttr n_tb; SAttr n_kd; SAttr n_tc; SAttr n_kc; SAttr n_kf; SAttr n_ta; SAttr n_vrmin; SAttr n_ke; SAttr n_te; SAttr n_tf; SAttr n_ka]
    true true
    [n_se1; n_se2; n_e2; n_e1; n_tr; n_vamin; n_vamax; n_vrmax; n_tb; n_kd; n_tc; n_kc; n_kf; n_ta; n_vrmin; n_ke; n_te; n_tf; n_ka]
    [(n_se1, VFloat n_0_0); (n_se2, VFloat n_0_0); (n_e2, VFloat n_0_0); (n_e1, VFloat n_0_0); (n_tr, VFloat n_0_0); (n_vamin, VFloat n_0_0); (n_vamax, VFloat n_0_0); (n_vrmax, VFloat n_0_0); (n_tb, VFloat n_0_0); (n_kd, VFloat n_0_0); (n_tc, VFloat n_0_0); (n_kc, VFloat n_0_0); (n_kf, VFloat n_0_0); (n_ta, VFloat n_0_0); (n_vrmin, VFloat n_0_0); (n_ke, VFloat n_0_0); (n_te, VFloat n_0_0); (n_tf, VFloat n_0_0); (n_ka, VFloat n_0_0)]
    []
    []
    []
    [];
(* CIM14/ENTSOE/Dynamics/IEC61970/Dynamics/ExcitationSystems/ExcitationSystemsExcAC2A.py:23-124 *)
  Cls n_CIM14_ENTSOE_Dynamics_IEC61970_Dynamics_ExcitationSystems_ExcitationSystemsExcAC2A_ExcitationSystemsExcAC2A n_ExcitationSystemsExcAC2A (Some n_CIM14_ENTSOE_Dynamics_IEC61970_Core_CorePowerSystemResource_CorePowerSystemResource)
    [(n_tb, VFloat n_0_0); (n_e1, VFloat n_0_0); (n_ta, VFloat n_0_0); (n_vrmin, VFloat n_0_0); (n_e2, VFloat n_0_0); (n_vfemax, VFloat n_0_0); (n_vrmax, VFloat n_0_0); (n_ka, VFloat n_0_0); (n_se1, VFloat n_0_0); (n_se2, VFloat n_0_0); (n_kf, VFloat n_0_0); (n_kh, VFloat n_0_0); (n_kc, VFloat n_0_0); (n_vamin, VFloat n_0_0); (n_kb, VFloat n_0_0); (n_ke, VFloat n_0_0); (n_tr, VFloat n_0_0); (n_kd, VFloat n_0_0); (n_te, VFloat n_0_0); (n_tc, VFloat n_0_0); (n_vamax, VFloat n_0_0); (n_tf, VFloat n_0_0)]
    [SAttr n_tb; SAttr n_e1; SAttr n_ta; SAttr n_vrmin; SAttr n_e2; SAttr n_vfemax; SAttr n_vrmax; SAttr n_ka; SAttr n_se1; SAttr n_se2; SAttr n_kf; SAttr n_kh; SAttr n_kc; SAttr n_vamin; SAttr n_kb; SAttr n_ke; SAttr n_tr; SAttr n_kd; SAttr n_te; SAttr n_tc; SAttr n_vamax; SAttr n_tf]
    true true
    [n_tb; n_e1; n_ta; n_vrmin; n_e2; n_vfemax; n_vrmax; n_ka; n_se1; n_se2; n_kf; n_kh; n_kc; n_vamin; n_kb; n_ke; n_tr; n_kd; n_te; n_tc; n_vamax; n_tf]
    [(n_tb, VFloat n_0_0); (n_e1, VFloat n_0_0); (n_ta, VFloat n_0_0); (n_vrmin, VFloat n_0_0); (n_e2, VFloat n_0_0); (n_vfemax, VFloat n_0_0); (n_vrmax, VFloat n_0_0); (n_ka, VFloat n_0_0); (n_se1, VFloat n_0_0); (n_se2, VFloat n_0_0); (n_kf, VFloat n_0_0); (n_kh, VFloat n_0_0); (n_kc, VFloat n_0_0); (n_vamin, VFloat n_0_0); (n_kb, VFloat n_0_0); (n_ke, VFloat n_0_0); (n_tr, VFloat n_0_0); (n_kd, VFloat n_0_0); (n_te, VFloat n_0_0); (n_tc, VFloat n_0_0); (n_vamax, VFloat n_0_0); (n_tf, VFloat n_0_0)]
    []
    []
    []
    [];
(* CIM14/ENTSOE/Dynamics/IEC61970/Dynamics/ExcitationSystems/ExcitationSystemsExcAC3A.py:23-124 *)
  Cls n_CIM14_ENTSOE_Dynamics_IEC61970_Dynamics_ExcitationSystems_ExcitationSystemsExcAC3A_ExcitationSystemsExcAC3A n_ExcitationSystemsExcAC3A (Some n_CIM14_ENTSOE_Dynamics_IEC61970_Core_CorePowerSystemResource_CorePowerSystemResource)
    [(n_ta, VFloat n_0_0); (n_ka, VFloat n_0_0); (n_kd, VFloat n_0_0); (n_se1, VFloat n_0_0); (n_kc, VFloat n_0_0); (n_se2, VFloat n_0_0); (n_te, VFloat n_0_0); (n_tf, VFloat n_0_0); (n_tb, VFloat n_0_0); (n_tc, VFloat n_0_0); (n_vamax, VFloat n_0_0); (n_kf, VFloat n_0_0); (n_vemin, VFloat n_0_0); (n_ke, VFloat n_0_0); (n_vfemax, VFloat n_0_0); (n_tr, VFloat n_0_0); (n_e2, VFloat n_0_0); (n_e1, VFloat n_0_0); (n_kn, VFloat n_0_0); (n_vamin, VFloat n_0_0); (n_kr, VFloat n_0_0); (n_efdn, VFloat n_0_0)]
    [SAttr n_ta; SAttr n_ka; SAttr n_kd; SAttr n_se1; SAttr n_kc; SAttr n_se2; SAttr n_te; SAttr n_tf; SAttr n_tb; SAttr n_tc; SAttr n_vamax; SAttr n_kf; SAttr n_vemin; SAttr n_ke; SAttr n_vfemax; SAttr n_tr; SAttr n_e2; SAttr n_e1; SAttr n_kn; SAttr n_vamin; SAttr n_kr; SAttr n_efdn]
    true true
    [n_ta; n_ka; n_kd; n_se1; n_kc; n_se2; n_te; n_tf; n_tb; n_tc; n_vamax; n_kf; n_vemin; n_ke; n_vfemax; n_tr; n_e2; n_e1; n_kn; n_vamin; n_kr; n_efdn]
    [(n_ta, VFloat n_0_0); (n_ka, VFloat n_0_0); (n_kd, VFloat n_0_0); (n_se1, VFloat n_0_0); (n_kc, VFloat n_0_0); (n_se2, VFloat n_0_0); (n_te, VFloat n_0_0); (n_tf, VFloat n_0_0); (n_tb, VFloat n_0_0); (n_tc, VFloat n_0_0); (n_vamax, VFloat n_0_0); (n_kf, VFloat n_0_0); (n_vemin, VFloat n_0_0); (n_ke, VFloat n_0_0); (n_vfemax, VFloat n_0_0); (n_tr, VFloat n_0_0); (n_e2, VFloat n_0_0); (n_e1, VFloat n_0_0); (n_kn, VFloat n_0_0); (n_vamin, VFloat n_0_0); (n_kr, VFloat n_0_0); (n_efdn, VFloat n_0_0)]
    []
    []
    []
    [];
(* CIM14/ENTSOE/Dynamics/IEC61970/Dynamics/ExcitationSystems/ExcitationSystemsExcAC4A.py:23-76 *)
  Cls n_CIM14_ENTSOE_Dynamics_IEC61970_Dynamics_ExcitationSystems_ExcitationSystemsExcAC4A_ExcitationSystemsExcAC4A n_ExcitationSystemsExcAC4A (Some n_CIM14_ENTSOE_Dynamics_IEC61970_Core_CorePowerSystemResource_CorePowerSystemResource)
    [(n_tb, VFloat n_0_0); (n_ta, VFloat n_0_0); (n_tc, VFloat n_0_0); (n_vrmin, VFloat n_0_0); (n_vimax, VFloat n_0_0); (n_vrmax, VFloat n_0_0); (n_tr, VFloat n_0_0); (n_kc, VFloat n_0_0); (n_vimin, VFloat n_0_0); (n_ka, VFloat n_0_0)]
    [SAttr n_tb; SAttr n_ta; SAttr n_tc; SAttr n_vrmin; SAttr n_vimax; SAttr n_vrmax; SAttr n_tr; SAttr n_kc; SAttr n_vimin; SAttr n_ka]
    true true
    [n_tb; n_ta; n_tc; n_vrmin; n_vimax; n_vrmax; n_tr; n_kc; n_vimin; n_ka]
    [(n_tb, VFloat n_0_0); (n_ta, VFloat n_0_0); (n_tc, VFloat n_0_0); (n_vrmin, VFloat n_0_0); (n_vimax, VFloat n_0_0); (n_vrmax, VFloat n_0_0); (n_tr, VFloat n_0_0); (n_kc, VFloat n_0_0); (n_vimin, VFloat n_0_0); (n_ka, VFloat n_0_0)]
    []
    []
    []
    [];
(* CIM14/ENTSOE/Dynamics/IEC61970/Dynamics/ExcitationSystems/ExcitationSystemsExcAC5A.py:23-96 *)
  Cls n_CIM14_ENTSOE_Dynamics_IEC61970_Dynamics_ExcitationSystems_ExcitationSystemsExcAC5A_ExcitationSystemsExcAC5A n_ExcitationSystemsExcAC5A (Some n_CIM14_ENTSOE_Dynamics_IEC61970_Core_CorePowerSystemResource_CorePowerSystemResource)
    [(n_ta, VFloat n_0_0); (n_vrmax, VFloat n_0_0); (n_ka, VFloat n_0_0); (n_vrmin, VFloat n_0_0); (n_tr, VFloat n_0_0); (n_tf1, VFloat n_0_0); (n_ke, VFloat n_0_0); (n_tf2, VFloat n_0_0); (n_te, VFloat n_0_0); (n_kf, VFloat n_0_0); (n_e1, VFloat n_0_0); (n_tf3, VFloat n_0_0); (n_e2, VFloat n_0_0); (n_se1, VFloat n_0_0); (n_se2, VFloat n_0_0)]
    [SAttr n_ta; SAttr n_vrmax; SAttr n_ka; SAttr n_vrmin; SAttr n_tr; SAttr n_tf1; SAttr n_ke; SAttr n_tf2; SAttr n_te; SAttr n_kf; SAttr n_e1; SAttr n_tf3; SAttr n_e2; SAttr n_se1; SAttr n_se2]
    true true
    [n_ta; n_vrmax; n_ka; n_vrmin; n_tr; n_tf1; n_ke; n_tf2; n_te; n_kf; n_e1; n_tf3; n_e2; n_se1; n_se2]
    [(n_ta, VFloat n_0_0); (n_vrmax, VFloat n_0_0); (n_ka, VFloat n_0_0); (n_vrmin, VFloat n_0_0); (n_tr, VFloat n_0_0); (n_tf1, VFloat n_0_0); (n_ke, VFloat n_0_0); (n_tf2, VFloat n_0_0); (n_te, VFloat n_0_0); (n_kf, VFloat n_0_0); (n_e1, VFloat n_0_0); (n_tf3, VFloat n_0_0); (n_e2, VFloat n_0_0); (n_se1, VFloat n_0_0); (n_se2, VFloat n_0_0)]
    []
    []
    []
    [];
(* CIM14/ENTSOE/Dynamics/IEC61970/Dynamics/ExcitationSystems/ExcitationSystemsExcAC6A.py:23-128 *)
  Cls n_CIM14_ENTSOE_Dynamics_IEC61970_Dynamics_ExcitationSystems_ExcitationSystemsExcAC6A_ExcitationSystemsExcAC6A n_ExcitationSystemsExcAC6A (Some n_CIM14_ENTSOE_Dynamics_IEC61970_Core_CorePowerSystemResource_CorePowerSystemResource)
    [(n_vamax, VFloat n_0_0); (n_vfelim, VFloat n_0_0); (n_tr, VFloat n_0_0); (n_e2, VFloat n_0_0); (n_e1, VFloat n_0_0); (n_vamin, VFloat n_0_0); (n_vhmax, VFloat n_0_0); (n_vrmax, VFloat n_0_0); (n_se1, VFloat n_0_0); (n_se2, VFloat n_0_0); (n_vrmin, VFloat n_0_0); (n_te, VFloat n_0_0); (n_kh, VFloat n_0_0); (n_tb, VFloat n_0_0); (n_tc, VFloat n_0_0); (n_ta, VFloat n_0_0); (n_ka, VFloat n_0_0); (n_kc, VFloat n_0_0); (n_tj, VFloat n_0_0); (n_tk, VFloat n_0_0); (n_ke, VFloat n_0_0); (n_th, VFloat n_0_0); (n_kd, VFloat n_0_0)]
    [SAttr n_vamax; SAttr n_vfelim; SAttr n_tr; SAttr n_e2; SAttr n_e1; SAttr n_vamin; SAttr n_vhmax; SAttr n_vrmax; SAttr n_se1; SAttr n_se2; SAttr n_vrmin; SAttr n_te; SAttr n_kh; SAttr n_tb; SAttr n_tc; SAttr n_ta; SAttr n_ka; SAttr n_kc; SAttr n_tj; SAttr n_tk; SAttr n_ke; SAttr n_th; SAttr n_kd]
    true true
    [n_vamax; n_vfelim; n_tr; n_e2; n_e1; n_vamin; n_vhmax; n_vrmax; n_se1; n_se2; n_vrmin; n_te; n_kh; n_tb; n_tc; n_ta; n_ka; n_kc; n_tj; n_tk; n_ke; n_th; n_kd]
    [(n_vamax, VFloat n_0_0); (n_vfelim, VFloat n_0_0); (n_tr, VFloat n_0_0); (n_e2, VFloat n_0_0); (n_e1, VFloat n_0_0); (n_vamin, VFloat n_0_0); (n_vhmax, VFloat n_0_0); (n_vrmax, VFloat n_0_0); (n_se1, VFloat n_0_0); (n_se2, VFloat n_0_0); (n_vrmin, VFloat n_0_0); (n_te, VFloat n_0_0); (n_kh, VFloat n_0_0); (n_tb, VFloat n_0_0); (n_tc, VFloat n_0_0); (n_ta, VFloat n_0_0); (n_ka, VFloat n_0_0); (n_kc, VFloat n_0_0); (n_tj, VFloat n_0_0); (n_tk, VFloat n_0_0); (n_ke, VFloat n_0_0); (n_th, VFloat n_0_0); (n_kd, VFloat n_0_0)]
    []
    []
    []
    [];
(* CIM14/ENTSOE/Dynamics/IEC61970/Dynamics/ExcitationSystems/ExcitationSystemsExcAC7B.py:23-144 *)
  Cls n_CIM14_ENTSOE_Dynamics_IEC61970_Dynamics_ExcitationSystems_ExcitationSystemsExcAC7B_ExcitationSystemsExcAC7B n_ExcitationSystemsExcAC7B (Some n_CIM14_ENTSOE_Dynamics_IEC61970_Core_CorePowerSystemResource_CorePowerSystemResource)
    [(n_kd, VFloat n_0_0); (n_kc, VFloat n_0_0); (n_vrmin, VFloat n_0_0); (n_kdr, VFloat n_0_0); (n_vrmax, VFloat n_0_0); (n_kpr, VFloat n_0_0); (n_vemin, VFloat n_0_0); (n_kl, VFloat n_0_0); (n_kf1, VFloat n_0_0); (n_kia, VFloat n_0_0); (n_kf3, VFloat n_0_0); (n_se1, VFloat n_0_0); (n_vfemax, VFloat n_0_0); (n_kf2, VFloat n_0_0); (n_te, VFloat n_0_0); (n_tf, VFloat n_0_0); (n_ke, VFloat n_0_0); (n_kpa, VFloat n_0_0); (n_e2, VFloat n_0_0); (n_se2, VFloat n_0_0); (n_kp, VFloat n_0_0); (n_e1, VFloat n_0_0); (n_kir, VFloat n_0_0); (n_tr, VFloat n_0_0); (n_tdr, VFloat n_0_0); (n_vamin, VFloat n_0_0); (n_vamax, VFloat n_0_0)]
    [SAttr n_kd; SAttr n_kc; SAttr n_vrmin; SAttr n_kdr; SAttr n_vrmax; SAttr n_kpr; SAttr n_vemin; SAttr n_kl; SAttr n_kf1; SAttr n_kia; SAttr n_kf3; SAttr n_se1; SAttr n_vfemax; SAttr n_kf2; SAttr n_te; SAttr n_tf; SAttr n_ke; SAttr n_kpa; SAttr n_e2; SAttr n_se2; SAttr n_kp; SAttr n_e1; SAttr n_kir; SAttr n_tr; SAttr n_tdr; SAttr n_vamin; SAttr n_vamax]
    true true
    [n_kd; n_kc; n_vrmin; n_kdr; n_vrmax; n_kpr; n_vemin; n_kl; n_kf1; n_kia; n_kf3; n_se1; n_vfemax; n_kf2; n_te; n_tf; n_ke; n_kpa; n_e2; n_se2; n_kp; n_e1; n_kir; n_tr; n_tdr; n_vamin; n_vamax]
    [(n_kd, VFloat n_0_0); (n_kc, VFloat n_0_0); (n_vrmin, VFloat n_0_0); (n_kdr, VFloat n_0_0); (n_vrmax, VFloat n_0_0); (n_kpr, VFloat n_0_0); (n_vemin, VFloat n_0_0); (n_kl, VFloat n_0_0); (n_kf1, VFloat n_0_0); (n_kia, VFloat n_0_0); (n_kf3, VFloat n_0_0); (n_se1, VFloat n_0_0); (n_vfemax, VFloat n_0_0); (n_kf2, VFloat n_0_0); (n_te, VFloat n_0_0); (n_tf, VFloat n_0_0); (n_ke, VFloat n_0_0); (n_kpa, VFloat n_0_0); (n_e2, VFloat n_0_0); (n_se2, VFloat n_0_0); (n_kp, VFloat n_0_0); (n_e1, VFloat n_0_0); (n_kir, VFloat n_0_0); (n_tr, VFloat n_0_0); (n_tdr, VFloat n_0_0); (n_vamin, VFloat n_0_0); (n_vamax, VFloat n_0_0)]
    []
    []
    []
    [];
(* CIM14/ENTSOE/Dynamics/IEC61970/Dynamics/ExcitationSystems/ExcitationSystemsExcAC8B.py:23-116 *)
  Cls n_CIM14_ENTSOE_Dynamics_IEC61970_Dynamics_ExcitationSystems_ExcitationSystemsExcAC8B_ExcitationSystemsExcAC8B n_ExcitationSystemsExcAC8B (Some n_CIM14_ENTSOE_Dynamics_IEC61970_Core_CorePowerSystemResource_CorePowerSystemResource)
    [(n_kdr, VFloat n_0_0); (n_tr, VFloat n_0_0); (n_e1, VFloat n_0_0); (n_e2, VFloat n_0_0); (n_kir, VFloat n_0_0); (n_kc, VFloat n_0_0); (n_vrmax, VFloat n_0_0); (n_ka, VFloat n_0_0); (n_se2, VFloat n_0_0); (n_tdr, VFloat n_0_0); (n_kpr, VFloat n_0_0); (n_vemin, VFloat n_0_0); (n_kd, VFloat n_0_0); (n_te, VFloat n_0_0); (n_se1, VFloat n_0_0); (n_ke, VFloat n_0_0); (n_vfemax, VFloat n_0_0); (n_ta, VFloat n_0_0); (n_vrmin, VFloat n_0_0); (n_vtmult, VFloat n_0_0)]
    [SAttr n_kdr; SAttr n_tr; SAttr n_e1; SAttr n_e2; SAttr n_kir; SAttr n_kc; SAttr n_vrmax; SAttr n_ka; SAttr n_se2; SAttr n_tdr; SAttr n_kpr; SAttr n_vemin; SAttr n_kd; SAttr n_te; SAttr n_se1; SAttr n_ke; SAttr n_vfemax; SAttr n_ta; SAttr n_vrmin; SAttr n_vtmult]
    true true
    [n_kdr; n_tr; n_e1; n_e2; n_kir; n_kc; n_vrmax; n_ka; n_se2; n_tdr; n_kpr; n_vemin; n_kd; n_te; n_se1; n_ke; n_vfemax; n_ta; n_vrmin; n_vtmult]
    [(n_kdr, VFloat n_0_0); (n_tr, VFloat n_0_0); (n_e1, VFloat n_0_0); (n_e2, VFloat n_0_0); (n_kir, VFloat n_0_0); (n_kc, VFloat n_0_0); (n_vrmax, VFloat n_0_0); (n_ka, VFloat n_0_0); (n_se2, VFloat n_0_0); (n_tdr, VFloat n_0_0); (n_kpr, VFloat n_0_0); (n_vemin, VFloat n_0_0); (n_kd, VFloat n_0_0); (n_te, VFloat n_0_0); (n_se1, VFloat n_0_0); (n_ke, VFloat n_0_0); (n_vfemax, VFloat n_0_0); (n_ta, VFloat n_0_0); (n_vrmin, VFloat n_0_0); (n_vtmult, VFloat n_0_0)]
    []
    []
    []
    [];
(* CIM14/ENTSOE/Dynamics/IEC61970/Dynamics/ExcitationSystems/ExcitationSystemsExcDC1A.py:23-104 *)
  Cls n_CIM14_ENTSOE_Dynamics_IEC61970_Dynamics_ExcitationSystems_ExcitationSystemsExcDC1A_ExcitationSystemsExcDC1A n_ExcitationSystemsExcDC1A (Some n_CIM14_ENTSOE_Dynamics_IEC61970_Core_CorePowerSystemResource_CorePowerSystemResource)
    [(n_exclim, VFloat n_0_0); (n_vrmin, VFloat n_0_0); (n_tc, VFloat n_0_0); (n_ta, VFloat n_0_0); (n_tb, VFloat n_0_0); (n_ka, VFloat n_0_0); (n_ke, VFloat n_0_0); (n_se2, VFloat n_0_0); (n_te, VFloat n_0_0); (n_se1, VFloat n_0_0); (n_tf, VFloat n_0_0); (n_kf, VFloat n_0_0); (n_uelin, VFloat n_0_0); (n_tr, VFloat n_0_0); (n_e1, VFloat n_0_0); (n_vrmax, VFloat n_0_0); (n_e2, VFloat n_0_0)]
    [SAttr n_exclim; SAttr n_vrmin; SAttr n_tc; SAttr n_ta; SAttr n_tb; SAttr n_ka; SAttr n_ke; SAttr n_se2; SAttr n_te; SAttr n_se1; SAttr n_tf; SAttr n_kf; SAttr n_uelin; SAttr n_tr; SAttr n_e1; SAttr n_vrmax; SAttr n_e2]
    true true
    [n_exclim; n_vrmin; n_tc; n_ta; n_tb; n_ka; n_ke; n_se2; n_te; n_se1; n_tf; n_kf; n_uelin; n_tr; n_e1; n_vrmax; n_e2]
    [(n_exclim, VFloat n_0_0); (n_vrmin, VFloat n_0_0); (n_tc, VFloat n_0_0); (n_ta, VFloat n_0_0); (n_tb, VFloat n_0_0); (n_ka, VFloat n_0_0); (n_ke, VFloat n_0_0); (n_se2, VFloat n_0_0); (n_te, VFloat n_0_0); (n_se1, VFloat n_0_0); (n_tf, VFloat n_0_0); (n_kf, VFloat n_0_0); (n_uelin, VFloat n_0_0); (n_tr, VFloat n_0_0); (n_e1, VFloat n_0_0); (n_vrmax, VFloat n_0_0); (n_e2, VFloat n_0_0)]
    []
    []
    []
    [];
(* CIM14/ENTSOE/Dynamics/IEC61970/Dynamics/ExcitationSystems/ExcitationSystemsExcDC2A.py:23-104 *)
  Cls n_CIM14_ENTSOE_Dynamics_IEC61970_Dynamics_ExcitationSystems_ExcitationSystemsExcDC2A_ExcitationSystemsExcDC2A n_ExcitationSystemsExcDC2A (Some n_CIM14_ENTSOE_Dynamics_IEC61970_Core_CorePowerSystemResource_CorePowerSystemResource)
    [(n_te, VFloat n_0_0); (n_tf, VFloat n_0_0); (n_ka, VFloat n_0_0); (n_tc, VFloat n_0_0); (n_vrmin, VFloat n_0_0); (n_ta, VFloat n_0_0); (n_tb, VFloat n_0_0); (n_vrmax, VFloat n_0_0); (n_kf, VFloat n_0_0); (n_ke, VFloat n_0_0); (n_uelin, VFloat n_0_0); (n_se1, VFloat n_0_0); (n_tr, VFloat n_0_0); (n_se2, VFloat n_0_0); (n_exclim, VFloat n_0_0); (n_e2, VFloat n_0_0); (n_e1, VFloat n_0_0)]
    [SAttr n_te; SAttr n_tf; SAttr n_ka; SAttr n_tc; SAttr n_vrmin; SAttr n_ta; SAttr n_tb; SAttr n_vrmax; SAttr n_kf; SAttr n_ke; SAttr n_uelin; SAttr n_se1; SAttr n_tr; SAttr n_se2; SAttr n_exclim; SAttr n_e2; SAttr n_e1]
    true true
    [n_te; n_tf; n_ka; n_tc; n_vrmin; n_ta; n_tb; n_vrmax; n_kf; n_ke; n_uelin; n_se1; n_tr; n_se2; n_exclim; n_e2; n_e1]
    [(n_te, VFloat n_0_0); (n_tf, VFloat n_0_0); (n_ka, VFloat n_0_0); (n_tc, VFloat n_0_0); (n_vrmin, VFloat n_0_0); (n_ta, VFloat n_0_0); (n_tb, VFloat n_0_0); (n_vrmax, VFloat n_0_0); (n_kf, VFloat n_0_0); (n_ke, VFloat n_0_0); (n_uelin, VFloat n_0_0); (n_se1, VFloat n_0_0); (n_tr, VFloat n_0_0); (n_se2, VFloat n_0_0); (n_exclim, VFloat n_0_0); (n_e2, VFloat n_0_0); (n_e1, VFloat n_0_0)]
    []
    []
    []
    [];
(* CIM14/ENTSOE/Dynamics/IEC61970/Dynamics/ExcitationSystems/ExcitationSystemsExcDC3A.py:23-84 *)
  Cls n_CIM14_ENTSOE_Dynamics_IEC61970_Dynamics_ExcitationSystems_ExcitationSystemsExcDC3A_ExcitationSystemsExcDC3A n_ExcitationSystemsExcDC3A (Some n_CIM14_ENTSOE_Dynamics_IEC61970_Core_CorePowerSystemResource_CorePowerSystemResource)
    [(n_vrmax, VFloat n_0_0); (n_ke, VFloat n_0_0); (n_te, VFloat n_0_0); (n_exclim, VFloat n_0_0); (n_se1, VFloat n_0_0); (n_se2, VFloat n_0_0); (n_trh, VFloat n_0_0); (n_kv, VFloat n_0_0); (n_e1, VFloat n_0_0); (n_e2, VFloat n_0_0); (n_vrmin, VFloat n_0_0); (n_tr, VFloat n_0_0)]
    [SAttr n_vrmax; SAttr n_ke; SAttr n_te; SAttr n_exclim; SAttr n_se1; SAttr n_se2; SAttr n_trh; SAttr n_kv; SAttr n_e1; SAttr n_e2; SAttr n_vrmin; SAttr n_tr]
    true true
    [n_vrmax; n_ke; n_te; n_exclim; n_se1; n_se2; n_trh; n_kv; n_e1; n_e2; n_vrmin; n_tr]
    [(n_vrmax, VFloat n_0_0); (n_ke, VFloat n_0_0); (n_te, VFloat n_0_0); (n_exclim, VFloat n_0_0); (n_se1, VFloat n_0_0); (n_se2, VFloat n_0_0); (n_trh, VFloat n_0_0); (n_kv, VFloat n_0_0); (n_e1, VFloat n_0_0); (n_e2, VFloat n_0_0); (n_vrmin, VFloat n_0_0); (n_tr, VFloat n_0_0)]
    []
    []
    []
    [];
(* CIM14/ENTSOE/Dynamics/IEC61970/Dynamics/ExcitationSystems/ExcitationSystemsExcDC4B.py:23-116 *)
  Cls n_CIM14_ENTSOE_Dynamics_IEC61970_Dynamics_ExcitationSystems_ExcitationSystemsExcDC4B_ExcitationSystemsExcDC4B n_ExcitationSystemsExcDC4B (Some n_CIM14_ENTSOE_Dynamics_IEC61970_Core_CorePowerSystemResource_CorePowerSystemResource)
    [(n_vrmin, VFloat n_0_0); (n_uelin, VFloat n_0_0); (n_ki, VFloat n_0_0); (n_kp, VFloat n_0_0); (n_e2, VFloat n_0_0); (n_oelin, VFloat n_0_0); (n_vrmax, VFloat n_0_0); (n_kf, VFloat n_0_0); (n_te, VFloat n_0_0); (n_ke, VFloat n_0_0); (n_vemin, VFloat n_0_0); (n_tf, VFloat n_0_0); (n_kd, VFloat n_0_0); (n_se2, VFloat n_0_0); (n_ta, VFloat n_0_0); (n_tr, VFloat n_0_0); (n_ka, VFloat n_0_0); (n_se1, VFloat n_0_0); (n_td, VFloat n_0_0); (n_e1, VFloat n_0_0)]
    [SAttr n_vrmin; SAttr n_uelin; SAttr n_ki; SAttr n_kp; SAttr n_e2; SAttr n_oelin; SAttr n_vrmax; SAttr n_kf; SAttr n_te; SAttr n_ke; SAttr n_vemin; SAttr n_tf; SAttr n_kd; SAttr n_se2; SAttr n_ta; SAttr n_tr; SAttr n_ka; SAttr n_se1; SAttr n_td; SAttr n_e1]
    true true
    [n_vrmin; n_uelin; n_ki; n_kp; n_e2; n_oelin; n_vrmax; n_kf; n_te; n_ke; n_vemin; n_tf; n_kd; n_se2; n_ta; n_tr; n_ka; n_se1; n_td; n_e1]
    [(n_vrmin, VFloat n_0_0); (n_uelin, VFloat n_0_0); (n_ki, VFloat n_0_0); (n_kp, VFloat n_0_0); (n_e2, VFloat n_0_0); (n_oelin, VFloat n_0_0); (n_vrmax, VFloat n_0_0); (n_kf, VFloat n_0_0); (n_te, VFloat n_0_0); (n_ke, VFloat n_0_0); (n_vemin, VFloat n_0_0); (n_tf, VFloat n_0_0); (n_kd, VFloat n_0_0); (n_se2, VFloat n_0_0); (n_ta, VFloat n_0_0); (n_tr, VFloat n_0_0); (n_ka, VFloat n_0_0); (n_se1, VFloat n_0_0); (n_td, VFloat n_0_0); (n_e1, VFloat n_0_0)]
    []
    []
    []
    [];
(* CIM14/ENTSOE/Dynamics/IEC61970/Dynamics/ExcitationSystems/ExcitationSystemsExcSCRX.py:23-68 *)
  Cls n_CIM14_ENTSOE_Dynamics_IEC61970_Dynamics_ExcitationSystems_ExcitationSystemsExcSCRX_ExcitationSystemsExcSCRX n_ExcitationSystemsExcSCRX (Some n_CIM14_ENTSOE_Dynamics_IEC61970_Core_CorePowerSystemResource_CorePowerSystemResource)
    [(n_te, VFloat n_0_0); (n_tb, VFloat n_0_0); (n_emax, VFloat n_0_0); (n_cswitch, VBool false); (n_rcrfd, VFloat n_0_0); (n_tatb, VFloat n_0_0); (n_k, VFloat n_0_0); (n_emin, VFloat n_0_0)]
    [SAttr n_te; SAttr n_tb; SAttr n_emax; SAttr n_cswitch; SAttr n_rcrfd; SAttr n_tatb; SAttr n_k; SAttr n_emin]
    true true
    [n_te; n_tb; n_emax; n_cswitch; n_rcrfd; n_tatb; n_k; n_emin]
    [(n_te, VFloat n_0_0); (n_tb, VFloat n_0_0); (n_emax, VFloat n_0_0); (n_cswitch, VBool false); (n_rcrfd, VFloat n_0_0); (n_tatb, VFloat n_0_0); (n_k, VFloat n_0_0); (n_emin, VFloat n_0_0)]
    []
    []
    []
    [];
(* CIM14/ENTSOE/Dynamics/IEC61970/Dynamics/ExcitationSystems/ExcitationSystemsExcSEXS.py:23-76 *)
  Cls n_CIM14_ENTSOE_Dynamics_IEC61970_Dynamics_ExcitationSystems_ExcitationSystemsExcSEXS_ExcitationSystemsExcSEXS n_ExcitationSystemsExcSEXS (Some n_CIM14_ENTSOE_Dynamics_IEC61970_Core_CorePowerSystemResource_CorePowerSystemResource)
    [(n_k, VFloat n_0_0); (n_tatb, VFloat n_0_0); (n_efdmin, VFloat n_0_0); (n_te, VFloat n_0_0); (n_tc, VFloat n_0_0); (n_kc, VFloat n_0_0); (n_tb, VFloat n_0_0); (n_emin, VFloat n_0_0); (n_emax, VFloat n_0_0); (n_efdmax, VFloat n_0_0)]
    [SAttr n_k; SAttr n_tatb; SAttr n_efdmin; SAttr n_te; SAttr n_tc; SAttr n_kc; SAttr n_tb; SAttr n_emin; SAttr n_emax; SAttr n_efdmax]
    true true
    [n_k; n_tatb; n_efdmin; n_te; n_tc; n_kc; n_tb; n_emin; n_emax; n_efdmax]
    [(n_k, VFloat n_0_0); (n_tatb, VFloat n_0_0); (n_efdmin, VFloat n_0_0); (n_te, VFloat n_0_0); (n_tc, VFloat n_0_0); (n_kc, VFloat n_0_0); (n_tb, VFloat n_0_0); (n_emin, VFloat n_0_0); (n_emax, VFloat n_0_0); (n_efdmax, VFloat n_0_0)]
    []
    []
    []
    [];
(* CIM14/ENTSOE/Dynamics/IEC61970/Dynamics/ExcitationSystems/ExcitationSystemsExcST1A.py:23-116 *)
  Cls n_CIM14_ENTSOE_Dynamics_IEC61970_Dynamics_ExcitationSystems_ExcitationSystemsExcST1A_ExcitationSystemsExcST1A n_ExcitationSystemsExcST1A (Some n_CIM14_ENTSOE_Dynamics_IEC61970_Core_CorePowerSystemResource_CorePowerSystemResource)
    [(n_vrmin, VFloat n_0_0); (n_kc, VFloat n_0_0); (n_vimin, VFloat n_0_0); (n_uelin, VFloat n_0_0); (n_tf, VFloat n_0_0); (n_kf, VFloat n_0_0); (n_tc1, VFloat n_0_0); (n_pssin, VFloat n_0_0); (n_tc, VFloat n_0_0); (n_tb, VFloat n_0_0); (n_ka, VFloat n_0_0); (n_ta, VFloat n_0_0); (n_tr, VFloat n_0_0); (n_ilr, VFloat n_0_0); (n_vamin, VFloat n_0_0); (n_klr, VFloat n_0_0); (n_tb1, VFloat n_0_0); (n_vamax, VFloat n_0_0); (n_vrmax, VFloat n_0_0); (n_vimax, VFloat n_0_0)]
    [SAttr n_vrmin; SAttr n_kc; SAttr n_vimin; SAttr n_uelin; SAttr n_tf; SAttr n_kf; SAttr n_tc1; SAttr n_pssin; SAttr n_tc; SAttr n_tb; SAttr n_ka; SAttr n_ta; SAttr n_tr; SAttr n_ilr; SAttr n_vamin; SAttr n_klr; SAttr n_tb1; SAttr n_vamax; SAttr n_vrmax; SAttr n_vimax]
    true true
    [n_vrmin; n_kc; n_vimin; n_uelin; n_tf; n_kf; n_tc1; n_pssin; n_tc; n_tb; n_ka; n_ta; n_tr; n_ilr; n_vamin; n_klr; n_tb1; n_vamax; n_vrmax; n_vimax]
    [(n_vrmin, VFloat n_0_0); (n_kc, VFloat n_0_0); (n_vimin, VFloat n_0_0); (n_uelin, VFloat n_0_0); (n_tf, VFloat n_0_0); (n_kf, VFloat n_0_0); (n_tc1, VFloat n_0_0); (n_pssin, VFloat n_0_0); (n_tc, VFloat n_0_0); (n_tb, VFloat n_0_0); (n_ka, VFloat n_0_0); (n_ta, VFloat n_0_0); (n_tr, VFloat n_0_0); (n_ilr, VFloat n_0_0); (n_vamin, VFloat n_0_0); (n_klr, VFloat n_0_0); (n_tb1, VFloat n_0_0); (n_vamax, VFloat n_0_0); (n_vrmax, VFloat n_0_0); (n_vimax, VFloat n_0_0)]
    []
    []
    []
    [];
(* CIM14/ENTSOE/Dynamics/IEC61970/Dynamics/ExcitationSystems/ExcitationSystemsExcST2A.py:23-100 *)
  Cls n_CIM14_ENTSOE_Dynamics_IEC61970_Dynamics_ExcitationSystems_ExcitationSystemsExcST2A_ExcitationSystemsExcST2A n_ExcitationSystemsExcST2A (Some n_CIM14_ENTSOE_Dynamics_IEC61970_Core_CorePowerSystemResource_CorePowerSystemResource)
    [(n_vrmin, VFloat n_0_0); (n_tc, VFloat n_0_0); (n_tb, VFloat n_0_0); (n_ta, VFloat n_0_0); (n_ka, VFloat n_0_0); (n_ke, VFloat n_0_0); (n_uelin, VFloat n_0_0); (n_kc, VFloat n_0_0); (n_te, VFloat n_0_0); (n_ki, VFloat n_0_0); (n_kf, VFloat n_0_0); (n_tf, VFloat n_0_0); (n_vrmax, VFloat n_0_0); (n_efdmax, VFloat n_0_0); (n_tr, VFloat n_0_0); (n_kp, VFloat n_0_0)]
    [SAttr n_vrmin; SAttr n_tc; SAttr n_tb; SAttr n_ta; SAttr n_ka; SAttr n_ke; SAttr n_uelin; SAttr n_kc; SAttr n_te; SAttr n_ki; SAttr n_kf; SAttr n_tf; SAttr n_vrmax; SAttr n_efdmax; SAttr n_tr; SAttr n_kp]
    true true
    [n_vrmin; n_tc; n_tb; n_ta; n_ka; n_ke; n_uelin; n_kc; n_te; n_ki; n_kf; n_tf; n_vrmax; n_efdmax; n_tr; n_kp]
    [(n_vrmin, VFloat n_0_0); (n_tc, VFloat n_0_0); (n_tb, VFloat n_0_0); (n_ta, VFloat n_0_0); (n_ka, VFloat n_0_0); (n_ke, VFloat n_0_0); (n_uelin, VFloat n_0_0); (n_kc, VFloat n_0_0); (n_te, VFloat n_0_0); (n_ki, VFloat n_0_0); (n_kf, VFloat n_0_0); (n_tf, VFloat n_0_0); (n_vrmax, VFloat n_0_0); (n_efdmax, VFloat n_0_0); (n_tr, VFloat n_0_0); (n_kp, VFloat n_0_0)]
    []
    []
    []
    [];
(* CIM14/ENTSOE/Dynamics/IEC61970/Dynamics/ExcitationSystems/ExcitationSystemsExcST3A.py:23-120 *)
  Cls n_CIM14_ENTSOE_Dynamics_IEC61970_Dynamics_ExcitationSystems_ExcitationSystemsExcST3A_ExcitationSystemsExcST3A n_ExcitationSystemsExcST3A (Some n_CIM14_ENTSOE_Dynamics_IEC61970_Core_CorePowerSystemResource_CorePowerSystemResource)
    [(n_vrmin, VFloat n_0_0); (n_kc, VFloat n_0_0); (n_ka, VFloat n_0_0); (n_vbmax, VFloat n_0_0); (n_vimin, VFloat n_0_0); (n_xl, VFloat n_0_0); (n_vgmax, VFloat n_0_0); (n_angp, VFloat n_0_0); (n_vmmin, VFloat n_0_0); (n_vrmax, VFloat n_0_0); (n_kp, VFloat n_0_0); (n_km, VFloat n_0_0); (n_vimax, VFloat n_0_0); (n_tr, VFloat n_0_0); (n_vmmax, VFloat n_0_0); (n_ki, VFloat n_0_0); (n_tm, VFloat n_0_0); (n_ta, VFloat n_0_0); (n_tb, VFloat n_0_0); (n_kg, VFloat n_0_0); (n_tc, VFloat n_0_0)]
    [SAttr n_vrmin; SAttr n_kc; SAttr n_ka; SAttr n_vbmax; SAttr n_vimin; SAttr n_xl; SAttr n_vgmax; SAttr n_angp; SAttr n_vmmin; SAttr n_vrmax; SAttr n_kp; SAttr n_km; SAttr n_vimax; SAttr n_tr; SAttr n_vmmax; SAttr n_ki; SAttr n_tm; SAttr n_ta; SAttr n_tb; SAttr n_kg; SAttr n_tc]
    true true
    [n_vrmin; n_kc; n_ka; n_vbmax; n_vimin; n_xl; n_vgmax; n_angp; n_vmmin; n_vrmax; n_kp; n_km; n_vimax; n_tr; n_vmmax; n_ki; n_tm; n_ta; n_tb; n_kg; n_tc]
    [(n_vrmin, VFloat n_0_0); (n_kc, VFloat n_0_0); (n_ka, VFloat n_0_0); (n_vbmax, VFloat n_0_0); (n_vimin, VFloat n_0_0); (n_xl, VFloat n_0_0); (n_vgmax, VFloat n_0_0); (n_angp, VFloat n_0_0); (n_vmmin, VFloat n_0_0); (n_vrmax, VFloat n_0_0); (n_kp, VFloat n_0_0); (n_km, VFloat n_0_0); (n_vimax, VFloat n_0_0); (n_tr, VFloat n_0_0); (n_vmmax, VFloat n_0_0); (n_ki, VFloat n_0_0); (n_tm, VFloat n_0_0); (n_ta, VFloat n_0_0); (n_tb, VFloat n_0_0); (n_kg, VFloat n_0_0); (n_tc, VFloat n_0_0)]
    []
    []
    []
    [];
(* CIM14/ENTSOE/Dynamics/IEC61970/Dynamics/ExcitationSystems/ExcitationSystemsExcST4B.py:23-108 *)
  Cls n_CIM14_ENTSOE_Dynamics_IEC61970_Dynamics_ExcitationSystems_ExcitationSystemsExcST4B_ExcitationSystemsExcST4B n_ExcitationSystemsExcST4B (Some n_CIM14_ENTSOE_Dynamics_IEC61970_Core_CorePowerSystemResource_CorePowerSystemResource)
    [(n_kp, VFloat n_0_0); (n_xl, VFloat n_0_0); (n_vbmax, VFloat n_0_0); (n_ki, VFloat n_0_0); (n_kir, VFloat n_0_0); (n_vrmin, VFloat n_0_0); (n_vmmin, VFloat n_0_0); (n_kim, VFloat n_0_0); (n_ta, VFloat n_0_0); (n_kg, VFloat n_0_0); (n_tr, VFloat n_0_0); (n_kc, VFloat n_0_0); (n_vrmax, VFloat n_0_0); (n_angp, VFloat n_0_0); (n_kpr, VFloat n_0_0); (n_vgmax, VFloat n_0_0); (n_kpm, VFloat n_0_0); (n_vmmax, VFloat n_0_0)]
    [SAttr n_kp; SAttr n_xl; SAttr n_vbmax; SAttr n_ki; SAttr n_kir; SAttr n_vrmin; SAttr n_vmmin; SAttr n_kim; SAttr n_ta; SAttr n_kg; SAttr n_tr; SAttr n_kc; SAttr n_vrmax; SAttr n_angp; SAttr n_kpr; SAttr n_vgmax; SAttr n_kpm; SAttr n_vmmax]
    true true
    [n_kp; n_xl; n_vbmax; n_ki; n_kir; n_vrmin; n_vmmin; n_kim; n_ta; n_kg; n_tr; n_kc; n_vrmax; n_angp; n_kpr; n_vgmax; n_kpm; n_vmmax]
    [(n_kp, VFloat n_0_0); (n_xl, VFloat n_0_0); (n_vbmax, VFloat n_0_0); (n_ki, VFloat n_0_0); (n_kir, VFloat n_0_0); (n_vrmin, VFloat n_0_0); (n_vmmin, VFloat n_0_0); (n_kim, VFloat n_0_0); (n_ta, VFloat n_0_0); (n_kg, VFloat n_0_0); (n_tr, VFloat n_0_0); (n_kc, VFloat n_0_0); (n_vrmax, VFloat n_0_0); (n_angp, VFloat n_0_0); (n_kpr, VFloat n_0_0); (n_vgmax, VFloat n_0_0); (n_kpm, VFloat n_0_0); (n_vmmax, VFloat n_0_0)]
    []
    []
    []
    [];
(* CIM14/ENTSOE/Dynamics/IEC61970/Dynamics/ExcitationSystems/ExcitationSystemsExcST5B.py:23-108 *)
  Cls n_CIM14_ENTSOE_Dynamics_IEC61970_Dynamics_ExcitationSystems_ExcitationSystemsExcST5B_ExcitationSystemsExcST5B n_ExcitationSystemsExcST5B (Some n_CIM14_ENTSOE_Dynamics_IEC61970_Core_CorePowerSystemResource_CorePowerSystemResource)
    [(n_toc2, VFloat n_0_0); (n_toc1, VFloat n_0_0); (n_tc1, VFloat n_0_0); (n_vrmin, VFloat n_0_0); (n_tc2, VFloat n_0_0); (n_kc, VFloat n_0_0); (n_tb2, VFloat n_0_0); (n_tob1, VFloat n_0_0); (n_vrmax, VFloat n_0_0); (n_tob2, VFloat n_0_0); (n_tb1, VFloat n_0_0); (n_tub1, VFloat n_0_0); (n_tub2, VFloat n_0_0); (n_tuc1, VFloat n_0_0); (n_tuc2, VFloat n_0_0); (n_kr, VFloat n_0_0); (n_tr, VFloat n_0_0); (n_t1, VFloat n_0_0)]
    [SAttr n_toc2; SAttr n_toc1; SAttr n_tc1; SAttr n_vrmin; SAttr n_tc2; SAttr n_kc; SAttr n_tb2; SAttr n_tob1; SAttr n_vrmax; SAttr n_tob2; SAttr n_tb1; SAttr n_tub1; SAttr n_tub2; SAttr n_tuc1; SAttr n_tuc2; SAttr n_kr; SAttr n_tr; SAttr n_t1]
    true true
    [n_toc2; n_toc1; n_tc1; n_vrmin; n_tc2; n_kc; n_tb2; n_tob1; n_vrmax; n_tob2; n_tb1; n_tub1; n_tub2; n_tuc1; n_tuc2; n_kr; n_tr; n_t1]
    [(n_toc2, VFloat n_0_0); (n_toc1, VFloat n_0_0); (n_tc1, VFloat n_0_0); (n_vrmin, VFloat n_0_0); (n_tc2, VFloat n_0_0); (n_kc, VFloat n_0_0); (n_tb2, VFloat n_0_0); (n_tob1, VFloat n_0_0); (n_vrmax, VFloat n_0_0); (n_tob2, VFloat n_0_0); (n_tb1, VFloat n_0_0); (n_tub1, VFloat n_0_0); (n_tub2, VFloat n_0_0); (n_tuc1, VFloat n_0_0); (n_tuc2, VFloat n_0_0); (n_kr, VFloat n_0_0); (n_tr, VFloat n_0_0); (n_t1, VFloat n_0_0)]
    []
    []
    []
    [];
(* CIM14/ENTSOE/Dynamics/IEC61970/Dynamics/ExcitationSystems/ExcitationSystemsExcST6B.py:23-104 *)
  Cls n_CIM14_ENTSOE_Dynamics_IEC61970_Dynamics_ExcitationSystems_ExcitationSystemsExcST6B_ExcitationSystemsExcST6B n_ExcitationSystemsExcST6B (Some n_CIM14_ENTSOE_Dynamics_IEC61970_Core_CorePowerSystemResource_CorePowerSystemResource)
    [(n_vamin, VFloat n_0_0); (n_vrmin, VFloat n_0_0); (n_km, VFloat n_0_0); (n_ts, VFloat n_0_0); (n_kg, VFloat n_0_0); (n_tr, VFloat n_0_0); (n_kcl, VFloat n_0_0); (n_klr, VFloat n_0_0); (n_vrmax, VFloat n_0_0); (n_ilr, VFloat n_0_0); (n_kpa, VFloat n_0_0); (n_tg, VFloat n_0_0); (n_vamax, VFloat n_0_0); (n_oelin, VFloat n_0_0); (n_kff, VFloat n_0_0); (n_vmult, VFloat n_0_0); (n_kia, VFloat n_0_0)]
    [SAttr n_vamin; SAttr n_vrmin; SAttr n_km; SAttr n_ts; SAttr n_kg; SAttr n_tr; SAttr n_kcl; SAttr n_klr; SAttr n_vrmax; SAttr n_ilr; SAttr n_kpa; SAttr n_tg; SAttr n_vamax; SAttr n_oelin; SAttr n_kff; SAttr n_vmult; SAttr n_kia]
    true true
    [n_vamin; n_vrmin; n_km; n_ts; n_kg; n_tr; n_kcl; n_klr; n_vrmax; n_ilr; n_kpa; n_tg; n_vamax; n_oelin; n_kff; n_vmult; n_kia]
    [(n_vamin, VFloat n_0_0); (n_vrmin, VFloat n_0_0); (n_km, VFloat n_0_0); (n_ts, VFloat n_0_0); (n_kg, VFloat n_0_0); (n_tr, VFloat n_0_0); (n_kcl, VFloat n_0_0); (n_klr, VFloat n_0_0); (n_vrmax, VFloat n_0_0); (n_ilr, VFloat n_0_0); (n_kpa, VFloat n_0_0); (n_tg, VFloat n_0_0); (n_vamax, VFloat n_0_0); (n_oelin, VFloat n_0_0); (n_kff, VFloat n_0_0); (n_vmult, VFloat n_0_0); (n_kia, VFloat n_0_0)]
    []
    []
    []
    [];
(* CIM14/ENTSOE/Dynamics/IEC61970/Dynamics/ExcitationSystems/ExcitationSystemsExcST7B.py:23-104 *)
  Cls n_CIM14_ENTSOE_Dynamics_IEC61970_Dynamics_ExcitationSystems_ExcitationSystemsExcST7B_ExcitationSystemsExcST7B n_ExcitationSystemsExcST7B (Some n_CIM14_ENTSOE_Dynamics_IEC61970_Core_CorePowerSystemResource_CorePowerSystemResource)
    [(n_tg, VFloat n_0_0); (n_kpa, VFloat n_0_0); (n_vmin, VFloat n_0_0); (n_vrmax, VFloat n_0_0); (n_kl, VFloat n_0_0); (n_tr, VFloat n_0_0); (n_kh, VFloat n_0_0); (n_ts, VFloat n_0_0); (n_vrmin, VFloat n_0_0); (n_oelin, VFloat n_0_0); (n_uelin, VFloat n_0_0); (n_tia, VFloat n_0_0); (n_tb, VFloat n_0_0); (n_tc, VFloat n_0_0); (n_tf, VFloat n_0_0); (n_kia, VFloat n_0_0); (n_vmax, VFloat n_0_0)]
    [SAttr n_tg; SAttr n_kpa; SAttr n_vmin; SAttr n_vrmax; SAttr n_kl; SAttr n_tr; SAttr n_kh; SAttr n_ts; SAttr n_vrmin; SAttr n_oelin; SAttr n_uelin; SAttr n_tia; SAttr n_tb; SAttr n_tc; SAttr n_tf; SAttr n_kia; SAttr n_vmax]
    true true
    [n_tg; n_kpa; n_vmin; n_vrmax; n_kl; n_tr; n_kh; n_ts; n_vrmin; n_oelin; n_uelin; n_tia; n_tb; n_tc; n_tf; n_kia; n_vmax]
    [(n_tg, VFloat n_0_0); (n_kpa, VFloat n_0_0); (n_vmin, VFloat n_0_0); (n_vrmax, VFloat n_0_0); (n_kl, VFloat n_0_0); (n_tr, VFloat n_0_0); (n_kh, VFloat n_0_0); (n_ts, VFloat n_0_0); (n_vrmin, VFloat n_0_0); (n_oelin, VFloat n_0_0); (n_uelin, VFloat n_0_0); (n_tia, VFloat n_0_0); (n_tb, VFloat n_0_0); (n_tc, VFloat n_0_0); (n_tf, VFloat n_0_0); (n_kia, VFloat n_0_0); (n_vmax, VFloat n_0_0)]
    []
    []
    []
    [];
(* CIM14/ENTSOE/Dynamics/IEC61970/Dynamics/Generators/GeneratorsGenEquiv.py:23-40 *)
  Cls n_CIM14_ENTSOE_Dynamics_IEC61970_Dynamics_Generators_GeneratorsGenEquiv_GeneratorsGenEquiv n_GeneratorsGenEquiv (Some n_CIM14_ENTSOE_Dynamics_IEC61970_Dynamics_DynamicsRotatingMachine_DynamicsRotatingMachine)
    [(n_xp, VFloat n_0_0)]
    [SAttr n_xp]
    true true
    [n_xp]
    [(n_xp, VFloat n_0_0)]
    []
    []
    []
    [];
(* CIM14/ENTSOE/Dynamics/IEC61970/Dynamics/Loads/LoadsLoadMotor.py:23-88 *)
  Cls n_CIM14_ENTSOE_Dynamics_IEC61970_Dynamics_Loads_LoadsLoadMotor_LoadsLoadMotor n_LoadsLoadMotor (Some n_CIM14_ENTSOE_Dynamics_IEC61970_Core_CorePowerSystemResource_CorePowerSystemResource)
    [(n_lfac, VFloat n_0_0); (n_ra, VFloat n_0_0); (n_d, VFloat n_0_0); (n_ls, VFloat n_0_0); (n_tppo, VFloat n_0_0); (n_tbkr, VFloat n_0_0); (n_lpp, VFloat n_0_0); (n_tpo, VFloat n_0_0); (n_lp, VFloat n_0_0); (n_h, VFloat n_0_0); (n_vt, VFloat n_0_0); (n_pfrac, VFloat n_0_0); (n_tv, VFloat n_0_0)]
    [SAttr n_lfac; SAttr n_ra; SAttr n_d; SAttr n_ls; SAttr n_tppo; SAttr n_tbkr; SAttr n_lpp; SAttr n_tpo; SAttr n_lp; SAttr n_h; SAttr n_vt; SAttr n_pfrac; SAttr n_tv]
    true true
    [n_lfac; n_ra; n_d; n_ls; n_tppo; n_tbkr; n_lpp; n_tpo; n_lp; n_h; n_vt; n_pfrac; n_tv]
    [(n_lfac, VFloat n_0_0); (n_ra, VFloat n_0_0); (n_d, VFloat n_0_0); (n_ls, VFloat n_0_0); (n_tppo, VFloat n_0_0); (n_tbkr, VFloat n_0_0); (n_lpp, VFloat n_0_0); (n_tpo, VFloat n_0_0); (n_lp, VFloat n_0_0); (n_h, VFloat n_0_0); (n_vt, VFloat n_0_0); (n_pfrac, VFloat n_0_0); (n_tv, VFloat n_0_0)]
    []
    []
    []
    [];
(* CIM14/ENTSOE/Dynamics/IEC61970/Dynamics/Loads/LoadsLoadStatic.py:23-104 *)
  Cls n_CIM14_ENTSOE_Dynamics_IEC61970_Dynamics_Loads_LoadsLoadStatic_LoadsLoadStatic n_LoadsLoadStatic (Some n_CIM14_ENTSOE_Dynamics_IEC61970_Core_CorePowerSystemResource_CorePowerSystemResource)
    [(n_ep2, VFloat n_0_0); (n_ep1, VFloat n_0_0); (n_kp2, VFloat n_0_0); (n_ep3, VFloat n_0_0); (n_kp1, VFloat n_0_0); (n_kq4, VFloat n_0_0); (n_kq3, VFloat n_0_0); (n_kq2, VFloat n_0_0); (n_kq1, VFloat n_0_0); (n_eq1, VFloat n_0_0); (n_eq2, VFloat n_0_0); (n_kp4, VFloat n_0_0); (n_kp3, VFloat n_0_0); (n_eq3, VFloat n_0_0); (n_staticLoadType, VStr n_); (n_kqf, VFloat n_0_0); (n_kpf, VFloat n_0_0)]
    [SAttr n_ep2; SAttr n_ep1; SAttr n_kp2; SAttr n_ep3; SAttr n_kp1; SAttr n_kq4; SAttr n_kq3; SAttr n_kq2; SAttr n_kq1; SAttr n_eq1; SAttr n_eq2; SAttr n_kp4; SAttr n_kp3; SAttr n_eq3; SAttr n_staticLoadType; SAttr n_kqf; SAttr n_kpf]
    true true
    [n_ep2; n_ep1; n_kp2; n_ep3; n_kp1; n_kq4; n_kq3; n_kq2; n_kq1; n_eq1; n_eq2; n_kp4; n_kp3; n_eq3; n_staticLoadType; n_kqf; n_kpf]
    [(n_ep2, VFloat n_0_0); (n_ep1, VFloat n_0_0); (n_kp2, VFloat n_0_0); (n_ep3, VFloat n_0_0); (n_kp1, VFloat n_0_0); (n_kq4, VFloat n_0_0); (n_kq3, VFloat n_0_0); (n_kq2, VFloat n_0_0); (n_kq1, VFloat n_0_0); (n_eq1, VFloat n_0_0); (n_eq2, VFloat n_0_0); (n_kp4, VFloat n_0_0); (n_kp3, VFloat n_0_0); (n_eq3, VFloat n_0_0); (n_staticLoadType, VStr n_); (n_kqf, VFloat n_0_0); (n_kpf, VFloat n_0_0)]
    [(n_staticLoadType, n_LoadsStaticLoadType)]
    []
    []
    [];
(* CIM14/ENTSOE/Dynamics/IEC61970/Dynamics/Motors/MotorsMechLoad1.py:23-52 *)
  Cls n_CIM14_ENTSOE_Dynamics_IEC61970_Dynamics_Motors_MotorsMechLoad1_MotorsMechLoad1 n_MotorsMechLoad1 (Some n_CIM14_ENTSOE_Dynamics_IEC61970_Core_CorePowerSystemResource_CorePowerSystemResource)
    [(n_b, VFloat n_0_0); (n_a, VFloat n_0_0); (n_d, VFloat n_0_0); (n_e, VFloat n_0_0)]
    [SAttr n_b; SAttr n_a; SAttr n_d; SAttr n_e]
    true true
    [n_b; n_a; n_d; n_e]
    [(n_b, VFloat n_0_0); (n_a, VFloat n_0_0); (n_d, VFloat n_0_0); (n_e, VFloat n_0_0)]
    []
    []
    []
    [];
(* CIM14/ENTSOE/Dynamics/IEC61970/Dynamics/PowerSystemStabilizers/PowerSystemStabilizersPssIEEE2B.py:23-160 *)
  Cls n_CIM14_ENTSOE_Dynamics_IEC61970_Dynamics_PowerSystemStabilizers_PowerSystemStabilizersPssIEEE2B_PowerSystemStabilizersPssIEEE2B n_PowerSystemStabilizersPssIEEE2B (Some n_CIM14_ENTSOE_Dynamics_IEC61970_Core_CorePowerSystemResource_CorePowerSystemResource)
    [(n_t10, VFloat n_0_0); (n_a, VFloat n_0_0); (n_ks1, VFloat n_0_0); (n_ks3, VFloat n_0_0); (n_t11, VFloat n_0_0); (n_ks2, VFloat n_0_0); (n_vstmin, VFloat n_0_0); (n_vsi1max, VFloat n_0_0); (n_vsi2max, VFloat n_0_0); (n_tb, VFloat n_0_0); (n_t2, VFloat n_0_0); (n_ta, VFloat n_0_0); (n_t1, VFloat n_0_0); (n_t4, VFloat n_0_0); (n_n, VInt 0); (n_t3, VFloat n_0_0); (n_m, VInt 0); (n_j1, VInt 0); (n_t6, VFloat n_0_0); (n_j2, VInt 0); (n_t8, VFloat n_0_0); (n_vsi1min, VFloat n_0_0); (n_t7, VFloat n_0_0); (n_t9, VFloat n_0_0); (n_ks4, VFloat n_0_0); (n_tw2, VFloat n_0_0); (n_tw1, VFloat n_0_0); (n_tw4, VFloat n_0_0); (n_vsi2min, VFloat n_0_0); (n_tw3, VFloat n_0_0); (n_vstmax, VFloat n_0_0)]
    [SAttr n_t10; SAttr n_a; SAttr n_ks1; SAttr n_ks3; SAttr n_t11; SAttr n_ks2; SAttr n_vstmin; SAttr n_vsi1max; SAttr n_vsi2max; SAttr n_tb; SAttr n_t2; SAttr n_ta; SAttr n_t1; SAttr n_t4; SAttr n_n; SAttr n_t3; SAttr n_m; SAttr n_j1; SAttr n_t6; SAttr n_j2; SAttr n_t8; SAttr n_vsi1min; SAttr n_t7; SAttr n_t9; SAttr n_ks4; SAttr n_tw2; SAttr n_tw1; SAttr n_tw4; SAttr n_vsi2min; SAttr n_tw3; SAttr n_vstmax]
    true true
    [n_t10; n_a; n_ks1; n_ks3; n_t11; n_ks2; n_vstmin; n_vsi1max; n_vsi2max; n_tb; n_t2; n_ta; n_t1; n_t4; n_n; n_t3; n_m; n_j1; n_t6; n_j2; n_t8; n_vsi1min; n_t7; n_t9; n_ks4; n_tw2; n_tw1; n_tw4; n_vsi2min; n_tw3; n_vstmax]
    [(n_t10, VFloat n_0_0); (n_a, VFloat n_0_0); (n_ks1, VFloat n_0_0); (n_ks3, VFloat n_0_0); (n_t11, VFloat n_0_0); (n_ks2, VFloat n_0_0); (n_vstmin, VFloat n_0_0); (n_vsi1max, VFloat n_0_0); (n_vsi2max, VFloat n_0_0); (n_tb, VFloat n_0_0); (n_t2, VFloat n_0_0); (n_ta, VFloat n_0_0); (n_t1, VFloat n_0_0); (n_t4, VFloat n_0_0); (n_n, VInt 0); (n_t3, VFloat n_0_0); (n_m, VInt 0); (n_j1, VInt 0); (n_t6, VFloat n_0_0); (n_j2, VInt 0); (n_t8, VFloat n_0_0); (n_vsi1min, VFloat n_0_0); (n_t7, VFloat n_0_0); (n_t9, VFloat n_0_0); (n_ks4, VFloat n_0_0); (n_tw2, VFloat n_0_0); (n_tw1, VFloat n_0_0); (n_tw4, VFloat n_0_0); (n_vsi2min, VFloat n_0_0); (n_tw3, VFloat n_0_0); (n_vstmax, VFloat n_0_0)]
    []
    []
    []
    [];
(* CIM14/ENTSOE/Dynamics/IEC61970/Dynamics/TurbineGovernors/TurbineGovernorsGovCT1.py:23-180 *)
  Cls n_CIM14_ENTSOE_Dynamics_IEC61970_Dynamics_TurbineGovernors_TurbineGovernorsGovCT1_TurbineGovernorsGovCT1 n_TurbineGovernorsGovCT1 (Some n_CIM14_ENTSOE_Dynamics_IEC61970_Core_CorePowerSystemResource_CorePowerSystemResource)
    [(n_rdown, VFloat n_0_0); (n_vmax, VFloat n_0_0); (n_wfnl, VFloat n_0_0); (n_tdgov, VFloat n_0_0); (n_aset, VFloat n_0_0); (n_r, VFloat n_0_0); (n_wfspd, VBool false); (n_kpgov, VFloat n_0_0); (n_minerr, VFloat n_0_0); (n_tsa, VFloat n_0_0); (n_tact, VFloat n_0_0); (n_tsb, VFloat n_0_0); (n_ldref, VFloat n_0_0); (n_kimw, VFloat n_0_0); (n_maxerr, VFloat n_0_0); (n_vmin, VFloat n_0_0); (n_mwbase, VFloat n_0_0); (n_rclose, VFloat n_0_0); (n_tpelec, VFloat n_0_0); (n_rup, VFloat n_0_0); (n_tb, VFloat n_0_0); (n_ka, VFloat n_0_0); (n_ta, VFloat n_0_0); (n_kdgov, VFloat n_0_0); (n_kturb, VFloat n_0_0); (n_db, VFloat n_0_0); (n_teng, VFloat n_0_0); (n_tc, VFloat n_0_0); (n_ropen, VFloat n_0_0); (n_dm, VFloat n_0_0); (n_kiload, VFloat n_0_0); (n_pmwset, VFloat n_0_0); (n_rselect, VBool false); (n_kigov, VFloat n_0_0); (n_kpload, VFloat n_0_0); (n_tfload, VFloat n_0_0)]
    [SAttr n_rdown; SAttr n_vmax; SAttr n_wfnl; SAttr n_tdgov; SAttr n_aset; SAttr n_r; SAttr n_wfspd; SAttr n_kpgov; SAttr n_minerr; SAttr n_tsa; SAttr n_tact; SAttr n_tsb; SAttr n_ldref; SAttr n_kimw; SAttr n_maxerr; SAttr n_vmin; SAttr n_mwbase; SAttr n_rclose; SAttr n_tpelec; SAttr n_rup; SAttr n_tb; SAttr n_ka; SAttr n_ta; SAttr n_kdgov; SAttr n_kturb; SAttr n_db; SAttr n_teng; SAttr n_tc; SAttr n_ropen; SAttr n_dm; SAttr n_kiload; SAttr n_pmwset; SAttr n_rselect; SAttr n_kigov; SAttr n_kpload; SAttr n_tfload]
    true true
    [n_rdown; n_vmax; n_wfnl; n_tdgov; n_aset; n_r; n_wfspd; n_kpgov; n_minerr; n_tsa; n_tact; n_tsb; n_ldref; n_kimw; n_maxerr; n_vmin; n_mwbase; n_rclose; n_tpelec; n_rup; n_tb; n_ka; n_ta; n_kdgov; n_kturb; n_db; n_teng; n_tc; n_ropen; n_dm; n_kiload; n_pmwset; n_rselect; n_kigov; n_kpload; n_tfload]
    [(n_rdown, VFloat n_0_0); (n_vmax, VFloat n_0_0); (n_wfnl, VFloat n_0_0); (n_tdgov, VFloat n_0_0); (n_aset, VFloat n_0_0); (n_r, VFloat n_0_0); (n_wfspd, VBool false); (n_kpgov, VFloat n_0_0); (n_minerr, VFloat n_0_0); (n_tsa, VFloat n_0_0); (n_tact, VFloat n_0_0); (n_tsb, VFloat n_0_0); (n_ldref, VFloat n_0_0); (n_kimw, VFloat n_0_0); (n_maxerr, VFloat n_0_0); (n_vmin, VFloat n_0_0); (n_mwbase, VFloat n_0_0); (n_rclose, VFloat n_0_0); (n_tpelec, VFloat n_0_0); (n_rup, VFloat n_0_0); (n_tb, VFloat n_0_0); (n_ka, VFloat n_0_0); (n_ta, VFloat n_0_0); (n_kdgov, VFloat n_0_0); (n_kturb, VFloat n_0_0); (n_db, VFloat n_0_0); (n_teng, VFloat n_0_0); (n_tc, VFloat n_0_0); (n_ropen, VFloat n_0_0); (n_dm, VFloat n_0_0); (n_kiload, VFloat n_0_0); (n_pmwset, VFloat n_0_0); (n_rselect, VBool false); (n_kigov, VFloat n_0_0); (n_kpload, VFloat n_0_0); (n_tfload, VFloat n_0_0)]
    []
    []
    []
    [];
(* CIM14/ENTSOE/Dynamics/IEC61970/Dynamics/TurbineGovernors/TurbineGovernorsGovHydro1.py:23-88 *)
  Cls n_CIM14_ENTSOE_Dynamics_IEC61970_Dynamics_TurbineGovernors_TurbineGovernorsGovHydro1_TurbineGovernorsGovHydro1 n_TurbineGovernorsGovHydro1 (Some n_CIM14_ENTSOE_Dynamics_IEC61970_Core_CorePowerSystemResource_CorePowerSystemResource)
    [(n_rperm, VFloat n_0_0); (n_tg, VFloat n_0_0); (n_tf, VFloat n_0_0); (n_mwbase, VFloat n_0_0); (n_gmax, VFloat n_0_0); (n_at, VFloat n_0_0); (n_gmin, VFloat n_0_0); (n_qnl, VFloat n_0_0); (n_velm, VFloat n_0_0); (n_tw, VFloat n_0_0); (n_dturb, VFloat n_0_0); (n_rtemp, VFloat n_0_0); (n_tr, VFloat n_0_0)]
    [SAttr n_rperm; SAttr n_tg; SAttr n_tf; SAttr n_mwbase; SAttr n_gmax; SAttr n_at; SAttr n_gmin; SAttr n_qnl; SAttr n_velm; SAttr n_tw; SAttr n_dturb; SAttr n_rtemp; SAttr n_tr]
    true true
    [n_rperm; n_tg; n_tf; n_mwbase; n_gmax; n_at; n_gmin; n_qnl; n_velm; n_tw; n_dturb; n_rtemp; n_tr]
    [(n_rperm, VFloat n_0_0); (n_tg, VFloat n_0_0); (n_tf, VFloat n_0_0); (n_mwbase, VFloat n_0_0); (n_gmax, VFloat n_0_0); (n_at, VFloat n_0_0); (n_gmin, VFloat n_0_0); (n_qnl, VFloat n_0_0); (n_velm, VFloat n_0_0); (n_tw, VFloat n_0_0); (n_dturb, VFloat n_0_0); (n_rtemp, VFloat n_0_0); (n_tr, VFloat n_0_0)]
    []
    []
    []
    [];
(* CIM14/ENTSOE/Dynamics/IEC61970/Dynamics/TurbineGovernors/TurbineGovernorsGovHydro2.py:23-152 *)
  Cls n_CIM14_ENTSOE_Dynamics_IEC61970_Dynamics_TurbineGovernors_TurbineGovernorsGovHydro2_TurbineGovernorsGovHydro2 n_TurbineGovernorsGovHydro2 (Some n_CIM14_ENTSOE_Dynamics_IEC61970_Core_CorePowerSystemResource_CorePowerSystemResource)
    [(n_bturb, VFloat n_0_0); (n_rtemp, VFloat n_0_0); (n_tw, VFloat n_0_0); (n_rperm, VFloat n_0_0); (n_gv1, VFloat n_0_0); (n_gv2, VFloat n_0_0); (n_tr, VFloat n_0_0); (n_aturb, VFloat n_0_0); (n_tp, VFloat n_0_0); (n_uo, VFloat n_0_0); (n_gv6, VFloat n_0_0); (n_gv5, VFloat n_0_0); (n_pgv5, VFloat n_0_0); (n_gv4, VFloat n_0_0); (n_pgv6, VFloat n_0_0); (n_gv3, VFloat n_0_0); (n_pgv2, VFloat n_0_0); (n_pgv1, VFloat n_0_0); (n_db1, VFloat n_0_0); (n_pgv4, VFloat n_0_0); (n_kturb, VFloat n_0_0); (n_db2, VFloat n_0_0); (n_tg, VFloat n_0_0); (n_pmax, VFloat n_0_0); (n_pgv3, VFloat n_0_0); (n_mwbase, VFloat n_0_0); (n_uc, VFloat n_0_0); (n_pmin, VFloat n_0_0); (n_eps, VFloat n_0_0)]
    [SAttr n_bturb; SAttr n_rtemp; SAttr n_tw; SAttr n_rperm; SAttr n_gv1; SAttr n_gv2; SAttr n_tr; SAttr n_aturb; SAttr n_tp; SAttr n_uo; SAttr n_gv6; SAttr n_gv5; SAttr n_pgv5; SAttr n_gv4; SAttr n_pgv6; SAttr n_gv3; SAttr n_pgv2; SAttr n_pgv1; SAttr n_db1; SAttr n_pgv4; SAttr n_kturb; SAttr n_db2; SAttr n_tg; SAttr n_pmax; SAttr n_pgv3; SAttr n_mwbase; SAttr n_uc; SAttr n_pmin; SAttr n_eps]
    true true
    [n_bturb; n_rtemp; n_tw; n_rperm; n_gv1; n_gv2; n_tr; n_aturb; n_tp; n_uo; n_gv6; n_gv5; n_pgv5; n_gv4; n_pgv6; n_gv3; n_pgv2; n_pgv1; n_db1; n_pgv4; n_kturb; n_db2; n_tg; n_pmax; n_pgv3; n_mwbase; n_uc; n_pmin; n_eps]
    [(n_bturb, VFloat n_0_0); (n_rtemp, VFloat n_0_0); (n_tw, VFloat n_0_0); (n_rperm, VFloat n_0_0); (n_gv1, VFloat n_0_0); (n_gv2, VFloat n_0_0); (n_tr, VFloat n_0_0); (n_aturb, VFloat n_0_0); (n_tp, VFloat n_0_0); (n_uo, VFloat n_0_0); (n_gv6, VFloat n_0_0); (n_gv5, VFloat n_0_0); (n_pgv5, VFloat n_0_0); (n_gv4, VFloat n_0_0); (n_pgv6, VFloat n_0_0); (n_gv3, VFloat n_0_0); (n_pgv2, VFloat n_0_0); (n_pgv1, VFloat n_0_0); (n_db1, VFloat n_0_0); (n_pgv4, VFloat n_0_0); (n_kturb, VFloat n_0_0); (n_db2, VFloat n_0_0); (n_tg, VFloat n_0_0); (n_pmax, VFloat n_0_0); (n_pgv3, VFloat n_0_0); (n_mwbase, VFloat n_0_0); (n_uc, VFloat n_0_0); (n_pmin, VFloat n_0_0); (n_eps, VFloat n_0_0)]
    []
    []
    []
    [];
(* CIM14/ENTSOE/Dynamics/IEC61970/Dynamics/TurbineGovernors/TurbineGovernorsGovSteam0.py:23-68 *)
  Cls n_CIM14_ENTSOE_Dynamics_IEC61970_Dynamics_TurbineGovernors_TurbineGovernorsGovSteam0_TurbineGovernorsGovSteam0 n_TurbineGovernorsGovSteam0 (Some n_CIM14_ENTSOE_Dynamics_IEC61970_Core_CorePowerSystemResource_CorePowerSystemResource)
    [(n_t2, VFloat n_0_0); (n_t3, VFloat n_0_0); (n_t1, VFloat n_0_0); (n_vmax, VFloat n_0_0); (n_dt, VFloat n_0_0); (n_r, VFloat n_0_0); (n_vmin, VFloat n_0_0); (n_mwbase, VFloat n_0_0)]
    [SAttr n_t2; SAttr n_t3; SAttr n_t1; SAttr n_vmax; SAttr n_dt; SAttr n_r; SAttr n_vmin; SAttr n_mwbase]
    true true
    [n_t2; n_t3; n_t1; n_vmax; n_dt; n_r; n_vmin; n_mwbase]
    [(n_t2, VFloat n_0_0); (n_t3, VFloat n_0_0); (n_t1, VFloat n_0_0); (n_vmax, VFloat n_0_0); (n_dt, VFloat n_0_0); (n_r, VFloat n_0_0); (n_vmin, VFloat n_0_0); (n_mwbase, VFloat n_0_0)]
    []
    []
    []
    [];
(* CIM14/ENTSOE/Dynamics/IEC61970/Dynamics/TurbineGovernors/TurbineGovernorsGovSteam1.py:23-180 *)
  Cls n_CIM14_ENTSOE_Dynamics_IEC61970_Dynamics_TurbineGovernors_TurbineGovernorsGovSteam1_TurbineGovernorsGovSteam1 n_TurbineGovernorsGovSteam1 (Some n_CIM14_ENTSOE_Dynamics_IEC61970_Core_CorePowerSystemResource_CorePowerSystemResource)
    [(n_eps, VFloat n_0_0); (n_uc, VFloat n_0_0); (n_mwbase, VFloat n_0_0); (n_pmin, VFloat n_0_0); (n_k3, VFloat n_0_0); (n_k, VFloat n_0_0); (n_k2, VFloat n_0_0); (n_k1, VFloat n_0_0); (n_pgv1, VFloat n_0_0); (n_k7, VFloat n_0_0); (n_k6, VFloat n_0_0); (n_pmax, VFloat n_0_0); (n_k5, VFloat n_0_0); (n_k4, VFloat n_0_0); (n_gv6, VFloat n_0_0); (n_t6, VFloat n_0_0); (n_pgv6, VFloat n_0_0); (n_t7, VFloat n_0_0); (n_gv5, VFloat n_0_0); (n_k8, VFloat n_0_0); (n_gv1, VFloat n_0_0); (n_t1, VFloat n_0_0); (n_t2, VFloat n_0_0); (n_pgv3, VFloat n_0_0); (n_db1, VFloat n_0_0); (n_t3, VFloat n_0_0); (n_uo, VFloat n_0_0); (n_pgv2, VFloat n_0_0); (n_gv4, VFloat n_0_0); (n_pgv5, VFloat n_0_0); (n_t4, VFloat n_0_0); (n_gv2, VFloat n_0_0); (n_gv3, VFloat n_0_0); (n_t5, VFloat n_0_0); (n_pgv4, VFloat n_0_0); (n_db2, VFloat n_0_0)]
    [SAttr n_eps; SAttr n_uc; SAttr n_mwbase; SAttr n_pmin; SAttr n_k3; SAttr n_k; SAttr n_k2; SAttr n_k1; SAttr n_pgv1; SAttr n_k7; SAttr n_k6; SAttr n_pmax; SAttr n_k5; SAttr n_k4; SAttr n_gv6; SAttr n_t6; SAttr n_pgv6; SAttr n_t7; SAttr n_gv5; SAttr n_k8; SAttr n_gv1; SAttr n_t1; SAttr n_t2; SAttr n_pgv3; SAttr n_db1; SAttr n_t3; SAttr n_uo; SAttr n_pgv2; SAttr n_gv4; SAttr n_pgv5; SAttr n_t4; SAttr n_gv2; SAttr n_gv3; SAttr n_t5; SAttr n_pgv4; SAttr n_db2]
    true true
    [n_eps; n_uc; n_mwbase; n_pmin; n_k3; n_k; n_k2; n_k1; n_pgv1; n_k7; n_k6; n_pmax; n_k5; n_k4; n_gv6; n_t6; n_pgv6; n_t7; n_gv5; n_k8; n_gv1; n_t1; n_t2; n_pgv3; n_db1; n_t3; n_uo; n_pgv2; n_gv4; n_pgv5; n_t4; n_gv2; n_gv3; n_t5; n_pgv4; n_db2]
    [(n_eps, VFloat n_0_0); (n_uc, VFloat n_0_0); (n_mwbase, VFloat n_0_0); (n_pmin, VFloat n_0_0); (n_k3, VFloat n_0_0); (n_k, VFloat n_0_0); (n_k2, VFloat n_0_0); (n_k1, VFloat n_0_0); (n_pgv1, VFloat n_0_0); (n_k7, VFloat n_0_0); (n_k6, VFloat n_0_0); (n_pmax, VFloat n_0_0); (n_k5, VFloat n_0_0); (n_k4, VFloat n_0_0); (n_gv6, VFloat n_0_0); (n_t6, VFloat n_0_0); (n_pgv6, VFloat n_0_0); (n_t7, VFloat n_0_0); (n_gv5, VFloat n_0_0); (n_k8, VFloat n_0_0); (n_gv1, VFloat n_0_0); (n_t1, VFloat n_0_0); (n_t2, VFloat n_0_0); (n_pgv3, VFloat n_0_0); (n_db1, VFloat n_0_0); (n_t3, VFloat n_0_0); (n_uo, VFloat n_0_0); (n_pgv2, VFloat n_0_0); (n_gv4, VFloat n_0_0); (n_pgv5, VFloat n_0_0); (n_t4, VFloat n_0_0); (n_gv2, VFloat n_0_0); (n_gv3, VFloat n_0_0); (n_t5, VFloat n_0_0); (n_pgv4, VFloat n_0_0); (n_db2, VFloat n_0_0)]
    []
    []
    []
    [];
(* CIM14/ENTSOE/Dynamics/IEC61970/Dynamics/VoltageCompensator/VoltageCompensatorVcompCross.py:23-44 *)
  Cls n_CIM14_ENTSOE_Dynamics_IEC61970_Dynamics_VoltageCompensator_VoltageCompensatorVcompCross_VoltageCompensatorVcompCross n_VoltageCompensatorVcompCross (Some n_CIM14_ENTSOE_Dynamics_IEC61970_Core_CorePowerSystemResource_CorePowerSystemResource)
    [(n_xcomp2, VFloat n_0_0); (n_rcomp2, VFloat n_0_0)]
    [SAttr n_xcomp2; SAttr n_rcomp2]
    true true
    [n_xcomp2; n_rcomp2]
    [(n_xcomp2, VFloat n_0_0); (n_rcomp2, VFloat n_0_0)]
    []
    []
    []
    [];
(* CIM14/ENTSOE/Dynamics/IEC61970/Dynamics/VoltageCompensator/VoltageCompensatorVcompIEEE.py:23-44 *)
  Cls n_CIM14_ENTSOE_Dynamics_IEC61970_Dynamics_VoltageCompensator_VoltageCompensatorVcompIEEE_VoltageCompensatorVcompIEEE n_VoltageCompensatorVcompIEEE (Some n_CIM14_ENTSOE_Dynamics_IEC61970_Core_CorePowerSystemResource_CorePowerSystemResource)
    [(n_xcomp, VFloat n_0_0); (n_rcomp, VFloat n_0_0)]
    [SAttr n_xcomp; SAttr n_rcomp]
    true true
    [n_xcomp; n_rcomp]
    [(n_xcomp, VFloat n_0_0); (n_rcomp, VFloat n_0_0)]
    []
    []
    []
    [];
(* CIM14/ENTSOE/Dynamics/IEC61970/Informative/InfCore/InfCoreModelingAuthoritySet.py:23-62 *)
  Cls n_CIM14_ENTSOE_Dynamics_IEC61970_Informative_InfCore_InfCoreModelingAuthoritySet_InfCoreModelingAuthoritySet n_InfCoreModelingAuthoritySet (Some n_CIM14_ENTSOE_Dynamics_IEC61970_Core_CoreIdentifiedObject_CoreIdentifiedObject)
    [(n_IdentifiedObjects, VNone)]
    [SMany n_IdentifiedObjects]
    true true
    []
    []
    []
    [n_IdentifiedObjects]
    [n_IdentifiedObjects]
    [(n_IdentifiedObjects, PManyOne n_ModelingAuthoritySet)];
(* CIM14/ENTSOE/Dynamics/IEC61970/Meas/MeasControl.py:23-57 *)
  Cls n_CIM14_ENTSOE_Dynamics_IEC61970_Meas_MeasControl_MeasControl n_MeasControl (Some n_CIM14_ENTSOE_Dynamics_IEC61970_Core_CoreIdentifiedObject_CoreIdentifiedObject)
    [(n_RegulatingCondEq, VNone)]
    [SOne n_RegulatingCondEq]
    true true
    []
    []
    []
    [n_RegulatingCondEq]
    []
    [(n_RegulatingCondEq, POneMany n_Controls)];
(* CIM14/ENTSOE/Dynamics/IEC61970/Meas/MeasMeasurement.py:23-57 *)
  Cls n_CIM14_ENTSOE_Dynamics_IEC61970_Meas_MeasMeasurement_MeasMeasurement n_MeasMeasurement (Some n_CIM14_ENTSOE_Dynamics_IEC61970_Core_CoreIdentifiedObject_CoreIdentifiedObject)
    [(n_PowerSystemResource, VNone)]
    [SOne n_PowerSystemResource]
    true true
    []
    []
    []
    [n_PowerSystemResource]
    []
    [(n_PowerSystemResource, POneMany n_Measurements)];
(* CIM14/ENTSOE/Dynamics/IEC61970/OperationalLimits/OperationalLimitsOperationalLimitSet.py:23-57 *)
  Cls n_CIM14_ENTSOE_Dynamics_IEC61970_OperationalLimits_OperationalLimitsOperationalLimitSet_OperationalLimitsOperationalLimitSet n_OperationalLimitsOperationalLimitSet (Some n_CIM14_ENTSOE_Dynamics_IEC61970_Core_CoreIdentifiedObject_CoreIdentifiedObject)
    [(n_Equipment, VNone)]
    [SOne n_Equipment]
    true true
    []
    []
    []
    [n_Equipment]
    []
    [(n_Equipment, POneMany n_OperationalLimitSet)];
(* CIM14/ENTSOE/Dynamics/IEC61970/Outage/OutageClearanceTag.py:23-57 *)
  Cls n_CIM14_ENTSOE_Dynamics_IEC61970_Outage_OutageClearanceTag_OutageClearanceTag n_OutageClearanceTag (Some n_CIM14_ENTSOE_Dynamics_IEC61970_Core_CoreIdentifiedObject_CoreIdentifiedObject)
    [(n_ConductingEquipment, VNone)]
    [SOne n_ConductingEquipment]
    true true
    []
    []
    []
    [n_ConductingEquipment]
    []
    [(n_ConductingEquipment, POneMany n_ClearanceTags)];
(* CIM14/ENTSOE/Dynamics/IEC61970/Outage/OutageOutageSchedule.py:23-56 *)
  Cls n_CIM14_ENTSOE_Dynamics_IEC61970_Outage_OutageOutageSchedule_OutageOutageSchedule n_OutageOutageSchedule (Some n_CIM14_ENTSOE_Dynamics_IEC61970_Core_CoreIdentifiedObject_CoreIdentifiedObject)
    [(n_PowerSystemResource, VNone)]
    [SOne n_PowerSystemResource]
    true true
    []
    []
    []
    [n_PowerSystemResource]
    []
    [(n_PowerSystemResource, POneOne n_OutageSchedule)];
(* CIM14/ENTSOE/Dynamics/IEC61970/Protection/ProtectionProtectionEquipment.py:23-68 *)
  Cls n_CIM14_ENTSOE_Dynamics_IEC61970_Protection_ProtectionProtectionEquipment_ProtectionProtectionEquipment n_ProtectionProtectionEquipment (Some n_CIM14_ENTSOE_Dynamics_IEC61970_Core_CoreEquipment_CoreEquipment)
    [(n_ConductingEquipments, VNone)]
    [SMany n_ConductingEquipments]
    true true
    []
    []
    []
    [n_ConductingEquipments]
    [n_ConductingEquipments]
    [(n_ConductingEquipments, PManyMany n_ProtectionEquipments)];
(* CIM14/ENTSOE/Dynamics/IEC61970/StateVariables/StateVariablesSvStatus.py:23-56 *)
  Cls n_CIM14_ENTSOE_Dynamics_IEC61970_StateVariables_StateVariablesSvStatus_StateVariablesSvStatus n_StateVariablesSvStatus (Some n_CIM14_ENTSOE_Dynamics_Element_Element)
    [(n_ConductingEquipment, VNone)]
    [SOne n_ConductingEquipment]
    true true
    []
    []
    []
    [n_ConductingEquipment]
    []
    [(n_ConductingEquipment, POneOne n_SvStatus)];
(* CIM14/ENTSOE/Dynamics/IEC61970/Wires/WiresRegulatingCondEq.py:23-81 *)
  Cls n_CIM14_ENTSOE_Dynamics_IEC61970_Wires_WiresRegulatingCondEq_WiresRegulatingCondEq n_WiresRegulatingCondEq (Some n_CIM14_ENTSOE_Dynamics_IEC61970_Core_CoreConductingEquipment_CoreConductingEquipment)
    [(n_Controls, VNone); (n_RegulatingControl, VNone)]
    [SMany n_Controls; SOne n_RegulatingControl]
    true true
    []
    []
    []
    [n_Controls; n_RegulatingControl]
    [n_Controls]
    [(n_Controls, PManyOne n_RegulatingCondEq); (n_RegulatingControl, POneMany n_RegulatingCondEq)];
(* CIM14/ENTSOE/Dynamics/IEC61970/Wires/WiresRegulatingControl.py:23-62 *)
  Cls n_CIM14_ENTSOE_Dynamics_IEC61970_Wires_WiresRegulatingControl_WiresRegulatingControl n_WiresRegulatingControl (Some n_CIM14_ENTSOE_Dynamics_IEC61970_Core_CorePowerSystemResource_CorePowerSystemResource)
    [(n_RegulatingCondEq, VNone)]
    [SMany n_RegulatingCondEq]
    true true
    []
    []
    []
    [n_RegulatingCondEq]
    [n_RegulatingCondEq]
    [(n_RegulatingCondEq, PManyOne n_RegulatingControl)];
(* CIM14/ENTSOE/Dynamics/IEC61970/Wires/WiresSynchronousMachine.py:23-60 *)
  Cls n_CIM14_ENTSOE_Dynamics_IEC61970_Wires_WiresSynchronousMachine_WiresSynchronousMachine n_WiresSynchronousMachine (Some n_CIM14_ENTSOE_Dynamics_IEC61970_Dynamics_DynamicsRotatingMachine_DynamicsRotatingMachine)
    [(n_xDirectSync, VFloat n_0_0); (n_xDirectTrans, VFloat n_0_0); (n_xQuadTrans, VFloat n_0_0); (n_xQuadSync, VFloat n_0_0); (n_xQuadSubtrans, VFloat n_0_0); (n_xDirectSubtrans, VFloat n_0_0)]
    [SAttr n_xDirectSync; SAttr n_xDirectTrans; SAttr n_xQuadTrans; SAttr n_xQuadSync; SAttr n_xQuadSubtrans; SAttr n_xDirectSubtrans]
    true true
    [n_xDirectSync; n_xDirectTrans; n_xQuadTrans; n_xQuadSync; n_xQuadSubtrans; n_xDirectSubtrans]
    [(n_xDirectSync, VFloat n_0_0); (n_xDirectTrans, VFloat n_0_0); (n_xQuadTrans, VFloat n_0_0); (n_xQuadSync, VFloat n_0_0); (n_xQuadSubtrans, VFloat n_0_0); (n_xDirectSubtrans, VFloat n_0_0)]
    []
    []
    []
    [];
(* CIM14/ENTSOE/Dynamics/Thing.py:23-213 *)
  Cls n_CIM14_ENTSOE_Dynamics_Thing_Thing n_Thing (Some n_CIM14_ENTSOE_Dynamics_Element_Element)
    [(n_ScheduleSteps, VNone); (n_synchronousGeneratorType, VNone); (n_tpqo, VNone); (n_ElectricalAssets, VNone); (n_SafetyDocuments, VNone); (n_ratedS, VNone); (n_tppdo, VNone); (n_tpdo, VNone); (n_ChangeItems, VNone); (n_ErpOrganisationRoles, VNone); (n_CircuitSections, VNone); (n_tppqo, VNone); (n_DocumentRoles, VNone); (n_PSREvent, VNone); (n_OutageStepRoles, VNone); (n_NetworkDataSets, VNone)]
    [SPlainMany n_ScheduleSteps; SPlainMany n_synchronousGeneratorType; SPlainMany n_tpqo; SPlainMany n_ElectricalAssets; SPlainMany n_SafetyDocuments; SPlainMany n_ratedS; SPlainMany n_tppdo; SPlainMany n_tpdo; SPlainMany n_ChangeItems; SPlainMany n_ErpOrganisationRoles; SPlainMany n_CircuitSections; SPlainMany n_tppqo; SPlainMany n_DocumentRoles; SPlainMany n_PSREvent; SPlainMany n_OutageStepRoles; SPlainMany n_NetworkDataSets]
    true true
    []
    []
    []
    [n_ScheduleSteps; n_synchronousGeneratorType; n_tpqo; n_ElectricalAssets; n_EAID_4B45E775_795A_4030_865F_0AB320000DDD_B; n_SafetyDocuments; n_ratedS; n_tppdo; n_tpdo; n_ChangeItems; n_ErpOrganisationRoles; n_CircuitSections; n_tppqo; n_DocumentRoles; n_PSREvent; n_OutageStepRoles; n_NetworkDataSets]
    [n_ScheduleSteps; n_synchronousGeneratorType; n_tpqo; n_ElectricalAssets; n_EAID_4B45E775_795A_4030_865F_0AB320000DDD_B; n_SafetyDocuments; n_ratedS; n_tppdo; n_tpdo; n_ChangeItems; n_ErpOrganisationRoles; n_CircuitSections; n_tppqo; n_DocumentRoles; n_PSREvent; n_OutageStepRoles; n_NetworkDataSets]
    []
].

(** packageMap, CIM14/ENTSOE/Dynamics/__init__.py:30-116: tag to the class that the package exports under that name. *)
Definition cim14_entsoe_dynamics_map : list (name * name) := [
  (n_Element, n_CIM14_ENTSOE_Dynamics_Element_Element);
  (n_Thing, n_CIM14_ENTSOE_Dynamics_Thing_Thing);
  (n_AssetsAsset, n_CIM14_ENTSOE_Dynamics_IEC61968_Assets_AssetsAsset_AssetsAsset);
  (n_CustomersCustomerAgreement, n_CIM14_ENTSOE_Dynamics_IEC61968_Customers_CustomersCustomerAgreement_CustomersCustomerAgreement);
  (n_CommonLocation, n_CIM14_ENTSOE_Dynamics_IEC61968_Common_CommonLocation_CommonLocation);
  (n_CoreEquipment, n_CIM14_ENTSOE_Dynamics_IEC61970_Core_CoreEquipment_CoreEquipment);
  (n_CoreIdentifiedObject, n_CIM14_ENTSOE_Dynamics_IEC61970_Core_CoreIdentifiedObject_CoreIdentifiedObject);
  (n_CorePSRType, n_CIM14_ENTSOE_Dynamics_IEC61970_Core_CorePSRType_CorePSRType);
  (n_CoreBaseVoltage, n_CIM14_ENTSOE_Dynamics_IEC61970_Core_CoreBaseVoltage_CoreBaseVoltage);
  (n_CoreEquipmentContainer, n_CIM14_ENTSOE_Dynamics_IEC61970_Core_CoreEquipmentContainer_CoreEquipmentContainer);
  (n_CoreTerminal, n_CIM14_ENTSOE_Dynamics_IEC61970_Core_CoreTerminal_CoreTerminal);
  (n_CorePowerSystemResource, n_CIM14_ENTSOE_Dynamics_IEC61970_Core_CorePowerSystemResource_CorePowerSystemResource);
  (n_CoreOperatingShare, n_CIM14_ENTSOE_Dynamics_IEC61970_Core_CoreOperatingShare_CoreOperatingShare);
  (n_CoreReportingGroup, n_CIM14_ENTSOE_Dynamics_IEC61970_Core_CoreReportingGroup_CoreReportingGroup);
  (n_CoreConductingEquipment, n_CIM14_ENTSOE_Dynamics_IEC61970_Core_CoreConductingEquipment_CoreConductingEquipment);
  (n_CorePsrList, n_CIM14_ENTSOE_Dynamics_IEC61970_Core_CorePsrList_CorePsrList);
  (n_ContingencyContingencyEquipment, n_CIM14_ENTSOE_Dynamics_IEC61970_Contingency_ContingencyContingencyEquipment_ContingencyContingencyEquipment);
  (n_WiresSynchronousMachine, n_CIM14_ENTSOE_Dynamics_IEC61970_Wires_WiresSynchronousMachine_WiresSynchronousMachine);
  (n_WiresRegulatingControl, n_CIM14_ENTSOE_Dynamics_IEC61970_Wires_WiresRegulatingControl_WiresRegulatingControl);
  (n_WiresRegulatingCondEq, n_CIM14_ENTSOE_Dynamics_IEC61970_Wires_WiresRegulatingCondEq_WiresRegulatingCondEq);
  (n_OutageOutageSchedule, n_CIM14_ENTSOE_Dynamics_IEC61970_Outage_OutageOutageSchedule_OutageOutageSchedule);
  (n_OutageClearanceTag, n_CIM14_ENTSOE_Dynamics_IEC61970_Outage_OutageClearanceTag_OutageClearanceTag);
  (n_OperationalLimitsOperationalLimitSet, n_CIM14_ENTSOE_Dynamics_IEC61970_OperationalLimits_OperationalLimitsOperationalLimitSet_OperationalLimitsOperationalLimitSet);
  (n_InfCoreModelingAuthoritySet, n_CIM14_ENTSOE_Dynamics_IEC61970_Informative_InfCore_InfCoreModelingAuthoritySet_InfCoreModelingAuthoritySet);
  (n_MeasMeasurement, n_CIM14_ENTSOE_Dynamics_IEC61970_Meas_MeasMeasurement_MeasMeasurement);
  (n_MeasControl, n_CIM14_ENTSOE_Dynamics_IEC61970_Meas_MeasControl_MeasControl);
  (n_StateVariablesSvStatus, n_CIM14_ENTSOE_Dynamics_IEC61970_StateVariables_StateVariablesSvStatus_StateVariablesSvStatus);
  (n_ProtectionProtectionEquipment, n_CIM14_ENTSOE_Dynamics_IEC61970_Protection_ProtectionProtectionEquipment_ProtectionProtectionEquipment);
  (n_DynamicsMetaBlockState, n_CIM14_ENTSOE_Dynamics_IEC61970_Dynamics_DynamicsMetaBlockState_DynamicsMetaBlockState);
  (n_DynamicsMetaBlockConSignal, n_CIM14_ENTSOE_Dynamics_IEC61970_Dynamics_DynamicsMetaBlockConSignal_DynamicsMetaBlockConSignal);
  (n_DynamicsMetaBlockReference, n_CIM14_ENTSOE_Dynamics_IEC61970_Dynamics_DynamicsMetaBlockReference_DynamicsMetaBlockReference);
  (n_DynamicsMetaBlockSignal, n_CIM14_ENTSOE_Dynamics_IEC61970_Dynamics_DynamicsMetaBlockSignal_DynamicsMetaBlockSignal);
  (n_DynamicsAttributeBlockParameter, n_CIM14_ENTSOE_Dynamics_IEC61970_Dynamics_DynamicsAttributeBlockParameter_DynamicsAttributeBlockParameter);
  (n_DynamicsMetaBlockConnection, n_CIM14_ENTSOE_Dynamics_IEC61970_Dynamics_DynamicsMetaBlockConnection_DynamicsMetaBlockConnection);
  (n_DynamicsMetaBlockConOutput, n_CIM14_ENTSOE_Dynamics_IEC61970_Dynamics_DynamicsMetaBlockConOutput_DynamicsMetaBlockConOutput);
  (n_DynamicsMetaBlockInput, n_CIM14_ENTSOE_Dynamics_IEC61970_Dynamics_DynamicsMetaBlockInput_DynamicsMetaBlockInput);
  (n_DynamicsMetaBlockOutputReference, n_CIM14_ENTSOE_Dynamics_IEC61970_Dynamics_DynamicsMetaBlockOutputReference_DynamicsMetaBlockOutputReference);
  (n_DynamicsMetaBlockStateReference, n_CIM14_ENTSOE_Dynamics_IEC61970_Dynamics_DynamicsMetaBlockStateReference_DynamicsMetaBlockStateReference);
  (n_DynamicsBlockConnection, n_CIM14_ENTSOE_Dynamics_IEC61970_Dynamics_DynamicsBlockConnection_DynamicsBlockConnection);
  (n_DynamicsMetaBlockConnectivity, n_CIM14_ENTSOE_Dynamics_IEC61970_Dynamics_DynamicsMetaBlockConnectivity_DynamicsMetaBlockConnectivity);
  (n_DynamicsMetaBlock, n_CIM14_ENTSOE_Dynamics_IEC61970_Dynamics_DynamicsMetaBlock_DynamicsMetaBlock);
  (n_DynamicsMetaBlockConInput, n_CIM14_ENTSOE_Dynamics_IEC61970_Dynamics_DynamicsMetaBlockConInput_DynamicsMetaBlockConInput);
  (n_DynamicsMetaBlockParameter, n_CIM14_ENTSOE_Dynamics_IEC61970_Dynamics_DynamicsMetaBlockParameter_DynamicsMetaBlockParameter);
  (n_DynamicsMetaBlockConnectable, n_CIM14_ENTSOE_Dynamics_IEC61970_Dynamics_DynamicsMetaBlockConnectable_DynamicsMetaBlockConnectable);
  (n_DynamicsMetaBlockInputReference, n_CIM14_ENTSOE_Dynamics_IEC61970_Dynamics_DynamicsMetaBlockInputReference_DynamicsMetaBlockInputReference);
  (n_DynamicsRotatingMachine, n_CIM14_ENTSOE_Dynamics_IEC61970_Dynamics_DynamicsRotatingMachine_DynamicsRotatingMachine);
  (n_DynamicsBlockConnectivity, n_CIM14_ENTSOE_Dynamics_IEC61970_Dynamics_DynamicsBlockConnectivity_DynamicsBlockConnectivity);
  (n_DynamicsMetaBlockParameterReference, n_CIM14_ENTSOE_Dynamics_IEC61970_Dynamics_DynamicsMetaBlockParameterReference_DynamicsMetaBlockParameterReference);
  (n_DynamicsAsynchronousMachine, n_CIM14_ENTSOE_Dynamics_IEC61970_Dynamics_DynamicsAsynchronousMachine_DynamicsAsynchronousMachine);
  (n_DynamicsBlockParameter, n_CIM14_ENTSOE_Dynamics_IEC61970_Dynamics_DynamicsBlockParameter_DynamicsBlockParameter);
  (n_DynamicsBlock, n_CIM14_ENTSOE_Dynamics_IEC61970_Dynamics_DynamicsBlock_DynamicsBlock);
  (n_DynamicsMetaBlockOutput, n_CIM14_ENTSOE_Dynamics_IEC61970_Dynamics_DynamicsMetaBlockOutput_DynamicsMetaBlockOutput);
  (n_ExcitationSystemsExcDC4B, n_CIM14_ENTSOE_Dynamics_IEC61970_Dynamics_ExcitationSystems_ExcitationSystemsExcDC4B_ExcitationSystemsExcDC4B);
  (n_ExcitationSystemsExcDC2A, n_CIM14_ENTSOE_Dynamics_IEC61970_Dynamics_ExcitationSystems_ExcitationSystemsExcDC2A_ExcitationSystemsExcDC2A);
  (n_ExcitationSystemsExcDC1A, n_CIM14_ENTSOE_Dynamics_IEC61970_Dynamics_ExcitationSystems_ExcitationSystemsExcDC1A_ExcitationSystemsExcDC1A);
  (n_ExcitationSystemsExcAC3A, n_CIM14_ENTSOE_Dynamics_IEC61970_Dynamics_ExcitationSystems_ExcitationSystemsExcAC3A_ExcitationSystemsExcAC3A);
  (n_ExcitationSystemsExcAC2A, n_CIM14_ENTSOE_Dynamics_IEC61970_Dynamics_ExcitationSystems_ExcitationSystemsExcAC2A_ExcitationSystemsExcAC2A);
  (n_ExcitationSystemsExcAC1A, n_CIM14_ENTSOE_Dynamics_IEC61970_Dynamics_ExcitationSystems_ExcitationSystemsExcAC1A_ExcitationSystemsExcAC1A);
  (n_ExcitationSystemsExcAC8B, n_CIM14_ENTSOE_Dynamics_IEC61970_Dynamics_ExcitationSystems_ExcitationSystemsExcAC8B_ExcitationSystemsExcAC8B);
  (n_ExcitationSystemsExcST5B, n_CIM14_ENTSOE_Dynamics_IEC61970_Dynamics_ExcitationSystems_ExcitationSystemsExcST5B_ExcitationSystemsExcST5B);
  (n_ExcitationSystemsExcAC7B, n_CIM14_ENTSOE_Dynamics_IEC61970_Dynamics_ExcitationSystems_ExcitationSystemsExcAC7B_ExcitationSystemsExcAC7B);
  (n_ExcitationSystemsExcAC4A, n_CIM14_ENTSOE_Dynamics_IEC61970_Dynamics_ExcitationSystems_ExcitationSystemsExcAC4A_ExcitationSystemsExcAC4A);
  (n_ExcitationSystemsExcST4B, n_CIM14_ENTSOE_Dynamics_IEC61970_Dynamics_ExcitationSystems_ExcitationSystemsExcST4B_ExcitationSystemsExcST4B);
  (n_ExcitationSystemsExcST6B, n_CIM14_ENTSOE_Dynamics_IEC61970_Dynamics_ExcitationSystems_ExcitationSystemsExcST6B_ExcitationSystemsExcST6B);
  (n_ExcitationSystemsExcAC6A, n_CIM14_ENTSOE_Dynamics_IEC61970_Dynamics_ExcitationSystems_ExcitationSystemsExcAC6A_ExcitationSystemsExcAC6A);
  (n_ExcitationSystemsExcAC5A, n_CIM14_ENTSOE_Dynamics_IEC61970_Dynamics_ExcitationSystems_ExcitationSystemsExcAC5A_ExcitationSystemsExcAC5A);
  (n_ExcitationSystemsExcSCRX, n_CIM14_ENTSOE_Dynamics_IEC61970_Dynamics_ExcitationSystems_ExcitationSystemsExcSCRX_ExcitationSystemsExcSCRX);
  (n_ExcitationSystemsExcSEXS, n_CIM14_ENTSOE_Dynamics_IEC61970_Dynamics_ExcitationSystems_ExcitationSystemsExcSEXS_ExcitationSystemsExcSEXS);
  (n_ExcitationSystemsExcST7B, n_CIM14_ENTSOE_Dynamics_IEC61970_Dynamics_ExcitationSystems_ExcitationSystemsExcST7B_ExcitationSystemsExcST7B);
  (n_ExcitationSystemsExcST2A, n_CIM14_ENTSOE_Dynamics_IEC61970_Dynamics_ExcitationSystems_ExcitationSystemsExcST2A_ExcitationSystemsExcST2A);
  (n_ExcitationSystemsExcST1A, n_CIM14_ENTSOE_Dynamics_IEC61970_Dynamics_ExcitationSystems_ExcitationSystemsExcST1A_ExcitationSystemsExcST1A);
  (n_ExcitationSystemsExcDC3A, n_CIM14_ENTSOE_Dynamics_IEC61970_Dynamics_ExcitationSystems_ExcitationSystemsExcDC3A_ExcitationSystemsExcDC3A);
  (n_ExcitationSystemsExcST3A, n_CIM14_ENTSOE_Dynamics_IEC61970_Dynamics_ExcitationSystems_ExcitationSystemsExcST3A_ExcitationSystemsExcST3A);
  (n_GeneratorsGenEquiv, n_CIM14_ENTSOE_Dynamics_IEC61970_Dynamics_Generators_GeneratorsGenEquiv_GeneratorsGenEquiv);
  (n_TurbineGovernorsGovHydro2, n_CIM14_ENTSOE_Dynamics_IEC61970_Dynamics_TurbineGovernors_TurbineGovernorsGovHydro2_TurbineGovernorsGovHydro2);
  (n_TurbineGovernorsGovSteam0, n_CIM14_ENTSOE_Dynamics_IEC61970_Dynamics_TurbineGovernors_TurbineGovernorsGovSteam0_TurbineGovernorsGovSteam0);
  (n_TurbineGovernorsGovHydro1, n_CIM14_ENTSOE_Dynamics_IEC61970_Dynamics_TurbineGovernors_TurbineGovernorsGovHydro1_TurbineGovernorsGovHydro1);
  (n_TurbineGovernorsGovSteam1, n_CIM14_ENTSOE_Dynamics_IEC61970_Dynamics_TurbineGovernors_TurbineGovernorsGovSteam1_TurbineGovernorsGovSteam1);
  (n_TurbineGovernorsGovCT1, n_CIM14_ENTSOE_Dynamics_IEC61970_Dynamics_TurbineGovernors_TurbineGovernorsGovCT1_TurbineGovernorsGovCT1);
  (n_LoadsLoadStatic, n_CIM14_ENTSOE_Dynamics_IEC61970_Dynamics_Loads_LoadsLoadStatic_LoadsLoadStatic);
  (n_LoadsLoadMotor, n_CIM14_ENTSOE_Dynamics_IEC61970_Dynamics_Loads_LoadsLoadMotor_LoadsLoadMotor);
  (n_MotorsMechLoad1, n_CIM14_ENTSOE_Dynamics_IEC61970_Dynamics_Motors_MotorsMechLoad1_MotorsMechLoad1);
  (n_VoltageCompensatorVcompCross, n_CIM14_ENTSOE_Dynamics_IEC61970_Dynamics_VoltageCompensator_VoltageCompensatorVcompCross_VoltageCompensatorVcompCross);
  (n_VoltageCompensatorVcompIEEE, n_CIM14_ENTSOE_Dynamics_IEC61970_Dynamics_VoltageCompensator_VoltageCompensatorVcompIEEE_VoltageCompensatorVcompIEEE);
  (n_PowerSystemStabilizersPssIEEE2B, n_CIM14_ENTSOE_Dynamics_IEC61970_Dynamics_PowerSystemStabilizers_PowerSystemStabilizersPssIEEE2B_PowerSystemStabilizersPssIEEE2B)
].

(** nsURI and nsPrefix, CIM14/ENTSOE/Dynamics/__init__.py. *)
Definition cim14_entsoe_dynamics_uri : name := n_http___iec_ch_TC57_2009_CIM_schema_cim14_profile_http___iec_ch_TC57_2007_profile_ENTSOE_Dynamics.
Definition cim14_entsoe_dynamics_prefix : name := n_dyn.

(** Class table of CIM14.ENTSOE.Equipment: 74 classes. *)
Definition cim14_entsoe_equipment : schema := [
(* CIM14/ENTSOE/Equipment/ControlArea/ControlArea.py:23-122 *)
  Cls n_CIM14_ENTSOE_Equipment_ControlArea_ControlArea_ControlArea n_ControlArea (Some n_CIM14_ENTSOE_Equipment_Core_PowerSystemResource_PowerSystemResource)
    [(n_netInterchange, VFloat n_0_0); (n_type, VStr n_Interchange); (n_pTolerance, VFloat n_0_0); (n_EnergyArea, VNone); (n_ControlAreaGeneratingUnit, VNone); (n_TieFlow, VNone)]
    [SAttr n_netInterchange; SAttr n_type; SAttr n_pTolerance; SOne n_EnergyArea; SMany n_ControlAreaGeneratingUnit; SMany n_TieFlow]
    true true
    [n_netInterchange; n_type; n_pTolerance]
    [(n_netInterchange, VFloat n_0_0); (n_type, VStr n_Interchange); (n_pTolerance, VFloat n_0_0)]
    [(n_type, n_ControlAreaTypeKind)]
    [n_EnergyArea; n_ControlAreaGeneratingUnit; n_TieFlow]
    [n_ControlAreaGeneratingUnit; n_TieFlow]
    [(n_EnergyArea, POneOne n_ControlArea); (n_ControlAreaGeneratingUnit, PManyOne n_ControlArea); (n_TieFlow, PManyOne n_ControlArea)];
(* CIM14/ENTSOE/Equipment/ControlArea/ControlAreaGeneratingUnit.py:23-80 *)
  Cls n_CIM14_ENTSOE_Equipment_ControlArea_ControlAreaGeneratingUnit_ControlAreaGeneratingUnit n_ControlAreaGeneratingUnit (Some n_CIM14_ENTSOE_Equipment_Element_Element)
    [(n_ControlArea, VNone); (n_GeneratingUnit, VNone)]
    [SOne n_ControlArea; SOne n_GeneratingUnit]
    true true
    []
    []
    []
    [n_ControlArea; n_GeneratingUnit]
    []
    [(n_ControlArea, POneMany n_ControlAreaGeneratingUnit); (n_GeneratingUnit, POneMany n_ControlAreaGeneratingUnit)];
(* CIM14/ENTSOE/Equipment/ControlArea/TieFlow.py:23-84 *)
  Cls n_CIM14_ENTSOE_Equipment_ControlArea_TieFlow_TieFlow n_TieFlow (Some n_CIM14_ENTSOE_Equipment_Element_Element)
    [(n_positiveFlowIn, VBool false); (n_ControlArea, VNone); (n_Terminal, VNone)]
    [SAttr n_positiveFlowIn; SOne n_ControlArea; SOne n_Terminal]
    true true
    [n_positiveFlowIn]
    [(n_positiveFlowIn, VBool false)]
    []
    [n_ControlArea; n_Terminal]
    []
    [(n_ControlArea, POneMany n_TieFlow); (n_Terminal, POneMany n_TieFlow)];
(* CIM14/ENTSOE/Equipment/Core/BaseVoltage.py:23-94 *)
  Cls n_CIM14_ENTSOE_Equipment_Core_BaseVoltage_BaseVoltage n_BaseVoltage (Some n_CIM14_ENTSOE_Equipment_Core_IdentifiedObject_IdentifiedObject)
    [(n_nominalVoltage, VFloat n_0_0); (n_ConductingEquipment, VNone); (n_VoltageLevel, VNone)]
    [SAttr n_nominalVoltage; SMany n_ConductingEquipment; SMany n_VoltageLevel]
    true true
    [n_nominalVoltage]
    [(n_nominalVoltage, VFloat n_0_0)]
    []
    [n_ConductingEquipment; n_VoltageLevel]
    [n_ConductingEquipment; n_VoltageLevel]
    [(n_ConductingEquipment, PManyOne n_BaseVoltage); (n_VoltageLevel, PManyOne n_BaseVoltage)];
(* CIM14/ENTSOE/Equipment/Core/BasicIntervalSchedule.py:23-50 *)
  Cls n_CIM14_ENTSOE_Equipment_Core_BasicIntervalSchedule_BasicIntervalSchedule n_BasicIntervalSchedule (Some n_CIM14_ENTSOE_Equipment_Core_IdentifiedObject_IdentifiedObject)
    [(n_startTime, VStr n_); (n_value1Unit, VStr n_A); (n_value2Unit, VStr n_A)]
    [SAttr n_startTime; SAttr n_value1Unit; SAttr n_value2Unit]
    true true
    [n_startTime; n_value1Unit; n_value2Unit]
    [(n_startTime, VStr n_); (n_value1Unit, VStr n_A); (n_value2Unit, VStr n_A)]
    [(n_value1Unit, n_UnitSymbol); (n_value2Unit, n_UnitSymbol)]
    []
    []
    [];
(* CIM14/ENTSOE/Equipment/Core/ConductingEquipment.py:23-85 *)
  Cls n_CIM14_ENTSOE_Equipment_Core_ConductingEquipment_ConductingEquipment n_ConductingEquipment (Some n_CIM14_ENTSOE_Equipment_Core_Equipment_Equipment)
    [(n_Terminals, VNone); (n_BaseVoltage, VNone)]
    [SMany n_Terminals; SOne n_BaseVoltage]
    true true
    []
    []
    []
    [n_Terminals; n_BaseVoltage]
    [n_Terminals]
    [(n_Terminals, PManyOne n_ConductingEquipment); (n_BaseVoltage, POneMany n_ConductingEquipment)];
(* CIM14/ENTSOE/Equipment/Core/ConnectivityNode.py:23-64 *)
  Cls n_CIM14_ENTSOE_Equipment_Core_ConnectivityNode_ConnectivityNode n_ConnectivityNode (Some n_CIM14_ENTSOE_Equipment_Core_IdentifiedObject_IdentifiedObject)
    [(n_Terminals, VNone)]
    [SMany n_Terminals]
    true true
    []
    []
    []
    [n_Terminals]
    [n_Terminals]
    [(n_Terminals, PManyOne n_ConnectivityNode)];
(* CIM14/ENTSOE/Equipment/Core/ConnectivityNodeContainer.py:23-38 *)
  Cls n_CIM14_ENTSOE_Equipment_Core_ConnectivityNodeContainer_ConnectivityNodeContainer n_ConnectivityNodeContainer (Some n_CIM14_ENTSOE_Equipment_Core_PowerSystemResource_PowerSystemResource)
    []
    []
    true true
    []
    []
    []
    []
    []
    [];
(* CIM14/ENTSOE/Equipment/Core/Curve.py:23-76 *)
  Cls n_CIM14_ENTSOE_Equipment_Core_Curve_Curve n_Curve (Some n_CIM14_ENTSOE_Equipment_Core_IdentifiedObject_IdentifiedObject)
    [(n_y1Unit, VStr n_A); (n_curveStyle, VStr n_straightLineYValues); (n_xUnit, VStr n_A); (n_CurveDatas, VNone)]
    [SAttr n_y1Unit; SAttr n_curveStyle; SAttr n_xUnit; SMany n_CurveDatas]
    true true
    [n_y1Unit; n_curveStyle; n_xUnit]
    [(n_y1Unit, VStr n_A); (n_curveStyle, VStr n_straightLineYValues); (n_xUnit, VStr n_A)]
    [(n_y1Unit, n_UnitSymbol); (n_curveStyle, n_CurveStyle); (n_xUnit, n_UnitSymbol)]
    [n_CurveDatas]
    [n_CurveDatas]
    [(n_CurveDatas, PManyOne n_Curve)];
(* CIM14/ENTSOE/Equipment/Core/CurveData.py:23-71 *)
  Cls n_CIM14_ENTSOE_Equipment_Core_CurveData_CurveData n_CurveData (Some n_CIM14_ENTSOE_Equipment_Element_Element)
    [(n_y1value, VFloat n_0_0); (n_xvalue, VFloat n_0_0); (n_y2value, VFloat n_0_0); (n_Curve, VNone)]
    [SAttr n_y1value; SAttr n_xvalue; SAttr n_y2value; SOne n_Curve]
    true true
    [n_y1value; n_xvalue; n_y2value]
    [(n_y1value, VFloat n_0_0); (n_xvalue, VFloat n_0_0); (n_y2value, VFloat n_0_0)]
    []
    [n_Curve]
    []
    [(n_Curve, POneMany n_CurveDatas)];
(* CIM14/ENTSOE/Equipment/Core/Equipment.py:23-89 *)
  Cls n_CIM14_ENTSOE_Equipment_Core_Equipment_Equipment n_Equipment (Some n_CIM14_ENTSOE_Equipment_Core_PowerSystemResource_PowerSystemResource)
    [(n_aggregate, VBool false); (n_OperationalLimitSet, VNone); (n_EquipmentContainer, VNone)]
    [SAttr n_aggregate; SMany n_OperationalLimitSet; SOne n_EquipmentContainer]
    true true
    [n_aggregate]
    [(n_aggregate, VBool false)]
    []
    [n_OperationalLimitSet; n_EquipmentContainer]
    [n_OperationalLimitSet]
    [(n_OperationalLimitSet, PManyOne n_Equipment); (n_EquipmentContainer, POneMany n_Equipments)];
(* CIM14/ENTSOE/Equipment/Core/EquipmentContainer.py:23-64 *)
  Cls n_CIM14_ENTSOE_Equipment_Core_EquipmentContainer_EquipmentContainer n_EquipmentContainer (Some n_CIM14_ENTSOE_Equipment_Core_ConnectivityNodeContainer_ConnectivityNodeContainer)
    [(n_Equipments, VNone)]
    [SMany n_Equipments]
    true true
    []
    []
    []
    [n_Equipments]
    [n_Equipments]
    [(n_Equipments, PManyOne n_EquipmentContainer)];
(* CIM14/ENTSOE/Equipment/Core/GeographicalRegion.py:23-64 *)
  Cls n_CIM14_ENTSOE_Equipment_Core_GeographicalRegion_GeographicalRegion n_GeographicalRegion (Some n_CIM14_ENTSOE_Equipment_Core_IdentifiedObject_IdentifiedObject)
    [(n_Regions, VNone)]
    [SMany n_Regions]
    true true
    []
    []
    []
    [n_Regions]
    [n_Regions]
    [(n_Regions, PManyOne n_Region)];
(* CIM14/ENTSOE/Equipment/Core/IdentifiedObject.py:23-54 *)
  Cls n_CIM14_ENTSOE_Equipment_Core_IdentifiedObject_IdentifiedObject n_IdentifiedObject (Some n_CIM14_ENTSOE_Equipment_Element_Element)
    [(n_description, VStr n_); (n_name, VStr n_); (n_aliasName, VStr n_); (n_pathName, VStr n_)]
    [SAttr n_description; SAttr n_name; SAttr n_aliasName; SAttr n_pathName]
    true true
    [n_description; n_name; n_aliasName; n_pathName]
    [(n_description, VStr n_); (n_name, VStr n_); (n_aliasName, VStr n_); (n_pathName, VStr n_)]
    []
    []
    []
    [];
(* CIM14/ENTSOE/Equipment/Core/PowerSystemResource.py:23-64 *)
  Cls n_CIM14_ENTSOE_Equipment_Core_PowerSystemResource_PowerSystemResource n_PowerSystemResource (Some n_CIM14_ENTSOE_Equipment_Core_IdentifiedObject_IdentifiedObject)
    [(n_Measurements, VNone)]
    [SMany n_Measurements]
    true true
    []
    []
    []
    [n_Measurements]
    [n_Measurements]
    [(n_Measurements, PManyOne n_PowerSystemResource)];
(* CIM14/ENTSOE/Equipment/Core/RegularIntervalSchedule.py:23-46 *)
  Cls n_CIM14_ENTSOE_Equipment_Core_RegularIntervalSchedule_RegularIntervalSchedule n_RegularIntervalSchedule (Some n_CIM14_ENTSOE_Equipment_Core_BasicIntervalSchedule_BasicIntervalSchedule)
    [(n_timeStep, VFloat n_0_0); (n_endTime, VStr n_)]
    [SAttr n_timeStep; SAttr n_endTime]
    true true
    [n_timeStep; n_endTime]
    [(n_timeStep, VFloat n_0_0); (n_endTime, VStr n_)]
    []
    []
    []
    [];
(* CIM14/ENTSOE/Equipment/Core/SubGeographicalRegion.py:23-111 *)
  Cls n_CIM14_ENTSOE_Equipment_Core_SubGeographicalRegion_SubGeographicalRegion n_SubGeographicalRegion (Some n_CIM14_ENTSOE_Equipment_Core_IdentifiedObject_IdentifiedObject)
    [(n_Region, VNone); (n_Lines, VNone); (n_Substations, VNone)]
    [SOne n_Region; SMany n_Lines; SMany n_Substations]
    true true
    []
    []
    []
    [n_Region; n_Lines; n_Substations]
    [n_Lines; n_Substations]
    [(n_Region, POneMany n_Regions); (n_Lines, PManyOne n_Region); (n_Substations, PManyOne n_Region)];
(* CIM14/ENTSOE/Equipment/Core/Substation.py:23-85 *)
  Cls n_CIM14_ENTSOE_Equipment_Core_Substation_Substation n_Substation (Some n_CIM14_ENTSOE_Equipment_Core_EquipmentContainer_EquipmentContainer)
    [(n_Region, VNone); (n_VoltageLevels, VNone)]
    [SOne n_Region; SMany n_VoltageLevels]
    true true
    []
    []
    []
    [n_Region; n_VoltageLevels]
    [n_VoltageLevels]
    [(n_Region, POneMany n_Substations); (n_VoltageLevels, PManyOne n_Substation)];
(* CIM14/ENTSOE/Equipment/Core/Terminal.py:23-240 *)
  Cls n_CIM14_ENTSOE_Equipment_Core_Terminal_Terminal n_Terminal (Some n_CIM14_ENTSOE_Equipment_Core_IdentifiedObject_IdentifiedObject)
    [(n_sequenceNumber, VInt 0); (n_OperationalLimitSet, VNone); (n_ConductingEquipment, VNone); (n_HasFirst_MutualCoupling, VNone); (n_Measurements, VNone); (n_ConnectivityNode, VNone); (n_RegulatingControl, VNone); (n_TieFlow, VNone); (n_HasSecond_MutualCoupling, VNone)]
    [SAttr n_sequenceNumber; SMany n_OperationalLimitSet; SOne n_ConductingEquipment; SMany n_HasFirst_MutualCoupling; SMany n_Measurements; SOne n_ConnectivityNode; SMany n_RegulatingControl; SMany n_TieFlow; SMany n_HasSecond_MutualCoupling]
    true true
    [n_sequenceNumber]
    [(n_sequenceNumber, VInt 0)]
    []
    [n_OperationalLimitSet; n_ConductingEquipment; n_HasFirst_MutualCoupling; n_Measurements; n_ConnectivityNode; n_RegulatingControl; n_TieFlow; n_HasSecond_MutualCoupling]
    [n_OperationalLimitSet; n_HasFirst_MutualCoupling; n_Measurements; n_RegulatingControl; n_TieFlow; n_HasSecond_MutualCoupling]
    [(n_OperationalLimitSet, PManyOne n_Terminal); (n_ConductingEquipment, POneMany n_Terminals); (n_HasFirst_MutualCoupling, PManyOne n_First_Terminal); (n_Measurements, PManyOne n_Terminal); (n_ConnectivityNode, POneMany n_Terminals); (n_RegulatingControl, PManyOne n_Terminal); (n_TieFlow, PManyOne n_Terminal); (n_HasSecond_MutualCoupling, PManyOne n_Second_Terminal)];
(* CIM14/ENTSOE/Equipment/Core/Unit.py:23-64 *)
  Cls n_CIM14_ENTSOE_Equipment_Core_Unit_Unit n_Unit (Some n_CIM14_ENTSOE_Equipment_Core_IdentifiedObject_IdentifiedObject)
    [(n_Measurements, VNone)]
    [SMany n_Measurements]
    true true
    []
    []
    []
    [n_Measurements]
    [n_Measurements]
    [(n_Measurements, PManyOne n_Unit)];
(* CIM14/ENTSOE/Equipment/Core/VoltageLevel.py:23-88 *)
  Cls n_CIM14_ENTSOE_Equipment_Core_VoltageLevel_VoltageLevel n_VoltageLevel (Some n_CIM14_ENTSOE_Equipment_Core_EquipmentContainer_EquipmentContainer)
    [(n_lowVoltageLimit, VFloat n_0_0); (n_highVoltageLimit, VFloat n_0_0); (n_BaseVoltage, VNone); (n_Substation, VNone)]
    [SAttr n_lowVoltageLimit; SAttr n_highVoltageLimit; SOne n_BaseVoltage; SOne n_Substation]
    true true
    [n_lowVoltageLimit; n_highVoltageLimit]
    [(n_lowVoltageLimit, VFloat n_0_0); (n_highVoltageLimit, VFloat n_0_0)]
    []
    [n_BaseVoltage; n_Substation]
    []
    [(n_BaseVoltage, POneMany n_VoltageLevel); (n_Substation, POneMany n_VoltageLevels)];
(* CIM14/ENTSOE/Equipment/Element.py:22-38 *)
  Cls n_CIM14_ENTSOE_Equipment_Element_Element n_Element None
    [(n_UUID, VStr n_)]
    [SAttr n_UUID]
    false true
    [n_UUID]
    [(n_UUID, VStr n_)]
    []
    []
    []
    [];
(* CIM14/ENTSOE/Equipment/Equivalents/EquivalentEquipment.py:23-59 *)
  Cls n_CIM14_ENTSOE_Equipment_Equivalents_EquivalentEquipment_EquivalentEquipment n_EquivalentEquipment (Some n_CIM14_ENTSOE_Equipment_Core_ConductingEquipment_ConductingEquipment)
    [(n_EquivalentNetwork, VNone)]
    [SOne n_EquivalentNetwork]
    true true
    []
    []
    []
    [n_EquivalentNetwork]
    []
    [(n_EquivalentNetwork, POneMany n_EquivalentEquipments)];
(* CIM14/ENTSOE/Equipment/Equivalents/EquivalentNetwork.py:23-64 *)
  Cls n_CIM14_ENTSOE_Equipment_Equivalents_EquivalentNetwork_EquivalentNetwork n_EquivalentNetwork (Some n_CIM14_ENTSOE_Equipment_Core_ConnectivityNodeContainer_ConnectivityNodeContainer)
    [(n_EquivalentEquipments, VNone)]
    [SMany n_EquivalentEquipments]
    true true
    []
    []
    []
    [n_EquivalentEquipments]
    [n_EquivalentEquipments]
    [(n_EquivalentEquipments, PManyOne n_EquivalentNetwork)];
(* CIM14/ENTSOE/Equipment/Generation/Production/FossilFuel.py:23-62 *)
  Cls n_CIM14_ENTSOE_Equipment_Generation_Production_FossilFuel_FossilFuel n_FossilFuel (Some n_CIM14_ENTSOE_Equipment_Core_IdentifiedObject_IdentifiedObject)
    [(n_fossilFuelType, VStr n_oil); (n_ThermalGeneratingUnit, VNone)]
    [SAttr n_fossilFuelType; SOne n_ThermalGeneratingUnit]
    true true
    [n_fossilFuelType]
    [(n_fossilFuelType, VStr n_oil)]
    [(n_fossilFuelType, n_FuelType)]
    [n_ThermalGeneratingUnit]
    []
    [(n_ThermalGeneratingUnit, POneOne n_FossilFuels)];
(* CIM14/ENTSOE/Equipment/Generation/Production/GeneratingUnit.py:23-150 *)
  Cls n_CIM14_ENTSOE_Equipment_Generation_Production_GeneratingUnit_GeneratingUnit n_GeneratingUnit (Some n_CIM14_ENTSOE_Equipment_Core_Equipment_Equipment)
    [(n_maxOperatingP, VFloat n_0_0); (n_ratedGrossMaxP, VFloat n_0_0); (n_variableCost, VFloat n_0_0); (n_minOperatingP, VFloat n_0_0); (n_ratedGrossMinP, VFloat n_0_0); (n_shortPF, VFloat n_0_0); (n_ratedNetMaxP, VFloat n_0_0); (n_longPF, VFloat n_0_0); (n_startupCost, VFloat n_0_0); (n_genControlSource, VStr n_onAGC); (n_nominalP, VFloat n_0_0); (n_governorSCD, VFloat n_0_0); (n_maximumAllowableSpinningReserve, VFloat n_0_0); (n_initialP, VFloat n_0_0); (n_normalPF, VFloat n_0_0); (n_SynchronousMachines, VNone); (n_ControlAreaGeneratingUnit, VNone)]
    [SAttr n_maxOperatingP; SAttr n_ratedGrossMaxP; SAttr n_variableCost; SAttr n_minOperatingP; SAttr n_ratedGrossMinP; SAttr n_shortPF; SAttr n_ratedNetMaxP; SAttr n_longPF; SAttr n_startupCost; SAttr n_genControlSource; SAttr n_nominalP; SAttr n_governorSCD; SAttr n_maximumAllowableSpinningReserve; SAttr n_initialP; SAttr n_normalPF; SMany n_SynchronousMachines; SMany n_ControlAreaGeneratingUnit]
    true true
    [n_maxOperatingP; n_ratedGrossMaxP; n_variableCost; n_minOperatingP; n_ratedGrossMinP; n_shortPF; n_ratedNetMaxP; n_longPF; n_startupCost; n_genControlSource; n_nominalP; n_governorSCD; n_maximumAllowableSpinningReserve; n_initialP; n_normalPF]
    [(n_maxOperatingP, VFloat n_0_0); (n_ratedGrossMaxP, VFloat n_0_0); (n_variableCost, VFloat n_0_0); (n_minOperatingP, VFloat n_0_0); (n_ratedGrossMinP, VFloat n_0_0); (n_shortPF, VFloat n_0_0); (n_ratedNetMaxP, VFloat n_0_0); (n_longPF, VFloat n_0_0); (n_startupCost, VFloat n_0_0); (n_genControlSource, VStr n_onAGC); (n_nominalP, VFloat n_0_0); (n_governorSCD, VFloat n_0_0); (n_maximumAllowableSpinningReserve, VFloat n_0_0); (n_initialP, VFloat n_0_0); (n_normalPF, VFloat n_0_0)]
    [(n_genControlSource, n_GeneratorControlSource)]
    [n_SynchronousMachines; n_ControlAreaGeneratingUnit]
    [n_SynchronousMachines; n_ControlAreaGeneratingUnit]
    [(n_SynchronousMachines, PManyOne n_GeneratingUnit); (n_ControlAreaGeneratingUnit, PManyOne n_GeneratingUnit)];
(* CIM14/ENTSOE/Equipment/Generation/Production/HydroGeneratingUnit.py:23-38 *)
  Cls n_CIM14_ENTSOE_Equipment_Generation_Production_HydroGeneratingUnit_HydroGeneratingUnit n_HydroGeneratingUnit (Some n_CIM14_ENTSOE_Equipment_Generation_Production_GeneratingUnit_GeneratingUnit)
    []
    []
    true true
    []
    []
    []
    []
    []
    [];
(* CIM14/ENTSOE/Equipment/Generation/Production/HydroPump.py:23-58 *)
  Cls n_CIM14_ENTSOE_Equipment_Generation_Production_HydroPump_HydroPump n_HydroPump (Some n_CIM14_ENTSOE_Equipment_Core_PowerSystemResource_PowerSystemResource)
    [(n_SynchronousMachine, VNone)]
    [SOne n_SynchronousMachine]
    true true
    []
    []
    []
    [n_SynchronousMachine]
    []
    [(n_SynchronousMachine, POneOne n_HydroPump)];
(* CIM14/ENTSOE/Equipment/Generation/Production/NuclearGeneratingUnit.py:23-38 *)
  Cls n_CIM14_ENTSOE_Equipment_Generation_Production_NuclearGeneratingUnit_NuclearGeneratingUnit n_NuclearGeneratingUnit (Some n_CIM14_ENTSOE_Equipment_Generation_Production_GeneratingUnit_GeneratingUnit)
    []
    []
    true true
    []
    []
    []
    []
    []
    [];
(* CIM14/ENTSOE/Equipment/Generation/Production/ThermalGeneratingUnit.py:23-58 *)
  Cls n_CIM14_ENTSOE_Equipment_Generation_Production_ThermalGeneratingUnit_ThermalGeneratingUnit n_ThermalGeneratingUnit (Some n_CIM14_ENTSOE_Equipment_Generation_Production_GeneratingUnit_GeneratingUnit)
    [(n_FossilFuels, VNone)]
    [SOne n_FossilFuels]
    true true
    []
    []
    []
    [n_FossilFuels]
    []
    [(n_FossilFuels, POneOne n_ThermalGeneratingUnit)];
(* CIM14/ENTSOE/Equipment/Generation/Production/WindGeneratingUnit.py:23-38 *)
  Cls n_CIM14_ENTSOE_Equipment_Generation_Production_WindGeneratingUnit_WindGeneratingUnit n_WindGeneratingUnit (Some n_CIM14_ENTSOE_Equipment_Generation_Production_GeneratingUnit_GeneratingUnit)
    []
    []
    true true
    []
    []
    []
    []
    []
    [];
(* CIM14/ENTSOE/Equipment/IEC61970CIMVersion.py:23-46 *)
  Cls n_CIM14_ENTSOE_Equipment_IEC61970CIMVersion_IEC61970CIMVersion n_IEC61970CIMVersion (Some n_CIM14_ENTSOE_Equipment_Element_Element)
    [(n_date, VStr n_); (n_version, VStr n_)]
    [SAttr n_date; SAttr n_version]
    true true
    [n_date; n_version]
    [(n_date, VStr n_); (n_version, VStr n_)]
    []
    []
    []
    [];
(* CIM14/ENTSOE/Equipment/LoadModel/ConformLoad.py:23-59 *)
  Cls n_CIM14_ENTSOE_Equipment_LoadModel_ConformLoad_ConformLoad n_ConformLoad (Some n_CIM14_ENTSOE_Equipment_Wires_EnergyConsumer_EnergyConsumer)
    [(n_LoadGroup, VNone)]
    [SOne n_LoadGroup]
    true true
    []
    []
    []
    [n_LoadGroup]
    []
    [(n_LoadGroup, POneMany n_EnergyConsumers)];
(* CIM14/ENTSOE/Equipment/LoadModel/ConformLoadGroup.py:23-64 *)
  Cls n_CIM14_ENTSOE_Equipment_LoadModel_ConformLoadGroup_ConformLoadGroup n_ConformLoadGroup (Some n_CIM14_ENTSOE_Equipment_LoadModel_LoadGroup_LoadGroup)
    [(n_EnergyConsumers, VNone)]
    [SMany n_EnergyConsumers]
    true true
    []
    []
    []
    [n_EnergyConsumers]
    [n_EnergyConsumers]
    [(n_EnergyConsumers, PManyOne n_LoadGroup)];
(* CIM14/ENTSOE/Equipment/LoadModel/DayType.py:23-64 *)
  Cls n_CIM14_ENTSOE_Equipment_LoadModel_DayType_DayType n_DayType (Some n_CIM14_ENTSOE_Equipment_Core_IdentifiedObject_IdentifiedObject)
    [(n_SeasonDayTypeSchedules, VNone)]
    [SMany n_SeasonDayTypeSchedules]
    true true
    []
    []
    []
    [n_SeasonDayTypeSchedules]
    [n_SeasonDayTypeSchedules]
    [(n_SeasonDayTypeSchedules, PManyOne n_DayType)];
(* CIM14/ENTSOE/Equipment/LoadModel/EnergyArea.py:23-58 *)
  Cls n_CIM14_ENTSOE_Equipment_LoadModel_EnergyArea_EnergyArea n_EnergyArea (Some n_CIM14_ENTSOE_Equipment_Core_IdentifiedObject_IdentifiedObject)
    [(n_ControlArea, VNone)]
    [SOne n_ControlArea]
    true true
    []
    []
    []
    [n_ControlArea]
    []
    [(n_ControlArea, POneOne n_EnergyArea)];
(* CIM14/ENTSOE/Equipment/LoadModel/LoadGroup.py:23-59 *)
  Cls n_CIM14_ENTSOE_Equipment_LoadModel_LoadGroup_LoadGroup n_LoadGroup (Some n_CIM14_ENTSOE_Equipment_Core_IdentifiedObject_IdentifiedObject)
    [(n_SubLoadArea, VNone)]
    [SOne n_SubLoadArea]
    true true
    []
    []
    []
    [n_SubLoadArea]
    []
    [(n_SubLoadArea, POneMany n_LoadGroups)];
(* CIM14/ENTSOE/Equipment/LoadModel/LoadResponseCharacteristic.py:23-108 *)
  Cls n_CIM14_ENTSOE_Equipment_LoadModel_LoadResponseCharacteristic_LoadResponseCharacteristic n_LoadResponseCharacteristic (Some n_CIM14_ENTSOE_Equipment_Core_IdentifiedObject_IdentifiedObject)
    [(n_pVoltageExponent, VFloat n_0_0); (n_qConstantCurrent, VFloat n_0_0); (n_pFrequencyExponent, VFloat n_0_0); (n_exponentModel, VBool false); (n_qConstantImpedance, VFloat n_0_0); (n_pConstantCurrent, VFloat n_0_0); (n_qFrequencyExponent, VFloat n_0_0); (n_pConstantPower, VFloat n_0_0); (n_qVoltageExponent, VFloat n_0_0); (n_qConstantPower, VFloat n_0_0); (n_pConstantImpedance, VFloat n_0_0); (n_EnergyConsumer, VNone)]
    [SAttr n_pVoltageExponent; SAttr n_qConstantCurrent; SAttr n_pFrequencyExponent; SAttr n_exponentModel; SAttr n_qConstantImpedance; SAttr n_pConstantCurrent; SAttr n_qFrequencyExponent; SAttr n_pConstantPower; SAttr n_qVoltageExponent; SAttr n_qConstantPower; SAttr n_pConstantImpedance; SMany n_EnergyConsumer]
    true true
    [n_pVoltageExponent; n_qConstantCurrent; n_pFrequencyExponent; n_exponentModel; n_qConstantImpedance; n_pConstantCurrent; n_qFrequencyExponent; n_pConstantPower; n_qVoltageExponent; n_qConstantPower; n_pConstantImpedance]
    [(n_pVoltageExponent, VFloat n_0_0); (n_qConstantCurrent, VFloat n_0_0); (n_pFrequencyExponent, VFloat n_0_0); (n_exponentModel, VBool false); (n_qConstantImpedance, VFloat n_0_0); (n_pConstantCurrent, VFloat n_0_0); (n_qFrequencyExponent, VFloat n_0_0); (n_pConstantPower, VFloat n_0_0); (n_qVoltageExponent, VFloat n_0_0); (n_qConstantPower, VFloat n_0_0); (n_pConstantImpedance, VFloat n_0_0)]
    []
    [n_EnergyConsumer]
    [n_EnergyConsumer]
    [(n_EnergyConsumer, PManyOne n_LoadResponse)];
(* CIM14/ENTSOE/Equipment/LoadModel/NonConformLoad.py:23-59 *)
  Cls n_CIM14_ENTSOE_Equipment_LoadModel_NonConformLoad_NonConformLoad n_NonConformLoad (Some n_CIM14_ENTSOE_Equipment_Wires_EnergyConsumer_EnergyConsumer)
    [(n_LoadGroup, VNone)]
    [SOne n_LoadGroup]
    true true
    []
    []
    []
    [n_LoadGroup]
    []
    [(n_LoadGroup, POneMany n_EnergyConsumers)];
(* CIM14/ENTSOE/Equipment/LoadModel/NonConformLoadGroup.py:23-64 *)
  Cls n_CIM14_ENTSOE_Equipment_LoadModel_NonConformLoadGroup_NonConformLoadGroup n_NonConformLoadGroup (Some n_CIM14_ENTSOE_Equipment_LoadModel_LoadGroup_LoadGroup)
    [(n_EnergyConsumers, VNone)]
    [SMany n_EnergyConsumers]
    true true
    []
    []
    []
    [n_EnergyConsumers]
    [n_EnergyConsumers]
    [(n_EnergyConsumers, PManyOne n_LoadGroup)];
(* CIM14/ENTSOE/Equipment/LoadModel/Season.py:23-64 *)
  Cls n_CIM14_ENTSOE_Equipment_LoadModel_Season_Season n_Season (Some n_CIM14_ENTSOE_Equipment_Element_Element)
    [(n_SeasonDayTypeSchedules, VNone)]
    [SMany n_SeasonDayTypeSchedules]
    true true
    []
    []
    []
    [n_SeasonDayTypeSchedules]
    [n_SeasonDayTypeSchedules]
    [(n_SeasonDayTypeSchedules, PManyOne n_Season)];
(* CIM14/ENTSOE/Equipment/LoadModel/SeasonDayTypeSchedule.py:23-80 *)
  Cls n_CIM14_ENTSOE_Equipment_LoadModel_SeasonDayTypeSchedule_SeasonDayTypeSchedule n_SeasonDayTypeSchedule (Some n_CIM14_ENTSOE_Equipment_Core_RegularIntervalSchedule_RegularIntervalSchedule)
    [(n_DayType, VNone); (n_Season, VNone)]
    [SOne n_DayType; SOne n_Season]
    true true
    []
    []
    []
    [n_DayType; n_Season]
    []
    [(n_DayType, POneMany n_SeasonDayTypeSchedules); (n_Season, POneMany n_SeasonDayTypeSchedules)];
(* CIM14/ENTSOE/Equipment/LoadModel/SubLoadArea.py:23-64 *)
  Cls n_CIM14_ENTSOE_Equipment_LoadModel_SubLoadArea_SubLoadArea n_SubLoadArea (Some n_CIM14_ENTSOE_Equipment_LoadModel_EnergyArea_EnergyArea)
    [(n_LoadGroups, VNone)]
    [SMany n_LoadGroups]
    true true
    []
    []
    []
    [n_LoadGroups]
    [n_LoadGroups]
    [(n_LoadGroups, PManyOne n_SubLoadArea)];
(* CIM14/ENTSOE/Equipment/Meas/Measurement.py:23-105 *)
  Cls n_CIM14_ENTSOE_Equipment_Meas_Measurement_Measurement n_Measurement (Some n_CIM14_ENTSOE_Equipment_Core_IdentifiedObject_IdentifiedObject)
    [(n_measurementType, VStr n_); (n_Unit, VNone); (n_Terminal, VNone); (n_PowerSystemResource, VNone)]
    [SAttr n_measurementType; SOne n_Unit; SOne n_Terminal; SOne n_PowerSystemResource]
    true true
    [n_measurementType]
    [(n_measurementType, VStr n_)]
    []
    [n_Unit; n_Terminal; n_PowerSystemResource]
    []
    [(n_Unit, POneMany n_Measurements); (n_Terminal, POneMany n_Measurements); (n_PowerSystemResource, POneMany n_Measurements)];
(* CIM14/ENTSOE/Equipment/Meas/MeasurementValue.py:23-59 *)
  Cls n_CIM14_ENTSOE_Equipment_Meas_MeasurementValue_MeasurementValue n_MeasurementValue (Some n_CIM14_ENTSOE_Equipment_Core_IdentifiedObject_IdentifiedObject)
    [(n_MeasurementValueSource, VNone)]
    [SOne n_MeasurementValueSource]
    true true
    []
    []
    []
    [n_MeasurementValueSource]
    []
    [(n_MeasurementValueSource, POneMany n_MeasurementValues)];
(* CIM14/ENTSOE/Equipment/Meas/MeasurementValueSource.py:23-64 *)
  Cls n_CIM14_ENTSOE_Equipment_Meas_MeasurementValueSource_MeasurementValueSource n_MeasurementValueSource (Some n_CIM14_ENTSOE_Equipment_Core_IdentifiedObject_IdentifiedObject)
    [(n_MeasurementValues, VNone)]
    [SMany n_MeasurementValues]
    true true
    []
    []
    []
    [n_MeasurementValues]
    [n_MeasurementValues]
    [(n_MeasurementValues, PManyOne n_MeasurementValueSource)];
(* CIM14/ENTSOE/Equipment/OperationalLimit.py:23-36 *)
  Cls n_CIM14_ENTSOE_Equipment_OperationalLimit_OperationalLimit n_OperationalLimit (Some n_CIM14_ENTSOE_Equipment_OperationalLimits_OperationalLimit_OperationalLimit)
    []
    []
    true true
    []
    []
    []
    []
    []
    [];
(* CIM14/ENTSOE/Equipment/OperationalLimits/CurrentLimit.py:23-42 *)
  Cls n_CIM14_ENTSOE_Equipment_OperationalLimits_CurrentLimit_CurrentLimit n_CurrentLimit (Some n_CIM14_ENTSOE_Equipment_OperationalLimits_OperationalLimit_OperationalLimit)
    [(n_value, VFloat n_0_0)]
    [SAttr n_value]
    true true
    [n_value]
    [(n_value, VFloat n_0_0)]
    []
    []
    []
    [];
(* CIM14/ENTSOE/Equipment/OperationalLimits/OperationalLimit.py:23-84 *)
  Cls n_CIM14_ENTSOE_Equipment_OperationalLimits_OperationalLimit_OperationalLimit n_OperationalLimit (Some n_CIM14_ENTSOE_Equipment_Core_IdentifiedObject_IdentifiedObject)
    [(n_type, VStr n_); (n_OperationalLimitType, VNone); (n_OperationalLimitSet, VNone)]
    [SAttr n_type; SOne n_OperationalLimitType; SOne n_OperationalLimitSet]
    true true
    [n_type]
    [(n_type, VStr n_)]
    []
    [n_OperationalLimitType; n_OperationalLimitSet]
    []
    [(n_OperationalLimitType, POneMany n_OperationalLimit); (n_OperationalLimitSet, POneMany n_OperationalLimitValue)];
(* CIM14/ENTSOE/Equipment/OperationalLimits/OperationalLimitSet.py:23-106 *)
  Cls n_CIM14_ENTSOE_Equipment_OperationalLimits_OperationalLimitSet_OperationalLimitSet n_OperationalLimitSet (Some n_CIM14_ENTSOE_Equipment_Core_IdentifiedObject_IdentifiedObject)
    [(n_Terminal, VNone); (n_Equipment, VNone); (n_OperationalLimitValue, VNone)]
    [SOne n_Terminal; SOne n_Equipment; SMany n_OperationalLimitValue]
    true true
    []
    []
    []
    [n_Terminal; n_Equipment; n_OperationalLimitValue]
    [n_OperationalLimitValue]
    [(n_Terminal, POneMany n_OperationalLimitSet); (n_Equipment, POneMany n_OperationalLimitSet); (n_OperationalLimitValue, PManyOne n_OperationalLimitSet)];
(* CIM14/ENTSOE/Equipment/OperationalLimits/OperationalLimitType.py:23-72 *)
  Cls n_CIM14_ENTSOE_Equipment_OperationalLimits_OperationalLimitType_OperationalLimitType n_OperationalLimitType (Some n_CIM14_ENTSOE_Equipment_Core_IdentifiedObject_IdentifiedObject)
    [(n_direction, VStr n_high); (n_acceptableDuration, VFloat n_0_0); (n_OperationalLimit, VNone)]
    [SAttr n_direction; SAttr n_acceptableDuration; SMany n_OperationalLimit]
    true true
    [n_direction; n_acceptableDuration]
    [(n_direction, VStr n_high); (n_acceptableDuration, VFloat n_0_0)]
    [(n_direction, n_OperationalLimitDirectionKind)]
    [n_OperationalLimit]
    [n_OperationalLimit]
    [(n_OperationalLimit, PManyOne n_OperationalLimitType)];
(* CIM14/ENTSOE/Equipment/OperationalLimits/VoltageLimit.py:23-42 *)
  Cls n_CIM14_ENTSOE_Equipment_OperationalLimits_VoltageLimit_VoltageLimit n_VoltageLimit (Some n_CIM14_ENTSOE_Equipment_OperationalLimits_OperationalLimit_OperationalLimit)
    [(n_value, VFloat n_0_0)]
    [SAttr n_value]
    true true
    [n_value]
    [(n_value, VFloat n_0_0)]
    []
    []
    []
    [];
(* CIM14/ENTSOE/Equipment/Wires/ACLineSegment.py:23-70 *)
  Cls n_CIM14_ENTSOE_Equipment_Wires_ACLineSegment_ACLineSegment n_ACLineSegment (Some n_CIM14_ENTSOE_Equipment_Wires_Conductor_Conductor)
    [(n_g0ch, VFloat n_0_0); (n_r, VFloat n_0_0); (n_x0, VFloat n_0_0); (n_bch, VFloat n_0_0); (n_x, VFloat n_0_0); (n_b0ch, VFloat n_0_0); (n_gch, VFloat n_0_0); (n_r0, VFloat n_0_0)]
    [SAttr n_g0ch; SAttr n_r; SAttr n_x0; SAttr n_bch; SAttr n_x; SAttr n_b0ch; SAttr n_gch; SAttr n_r0]
    true true
    [n_g0ch; n_r; n_x0; n_bch; n_x; n_b0ch; n_gch; n_r0]
    [(n_g0ch, VFloat n_0_0); (n_r, VFloat n_0_0); (n_x0, VFloat n_0_0); (n_bch, VFloat n_0_0); (n_x, VFloat n_0_0); (n_b0ch, VFloat n_0_0); (n_gch, VFloat n_0_0); (n_r0, VFloat n_0_0)]
    []
    []
    []
    [];
(* CIM14/ENTSOE/Equipment/Wires/Breaker.py:23-42 *)
  Cls n_CIM14_ENTSOE_Equipment_Wires_Breaker_Breaker n_Breaker (Some n_CIM14_ENTSOE_Equipment_Wires_Switch_Switch)
    [(n_ratedCurrent, VFloat n_0_0)]
    [SAttr n_ratedCurrent]
    true true
    [n_ratedCurrent]
    [(n_ratedCurrent, VFloat n_0_0)]
    []
    []
    []
    [];
(* CIM14/ENTSOE/Equipment/Wires/BusbarSection.py:23-38 *)
  Cls n_CIM14_ENTSOE_Equipment_Wires_BusbarSection_BusbarSection n_BusbarSection (Some n_CIM14_ENTSOE_Equipment_Core_ConductingEquipment_ConductingEquipment)
    []
    []
    true true
    []
    []
    []
    []
    []
    [];
(* CIM14/ENTSOE/Equipment/Wires/Conductor.py:23-42 *)
  Cls n_CIM14_ENTSOE_Equipment_Wires_Conductor_Conductor n_Conductor (Some n_CIM14_ENTSOE_Equipment_Core_ConductingEquipment_ConductingEquipment)
    [(n_length, VFloat n_0_0)]
    [SAttr n_length]
    true true
    [n_length]
    [(n_length, VFloat n_0_0)]
    []
    []
    []
    [];
(* CIM14/ENTSOE/Equipment/Wires/Disconnector.py:23-38 *)
  Cls n_CIM14_ENTSOE_Equipment_Wires_Disconnector_Disconnector n_Disconnector (Some n_CIM14_ENTSOE_Equipment_Wires_Switch_Switch)
    []
    []
    true true
    []
    []
    []
    []
    []
    [];
(* CIM14/ENTSOE/Equipment/Wires/EnergyConsumer.py:23-75 *)
  Cls n_CIM14_ENTSOE_Equipment_Wires_EnergyConsumer_EnergyConsumer n_EnergyConsumer (Some n_CIM14_ENTSOE_Equipment_Core_ConductingEquipment_ConductingEquipment)
    [(n_pfixed, VFloat n_0_0); (n_pfixedPct, VFloat n_0_0); (n_qfixedPct, VFloat n_0_0); (n_qfixed, VFloat n_0_0); (n_LoadResponse, VNone)]
    [SAttr n_pfixed; SAttr n_pfixedPct; SAttr n_qfixedPct; SAttr n_qfixed; SOne n_LoadResponse]
    true true
    [n_pfixed; n_pfixedPct; n_qfixedPct; n_qfixed]
    [(n_pfixed, VFloat n_0_0); (n_pfixedPct, VFloat n_0_0); (n_qfixedPct, VFloat n_0_0); (n_qfixed, VFloat n_0_0)]
    []
    [n_LoadResponse]
    []
    [(n_LoadResponse, POneMany n_EnergyConsumer)];
(* CIM14/ENTSOE/Equipment/Wires/Line.py:23-59 *)
  Cls n_CIM14_ENTSOE_Equipment_Wires_Line_Line n_Line (Some n_CIM14_ENTSOE_Equipment_Core_EquipmentContainer_EquipmentContainer)
    [(n_Region, VNone)]
    [SOne n_Region]
    true true
    []
    []
    []
    [n_Region]
    []
    [(n_Region, POneMany n_Lines)];
(* CIM14/ENTSOE/Equipment/Wires/LoadBreakSwitch.py:23-42 *)
  Cls n_CIM14_ENTSOE_Equipment_Wires_LoadBreakSwitch_LoadBreakSwitch n_LoadBreakSwitch (Some n_CIM14_ENTSOE_Equipment_Wires_Switch_Switch)
    [(n_ratedCurrent, VFloat n_0_0)]
    [SAttr n_ratedCurrent]
    true true
    [n_ratedCurrent]
    [(n_ratedCurrent, VFloat n_0_0)]
    []
    []
    []
    [];
(* CIM14/ENTSOE/Equipment/Wires/MutualCoupling.py:23-112 *)
  Cls n_CIM14_ENTSOE_Equipment_Wires_MutualCoupling_MutualCoupling n_MutualCoupling (Some n_CIM14_ENTSOE_Equipment_Core_IdentifiedObject_IdentifiedObject)
    [(n_g0ch, VFloat n_0_0); (n_r0, VFloat n_0_0); (n_x0, VFloat n_0_0); (n_distance11, VFloat n_0_0); (n_distance12, VFloat n_0_0); (n_distance22, VFloat n_0_0); (n_distance21, VFloat n_0_0); (n_b0ch, VFloat n_0_0); (n_Second_Terminal, VNone); (n_First_Terminal, VNone)]
    [SAttr n_g0ch; SAttr n_r0; SAttr n_x0; SAttr n_distance11; SAttr n_distance12; SAttr n_distance22; SAttr n_distance21; SAttr n_b0ch; SOne n_Second_Terminal; SOne n_First_Terminal]
    true true
    [n_g0ch; n_r0; n_x0; n_distance11; n_distance12; n_distance22; n_distance21; n_b0ch]
    [(n_g0ch, VFloat n_0_0); (n_r0, VFloat n_0_0); (n_x0, VFloat n_0_0); (n_distance11, VFloat n_0_0); (n_distance12, VFloat n_0_0); (n_distance22, VFloat n_0_0); (n_distance21, VFloat n_0_0); (n_b0ch, VFloat n_0_0)]
    []
    [n_Second_Terminal; n_First_Terminal]
    []
    [(n_Second_Terminal, POneMany n_HasSecond_MutualCoupling); (n_First_Terminal, POneMany n_HasFirst_MutualCoupling)];
(* CIM14/ENTSOE/Equipment/Wires/PhaseTapChanger.py:23-86 *)
  Cls n_CIM14_ENTSOE_Equipment_Wires_PhaseTapChanger_PhaseTapChanger n_PhaseTapChanger (Some n_CIM14_ENTSOE_Equipment_Wires_TapChanger_TapChanger)
    [(n_nominalVoltageOutOfPhase, VFloat n_0_0); (n_windingConnectionAngle, VFloat n_0_0); (n_phaseTapChangerType, VStr n_asymmetrical); (n_xStepMin, VFloat n_0_0); (n_xStepMax, VFloat n_0_0); (n_stepPhaseShiftIncrement, VFloat n_0_0); (n_voltageStepIncrementOutOfPhase, VFloat n_0_0); (n_TransformerWinding, VNone)]
    [SAttr n_nominalVoltageOutOfPhase; SAttr n_windingConnectionAngle; SAttr n_phaseTapChangerType; SAttr n_xStepMin; SAttr n_xStepMax; SAttr n_stepPhaseShiftIncrement; SAttr n_voltageStepIncrementOutOfPhase; SOne n_TransformerWinding]
    true true
    [n_nominalVoltageOutOfPhase; n_windingConnectionAngle; n_phaseTapChangerType; n_xStepMin; n_xStepMax; n_stepPhaseShiftIncrement; n_voltageStepIncrementOutOfPhase]
    [(n_nominalVoltageOutOfPhase, VFloat n_0_0); (n_windingConnectionAngle, VFloat n_0_0); (n_phaseTapChangerType, VStr n_asymmetrical); (n_xStepMin, VFloat n_0_0); (n_xStepMax, VFloat n_0_0); (n_stepPhaseShiftIncrement, VFloat n_0_0); (n_voltageStepIncrementOutOfPhase, VFloat n_0_0)]
    [(n_phaseTapChangerType, n_PhaseTapChangerKind)]
    [n_TransformerWinding]
    []
    [(n_TransformerWinding, POneOne n_PhaseTapChanger)];
(* CIM14/ENTSOE/Equipment/Wires/PowerTransformer.py:23-64 *)
  Cls n_CIM14_ENTSOE_Equipment_Wires_PowerTransformer_PowerTransformer n_PowerTransformer (Some n_CIM14_ENTSOE_Equipment_Core_Equipment_Equipment)
    [(n_TransformerWindings, VNone)]
    [SMany n_TransformerWindings]
    true true
    []
    []
    []
    [n_TransformerWindings]
    [n_TransformerWindings]
    [(n_TransformerWindings, PManyOne n_PowerTransformer)];
(* CIM14/ENTSOE/Equipment/Wires/RatioTapChanger.py:23-62 *)
  Cls n_CIM14_ENTSOE_Equipment_Wires_RatioTapChanger_RatioTapChanger n_RatioTapChanger (Some n_CIM14_ENTSOE_Equipment_Wires_TapChanger_TapChanger)
    [(n_tculControlMode, VStr n_reactive); (n_TransformerWinding, VNone)]
    [SAttr n_tculControlMode; SOne n_TransformerWinding]
    true true
    [n_tculControlMode]
    [(n_tculControlMode, VStr n_reactive)]
    [(n_tculControlMode, n_TransformerControlMode)]
    [n_TransformerWinding]
    []
    [(n_TransformerWinding, POneOne n_RatioTapChanger)];
(* CIM14/ENTSOE/Equipment/Wires/ReactiveCapabilityCurve.py:23-68 *)
  Cls n_CIM14_ENTSOE_Equipment_Wires_ReactiveCapabilityCurve_ReactiveCapabilityCurve n_ReactiveCapabilityCurve (Some n_CIM14_ENTSOE_Equipment_Core_Curve_Curve)
    [(n_y2Unit, VStr n_A); (n_InitiallyUsedBySynchronousMachines, VNone)]
    [SAttr n_y2Unit; SMany n_InitiallyUsedBySynchronousMachines]
    true true
    [n_y2Unit]
    [(n_y2Unit, VStr n_A)]
    [(n_y2Unit, n_UnitSymbol)]
    [n_InitiallyUsedBySynchronousMachines]
    [n_InitiallyUsedBySynchronousMachines]
    [(n_InitiallyUsedBySynchronousMachines, PManyOne n_InitialReactiveCapabilityCurve)];
(* CIM14/ENTSOE/Equipment/Wires/RegulatingCondEq.py:23-59 *)
  Cls n_CIM14_ENTSOE_Equipment_Wires_RegulatingCondEq_RegulatingCondEq n_RegulatingCondEq (Some n_CIM14_ENTSOE_Equipment_Core_ConductingEquipment_ConductingEquipment)
    [(n_RegulatingControl, VNone)]
    [SOne n_RegulatingControl]
    true true
    []
    []
    []
    [n_RegulatingControl]
    []
    [(n_RegulatingControl, POneMany n_RegulatingCondEq)];
(* CIM14/ENTSOE/Equipment/Wires/RegulatingControl.py:23-127 *)
  Cls n_CIM14_ENTSOE_Equipment_Wires_RegulatingControl_RegulatingControl n_RegulatingControl (Some n_CIM14_ENTSOE_Equipment_Core_PowerSystemResource_PowerSystemResource)
    [(n_targetRange, VFloat n_0_0); (n_mode, VStr n_reactivePower); (n_discrete, VBool false); (n_targetValue, VFloat n_0_0); (n_Terminal, VNone); (n_RegulatingCondEq, VNone); (n_TapChanger, VNone)]
    [SAttr n_targetRange; SAttr n_mode; SAttr n_discrete; SAttr n_targetValue; SOne n_Terminal; SMany n_RegulatingCondEq; SMany n_TapChanger]
    true true
    [n_targetRange; n_mode; n_discrete; n_targetValue]
    [(n_targetRange, VFloat n_0_0); (n_mode, VStr n_reactivePower); (n_discrete, VBool false); (n_targetValue, VFloat n_0_0)]
    [(n_mode, n_RegulatingControlModeKind)]
    [n_Terminal; n_RegulatingCondEq; n_TapChanger]
    [n_RegulatingCondEq; n_TapChanger]
    [(n_Terminal, POneMany n_RegulatingControl); (n_RegulatingCondEq, PManyOne n_RegulatingControl); (n_TapChanger, PManyOne n_RegulatingControl)];
(* CIM14/ENTSOE/Equipment/Wires/SeriesCompensator.py:23-46 *)
  Cls n_CIM14_ENTSOE_Equipment_Wires_SeriesCompensator_SeriesCompensator n_SeriesCompensator (Some n_CIM14_ENTSOE_Equipment_Core_ConductingEquipment_ConductingEquipment)
    [(n_r, VFloat n_0_0); (n_x, VFloat n_0_0)]
    [SAttr n_r; SAttr n_x]
    true true
    [n_r; n_x]
    [(n_r, VFloat n_0_0); (n_x, VFloat n_0_0)]
    []
    []
    []
    [];
(* CIM14/ENTSOE/Equipment/Wires/ShuntCompensator.py:23-66 *)
  Cls n_CIM14_ENTSOE_Equipment_Wires_ShuntCompensator_ShuntCompensator n_ShuntCompensator (Some n_CIM14_ENTSOE_Equipment_Wires_RegulatingCondEq_RegulatingCondEq)
    [(n_g0PerSection, VFloat n_0_0); (n_bPerSection, VFloat n_0_0); (n_nomU, VFloat n_0_0); (n_gPerSection, VFloat n_0_0); (n_normalSections, VInt 0); (n_b0PerSection, VFloat n_0_0); (n_maximumSections, VInt 0)]
    [SAttr n_g0PerSection; SAttr n_bPerSection; SAttr n_nomU; SAttr n_gPerSection; SAttr n_normalSections; SAttr n_b0PerSection; SAttr n_maximumSections]
    true true
    [n_g0PerSection; n_bPerSection; n_nomU; n_gPerSection; n_normalSections; n_b0PerSection; n_maximumSections]
    [(n_g0PerSection, VFloat n_0_0); (n_bPerSection, VFloat n_0_0); (n_nomU, VFloat n_0_0); (n_gPerSection, VFloat n_0_0); (n_normalSections, VInt 0); (n_b0PerSection, VFloat n_0_0); (n_maximumSections, VInt 0)]
    []
    []
    []
    [];
(* CIM14/ENTSOE/Equipment/Wires/StaticVarCompensator.py:23-58 *)
  Cls n_CIM14_ENTSOE_Equipment_Wires_StaticVarCompensator_StaticVarCompensator n_StaticVarCompensator (Some n_CIM14_ENTSOE_Equipment_Wires_RegulatingCondEq_RegulatingCondEq)
    [(n_voltageSetPoint, VFloat n_0_0); (n_capacitiveRating, VFloat n_0_0); (n_slope, VFloat n_0_0); (n_inductiveRating, VFloat n_0_0); (n_sVCControlMode, VStr n_voltage)]
    [SAttr n_voltageSetPoint; SAttr n_capacitiveRating; SAttr n_slope; SAttr n_inductiveRating; SAttr n_sVCControlMode]
    true true
    [n_voltageSetPoint; n_capacitiveRating; n_slope; n_inductiveRating; n_sVCControlMode]
    [(n_voltageSetPoint, VFloat n_0_0); (n_capacitiveRating, VFloat n_0_0); (n_slope, VFloat n_0_0); (n_inductiveRating, VFloat n_0_0); (n_sVCControlMode, VStr n_voltage)]
    [(n_sVCControlMode, n_SVCControlMode)]
    []
    []
    [];
(* CIM14/ENTSOE/Equipment/Wires/Switch.py:23-42 *)
  Cls n_CIM14_ENTSOE_Equipment_Wires_Switch_Switch n_Switch (Some n_CIM14_ENTSOE_Equipment_Core_ConductingEquipment_ConductingEquipment)
    [(n_normalOpen, VBool false)]
    [SAttr n_normalOpen]
    true true
    [n_normalOpen]
    [(n_normalOpen, VBool false)]
    []
    []
    []
    [];
(* CIM14/ENTSOE/Equipment/Wires/SynchronousMachine.py:23-152 *)
  Cls n_CIM14_ENTSOE_Equipment_Wires_SynchronousMachine_SynchronousMachine n_SynchronousMachine (Some n_CIM14_ENTSOE_Equipment_Wires_RegulatingCondEq_RegulatingCondEq)
    [(n_x0, VFloat n_0_0); (n_qPercent, VFloat n_0_0); (n_x2, VFloat n_0_0); (n_r, VFloat n_0_0); (n_referencePriority, VInt 0); (n_operatingMode, VStr n_condenser); (n_r0, VFloat n_0_0); (n_type, VStr n_condenser); (n_r2, VFloat n_0_0); (n_maxQ, VFloat n_0_0); (n_x, VFloat n_0_0); (n_ratedS, VFloat n_0_0); (n_minQ, VFloat n_0_0); (n_InitialReactiveCapabilityCurve, VNone); (n_HydroPump, VNone); (n_GeneratingUnit, VNone)]
    [SAttr n_x0; SAttr n_qPercent; SAttr n_x2; SAttr n_r; SAttr n_referencePriority; SAttr n_operatingMode; SAttr n_r0; SAttr n_type; SAttr n_r2; SAttr n_maxQ; SAttr n_x; SAttr n_ratedS; SAttr n_minQ; SOne n_InitialReactiveCapabilityCurve; SOne n_HydroPump; SOne n_GeneratingUnit]
    true true
    [n_x0; n_qPercent; n_x2; n_r; n_referencePriority; n_operatingMode; n_r0; n_type; n_r2; n_maxQ; n_x; n_ratedS; n_minQ]
    [(n_x0, VFloat n_0_0); (n_qPercent, VFloat n_0_0); (n_x2, VFloat n_0_0); (n_r, VFloat n_0_0); (n_referencePriority, VInt 0); (n_operatingMode, VStr n_condenser); (n_r0, VFloat n_0_0); (n_type, VStr n_condenser); (n_r2, VFloat n_0_0); (n_maxQ, VFloat n_0_0); (n_x, VFloat n_0_0); (n_ratedS, VFloat n_0_0); (n_minQ, VFloat n_0_0)]
    [(n_operatingMode, n_SynchronousMachineOperatingMode); (n_type, n_SynchronousMachineType)]
    [n_InitialReactiveCapabilityCurve; n_HydroPump; n_GeneratingUnit]
    []
    [(n_InitialReactiveCapabilityCurve, POneMany n_InitiallyUsedBySynchronousMachines); (n_HydroPump, POneOne n_SynchronousMachine); (n_GeneratingUnit, POneMany n_SynchronousMachines)];
(* CIM14/ENTSOE/Equipment/Wires/TapChanger.py:23-90 *)
  Cls n_CIM14_ENTSOE_Equipment_Wires_TapChanger_TapChanger n_TapChanger (Some n_CIM14_ENTSOE_Equipment_Core_PowerSystemResource_PowerSystemResource)
    [(n_stepVoltageIncrement, VFloat n_0_0); (n_neutralStep, VInt 0); (n_normalStep, VInt 0); (n_ltcFlag, VBool false); (n_neutralU, VFloat n_0_0); (n_lowStep, VInt 0); (n_regulationStatus, VBool false); (n_highStep, VInt 0); (n_RegulatingControl, VNone)]
    [SAttr n_stepVoltageIncrement; SAttr n_neutralStep; SAttr n_normalStep; SAttr n_ltcFlag; SAttr n_neutralU; SAttr n_lowStep; SAttr n_regulationStatus; SAttr n_highStep; SOne n_RegulatingControl]
    true true
    [n_stepVoltageIncrement; n_neutralStep; n_normalStep; n_ltcFlag; n_neutralU; n_lowStep; n_regulationStatus; n_highStep]
    [(n_stepVoltageIncrement, VFloat n_0_0); (n_neutralStep, VInt 0); (n_normalStep, VInt 0); (n_ltcFlag, VBool false); (n_neutralU, VFloat n_0_0); (n_lowStep, VInt 0); (n_regulationStatus, VBool false); (n_highStep, VInt 0)]
    []
    [n_RegulatingControl]
    []
    [(n_RegulatingControl, POneMany n_TapChanger)];
(* CIM14/ENTSOE/Equipment/Wires/TransformerWinding.py:23-151 *)
  Cls n_CIM14_ENTSOE_Equipment_Wires_TransformerWinding_TransformerWinding n_TransformerWinding (Some n_CIM14_ENTSOE_Equipment_Core_ConductingEquipment_ConductingEquipment)
    [(n_x, VFloat n_0_0); (n_x0, VFloat n_0_0); (n_b0, VFloat n_0_0); (n_g0, VFloat n_0_0); (n_rground, VFloat n_0_0); (n_b, VFloat n_0_0); (n_connectionType, VStr n_I); (n_ratedS, VFloat n_0_0); (n_r, VFloat n_0_0); (n_r0, VFloat n_0_0); (n_ratedU, VFloat n_0_0); (n_xground, VFloat n_0_0); (n_windingType, VStr n_tertiary); (n_RatioTapChanger, VNone); (n_PhaseTapChanger, VNone); (n_PowerTransformer, VNone)]
    [SAttr n_x; SAttr n_x0; SAttr n_b0; SAttr n_g0; SAttr n_rground; SAttr n_b; SAttr n_connectionType; SAttr n_ratedS; SAttr n_r; SAttr n_r0; SAttr n_ratedU; SAttr n_xground; SAttr n_windingType; SOne n_RatioTapChanger; SOne n_PhaseTapChanger; SOne n_PowerTransformer]
    true true
    [n_x; n_x0; n_b0; n_g0; n_rground; n_b; n_connectionType; n_ratedS; n_r; n_r0; n_ratedU; n_xground; n_windingType]
    [(n_x, VFloat n_0_0); (n_x0, VFloat n_0_0); (n_b0, VFloat n_0_0); (n_g0, VFloat n_0_0); (n_rground, VFloat n_0_0); (n_b, VFloat n_0_0); (n_connectionType, VStr n_I); (n_ratedS, VFloat n_0_0); (n_r, VFloat n_0_0); (n_r0, VFloat n_0_0); (n_ratedU, VFloat n_0_0); (n_xground, VFloat n_0_0); (n_windingType, VStr n_tertiary)]
    [(n_connectionType, n_WindingConnection); (n_windingType, n_WindingType)]
    [n_RatioTapChanger; n_PhaseTapChanger; n_PowerTransformer]
    []
    [(n_RatioTapChanger, POneOne n_TransformerWinding); (n_PhaseTapChanger, POneOne n_TransformerWinding); (n_PowerTransformer, POneMany n_TransformerWindings)]
].

(** packageMap, CIM14/ENTSOE/Equipment/__init__.py:31-106: tag to the class that the package exports under that name. *)
Definition cim14_entsoe_equipment_map : list (name * name) := [
  (n_Element, n_CIM14_ENTSOE_Equipment_Element_Element);
  (n_OperationalLimit, n_CIM14_ENTSOE_Equipment_OperationalLimits_OperationalLimit_OperationalLimit);
  (n_IEC61970CIMVersion, n_CIM14_ENTSOE_Equipment_IEC61970CIMVersion_IEC61970CIMVersion);
  (n_ControlArea, n_CIM14_ENTSOE_Equipment_ControlArea_ControlArea_ControlArea);
  (n_ControlAreaGeneratingUnit, n_CIM14_ENTSOE_Equipment_ControlArea_ControlAreaGeneratingUnit_ControlAreaGeneratingUnit);
  (n_TieFlow, n_CIM14_ENTSOE_Equipment_ControlArea_TieFlow_TieFlow);
  (n_BusbarSection, n_CIM14_ENTSOE_Equipment_Wires_BusbarSection_BusbarSection);
  (n_LoadBreakSwitch, n_CIM14_ENTSOE_Equipment_Wires_LoadBreakSwitch_LoadBreakSwitch);
  (n_TapChanger, n_CIM14_ENTSOE_Equipment_Wires_TapChanger_TapChanger);
  (n_TransformerWinding, n_CIM14_ENTSOE_Equipment_Wires_TransformerWinding_TransformerWinding);
  (n_RegulatingControl, n_CIM14_ENTSOE_Equipment_Wires_RegulatingControl_RegulatingControl);
  (n_ReactiveCapabilityCurve, n_CIM14_ENTSOE_Equipment_Wires_ReactiveCapabilityCurve_ReactiveCapabilityCurve);
  (n_ACLineSegment, n_CIM14_ENTSOE_Equipment_Wires_ACLineSegment_ACLineSegment);
  (n_Disconnector, n_CIM14_ENTSOE_Equipment_Wires_Disconnector_Disconnector);
  (n_PhaseTapChanger, n_CIM14_ENTSOE_Equipment_Wires_PhaseTapChanger_PhaseTapChanger);
  (n_SeriesCompensator, n_CIM14_ENTSOE_Equipment_Wires_SeriesCompensator_SeriesCompensator);
  (n_MutualCoupling, n_CIM14_ENTSOE_Equipment_Wires_MutualCoupling_MutualCoupling);
  (n_SynchronousMachine, n_CIM14_ENTSOE_Equipment_Wires_SynchronousMachine_SynchronousMachine);
  (n_RatioTapChanger, n_CIM14_ENTSOE_Equipment_Wires_RatioTapChanger_RatioTapChanger);
  (n_PowerTransformer, n_CIM14_ENTSOE_Equipment_Wires_PowerTransformer_PowerTransformer);
  (n_EnergyConsumer, n_CIM14_ENTSOE_Equipment_Wires_EnergyConsumer_EnergyConsumer);
  (n_Switch, n_CIM14_ENTSOE_Equipment_Wires_Switch_Switch);
  (n_RegulatingCondEq, n_CIM14_ENTSOE_Equipment_Wires_RegulatingCondEq_RegulatingCondEq);
  (n_Line, n_CIM14_ENTSOE_Equipment_Wires_Line_Line);
  (n_StaticVarCompensator, n_CIM14_ENTSOE_Equipment_Wires_StaticVarCompensator_StaticVarCompensator);
  (n_ShuntCompensator, n_CIM14_ENTSOE_Equipment_Wires_ShuntCompensator_ShuntCompensator);
  (n_Breaker, n_CIM14_ENTSOE_Equipment_Wires_Breaker_Breaker);
  (n_Conductor, n_CIM14_ENTSOE_Equipment_Wires_Conductor_Conductor);
  (n_Measurement, n_CIM14_ENTSOE_Equipment_Meas_Measurement_Measurement);
  (n_MeasurementValueSource, n_CIM14_ENTSOE_Equipment_Meas_MeasurementValueSource_MeasurementValueSource);
  (n_MeasurementValue, n_CIM14_ENTSOE_Equipment_Meas_MeasurementValue_MeasurementValue);
  (n_Curve, n_CIM14_ENTSOE_Equipment_Core_Curve_Curve);
  (n_ConnectivityNodeContainer, n_CIM14_ENTSOE_Equipment_Core_ConnectivityNodeContainer_ConnectivityNodeContainer);
  (n_RegularIntervalSchedule, n_CIM14_ENTSOE_Equipment_Core_RegularIntervalSchedule_RegularIntervalSchedule);
  (n_VoltageLevel, n_CIM14_ENTSOE_Equipment_Core_VoltageLevel_VoltageLevel);
  (n_Unit, n_CIM14_ENTSOE_Equipment_Core_Unit_Unit);
  (n_Equipment, n_CIM14_ENTSOE_Equipment_Core_Equipment_Equipment);
  (n_BaseVoltage, n_CIM14_ENTSOE_Equipment_Core_BaseVoltage_BaseVoltage);
  (n_ConnectivityNode, n_CIM14_ENTSOE_Equipment_Core_ConnectivityNode_ConnectivityNode);
  (n_EquipmentContainer, n_CIM14_ENTSOE_Equipment_Core_EquipmentContainer_EquipmentContainer);
  (n_IdentifiedObject, n_CIM14_ENTSOE_Equipment_Core_IdentifiedObject_IdentifiedObject);
  (n_Substation, n_CIM14_ENTSOE_Equipment_Core_Substation_Substation);
  (n_ConductingEquipment, n_CIM14_ENTSOE_Equipment_Core_ConductingEquipment_ConductingEquipment);
  (n_SubGeographicalRegion, n_CIM14_ENTSOE_Equipment_Core_SubGeographicalRegion_SubGeographicalRegion);
  (n_Terminal, n_CIM14_ENTSOE_Equipment_Core_Terminal_Terminal);
  (n_GeographicalRegion, n_CIM14_ENTSOE_Equipment_Core_GeographicalRegion_GeographicalRegion);
  (n_PowerSystemResource, n_CIM14_ENTSOE_Equipment_Core_PowerSystemResource_PowerSystemResource);
  (n_CurveData, n_CIM14_ENTSOE_Equipment_Core_CurveData_CurveData);
  (n_BasicIntervalSchedule, n_CIM14_ENTSOE_Equipment_Core_BasicIntervalSchedule_BasicIntervalSchedule);
  (n_VoltageLimit, n_CIM14_ENTSOE_Equipment_OperationalLimits_VoltageLimit_VoltageLimit);
  (n_CurrentLimit, n_CIM14_ENTSOE_Equipment_OperationalLimits_CurrentLimit_CurrentLimit);
  (n_OperationalLimitSet, n_CIM14_ENTSOE_Equipment_OperationalLimits_OperationalLimitSet_OperationalLimitSet);
  (n_OperationalLimitType, n_CIM14_ENTSOE_Equipment_OperationalLimits_OperationalLimitType_OperationalLimitType);
  (n_EquivalentEquipment, n_CIM14_ENTSOE_Equipment_Equivalents_EquivalentEquipment_EquivalentEquipment);
  (n_EquivalentNetwork, n_CIM14_ENTSOE_Equipment_Equivalents_EquivalentNetwork_EquivalentNetwork);
  (n_WindGeneratingUnit, n_CIM14_ENTSOE_Equipment_Generation_Production_WindGeneratingUnit_WindGeneratingUnit);
  (n_GeneratingUnit, n_CIM14_ENTSOE_Equipment_Generation_Production_GeneratingUnit_GeneratingUnit);
  (n_FossilFuel, n_CIM14_ENTSOE_Equipment_Generation_Production_FossilFuel_FossilFuel);
  (n_NuclearGeneratingUnit, n_CIM14_ENTSOE_Equipment_Generation_Production_NuclearGeneratingUnit_NuclearGeneratingUnit);
  (n_HydroGeneratingUnit, n_CIM14_ENTSOE_Equipment_Generation_Production_HydroGeneratingUnit_HydroGeneratingUnit);
  (n_ThermalGeneratingUnit, n_CIM14_ENTSOE_Equipment_Generation_Production_ThermalGeneratingUnit_ThermalGeneratingUnit);
  (n_HydroPump, n_CIM14_ENTSOE_Equipment_Generation_Production_HydroPump_HydroPump);
  (n_NonConformLoad, n_CIM14_ENTSOE_Equipment_LoadModel_NonConformLoad_NonConformLoad);
  (n_EnergyArea, n_CIM14_ENTSOE_Equipment_LoadModel_EnergyArea_EnergyArea);
  (n_Season, n_CIM14_ENTSOE_Equipment_LoadModel_Season_Season);
  (n_SubLoadArea, n_CIM14_ENTSOE_Equipment_LoadModel_SubLoadArea_SubLoadArea);
  (n_LoadResponseCharacteristic, n_CIM14_ENTSOE_Equipment_LoadModel_LoadResponseCharacteristic_LoadResponseCharacteristic);
  (n_NonConformLoadGroup, n_CIM14_ENTSOE_Equipment_LoadModel_NonConformLoadGroup_NonConformLoadGroup);
  (n_SeasonDayTypeSchedule, n_CIM14_ENTSOE_Equipment_LoadModel_SeasonDayTypeSchedule_SeasonDayTypeSchedule);
  (n_ConformLoadGroup, n_CIM14_ENTSOE_Equipment_LoadModel_ConformLoadGroup_ConformLoadGroup);
  (n_DayType, n_CIM14_ENTSOE_Equipment_LoadModel_DayType_DayType);
  (n_LoadGroup, n_CIM14_ENTSOE_Equipment_LoadModel_LoadGroup_LoadGroup);
  (n_ConformLoad, n_CIM14_ENTSOE_Equipment_LoadModel_ConformLoad_ConformLoad)
].

(** nsURI and nsPrefix, CIM14/ENTSOE/Equipment/__init__.py. *)
Definition cim14_entsoe_equipment_uri : name := n_http___iec_ch_TC57_2009_CIM_schema_cim14_profile_http___iec_ch_TC57_2007_profile_ENTSOE_Equipment.
Definition cim14_entsoe_equipment_prefix : name := n_eq.

(** Class table of CIM14.ENTSOE.StateVariables: 11 classes. *)
Definition cim14_entsoe_statevariables : schema := [
(* CIM14/ENTSOE/StateVariables/Core/Terminal.py:23-58 *)
  Cls n_CIM14_ENTSOE_StateVariables_Core_Terminal_Terminal n_Terminal (Some n_CIM14_ENTSOE_StateVariables_Element_Element)
    [(n_SvPowerFlow, VNone)]
    [SOne n_SvPowerFlow]
    true true
    []
    []
    []
    [n_SvPowerFlow]
    []
    [(n_SvPowerFlow, POneOne n_Terminal)];
(* CIM14/ENTSOE/StateVariables/Element.py:22-38 *)
  Cls n_CIM14_ENTSOE_StateVariables_Element_Element n_Element None
    [(n_UUID, VStr n_)]
    [SAttr n_UUID]
    false true
    [n_UUID]
    [(n_UUID, VStr n_)]
    []
    []
    []
    [];
(* CIM14/ENTSOE/StateVariables/StateVariables/SvInjection.py:23-66 *)
  Cls n_CIM14_ENTSOE_StateVariables_StateVariables_SvInjection_SvInjection n_SvInjection (Some n_CIM14_ENTSOE_StateVariables_Element_Element)
    [(n_qNetInjection, VFloat n_0_0); (n_pNetInjection, VFloat n_0_0); (n_TopologicalNode, VNone)]
    [SAttr n_qNetInjection; SAttr n_pNetInjection; SOne n_TopologicalNode]
    true true
    [n_qNetInjection; n_pNetInjection]
    [(n_qNetInjection, VFloat n_0_0); (n_pNetInjection, VFloat n_0_0)]
    []
    [n_TopologicalNode]
    []
    [(n_TopologicalNode, POneOne n_SvInjection)];
(* CIM14/ENTSOE/StateVariables/StateVariables/SvPowerFlow.py:23-66 *)
  Cls n_CIM14_ENTSOE_StateVariables_StateVariables_SvPowerFlow_SvPowerFlow n_SvPowerFlow (Some n_CIM14_ENTSOE_StateVariables_Element_Element)
    [(n_p, VFloat n_0_0); (n_q, VFloat n_0_0); (n_Terminal, VNone)]
    [SAttr n_p; SAttr n_q; SOne n_Terminal]
    true true
    [n_p; n_q]
    [(n_p, VFloat n_0_0); (n_q, VFloat n_0_0)]
    []
    [n_Terminal]
    []
    [(n_Terminal, POneOne n_SvPowerFlow)];
(* CIM14/ENTSOE/StateVariables/StateVariables/SvShortCircuit.py:23-74 *)
  Cls n_CIM14_ENTSOE_StateVariables_StateVariables_SvShortCircuit_SvShortCircuit n_SvShortCircuit (Some n_CIM14_ENTSOE_StateVariables_Element_Element)
    [(n_sShortCircuit, VFloat n_0_0); (n_x0PerX, VFloat n_0_0); (n_r0PerR, VFloat n_0_0); (n_xPerR, VFloat n_0_0); (n_TopologicalNode, VNone)]
    [SAttr n_sShortCircuit; SAttr n_x0PerX; SAttr n_r0PerR; SAttr n_xPerR; SOne n_TopologicalNode]
    true true
    [n_sShortCircuit; n_x0PerX; n_r0PerR; n_xPerR]
    [(n_sShortCircuit, VFloat n_0_0); (n_x0PerX, VFloat n_0_0); (n_r0PerR, VFloat n_0_0); (n_xPerR, VFloat n_0_0)]
    []
    [n_TopologicalNode]
    []
    [(n_TopologicalNode, POneOne n_SvShortCircuit)];
(* CIM14/ENTSOE/StateVariables/StateVariables/SvShuntCompensatorSections.py:23-66 *)
  Cls n_CIM14_ENTSOE_StateVariables_StateVariables_SvShuntCompensatorSections_SvShuntCompensatorSections n_SvShuntCompensatorSections (Some n_CIM14_ENTSOE_StateVariables_Element_Element)
    [(n_sections, VInt 0); (n_continuousSections, VFloat n_0_0); (n_ShuntCompensator, VNone)]
    [SAttr n_sections; SAttr n_continuousSections; SOne n_ShuntCompensator]
    true true
    [n_sections; n_continuousSections]
    [(n_sections, VInt 0); (n_continuousSections, VFloat n_0_0)]
    []
    [n_ShuntCompensator]
    []
    [(n_ShuntCompensator, POneOne n_SvShuntCompensatorSections)];
(* CIM14/ENTSOE/StateVariables/StateVariables/SvTapStep.py:23-66 *)
  Cls n_CIM14_ENTSOE_StateVariables_StateVariables_SvTapStep_SvTapStep n_SvTapStep (Some n_CIM14_ENTSOE_StateVariables_Element_Element)
    [(n_position, VInt 0); (n_continuousPosition, VFloat n_0_0); (n_TapChanger, VNone)]
    [SAttr n_position; SAttr n_continuousPosition; SOne n_TapChanger]
    true true
    [n_position; n_continuousPosition]
    [(n_position, VInt 0); (n_continuousPosition, VFloat n_0_0)]
    []
    [n_TapChanger]
    []
    [(n_TapChanger, POneOne n_SvTapStep)];
(* CIM14/ENTSOE/StateVariables/StateVariables/SvVoltage.py:23-66 *)
  Cls n_CIM14_ENTSOE_StateVariables_StateVariables_SvVoltage_SvVoltage n_SvVoltage (Some n_CIM14_ENTSOE_StateVariables_Element_Element)
    [(n_angle, VFloat n_0_0); (n_v, VFloat n_0_0); (n_TopologicalNode, VNone)]
    [SAttr n_angle; SAttr n_v; SOne n_TopologicalNode]
    true true
    [n_angle; n_v]
    [(n_angle, VFloat n_0_0); (n_v, VFloat n_0_0)]
    []
    [n_TopologicalNode]
    []
    [(n_TopologicalNode, POneOne n_SvVoltage)];
(* CIM14/ENTSOE/StateVariables/Topology/TopologicalNode.py:23-98 *)
  Cls n_CIM14_ENTSOE_StateVariables_Topology_TopologicalNode_TopologicalNode n_TopologicalNode (Some n_CIM14_ENTSOE_StateVariables_Element_Element)
    [(n_SvShortCircuit, VNone); (n_SvVoltage, VNone); (n_SvInjection, VNone)]
    [SOne n_SvShortCircuit; SOne n_SvVoltage; SOne n_SvInjection]
    true true
    []
    []
    []
    [n_SvShortCircuit; n_SvVoltage; n_SvInjection]
    []
    [(n_SvShortCircuit, POneOne n_TopologicalNode); (n_SvVoltage, POneOne n_TopologicalNode); (n_SvInjection, POneOne n_TopologicalNode)];
(* CIM14/ENTSOE/StateVariables/Wires/ShuntCompensator.py:23-58 *)
  Cls n_CIM14_ENTSOE_StateVariables_Wires_ShuntCompensator_ShuntCompensator n_ShuntCompensator (Some n_CIM14_ENTSOE_StateVariables_Element_Element)
    [(n_SvShuntCompensatorSections, VNone)]
    [SOne n_SvShuntCompensatorSections]
    true true
    []
    []
    []
    [n_SvShuntCompensatorSections]
    []
    [(n_SvShuntCompensatorSections, POneOne n_ShuntCompensator)];
(* CIM14/ENTSOE/StateVariables/Wires/TapChanger.py:23-58 *)
  Cls n_CIM14_ENTSOE_StateVariables_Wires_TapChanger_TapChanger n_TapChanger (Some n_CIM14_ENTSOE_StateVariables_Element_Element)
    [(n_SvTapStep, VNone)]
    [SOne n_SvTapStep]
    true true
    []
    []
    []
    [n_SvTapStep]
    []
    [(n_SvTapStep, POneOne n_TapChanger)]
].

(** packageMap, CIM14/ENTSOE/StateVariables/__init__.py:29-41: tag to the class that the package exports under that name. *)
Definition cim14_entsoe_statevariables_map : list (name * name) := [
  (n_Element, n_CIM14_ENTSOE_StateVariables_Element_Element);
  (n_Terminal, n_CIM14_ENTSOE_StateVariables_Core_Terminal_Terminal);
  (n_SvTapStep, n_CIM14_ENTSOE_StateVariables_StateVariables_SvTapStep_SvTapStep);
  (n_SvInjection, n_CIM14_ENTSOE_StateVariables_StateVariables_SvInjection_SvInjection);
  (n_SvVoltage, n_CIM14_ENTSOE_StateVariables_StateVariables_SvVoltage_SvVoltage);
  (n_SvPowerFlow, n_CIM14_ENTSOE_StateVariables_StateVariables_SvPowerFlow_SvPowerFlow);
  (n_SvShortCircuit, n_CIM14_ENTSOE_StateVariables_StateVariables_SvShortCircuit_SvShortCircuit);
  (n_SvShuntCompensatorSections, n_CIM14_ENTSOE_StateVariables_StateVariables_SvShuntCompensatorSections_SvShuntCompensatorSections);
  (n_TopologicalNode, n_CIM14_ENTSOE_StateVariables_Topology_TopologicalNode_TopologicalNode);
  (n_ShuntCompensator, n_CIM14_ENTSOE_StateVariables_Wires_ShuntCompensator_ShuntCompensator);
  (n_TapChanger, n_CIM14_ENTSOE_StateVariables_Wires_TapChanger_TapChanger)
].

(** nsURI and nsPrefix, CIM14/ENTSOE/StateVariables/__init__.py. *)
Definition cim14_entsoe_statevariables_uri : name := n_http___iec_ch_TC57_2009_CIM_schema_cim14_profile_http___iec_ch_TC57_2007_profile_ENTSOE_StateVariables.
Definition cim14_entsoe_statevariables_prefix : name := n_sv.

(** Class table of CIM14.ENTSOE.Topology: 6 classes. *)
Definition cim14_entsoe_topology : schema := [
(* CIM14/ENTSOE/Topology/Core/BaseVoltage.py:23-64 *)
  Cls n_CIM14_ENTSOE_Topology_Core_BaseVoltage_BaseVoltage n_BaseVoltage (Some n_CIM14_ENTSOE_Topology_Core_IdentifiedObject_IdentifiedObject)
    [(n_TopologicalNode, VNone)]
    [SMany n_TopologicalNode]
    true true
    []
    []
    []
    [n_TopologicalNode]
    [n_TopologicalNode]
    [(n_TopologicalNode, PManyOne n_BaseVoltage)];
(* CIM14/ENTSOE/Topology/Core/ConnectivityNodeContainer.py:23-64 *)
  Cls n_CIM14_ENTSOE_Topology_Core_ConnectivityNodeContainer_ConnectivityNodeContainer n_ConnectivityNodeContainer (Some n_CIM14_ENTSOE_Topology_Core_IdentifiedObject_IdentifiedObject)
    [(n_TopologicalNode, VNone)]
    [SMany n_TopologicalNode]
    true true
    []
    []
    []
    [n_TopologicalNode]
    [n_TopologicalNode]
    [(n_TopologicalNode, PManyOne n_ConnectivityNodeContainer)];
(* CIM14/ENTSOE/Topology/Core/IdentifiedObject.py:23-46 *)
  Cls n_CIM14_ENTSOE_Topology_Core_IdentifiedObject_IdentifiedObject n_IdentifiedObject (Some n_CIM14_ENTSOE_Topology_Element_Element)
    [(n_name, VStr n_); (n_description, VStr n_)]
    [SAttr n_name; SAttr n_description]
    true true
    [n_name; n_description]
    [(n_name, VStr n_); (n_description, VStr n_)]
    []
    []
    []
    [];
(* CIM14/ENTSOE/Topology/Core/Terminal.py:23-63 *)
  Cls n_CIM14_ENTSOE_Topology_Core_Terminal_Terminal n_Terminal (Some n_CIM14_ENTSOE_Topology_Core_IdentifiedObject_IdentifiedObject)
    [(n_connected, VBool false); (n_TopologicalNode, VNone)]
    [SAttr n_connected; SOne n_TopologicalNode]
    true true
    [n_connected]
    [(n_connected, VBool false)]
    []
    [n_TopologicalNode]
    []
    [(n_TopologicalNode, POneMany n_Terminal)];
(* CIM14/ENTSOE/Topology/Element.py:22-38 *)
  Cls n_CIM14_ENTSOE_Topology_Element_Element n_Element None
    [(n_UUID, VStr n_)]
    [SAttr n_UUID]
    false true
    [n_UUID]
    [(n_UUID, VStr n_)]
    []
    []
    []
    [];
(* CIM14/ENTSOE/Topology/Topology/TopologicalNode.py:23-106 *)
  Cls n_CIM14_ENTSOE_Topology_Topology_TopologicalNode_TopologicalNode n_TopologicalNode (Some n_CIM14_ENTSOE_Topology_Core_IdentifiedObject_IdentifiedObject)
    [(n_ConnectivityNodeContainer, VNone); (n_BaseVoltage, VNone); (n_Terminal, VNone)]
    [SOne n_ConnectivityNodeContainer; SOne n_BaseVoltage; SMany n_Terminal]
    true true
    []
    []
    []
    [n_ConnectivityNodeContainer; n_BaseVoltage; n_Terminal]
    [n_Terminal]
    [(n_ConnectivityNodeContainer, POneMany n_TopologicalNode); (n_BaseVoltage, POneMany n_TopologicalNode); (n_Terminal, PManyOne n_TopologicalNode)]
].

(** packageMap, CIM14/ENTSOE/Topology/__init__.py:29-36: tag to the class that the package exports under that name. *)
Definition cim14_entsoe_topology_map : list (name * name) := [
  (n_Element, n_CIM14_ENTSOE_Topology_Element_Element);
  (n_Terminal, n_CIM14_ENTSOE_Topology_Core_Terminal_Terminal);
  (n_IdentifiedObject, n_CIM14_ENTSOE_Topology_Core_IdentifiedObject_IdentifiedObject);
  (n_BaseVoltage, n_CIM14_ENTSOE_Topology_Core_BaseVoltage_BaseVoltage);
  (n_ConnectivityNodeContainer, n_CIM14_ENTSOE_Topology_Core_ConnectivityNodeContainer_ConnectivityNodeContainer);
  (n_TopologicalNode, n_CIM14_ENTSOE_Topology_Topology_TopologicalNode_TopologicalNode)
].

(** nsURI and nsPrefix, CIM14/ENTSOE/Topology/__init__.py. *)
Definition cim14_entsoe_topology_uri : name := n_http___iec_ch_TC57_2009_CIM_schema_cim14_profile_http___iec_ch_TC57_2007_profile_ENTSOE_Topology.
Definition cim14_entsoe_topology_prefix : name := n_topo.

(** Class table of CIM15.CDPSM.Asset: 25 classes. *)
Definition cim15_cdpsm_asset : schema := [
(* CIM15/CDPSM/Asset/Element.py:22-38 *)
  Cls n_CIM15_CDPSM_Asset_Element_Element n_Element None
    [(n_UUID, VStr n_)]
    [SAttr n_UUID]
    false true
    [n_UUID]
    [(n_UUID, VStr n_)]
    []
    []
    []
    [];
(* CIM15/CDPSM/Asset/IEC61968/AssetModels/CableInfo.py:23-78 *)
  Cls n_CIM15_CDPSM_Asset_IEC61968_AssetModels_CableInfo_CableInfo n_CableInfo (Some n_CIM15_CDPSM_Asset_IEC61968_AssetModels_ConductorInfo_ConductorInfo)
    [(n_diameterOverJacket, VFloat n_0_0); (n_constructionKind, VStr n_sector); (n_shieldMaterial, VStr n_lead); (n_outerJacketKind, VStr n_pvc); (n_isStrandFill, VBool false); (n_diameterOverInsulation, VFloat n_0_0); (n_diameterOverScreen, VFloat n_0_0); (n_sheathAsNeutral, VBool false); (n_nominalTemperature, VFloat n_0_0); (n_diameterOverCore, VFloat n_0_0)]
    [SAttr n_diameterOverJacket; SAttr n_constructionKind; SAttr n_shieldMaterial; SAttr n_outerJacketKind; SAttr n_isStrandFill; SAttr n_diameterOverInsulation; SAttr n_diameterOverScreen; SAttr n_sheathAsNeutral; SAttr n_nominalTemperature; SAttr n_diameterOverCore]
    true true
    [n_diameterOverJacket; n_constructionKind; n_shieldMaterial; n_outerJacketKind; n_isStrandFill; n_diameterOverInsulation; n_diameterOverScreen; n_sheathAsNeutral; n_nominalTemperature; n_diameterOverCore]
    [(n_diameterOverJacket, VFloat n_0_0); (n_constructionKind, VStr n_sector); (n_shieldMaterial, VStr n_lead); (n_outerJacketKind, VStr n_pvc); (n_isStrandFill, VBool false); (n_diameterOverInsulation, VFloat n_0_0); (n_diameterOverScreen, VFloat n_0_0); (n_sheathAsNeutral, VBool false); (n_nominalTemperature, VFloat n_0_0); (n_diameterOverCore, VFloat n_0_0)]
    [(n_constructionKind, n_CableConstructionKind); (n_shieldMaterial, n_CableShieldMaterialKind); (n_outerJacketKind, n_CableOuterJacketKind)]
    []
    []
    [];
(* CIM15/CDPSM/Asset/IEC61968/AssetModels/ConcentricNeutralCableInfo.py:23-46 *)
  Cls n_CIM15_CDPSM_Asset_IEC61968_AssetModels_ConcentricNeutralCableInfo_ConcentricNeutralCableInfo n_ConcentricNeutralCableInfo (Some n_CIM15_CDPSM_Asset_IEC61968_AssetModels_CableInfo_CableInfo)
    [(n_diameterOverNeutral, VFloat n_0_0); (n_neutralStrandCount, VInt 0)]
    [SAttr n_diameterOverNeutral; SAttr n_neutralStrandCount]
    true true
    [n_diameterOverNeutral; n_neutralStrandCount]
    [(n_diameterOverNeutral, VFloat n_0_0); (n_neutralStrandCount, VInt 0)]
    []
    []
    []
    [];
(* CIM15/CDPSM/Asset/IEC61968/AssetModels/ConductorInfo.py:23-110 *)
  Cls n_CIM15_CDPSM_Asset_IEC61968_AssetModels_ConductorInfo_ConductorInfo n_ConductorInfo (Some n_CIM15_CDPSM_Asset_IEC61968_Assets_AssetInfo_AssetInfo)
    [(n_usage, VStr n_secondary); (n_insulationThickness, VFloat n_0_0); (n_insulated, VBool false); (n_insulationMaterial, VStr n_treeRetardantCrosslinkedPolyethylene); (n_phaseCount, VInt 0); (n_WireArrangements, VNone); (n_LineSegments, VNone)]
    [SAttr n_usage; SAttr n_insulationThickness; SAttr n_insulated; SAttr n_insulationMaterial; SAttr n_phaseCount; SMany n_WireArrangements; SMany n_LineSegments]
    true true
    [n_usage; n_insulationThickness; n_insulated; n_insulationMaterial; n_phaseCount]
    [(n_usage, VStr n_secondary); (n_insulationThickness, VFloat n_0_0); (n_insulated, VBool false); (n_insulationMaterial, VStr n_treeRetardantCrosslinkedPolyethylene); (n_phaseCount, VInt 0)]
    [(n_usage, n_ConductorUsageKind); (n_insulationMaterial, n_ConductorInsulationKind)]
    [n_WireArrangements; n_LineSegments]
    [n_WireArrangements; n_LineSegments]
    [(n_WireArrangements, PManyOne n_ConductorInfo); (n_LineSegments, PManyOne n_ConductorInfo)];
(* CIM15/CDPSM/Asset/IEC61968/AssetModels/EndDeviceInfo.py:23-50 *)
  Cls n_CIM15_CDPSM_Asset_IEC61968_AssetModels_EndDeviceInfo_EndDeviceInfo n_EndDeviceInfo (Some n_CIM15_CDPSM_Asset_IEC61968_Assets_AssetInfo_AssetInfo)
    [(n_ratedCurrent, VFloat n_0_0); (n_ratedVoltage, VFloat n_0_0); (n_phaseCount, VInt 0)]
    [SAttr n_ratedCurrent; SAttr n_ratedVoltage; SAttr n_phaseCount]
    true true
    [n_ratedCurrent; n_ratedVoltage; n_phaseCount]
    [(n_ratedCurrent, VFloat n_0_0); (n_ratedVoltage, VFloat n_0_0); (n_phaseCount, VInt 0)]
    []
    []
    []
    [];
(* CIM15/CDPSM/Asset/IEC61968/AssetModels/OverheadConductorInfo.py:23-50 *)
  Cls n_CIM15_CDPSM_Asset_IEC61968_AssetModels_OverheadConductorInfo_OverheadConductorInfo n_OverheadConductorInfo (Some n_CIM15_CDPSM_Asset_IEC61968_AssetModels_ConductorInfo_ConductorInfo)
    [(n_neutralInsulationThickness, VFloat n_0_0); (n_phaseConductorSpacing, VFloat n_0_0); (n_phaseConductorCount, VInt 0)]
    [SAttr n_neutralInsulationThickness; SAttr n_phaseConductorSpacing; SAttr n_phaseConductorCount]
    true true
    [n_neutralInsulationThickness; n_phaseConductorSpacing; n_phaseConductorCount]
    [(n_neutralInsulationThickness, VFloat n_0_0); (n_phaseConductorSpacing, VFloat n_0_0); (n_phaseConductorCount, VInt 0)]
    []
    []
    []
    [];
(* CIM15/CDPSM/Asset/IEC61968/AssetModels/PowerTransformerInfo.py:23-64 *)
  Cls n_CIM15_CDPSM_Asset_IEC61968_AssetModels_PowerTransformerInfo_PowerTransformerInfo n_PowerTransformerInfo (Some n_CIM15_CDPSM_Asset_IEC61968_Assets_AssetInfo_AssetInfo)
    [(n_TransformerTankInfo, VNone)]
    [SMany n_TransformerTankInfo]
    true true
    []
    []
    []
    [n_TransformerTankInfo]
    [n_TransformerTankInfo]
    [(n_TransformerTankInfo, PManyOne n_PowerTransformerInfo)];
(* CIM15/CDPSM/Asset/IEC61968/AssetModels/TapChangerInfo.py:23-94 *)
  Cls n_CIM15_CDPSM_Asset_IEC61968_AssetModels_TapChangerInfo_TapChangerInfo n_TapChangerInfo (Some n_CIM15_CDPSM_Asset_IEC61968_Assets_AssetInfo_AssetInfo)
    [(n_lowStep, VInt 0); (n_frequency, VFloat n_0_0); (n_ptRatio, VFloat n_0_0); (n_ratedApparentPower, VFloat n_0_0); (n_stepVoltageIncrement, VFloat n_0_0); (n_ctRatio, VFloat n_0_0); (n_ratedVoltage, VFloat n_0_0); (n_neutralStep, VInt 0); (n_ratedCurrent, VFloat n_0_0); (n_ctRating, VFloat n_0_0); (n_highStep, VInt 0); (n_stepPhaseIncrement, VFloat n_0_0); (n_neutralU, VFloat n_0_0); (n_isTcul, VBool false)]
    [SAttr n_lowStep; SAttr n_frequency; SAttr n_ptRatio; SAttr n_ratedApparentPower; SAttr n_stepVoltageIncrement; SAttr n_ctRatio; SAttr n_ratedVoltage; SAttr n_neutralStep; SAttr n_ratedCurrent; SAttr n_ctRating; SAttr n_highStep; SAttr n_stepPhaseIncrement; SAttr n_neutralU; SAttr n_isTcul]
    true true
    [n_lowStep; n_frequency; n_ptRatio; n_ratedApparentPower; n_stepVoltageIncrement; n_ctRatio; n_ratedVoltage; n_neutralStep; n_ratedCurrent; n_ctRating; n_highStep; n_stepPhaseIncrement; n_neutralU; n_isTcul]
    [(n_lowStep, VInt 0); (n_frequency, VFloat n_0_0); (n_ptRatio, VFloat n_0_0); (n_ratedApparentPower, VFloat n_0_0); (n_stepVoltageIncrement, VFloat n_0_0); (n_ctRatio, VFloat n_0_0); (n_ratedVoltage, VFloat n_0_0); (n_neutralStep, VInt 0); (n_ratedCurrent, VFloat n_0_0); (n_ctRating, VFloat n_0_0); (n_highStep, VInt 0); (n_stepPhaseIncrement, VFloat n_0_0); (n_neutralU, VFloat n_0_0); (n_isTcul, VBool false)]
    []
    []
    []
    [];
(* CIM15/CDPSM/Asset/IEC61968/AssetModels/TapeShieldCableInfo.py:23-46 *)
  Cls n_CIM15_CDPSM_Asset_IEC61968_AssetModels_TapeShieldCableInfo_TapeShieldCableInfo n_TapeShieldCableInfo (Some n_CIM15_CDPSM_Asset_IEC61968_AssetModels_CableInfo_CableInfo)
    [(n_tapeLap, VFloat n_0_0); (n_tapeThickness, VFloat n_0_0)]
    [SAttr n_tapeLap; SAttr n_tapeThickness]
    true true
    [n_tapeLap; n_tapeThickness]
    [(n_tapeLap, VFloat n_0_0); (n_tapeThickness, VFloat n_0_0)]
    []
    []
    []
    [];
(* CIM15/CDPSM/Asset/IEC61968/AssetModels/TransformerEndInfo.py:23-121 *)
  Cls n_CIM15_CDPSM_Asset_IEC61968_AssetModels_TransformerEndInfo_TransformerEndInfo n_TransformerEndInfo (Some n_CIM15_CDPSM_Asset_IEC61968_Assets_AssetInfo_AssetInfo)
    [(n_ratedU, VFloat n_0_0); (n_endNumber, VInt 0); (n_phaseAngleClock, VInt 0); (n_emergencyS, VFloat n_0_0); (n_ratedS, VFloat n_0_0); (n_shortTermS, VFloat n_0_0); (n_r, VFloat n_0_0); (n_insulationU, VFloat n_0_0); (n_connectionKind, VStr n_Z); (n_TransformerTankInfo, VNone); (n_TransformerEnd, VNone)]
    [SAttr n_ratedU; SAttr n_endNumber; SAttr n_phaseAngleClock; SAttr n_emergencyS; SAttr n_ratedS; SAttr n_shortTermS; SAttr n_r; SAttr n_insulationU; SAttr n_connectionKind; SOne n_TransformerTankInfo; SMany n_TransformerEnd]
    true true
    [n_ratedU; n_endNumber; n_phaseAngleClock; n_emergencyS; n_ratedS; n_shortTermS; n_r; n_insulationU; n_connectionKind]
    [(n_ratedU, VFloat n_0_0); (n_endNumber, VInt 0); (n_phaseAngleClock, VInt 0); (n_emergencyS, VFloat n_0_0); (n_ratedS, VFloat n_0_0); (n_shortTermS, VFloat n_0_0); (n_r, VFloat n_0_0); (n_insulationU, VFloat n_0_0); (n_connectionKind, VStr n_Z)]
    [(n_connectionKind, n_WindingConnection)]
    [n_TransformerTankInfo; n_TransformerEnd]
    [n_TransformerEnd]
    [(n_TransformerTankInfo, POneMany n_TransformerEndInfos); (n_TransformerEnd, PManyOne n_TransformerEndInfo)];
(* CIM15/CDPSM/Asset/IEC61968/AssetModels/TransformerTankInfo.py:23-111 *)
  Cls n_CIM15_CDPSM_Asset_IEC61968_AssetModels_TransformerTankInfo_TransformerTankInfo n_TransformerTankInfo (Some n_CIM15_CDPSM_Asset_IEC61968_Assets_AssetInfo_AssetInfo)
    [(n_PowerTransformerInfo, VNone); (n_TransformerEndInfos, VNone); (n_TransformerTanks, VNone)]
    [SOne n_PowerTransformerInfo; SMany n_TransformerEndInfos; SMany n_TransformerTanks]
    true true
    []
    []
    []
    [n_PowerTransformerInfo; n_TransformerEndInfos; n_TransformerTanks]
    [n_TransformerEndInfos; n_TransformerTanks]
    [(n_PowerTransformerInfo, POneMany n_TransformerTankInfo); (n_TransformerEndInfos, PManyOne n_TransformerTankInfo); (n_TransformerTanks, PManyOne n_TransformerTankInfo)];
(* CIM15/CDPSM/Asset/IEC61968/AssetModels/WireArrangement.py:23-92 *)
  Cls n_CIM15_CDPSM_Asset_IEC61968_AssetModels_WireArrangement_WireArrangement n_WireArrangement (Some n_CIM15_CDPSM_Asset_IEC61970_Core_IdentifiedObject_IdentifiedObject)
    [(n_mountingPointY, VFloat n_0_0); (n_position, VInt 0); (n_mountingPointX, VFloat n_0_0); (n_WireType, VNone); (n_ConductorInfo, VNone)]
    [SAttr n_mountingPointY; SAttr n_position; SAttr n_mountingPointX; SOne n_WireType; SOne n_ConductorInfo]
    true true
    [n_mountingPointY; n_position; n_mountingPointX]
    [(n_mountingPointY, VFloat n_0_0); (n_position, VInt 0); (n_mountingPointX, VFloat n_0_0)]
    []
    [n_WireType; n_ConductorInfo]
    []
    [(n_WireType, POneMany n_WireArrangements); (n_ConductorInfo, POneMany n_WireArrangements)];
(* CIM15/CDPSM/Asset/IEC61968/AssetModels/WireType.py:23-112 *)
  Cls n_CIM15_CDPSM_Asset_IEC61968_AssetModels_WireType_WireType n_WireType (Some n_CIM15_CDPSM_Asset_IEC61970_Core_IdentifiedObject_IdentifiedObject)
    [(n_rDC20, VFloat n_0_0); (n_coreRadius, VFloat n_0_0); (n_rAC75, VFloat n_0_0); (n_material, VStr n_aluminum); (n_ratedCurrent, VFloat n_0_0); (n_strandCount, VInt 0); (n_rAC25, VFloat n_0_0); (n_rAC50, VFloat n_0_0); (n_radius, VFloat n_0_0); (n_gmr, VFloat n_0_0); (n_coreStrandCount, VInt 0); (n_sizeDescription, VStr n_); (n_WireArrangements, VNone)]
    [SAttr n_rDC20; SAttr n_coreRadius; SAttr n_rAC75; SAttr n_material; SAttr n_ratedCurrent; SAttr n_strandCount; SAttr n_rAC25; SAttr n_rAC50; SAttr n_radius; SAttr n_gmr; SAttr n_coreStrandCount; SAttr n_sizeDescription; SMany n_WireArrangements]
    true true
    [n_rDC20; n_coreRadius; n_rAC75; n_material; n_ratedCurrent; n_strandCount; n_rAC25; n_rAC50; n_radius; n_gmr; n_coreStrandCount; n_sizeDescription]
    [(n_rDC20, VFloat n_0_0); (n_coreRadius, VFloat n_0_0); (n_rAC75, VFloat n_0_0); (n_material, VStr n_aluminum); (n_ratedCurrent, VFloat n_0_0); (n_strandCount, VInt 0); (n_rAC25, VFloat n_0_0); (n_rAC50, VFloat n_0_0); (n_radius, VFloat n_0_0); (n_gmr, VFloat n_0_0); (n_coreStrandCount, VInt 0); (n_sizeDescription, VStr n_)]
    [(n_material, n_ConductorMaterialKind)]
    [n_WireArrangements]
    [n_WireArrangements]
    [(n_WireArrangements, PManyOne n_WireType)];
(* CIM15/CDPSM/Asset/IEC61968/Assets/AssetInfo.py:23-38 *)
  Cls n_CIM15_CDPSM_Asset_IEC61968_Assets_AssetInfo_AssetInfo n_AssetInfo (Some n_CIM15_CDPSM_Asset_IEC61970_Core_IdentifiedObject_IdentifiedObject)
    []
    []
    true true
    []
    []
    []
    []
    []
    [];
(* CIM15/CDPSM/Asset/IEC61970/Core/IdentifiedObject.py:23-72 *)
  Cls n_CIM15_CDPSM_Asset_IEC61970_Core_IdentifiedObject_IdentifiedObject n_IdentifiedObject (Some n_CIM15_CDPSM_Asset_Element_Element)
    [(n_name, VStr n_); (n_aliasName, VStr n_); (n_Names, VNone)]
    [SAttr n_name; SAttr n_aliasName; SMany n_Names]
    true true
    [n_name; n_aliasName]
    [(n_name, VStr n_); (n_aliasName, VStr n_)]
    []
    [n_Names]
    [n_Names]
    [(n_Names, PManyOne n_IdentifiedObject)];
(* CIM15/CDPSM/Asset/IEC61970/Core/Name.py:23-84 *)
  Cls n_CIM15_CDPSM_Asset_IEC61970_Core_Name_Name n_Name (Some n_CIM15_CDPSM_Asset_Element_Element)
    [(n_name, VStr n_); (n_IdentifiedObject, VNone); (n_NameType, VNone)]
    [SAttr n_name; SOne n_IdentifiedObject; SOne n_NameType]
    true true
    [n_name]
    [(n_name, VStr n_)]
    []
    [n_IdentifiedObject; n_NameType]
    []
    [(n_IdentifiedObject, POneMany n_Names); (n_NameType, POneMany n_Names)];
(* CIM15/CDPSM/Asset/IEC61970/Core/NameType.py:23-64 *)
  Cls n_CIM15_CDPSM_Asset_IEC61970_Core_NameType_NameType n_NameType (Some n_CIM15_CDPSM_Asset_Element_Element)
    [(n_Names, VNone)]
    [SMany n_Names]
    true true
    []
    []
    []
    [n_Names]
    [n_Names]
    [(n_Names, PManyOne n_NameType)];
(* CIM15/CDPSM/Asset/IEC61970/Wires/ACLineSegment.py:23-101 *)
  Cls n_CIM15_CDPSM_Asset_IEC61970_Wires_ACLineSegment_ACLineSegment n_ACLineSegment (Some n_CIM15_CDPSM_Asset_IEC61970_Core_IdentifiedObject_IdentifiedObject)
    [(n_SequenceImpedance, VNone); (n_ConductorInfo, VNone); (n_PhaseImpedance, VNone)]
    [SOne n_SequenceImpedance; SOne n_ConductorInfo; SOne n_PhaseImpedance]
    true true
    []
    []
    []
    [n_SequenceImpedance; n_ConductorInfo; n_PhaseImpedance]
    []
    [(n_SequenceImpedance, POneMany n_LineSegments); (n_ConductorInfo, POneMany n_LineSegments); (n_PhaseImpedance, POneMany n_LineSegments)];
(* CIM15/CDPSM/Asset/IEC61970/Wires/PerLengthPhaseImpedance.py:23-64 *)
  Cls n_CIM15_CDPSM_Asset_IEC61970_Wires_PerLengthPhaseImpedance_PerLengthPhaseImpedance n_PerLengthPhaseImpedance (Some n_CIM15_CDPSM_Asset_IEC61970_Core_IdentifiedObject_IdentifiedObject)
    [(n_LineSegments, VNone)]
    [SMany n_LineSegments]
    true true
    []
    []
    []
    [n_LineSegments]
    [n_LineSegments]
    [(n_LineSegments, PManyOne n_PhaseImpedance)];
(* CIM15/CDPSM/Asset/IEC61970/Wires/PerLengthSequenceImpedance.py:23-64 *)
  Cls n_CIM15_CDPSM_Asset_IEC61970_Wires_PerLengthSequenceImpedance_PerLengthSequenceImpedance n_PerLengthSequenceImpedance (Some n_CIM15_CDPSM_Asset_IEC61970_Core_IdentifiedObject_IdentifiedObject)
    [(n_LineSegments, VNone)]
    [SMany n_LineSegments]
    true true
    []
    []
    []
    [n_LineSegments]
    [n_LineSegments]
    [(n_LineSegments, PManyOne n_SequenceImpedance)];
(* CIM15/CDPSM/Asset/IEC61970/Wires/TransformerCoreAdmittance.py:23-62 *)
  Cls n_CIM15_CDPSM_Asset_IEC61970_Wires_TransformerCoreAdmittance_TransformerCoreAdmittance n_TransformerCoreAdmittance (Some n_CIM15_CDPSM_Asset_IEC61970_Core_IdentifiedObject_IdentifiedObject)
    [(n_TransformerEnd, VNone)]
    [SMany n_TransformerEnd]
    true true
    []
    []
    []
    [n_TransformerEnd]
    [n_TransformerEnd]
    [(n_TransformerEnd, PManyOne n_CoreAdmittance)];
(* CIM15/CDPSM/Asset/IEC61970/Wires/TransformerEnd.py:23-101 *)
  Cls n_CIM15_CDPSM_Asset_IEC61970_Wires_TransformerEnd_TransformerEnd n_TransformerEnd (Some n_CIM15_CDPSM_Asset_IEC61970_Core_IdentifiedObject_IdentifiedObject)
    [(n_CoreAdmittance, VNone); (n_TransformerEndInfo, VNone); (n_StarImpedance, VNone)]
    [SOne n_CoreAdmittance; SOne n_TransformerEndInfo; SOne n_StarImpedance]
    true true
    []
    []
    []
    [n_CoreAdmittance; n_TransformerEndInfo; n_StarImpedance]
    []
    [(n_CoreAdmittance, POneMany n_TransformerEnd); (n_TransformerEndInfo, POneMany n_TransformerEnd); (n_StarImpedance, POneMany n_TransformerEnd)];
(* CIM15/CDPSM/Asset/IEC61970/Wires/TransformerStarImpedance.py:23-64 *)
  Cls n_CIM15_CDPSM_Asset_IEC61970_Wires_TransformerStarImpedance_TransformerStarImpedance n_TransformerStarImpedance (Some n_CIM15_CDPSM_Asset_IEC61970_Core_IdentifiedObject_IdentifiedObject)
    [(n_TransformerEnd, VNone)]
    [SMany n_TransformerEnd]
    true true
    []
    []
    []
    [n_TransformerEnd]
    [n_TransformerEnd]
    [(n_TransformerEnd, PManyOne n_StarImpedance)];
(* CIM15/CDPSM/Asset/IEC61970/Wires/TransformerTank.py:23-59 *)
  Cls n_CIM15_CDPSM_Asset_IEC61970_Wires_TransformerTank_TransformerTank n_TransformerTank (Some n_CIM15_CDPSM_Asset_IEC61970_Core_IdentifiedObject_IdentifiedObject)
    [(n_TransformerTankInfo, VNone)]
    [SOne n_TransformerTankInfo]
    true true
    []
    []
    []
    [n_TransformerTankInfo]
    []
    [(n_TransformerTankInfo, POneMany n_TransformerTanks)];
(* CIM15/CDPSM/Asset/IEC61970/Wires/TransformerTankEnd.py:23-38 *)
  Cls n_CIM15_CDPSM_Asset_IEC61970_Wires_TransformerTankEnd_TransformerTankEnd n_TransformerTankEnd (Some n_CIM15_CDPSM_Asset_IEC61970_Wires_TransformerEnd_TransformerEnd)
    []
    []
    true true
    []
    []
    []
    []
    []
    []
].

(** packageMap, CIM15/CDPSM/Asset/__init__.py:29-55: tag to the class that the package exports under that name. *)
Definition cim15_cdpsm_asset_map : list (name * name) := [
  (n_Element, n_CIM15_CDPSM_Asset_Element_Element);
  (n_PerLengthSequenceImpedance, n_CIM15_CDPSM_Asset_IEC61970_Wires_PerLengthSequenceImpedance_PerLengthSequenceImpedance);
  (n_ACLineSegment, n_CIM15_CDPSM_Asset_IEC61970_Wires_ACLineSegment_ACLineSegment);
  (n_TransformerCoreAdmittance, n_CIM15_CDPSM_Asset_IEC61970_Wires_TransformerCoreAdmittance_TransformerCoreAdmittance);
  (n_TransformerTank, n_CIM15_CDPSM_Asset_IEC61970_Wires_TransformerTank_TransformerTank);
  (n_TransformerTankEnd, n_CIM15_CDPSM_Asset_IEC61970_Wires_TransformerTankEnd_TransformerTankEnd);
  (n_TransformerStarImpedance, n_CIM15_CDPSM_Asset_IEC61970_Wires_TransformerStarImpedance_TransformerStarImpedance);
  (n_PerLengthPhaseImpedance, n_CIM15_CDPSM_Asset_IEC61970_Wires_PerLengthPhaseImpedance_PerLengthPhaseImpedance);
  (n_TransformerEnd, n_CIM15_CDPSM_Asset_IEC61970_Wires_TransformerEnd_TransformerEnd);
  (n_NameType, n_CIM15_CDPSM_Asset_IEC61970_Core_NameType_NameType);
  (n_IdentifiedObject, n_CIM15_CDPSM_Asset_IEC61970_Core_IdentifiedObject_IdentifiedObject);
  (n_Name, n_CIM15_CDPSM_Asset_IEC61970_Core_Name_Name);
  (n_ConductorInfo, n_CIM15_CDPSM_Asset_IEC61968_AssetModels_ConductorInfo_ConductorInfo);
  (n_WireArrangement, n_CIM15_CDPSM_Asset_IEC61968_AssetModels_WireArrangement_WireArrangement);
  (n_WireType, n_CIM15_CDPSM_Asset_IEC61968_AssetModels_WireType_WireType);
  (n_EndDeviceInfo, n_CIM15_CDPSM_Asset_IEC61968_AssetModels_EndDeviceInfo_EndDeviceInfo);
  (n_OverheadConductorInfo, n_CIM15_CDPSM_Asset_IEC61968_AssetModels_OverheadConductorInfo_OverheadConductorInfo);
  (n_TapChangerInfo, n_CIM15_CDPSM_Asset_IEC61968_AssetModels_TapChangerInfo_TapChangerInfo);
  (n_TransformerTankInfo, n_CIM15_CDPSM_Asset_IEC61968_AssetModels_TransformerTankInfo_TransformerTankInfo);
  (n_CableInfo, n_CIM15_CDPSM_Asset_IEC61968_AssetModels_CableInfo_CableInfo);
  (n_ConcentricNeutralCableInfo, n_CIM15_CDPSM_Asset_IEC61968_AssetModels_ConcentricNeutralCableInfo_ConcentricNeutralCableInfo);
  (n_TapeShieldCableInfo, n_CIM15_CDPSM_Asset_IEC61968_AssetModels_TapeShieldCableInfo_TapeShieldCableInfo);
  (n_TransformerEndInfo, n_CIM15_CDPSM_Asset_IEC61968_AssetModels_TransformerEndInfo_TransformerEndInfo);
  (n_PowerTransformerInfo, n_CIM15_CDPSM_Asset_IEC61968_AssetModels_PowerTransformerInfo_PowerTransformerInfo);
  (n_AssetInfo, n_CIM15_CDPSM_Asset_IEC61968_Assets_AssetInfo_AssetInfo)
].

(** nsURI and nsPrefix, CIM15/CDPSM/Asset/__init__.py. *)
Definition cim15_cdpsm_asset_uri : name := n_http___iec_ch_TC57_2010_CIM_schema_cim15_profile_http___iec_ch_TC57_2011_iec61968_4_CDPSM_Asset.
Definition cim15_cdpsm_asset_prefix : name := n_asset.

(** Class table of CIM15.CDPSM.Balanced: 28 classes. *)
Definition cim15_cdpsm_balanced : schema := [
(* CIM15/CDPSM/Balanced/Element.py:22-38 *)
  Cls n_CIM15_CDPSM_Balanced_Element_Element n_Element None
    [(n_UUID, VStr n_)]
    [SAttr n_UUID]
    false true
    [n_UUID]
    [(n_UUID, VStr n_)]
    []
    []
    []
    [];
(* CIM15/CDPSM/Balanced/IEC61970/Core/IdentifiedObject.py:23-72 *)
  Cls n_CIM15_CDPSM_Balanced_IEC61970_Core_IdentifiedObject_IdentifiedObject n_IdentifiedObject (Some n_CIM15_CDPSM_Balanced_Element_Element)
    [(n_name, VStr n_); (n_aliasName, VStr n_); (n_Names, VNone)]
    [SAttr n_name; SAttr n_aliasName; SMany n_Names]
    true true
    [n_name; n_aliasName]
    [(n_name, VStr n_); (n_aliasName, VStr n_)]
    []
    [n_Names]
    [n_Names]
    [(n_Names, PManyOne n_IdentifiedObject)];
(* CIM15/CDPSM/Balanced/IEC61970/Core/Name.py:23-84 *)
  Cls n_CIM15_CDPSM_Balanced_IEC61970_Core_Name_Name n_Name (Some n_CIM15_CDPSM_Balanced_Element_Element)
    [(n_name, VStr n_); (n_IdentifiedObject, VNone); (n_NameType, VNone)]
    [SAttr n_name; SOne n_IdentifiedObject; SOne n_NameType]
    true true
    [n_name]
    [(n_name, VStr n_)]
    []
    [n_IdentifiedObject; n_NameType]
    []
    [(n_IdentifiedObject, POneMany n_Names); (n_NameType, POneMany n_Names)];
(* CIM15/CDPSM/Balanced/IEC61970/Core/NameType.py:23-64 *)
  Cls n_CIM15_CDPSM_Balanced_IEC61970_Core_NameType_NameType n_NameType (Some n_CIM15_CDPSM_Balanced_Element_Element)
    [(n_Names, VNone)]
    [SMany n_Names]
    true true
    []
    []
    []
    [n_Names]
    [n_Names]
    [(n_Names, PManyOne n_NameType)];
(* CIM15/CDPSM/Balanced/IEC61970/Generation/Production/GeneratingUnit.py:23-80 *)
  Cls n_CIM15_CDPSM_Balanced_IEC61970_Generation_Production_GeneratingUnit_GeneratingUnit n_GeneratingUnit (Some n_CIM15_CDPSM_Balanced_IEC61970_Core_IdentifiedObject_IdentifiedObject)
    [(n_baseP, VFloat n_0_0); (n_genControlSource, VStr n_plantControl); (n_ratedNetMaxP, VFloat n_0_0); (n_initialP, VFloat n_0_0); (n_SynchronousMachines, VNone)]
    [SAttr n_baseP; SAttr n_genControlSource; SAttr n_ratedNetMaxP; SAttr n_initialP; SMany n_SynchronousMachines]
    true true
    [n_baseP; n_genControlSource; n_ratedNetMaxP; n_initialP]
    [(n_baseP, VFloat n_0_0); (n_genControlSource, VStr n_plantControl); (n_ratedNetMaxP, VFloat n_0_0); (n_initialP, VFloat n_0_0)]
    [(n_genControlSource, n_GeneratorControlSource)]
    [n_SynchronousMachines]
    [n_SynchronousMachines]
    [(n_SynchronousMachines, PManyOne n_GeneratingUnit)];
(* CIM15/CDPSM/Balanced/IEC61970/LoadModel/LoadResponseCharacteristic.py:23-108 *)
  Cls n_CIM15_CDPSM_Balanced_IEC61970_LoadModel_LoadResponseCharacteristic_LoadResponseCharacteristic n_LoadResponseCharacteristic (Some n_CIM15_CDPSM_Balanced_IEC61970_Core_IdentifiedObject_IdentifiedObject)
    [(n_pFrequencyExponent, VFloat n_0_0); (n_pConstantPower, VFloat n_0_0); (n_pVoltageExponent, VFloat n_0_0); (n_exponentModel, VBool false); (n_qFrequencyExponent, VFloat n_0_0); (n_qConstantImpedance, VFloat n_0_0); (n_qConstantPower, VFloat n_0_0); (n_pConstantCurrent, VFloat n_0_0); (n_qVoltageExponent, VFloat n_0_0); (n_pConstantImpedance, VFloat n_0_0); (n_qConstantCurrent, VFloat n_0_0); (n_EnergyConsumer, VNone)]
    [SAttr n_pFrequencyExponent; SAttr n_pConstantPower; SAttr n_pVoltageExponent; SAttr n_exponentModel; SAttr n_qFrequencyExponent; SAttr n_qConstantImpedance; SAttr n_qConstantPower; SAttr n_pConstantCurrent; SAttr n_qVoltageExponent; SAttr n_pConstantImpedance; SAttr n_qConstantCurrent; SMany n_EnergyConsumer]
    true true
    [n_pFrequencyExponent; n_pConstantPower; n_pVoltageExponent; n_exponentModel; n_qFrequencyExponent; n_qConstantImpedance; n_qConstantPower; n_pConstantCurrent; n_qVoltageExponent; n_pConstantImpedance; n_qConstantCurrent]
    [(n_pFrequencyExponent, VFloat n_0_0); (n_pConstantPower, VFloat n_0_0); (n_pVoltageExponent, VFloat n_0_0); (n_exponentModel, VBool false); (n_qFrequencyExponent, VFloat n_0_0); (n_qConstantImpedance, VFloat n_0_0); (n_qConstantPower, VFloat n_0_0); (n_pConstantCurrent, VFloat n_0_0); (n_qVoltageExponent, VFloat n_0_0); (n_pConstantImpedance, VFloat n_0_0); (n_qConstantCurrent, VFloat n_0_0)]
    []
    [n_EnergyConsumer]
    [n_EnergyConsumer]
    [(n_EnergyConsumer, PManyOne n_LoadResponse)];
(* CIM15/CDPSM/Balanced/IEC61970/Wires/ACLineSegment.py:23-62 *)
  Cls n_CIM15_CDPSM_Balanced_IEC61970_Wires_ACLineSegment_ACLineSegment n_ACLineSegment (Some n_CIM15_CDPSM_Balanced_IEC61970_Core_IdentifiedObject_IdentifiedObject)
    [(n_x0, VFloat n_0_0); (n_bch, VFloat n_0_0); (n_b0ch, VFloat n_0_0); (n_r, VFloat n_0_0); (n_r0, VFloat n_0_0); (n_x, VFloat n_0_0)]
    [SAttr n_x0; SAttr n_bch; SAttr n_b0ch; SAttr n_r; SAttr n_r0; SAttr n_x]
    true true
    [n_x0; n_bch; n_b0ch; n_r; n_r0; n_x]
    [(n_x0, VFloat n_0_0); (n_bch, VFloat n_0_0); (n_b0ch, VFloat n_0_0); (n_r, VFloat n_0_0); (n_r0, VFloat n_0_0); (n_x, VFloat n_0_0)]
    []
    []
    []
    [];
(* CIM15/CDPSM/Balanced/IEC61970/Wires/DCLineSegment.py:23-38 *)
  Cls n_CIM15_CDPSM_Balanced_IEC61970_Wires_DCLineSegment_DCLineSegment n_DCLineSegment (Some n_CIM15_CDPSM_Balanced_IEC61970_Core_IdentifiedObject_IdentifiedObject)
    []
    []
    true true
    []
    []
    []
    []
    []
    [];
(* CIM15/CDPSM/Balanced/IEC61970/Wires/EnergyConsumer.py:23-79 *)
  Cls n_CIM15_CDPSM_Balanced_IEC61970_Wires_EnergyConsumer_EnergyConsumer n_EnergyConsumer (Some n_CIM15_CDPSM_Balanced_IEC61970_Core_IdentifiedObject_IdentifiedObject)
    [(n_customerCount, VInt 0); (n_pfixedPct, VFloat n_0_0); (n_qfixedPct, VFloat n_0_0); (n_qfixed, VFloat n_0_0); (n_pfixed, VFloat n_0_0); (n_LoadResponse, VNone)]
    [SAttr n_customerCount; SAttr n_pfixedPct; SAttr n_qfixedPct; SAttr n_qfixed; SAttr n_pfixed; SOne n_LoadResponse]
    true true
    [n_customerCount; n_pfixedPct; n_qfixedPct; n_qfixed; n_pfixed]
    [(n_customerCount, VInt 0); (n_pfixedPct, VFloat n_0_0); (n_qfixedPct, VFloat n_0_0); (n_qfixed, VFloat n_0_0); (n_pfixed, VFloat n_0_0)]
    []
    [n_LoadResponse]
    []
    [(n_LoadResponse, POneMany n_EnergyConsumer)];
(* CIM15/CDPSM/Balanced/IEC61970/Wires/EnergySource.py:23-58 *)
  Cls n_CIM15_CDPSM_Balanced_IEC61970_Wires_EnergySource_EnergySource n_EnergySource (Some n_CIM15_CDPSM_Balanced_IEC61970_Core_IdentifiedObject_IdentifiedObject)
    [(n_voltageMagnitude, VFloat n_0_0); (n_x, VFloat n_0_0); (n_r, VFloat n_0_0); (n_nominalVoltage, VFloat n_0_0); (n_voltageAngle, VFloat n_0_0)]
    [SAttr n_voltageMagnitude; SAttr n_x; SAttr n_r; SAttr n_nominalVoltage; SAttr n_voltageAngle]
    true true
    [n_voltageMagnitude; n_x; n_r; n_nominalVoltage; n_voltageAngle]
    [(n_voltageMagnitude, VFloat n_0_0); (n_x, VFloat n_0_0); (n_r, VFloat n_0_0); (n_nominalVoltage, VFloat n_0_0); (n_voltageAngle, VFloat n_0_0)]
    []
    []
    []
    [];
(* CIM15/CDPSM/Balanced/IEC61970/Wires/PhaseTapChanger.py:23-38 *)
  Cls n_CIM15_CDPSM_Balanced_IEC61970_Wires_PhaseTapChanger_PhaseTapChanger n_PhaseTapChanger (Some n_CIM15_CDPSM_Balanced_IEC61970_Wires_TapChanger_TapChanger)
    []
    []
    true true
    []
    []
    []
    []
    []
    [];
(* CIM15/CDPSM/Balanced/IEC61970/Wires/PhaseTapChangerAsymetrical.py:23-42 *)
  Cls n_CIM15_CDPSM_Balanced_IEC61970_Wires_PhaseTapChangerAsymetrical_PhaseTapChangerAsymetrical n_PhaseTapChangerAsymetrical (Some n_CIM15_CDPSM_Balanced_IEC61970_Wires_PhaseTapChangerNonLinear_PhaseTapChangerNonLinear)
    [(n_windingConnectionAngle, VFloat n_0_0)]
    [SAttr n_windingConnectionAngle]
    true true
    [n_windingConnectionAngle]
    [(n_windingConnectionAngle, VFloat n_0_0)]
    []
    []
    []
    [];
(* CIM15/CDPSM/Balanced/IEC61970/Wires/PhaseTapChangerLinear.py:23-42 *)
  Cls n_CIM15_CDPSM_Balanced_IEC61970_Wires_PhaseTapChangerLinear_PhaseTapChangerLinear n_PhaseTapChangerLinear (Some n_CIM15_CDPSM_Balanced_IEC61970_Wires_PhaseTapChanger_PhaseTapChanger)
    [(n_stepPhaseShiftIncrement, VFloat n_0_0)]
    [SAttr n_stepPhaseShiftIncrement]
    true true
    [n_stepPhaseShiftIncrement]
    [(n_stepPhaseShiftIncrement, VFloat n_0_0)]
    []
    []
    []
    [];
(* CIM15/CDPSM/Balanced/IEC61970/Wires/PhaseTapChangerNonLinear.py:23-42 *)
  Cls n_CIM15_CDPSM_Balanced_IEC61970_Wires_PhaseTapChangerNonLinear_PhaseTapChangerNonLinear n_PhaseTapChangerNonLinear (Some n_CIM15_CDPSM_Balanced_IEC61970_Wires_PhaseTapChanger_PhaseTapChanger)
    [(n_voltageStepIncrement, VFloat n_0_0)]
    [SAttr n_voltageStepIncrement]
    true true
    [n_voltageStepIncrement]
    [(n_voltageStepIncrement, VFloat n_0_0)]
    []
    []
    []
    [];
(* CIM15/CDPSM/Balanced/IEC61970/Wires/PhaseTapChangerSymetrical.py:23-38 *)
  Cls n_CIM15_CDPSM_Balanced_IEC61970_Wires_PhaseTapChangerSymetrical_PhaseTapChangerSymetrical n_PhaseTapChangerSymetrical (Some n_CIM15_CDPSM_Balanced_IEC61970_Wires_PhaseTapChangerNonLinear_PhaseTapChangerNonLinear)
    []
    []
    true true
    []
    []
    []
    []
    []
    [];
(* CIM15/CDPSM/Balanced/IEC61970/Wires/PowerTransformer.py:23-38 *)
  Cls n_CIM15_CDPSM_Balanced_IEC61970_Wires_PowerTransformer_PowerTransformer n_PowerTransformer (Some n_CIM15_CDPSM_Balanced_IEC61970_Core_IdentifiedObject_IdentifiedObject)
    []
    []
    true true
    []
    []
    []
    []
    []
    [];
(* CIM15/CDPSM/Balanced/IEC61970/Wires/PowerTransformerEnd.py:23-82 *)
  Cls n_CIM15_CDPSM_Balanced_IEC61970_Wires_PowerTransformerEnd_PowerTransformerEnd n_PowerTransformerEnd (Some n_CIM15_CDPSM_Balanced_IEC61970_Wires_TransformerEnd_TransformerEnd)
    [(n_g0, VFloat n_0_0); (n_ratedS, VFloat n_0_0); (n_b0, VFloat n_0_0); (n_r0, VFloat n_0_0); (n_connectionKind, VStr n_Z); (n_b, VFloat n_0_0); (n_r, VFloat n_0_0); (n_ratedU, VFloat n_0_0); (n_x0, VFloat n_0_0); (n_x, VFloat n_0_0); (n_g, VFloat n_0_0)]
    [SAttr n_g0; SAttr n_ratedS; SAttr n_b0; SAttr n_r0; SAttr n_connectionKind; SAttr n_b; SAttr n_r; SAttr n_ratedU; SAttr n_x0; SAttr n_x; SAttr n_g]
    true true
    [n_g0; n_ratedS; n_b0; n_r0; n_connectionKind; n_b; n_r; n_ratedU; n_x0; n_x; n_g]
    [(n_g0, VFloat n_0_0); (n_ratedS, VFloat n_0_0); (n_b0, VFloat n_0_0); (n_r0, VFloat n_0_0); (n_connectionKind, VStr n_Z); (n_b, VFloat n_0_0); (n_r, VFloat n_0_0); (n_ratedU, VFloat n_0_0); (n_x0, VFloat n_0_0); (n_x, VFloat n_0_0); (n_g, VFloat n_0_0)]
    [(n_connectionKind, n_WindingConnection)]
    []
    []
    [];
(* CIM15/CDPSM/Balanced/IEC61970/Wires/ProtectedSwitch.py:23-42 *)
  Cls n_CIM15_CDPSM_Balanced_IEC61970_Wires_ProtectedSwitch_ProtectedSwitch n_ProtectedSwitch (Some n_CIM15_CDPSM_Balanced_IEC61970_Core_IdentifiedObject_IdentifiedObject)
    [(n_breakingCapacity, VFloat n_0_0)]
    [SAttr n_breakingCapacity]
    true true
    [n_breakingCapacity]
    [(n_breakingCapacity, VFloat n_0_0)]
    []
    []
    []
    [];
(* CIM15/CDPSM/Balanced/IEC61970/Wires/RatioTapChanger.py:23-46 *)
  Cls n_CIM15_CDPSM_Balanced_IEC61970_Wires_RatioTapChanger_RatioTapChanger n_RatioTapChanger (Some n_CIM15_CDPSM_Balanced_IEC61970_Wires_TapChanger_TapChanger)
    [(n_stepVoltageIncrement, VFloat n_0_0); (n_tculControlMode, VStr n_reactive)]
    [SAttr n_stepVoltageIncrement; SAttr n_tculControlMode]
    true true
    [n_stepVoltageIncrement; n_tculControlMode]
    [(n_stepVoltageIncrement, VFloat n_0_0); (n_tculControlMode, VStr n_reactive)]
    [(n_tculControlMode, n_TransformerControlMode)]
    []
    []
    [];
(* CIM15/CDPSM/Balanced/IEC61970/Wires/SeriesCompensator.py:23-46 *)
  Cls n_CIM15_CDPSM_Balanced_IEC61970_Wires_SeriesCompensator_SeriesCompensator n_SeriesCompensator (Some n_CIM15_CDPSM_Balanced_IEC61970_Core_IdentifiedObject_IdentifiedObject)
    [(n_x, VFloat n_0_0); (n_r, VFloat n_0_0)]
    [SAttr n_x; SAttr n_r]
    true true
    [n_x; n_r]
    [(n_x, VFloat n_0_0); (n_r, VFloat n_0_0)]
    []
    []
    []
    [];
(* CIM15/CDPSM/Balanced/IEC61970/Wires/ShuntCompensator.py:23-86 *)
  Cls n_CIM15_CDPSM_Balanced_IEC61970_Wires_ShuntCompensator_ShuntCompensator n_ShuntCompensator (Some n_CIM15_CDPSM_Balanced_IEC61970_Core_IdentifiedObject_IdentifiedObject)
    [(n_nomQ, VFloat n_0_0); (n_maxU, VFloat n_0_0); (n_g0PerSection, VFloat n_0_0); (n_gPerSection, VFloat n_0_0); (n_minU, VFloat n_0_0); (n_bPerSection, VFloat n_0_0); (n_reactivePerSection, VFloat n_0_0); (n_voltageSensitivity, VFloat n_0_0); (n_nomU, VFloat n_0_0); (n_normalSections, VInt 0); (n_b0PerSection, VFloat n_0_0); (n_maximumSections, VInt 0)]
    [SAttr n_nomQ; SAttr n_maxU; SAttr n_g0PerSection; SAttr n_gPerSection; SAttr n_minU; SAttr n_bPerSection; SAttr n_reactivePerSection; SAttr n_voltageSensitivity; SAttr n_nomU; SAttr n_normalSections; SAttr n_b0PerSection; SAttr n_maximumSections]
    true true
    [n_nomQ; n_maxU; n_g0PerSection; n_gPerSection; n_minU; n_bPerSection; n_reactivePerSection; n_voltageSensitivity; n_nomU; n_normalSections; n_b0PerSection; n_maximumSections]
    [(n_nomQ, VFloat n_0_0); (n_maxU, VFloat n_0_0); (n_g0PerSection, VFloat n_0_0); (n_gPerSection, VFloat n_0_0); (n_minU, VFloat n_0_0); (n_bPerSection, VFloat n_0_0); (n_reactivePerSection, VFloat n_0_0); (n_voltageSensitivity, VFloat n_0_0); (n_nomU, VFloat n_0_0); (n_normalSections, VInt 0); (n_b0PerSection, VFloat n_0_0); (n_maximumSections, VInt 0)]
    []
    []
    []
    [];
(* CIM15/CDPSM/Balanced/IEC61970/Wires/SynchronousMachine.py:23-79 *)
  Cls n_CIM15_CDPSM_Balanced_IEC61970_Wires_SynchronousMachine_SynchronousMachine n_SynchronousMachine (Some n_CIM15_CDPSM_Balanced_IEC61970_Core_IdentifiedObject_IdentifiedObject)
    [(n_operatingMode, VStr n_condenser); (n_maxQ, VFloat n_0_0); (n_baseQ, VFloat n_0_0); (n_minQ, VFloat n_0_0); (n_type, VStr n_condenser); (n_GeneratingUnit, VNone)]
    [SAttr n_operatingMode; SAttr n_maxQ; SAttr n_baseQ; SAttr n_minQ; SAttr n_type; SOne n_GeneratingUnit]
    true true
    [n_operatingMode; n_maxQ; n_baseQ; n_minQ; n_type]
    [(n_operatingMode, VStr n_condenser); (n_maxQ, VFloat n_0_0); (n_baseQ, VFloat n_0_0); (n_minQ, VFloat n_0_0); (n_type, VStr n_condenser)]
    [(n_operatingMode, n_SynchronousMachineOperatingMode); (n_type, n_SynchronousMachineType)]
    [n_GeneratingUnit]
    []
    [(n_GeneratingUnit, POneMany n_SynchronousMachines)];
(* CIM15/CDPSM/Balanced/IEC61970/Wires/TapChanger.py:23-58 *)
  Cls n_CIM15_CDPSM_Balanced_IEC61970_Wires_TapChanger_TapChanger n_TapChanger (Some n_CIM15_CDPSM_Balanced_IEC61970_Core_IdentifiedObject_IdentifiedObject)
    [(n_neutralU, VFloat n_0_0); (n_lowStep, VInt 0); (n_normalStep, VInt 0); (n_neutralStep, VInt 0); (n_highStep, VInt 0)]
    [SAttr n_neutralU; SAttr n_lowStep; SAttr n_normalStep; SAttr n_neutralStep; SAttr n_highStep]
    true true
    [n_neutralU; n_lowStep; n_normalStep; n_neutralStep; n_highStep]
    [(n_neutralU, VFloat n_0_0); (n_lowStep, VInt 0); (n_normalStep, VInt 0); (n_neutralStep, VInt 0); (n_highStep, VInt 0)]
    []
    []
    []
    [];
(* CIM15/CDPSM/Balanced/IEC61970/Wires/TransformerCoreAdmittance.py:23-78 *)
  Cls n_CIM15_CDPSM_Balanced_IEC61970_Wires_TransformerCoreAdmittance_TransformerCoreAdmittance n_TransformerCoreAdmittance (Some n_CIM15_CDPSM_Balanced_IEC61970_Core_IdentifiedObject_IdentifiedObject)
    [(n_g0, VFloat n_0_0); (n_g, VFloat n_0_0); (n_b, VFloat n_0_0); (n_b0, VFloat n_0_0); (n_TransformerEnd, VNone)]
    [SAttr n_g0; SAttr n_g; SAttr n_b; SAttr n_b0; SMany n_TransformerEnd]
    true true
    [n_g0; n_g; n_b; n_b0]
    [(n_g0, VFloat n_0_0); (n_g, VFloat n_0_0); (n_b, VFloat n_0_0); (n_b0, VFloat n_0_0)]
    []
    [n_TransformerEnd]
    [n_TransformerEnd]
    [(n_TransformerEnd, PManyOne n_CoreAdmittance)];
(* CIM15/CDPSM/Balanced/IEC61970/Wires/TransformerEnd.py:23-138 *)
  Cls n_CIM15_CDPSM_Balanced_IEC61970_Wires_TransformerEnd_TransformerEnd n_TransformerEnd (Some n_CIM15_CDPSM_Balanced_IEC61970_Core_IdentifiedObject_IdentifiedObject)
    [(n_FromMeshImpedance, VNone); (n_ToMeshImpedance, VNone); (n_CoreAdmittance, VNone); (n_StarImpedance, VNone)]
    [SMany n_FromMeshImpedance; SMany n_ToMeshImpedance; SOne n_CoreAdmittance; SOne n_StarImpedance]
    true true
    []
    []
    []
    [n_FromMeshImpedance; n_ToMeshImpedance; n_CoreAdmittance; n_StarImpedance]
    [n_FromMeshImpedance; n_ToMeshImpedance]
    [(n_FromMeshImpedance, PManyOne n_FromTransformerEnd); (n_ToMeshImpedance, PManyMany n_ToTransformerEnd); (n_CoreAdmittance, POneMany n_TransformerEnd); (n_StarImpedance, POneMany n_TransformerEnd)];
(* CIM15/CDPSM/Balanced/IEC61970/Wires/TransformerMeshImpedance.py:23-107 *)
  Cls n_CIM15_CDPSM_Balanced_IEC61970_Wires_TransformerMeshImpedance_TransformerMeshImpedance n_TransformerMeshImpedance (Some n_CIM15_CDPSM_Balanced_IEC61970_Core_IdentifiedObject_IdentifiedObject)
    [(n_r, VFloat n_0_0); (n_x, VFloat n_0_0); (n_x0, VFloat n_0_0); (n_r0, VFloat n_0_0); (n_FromTransformerEnd, VNone); (n_ToTransformerEnd, VNone)]
    [SAttr n_r; SAttr n_x; SAttr n_x0; SAttr n_r0; SOne n_FromTransformerEnd; SMany n_ToTransformerEnd]
    true true
    [n_r; n_x; n_x0; n_r0]
    [(n_r, VFloat n_0_0); (n_x, VFloat n_0_0); (n_x0, VFloat n_0_0); (n_r0, VFloat n_0_0)]
    []
    [n_FromTransformerEnd; n_ToTransformerEnd]
    [n_ToTransformerEnd]
    [(n_FromTransformerEnd, POneMany n_FromMeshImpedance); (n_ToTransformerEnd, PManyMany n_ToMeshImpedance)];
(* CIM15/CDPSM/Balanced/IEC61970/Wires/TransformerStarImpedance.py:23-80 *)
  Cls n_CIM15_CDPSM_Balanced_IEC61970_Wires_TransformerStarImpedance_TransformerStarImpedance n_TransformerStarImpedance (Some n_CIM15_CDPSM_Balanced_IEC61970_Core_IdentifiedObject_IdentifiedObject)
    [(n_x0, VFloat n_0_0); (n_x, VFloat n_0_0); (n_r0, VFloat n_0_0); (n_r, VFloat n_0_0); (n_TransformerEnd, VNone)]
    [SAttr n_x0; SAttr n_x; SAttr n_r0; SAttr n_r; SMany n_TransformerEnd]
    true true
    [n_x0; n_x; n_r0; n_r]
    [(n_x0, VFloat n_0_0); (n_x, VFloat n_0_0); (n_r0, VFloat n_0_0); (n_r, VFloat n_0_0)]
    []
    [n_TransformerEnd]
    [n_TransformerEnd]
    [(n_TransformerEnd, PManyOne n_StarImpedance)];
(* CIM15/CDPSM/Balanced/IEC61970/Wires/TransformerTankEnd.py:23-38 *)
  Cls n_CIM15_CDPSM_Balanced_IEC61970_Wires_TransformerTankEnd_TransformerTankEnd n_TransformerTankEnd (Some n_CIM15_CDPSM_Balanced_IEC61970_Wires_TransformerEnd_TransformerEnd)
    []
    []
    true true
    []
    []
    []
    []
    []
    []
].

(** packageMap, CIM15/CDPSM/Balanced/__init__.py:29-58: tag to the class that the package exports under that name. *)
Definition cim15_cdpsm_balanced_map : list (name * name) := [
  (n_Element, n_CIM15_CDPSM_Balanced_Element_Element);
  (n_PhaseTapChangerLinear, n_CIM15_CDPSM_Balanced_IEC61970_Wires_PhaseTapChangerLinear_PhaseTapChangerLinear);
  (n_EnergyConsumer, n_CIM15_CDPSM_Balanced_IEC61970_Wires_EnergyConsumer_EnergyConsumer);
  (n_ACLineSegment, n_CIM15_CDPSM_Balanced_IEC61970_Wires_ACLineSegment_ACLineSegment);
  (n_TransformerCoreAdmittance, n_CIM15_CDPSM_Balanced_IEC61970_Wires_TransformerCoreAdmittance_TransformerCoreAdmittance);
  (n_SynchronousMachine, n_CIM15_CDPSM_Balanced_IEC61970_Wires_SynchronousMachine_SynchronousMachine);
  (n_PowerTransformerEnd, n_CIM15_CDPSM_Balanced_IEC61970_Wires_PowerTransformerEnd_PowerTransformerEnd);
  (n_PhaseTapChangerAsymetrical, n_CIM15_CDPSM_Balanced_IEC61970_Wires_PhaseTapChangerAsymetrical_PhaseTapChangerAsymetrical);
  (n_TransformerMeshImpedance, n_CIM15_CDPSM_Balanced_IEC61970_Wires_TransformerMeshImpedance_TransformerMeshImpedance);
  (n_ProtectedSwitch, n_CIM15_CDPSM_Balanced_IEC61970_Wires_ProtectedSwitch_ProtectedSwitch);
  (n_PhaseTapChangerNonLinear, n_CIM15_CDPSM_Balanced_IEC61970_Wires_PhaseTapChangerNonLinear_PhaseTapChangerNonLinear);
  (n_RatioTapChanger, n_CIM15_CDPSM_Balanced_IEC61970_Wires_RatioTapChanger_RatioTapChanger);
  (n_SeriesCompensator, n_CIM15_CDPSM_Balanced_IEC61970_Wires_SeriesCompensator_SeriesCompensator);
  (n_PhaseTapChanger, n_CIM15_CDPSM_Balanced_IEC61970_Wires_PhaseTapChanger_PhaseTapChanger);
  (n_TransformerTankEnd, n_CIM15_CDPSM_Balanced_IEC61970_Wires_TransformerTankEnd_TransformerTankEnd);
  (n_DCLineSegment, n_CIM15_CDPSM_Balanced_IEC61970_Wires_DCLineSegment_DCLineSegment);
  (n_TapChanger, n_CIM15_CDPSM_Balanced_IEC61970_Wires_TapChanger_TapChanger);
  (n_PhaseTapChangerSymetrical, n_CIM15_CDPSM_Balanced_IEC61970_Wires_PhaseTapChangerSymetrical_PhaseTapChangerSymetrical);
  (n_TransformerStarImpedance, n_CIM15_CDPSM_Balanced_IEC61970_Wires_TransformerStarImpedance_TransformerStarImpedance);
  (n_PowerTransformer, n_CIM15_CDPSM_Balanced_IEC61970_Wires_PowerTransformer_PowerTransformer);
  (n_TransformerEnd, n_CIM15_CDPSM_Balanced_IEC61970_Wires_TransformerEnd_TransformerEnd);
  (n_EnergySource, n_CIM15_CDPSM_Balanced_IEC61970_Wires_EnergySource_EnergySource);
  (n_ShuntCompensator, n_CIM15_CDPSM_Balanced_IEC61970_Wires_ShuntCompensator_ShuntCompensator);
  (n_LoadResponseCharacteristic, n_CIM15_CDPSM_Balanced_IEC61970_LoadModel_LoadResponseCharacteristic_LoadResponseCharacteristic);
  (n_GeneratingUnit, n_CIM15_CDPSM_Balanced_IEC61970_Generation_Production_GeneratingUnit_GeneratingUnit);
  (n_NameType, n_CIM15_CDPSM_Balanced_IEC61970_Core_NameType_NameType);
  (n_IdentifiedObject, n_CIM15_CDPSM_Balanced_IEC61970_Core_IdentifiedObject_IdentifiedObject);
  (n_Name, n_CIM15_CDPSM_Balanced_IEC61970_Core_Name_Name)
].

(** nsURI and nsPrefix, CIM15/CDPSM/Balanced/__init__.py. *)
Definition cim15_cdpsm_balanced_uri : name := n_http___iec_ch_TC57_2010_CIM_schema_cim15_profile_http___iec_ch_TC57_2011_iec61968_13_CDPSM_Balanced.
Definition cim15_cdpsm_balanced_prefix : name := n_balanced.

(** Class table of CIM15.CDPSM.Connectivity: 46 classes. *)
Definition cim15_cdpsm_connectivity : schema := [
(* CIM15/CDPSM/Connectivity/Element.py:22-38 *)
  Cls n_CIM15_CDPSM_Connectivity_Element_Element n_Element None
    [(n_UUID, VStr n_)]
    [SAttr n_UUID]
    false true
    [n_UUID]
    [(n_UUID, VStr n_)]
    []
    []
    []
    [];
(* CIM15/CDPSM/Connectivity/IEC61970/Core/BaseVoltage.py:23-94 *)
  Cls n_CIM15_CDPSM_Connectivity_IEC61970_Core_BaseVoltage_BaseVoltage n_BaseVoltage (Some n_CIM15_CDPSM_Connectivity_IEC61970_Core_IdentifiedObject_IdentifiedObject)
    [(n_nominalVoltage, VFloat n_0_0); (n_ConductingEquipment, VNone); (n_VoltageLevel, VNone)]
    [SAttr n_nominalVoltage; SMany n_ConductingEquipment; SMany n_VoltageLevel]
    true true
    [n_nominalVoltage]
    [(n_nominalVoltage, VFloat n_0_0)]
    []
    [n_ConductingEquipment; n_VoltageLevel]
    [n_ConductingEquipment; n_VoltageLevel]
    [(n_ConductingEquipment, PManyOne n_BaseVoltage); (n_VoltageLevel, PManyOne n_BaseVoltage)];
(* CIM15/CDPSM/Connectivity/IEC61970/Core/Bay.py:23-80 *)
  Cls n_CIM15_CDPSM_Connectivity_IEC61970_Core_Bay_Bay n_Bay (Some n_CIM15_CDPSM_Connectivity_IEC61970_Core_EquipmentContainer_EquipmentContainer)
    [(n_VoltageLevel, VNone); (n_Substation, VNone)]
    [SOne n_VoltageLevel; SOne n_Substation]
    true true
    []
    []
    []
    [n_VoltageLevel; n_Substation]
    []
    [(n_VoltageLevel, POneMany n_Bays); (n_Substation, POneMany n_Bays)];
(* CIM15/CDPSM/Connectivity/IEC61970/Core/ConductingEquipment.py:23-64 *)
  Cls n_CIM15_CDPSM_Connectivity_IEC61970_Core_ConductingEquipment_ConductingEquipment n_ConductingEquipment (Some n_CIM15_CDPSM_Connectivity_IEC61970_Core_Equipment_Equipment)
    [(n_Terminals, VNone)]
    [SMany n_Terminals]
    true true
    []
    []
    []
    [n_Terminals]
    [n_Terminals]
    [(n_Terminals, PManyOne n_ConductingEquipment)];
(* CIM15/CDPSM/Connectivity/IEC61970/Core/ConnectivityNode.py:23-85 *)
  Cls n_CIM15_CDPSM_Connectivity_IEC61970_Core_ConnectivityNode_ConnectivityNode n_ConnectivityNode (Some n_CIM15_CDPSM_Connectivity_IEC61970_Core_IdentifiedObject_IdentifiedObject)
    [(n_ConnectivityNodeContainer, VNone); (n_Terminals, VNone)]
    [SOne n_ConnectivityNodeContainer; SMany n_Terminals]
    true true
    []
    []
    []
    [n_ConnectivityNodeContainer; n_Terminals]
    [n_Terminals]
    [(n_ConnectivityNodeContainer, POneMany n_ConnectivityNodes); (n_Terminals, PManyOne n_ConnectivityNode)];
(* CIM15/CDPSM/Connectivity/IEC61970/Core/ConnectivityNodeContainer.py:23-64 *)
  Cls n_CIM15_CDPSM_Connectivity_IEC61970_Core_ConnectivityNodeContainer_ConnectivityNodeContainer n_ConnectivityNodeContainer (Some n_CIM15_CDPSM_Connectivity_IEC61970_Core_PowerSystemResource_PowerSystemResource)
    [(n_ConnectivityNodes, VNone)]
    [SMany n_ConnectivityNodes]
    true true
    []
    []
    []
    [n_ConnectivityNodes]
    [n_ConnectivityNodes]
    [(n_ConnectivityNodes, PManyOne n_ConnectivityNodeContainer)];
(* CIM15/CDPSM/Connectivity/IEC61970/Core/Equipment.py:23-59 *)
  Cls n_CIM15_CDPSM_Connectivity_IEC61970_Core_Equipment_Equipment n_Equipment (Some n_CIM15_CDPSM_Connectivity_IEC61970_Core_PowerSystemResource_PowerSystemResource)
    [(n_EquipmentContainer, VNone)]
    [SOne n_EquipmentContainer]
    true true
    []
    []
    []
    [n_EquipmentContainer]
    []
    [(n_EquipmentContainer, POneMany n_Equipments)];
(* CIM15/CDPSM/Connectivity/IEC61970/Core/EquipmentContainer.py:23-64 *)
  Cls n_CIM15_CDPSM_Connectivity_IEC61970_Core_EquipmentContainer_EquipmentContainer n_EquipmentContainer (Some n_CIM15_CDPSM_Connectivity_IEC61970_Core_ConnectivityNodeContainer_ConnectivityNodeContainer)
    [(n_Equipments, VNone)]
    [SMany n_Equipments]
    true true
    []
    []
    []
    [n_Equipments]
    [n_Equipments]
    [(n_Equipments, PManyOne n_EquipmentContainer)];
(* CIM15/CDPSM/Connectivity/IEC61970/Core/GeographicalRegion.py:23-64 *)
  Cls n_CIM15_CDPSM_Connectivity_IEC61970_Core_GeographicalRegion_GeographicalRegion n_GeographicalRegion (Some n_CIM15_CDPSM_Connectivity_IEC61970_Core_IdentifiedObject_IdentifiedObject)
    [(n_Regions, VNone)]
    [SMany n_Regions]
    true true
    []
    []
    []
    [n_Regions]
    [n_Regions]
    [(n_Regions, PManyOne n_Region)];
(* CIM15/CDPSM/Connectivity/IEC61970/Core/IdentifiedObject.py:23-72 *)
  Cls n_CIM15_CDPSM_Connectivity_IEC61970_Core_IdentifiedObject_IdentifiedObject n_IdentifiedObject (Some n_CIM15_CDPSM_Connectivity_Element_Element)
    [(n_name, VStr n_); (n_aliasName, VStr n_); (n_Names, VNone)]
    [SAttr n_name; SAttr n_aliasName; SMany n_Names]
    true true
    [n_name; n_aliasName]
    [(n_name, VStr n_); (n_aliasName, VStr n_)]
    []
    [n_Names]
    [n_Names]
    [(n_Names, PManyOne n_IdentifiedObject)];
(* CIM15/CDPSM/Connectivity/IEC61970/Core/Name.py:23-84 *)
  Cls n_CIM15_CDPSM_Connectivity_IEC61970_Core_Name_Name n_Name (Some n_CIM15_CDPSM_Connectivity_Element_Element)
    [(n_name, VStr n_); (n_IdentifiedObject, VNone); (n_NameType, VNone)]
    [SAttr n_name; SOne n_IdentifiedObject; SOne n_NameType]
    true true
    [n_name]
    [(n_name, VStr n_)]
    []
    [n_IdentifiedObject; n_NameType]
    []
    [(n_IdentifiedObject, POneMany n_Names); (n_NameType, POneMany n_Names)];
(* CIM15/CDPSM/Connectivity/IEC61970/Core/NameType.py:23-93 *)
  Cls n_CIM15_CDPSM_Connectivity_IEC61970_Core_NameType_NameType n_NameType (Some n_CIM15_CDPSM_Connectivity_Element_Element)
    [(n_name, VStr n_); (n_description, VStr n_); (n_NameTypeAuthority, VNone); (n_Names, VNone)]
    [SAttr n_name; SAttr n_description; SOne n_NameTypeAuthority; SMany n_Names]
    true true
    [n_name; n_description]
    [(n_name, VStr n_); (n_description, VStr n_)]
    []
    [n_NameTypeAuthority; n_Names]
    [n_Names]
    [(n_NameTypeAuthority, POneMany n_NameTypes); (n_Names, PManyOne n_NameType)];
(* CIM15/CDPSM/Connectivity/IEC61970/Core/NameTypeAuthority.py:23-72 *)
  Cls n_CIM15_CDPSM_Connectivity_IEC61970_Core_NameTypeAuthority_NameTypeAuthority n_NameTypeAuthority (Some n_CIM15_CDPSM_Connectivity_Element_Element)
    [(n_name, VStr n_); (n_description, VStr n_); (n_NameTypes, VNone)]
    [SAttr n_name; SAttr n_description; SMany n_NameTypes]
    true true
    [n_name; n_description]
    [(n_name, VStr n_); (n_description, VStr n_)]
    []
    [n_NameTypes]
    [n_NameTypes]
    [(n_NameTypes, PManyOne n_NameTypeAuthority)];
(* CIM15/CDPSM/Connectivity/IEC61970/Core/PSRType.py:23-38 *)
  Cls n_CIM15_CDPSM_Connectivity_IEC61970_Core_PSRType_PSRType n_PSRType (Some n_CIM15_CDPSM_Connectivity_IEC61970_Core_IdentifiedObject_IdentifiedObject)
    []
    []
    true true
    []
    []
    []
    []
    []
    [];
(* CIM15/CDPSM/Connectivity/IEC61970/Core/PowerSystemResource.py:23-38 *)
  Cls n_CIM15_CDPSM_Connectivity_IEC61970_Core_PowerSystemResource_PowerSystemResource n_PowerSystemResource (Some n_CIM15_CDPSM_Connectivity_IEC61970_Core_IdentifiedObject_IdentifiedObject)
    []
    []
    true true
    []
    []
    []
    []
    []
    [];
(* CIM15/CDPSM/Connectivity/IEC61970/Core/SubGeographicalRegion.py:23-111 *)
  Cls n_CIM15_CDPSM_Connectivity_IEC61970_Core_SubGeographicalRegion_SubGeographicalRegion n_SubGeographicalRegion (Some n_CIM15_CDPSM_Connectivity_IEC61970_Core_IdentifiedObject_IdentifiedObject)
    [(n_Lines, VNone); (n_Substations, VNone); (n_Region, VNone)]
    [SMany n_Lines; SMany n_Substations; SOne n_Region]
    true true
    []
    []
    []
    [n_Lines; n_Substations; n_Region]
    [n_Lines; n_Substations]
    [(n_Lines, PManyOne n_Region); (n_Substations, PManyOne n_Region); (n_Region, POneMany n_Regions)];
(* CIM15/CDPSM/Connectivity/IEC61970/Core/Substation.py:23-111 *)
  Cls n_CIM15_CDPSM_Connectivity_IEC61970_Core_Substation_Substation n_Substation (Some n_CIM15_CDPSM_Connectivity_IEC61970_Core_EquipmentContainer_EquipmentContainer)
    [(n_Region, VNone); (n_VoltageLevels, VNone); (n_Bays, VNone)]
    [SOne n_Region; SMany n_VoltageLevels; SMany n_Bays]
    true true
    []
    []
    []
    [n_Region; n_VoltageLevels; n_Bays]
    [n_VoltageLevels; n_Bays]
    [(n_Region, POneMany n_Substations); (n_VoltageLevels, PManyOne n_Substation); (n_Bays, PManyOne n_Substation)];
(* CIM15/CDPSM/Connectivity/IEC61970/Core/Terminal.py:23-110 *)
  Cls n_CIM15_CDPSM_Connectivity_IEC61970_Core_Terminal_Terminal n_Terminal (Some n_CIM15_CDPSM_Connectivity_IEC61970_Core_IdentifiedObject_IdentifiedObject)
    [(n_phases, VStr n_s12N); (n_ConnectivityNode, VNone); (n_TransformerEnd, VNone); (n_ConductingEquipment, VNone)]
    [SAttr n_phases; SOne n_ConnectivityNode; SMany n_TransformerEnd; SOne n_ConductingEquipment]
    true true
    [n_phases]
    [(n_phases, VStr n_s12N)]
    [(n_phases, n_PhaseCode)]
    [n_ConnectivityNode; n_TransformerEnd; n_ConductingEquipment]
    [n_TransformerEnd]
    [(n_ConnectivityNode, POneMany n_Terminals); (n_TransformerEnd, PManyOne n_Terminal); (n_ConductingEquipment, POneMany n_Terminals)];
(* CIM15/CDPSM/Connectivity/IEC61970/Core/VoltageLevel.py:23-114 *)
  Cls n_CIM15_CDPSM_Connectivity_IEC61970_Core_VoltageLevel_VoltageLevel n_VoltageLevel (Some n_CIM15_CDPSM_Connectivity_IEC61970_Core_EquipmentContainer_EquipmentContainer)
    [(n_lowVoltageLimit, VFloat n_0_0); (n_highVoltageLimit, VFloat n_0_0); (n_Bays, VNone); (n_BaseVoltage, VNone); (n_Substation, VNone)]
    [SAttr n_lowVoltageLimit; SAttr n_highVoltageLimit; SMany n_Bays; SOne n_BaseVoltage; SOne n_Substation]
    true true
    [n_lowVoltageLimit; n_highVoltageLimit]
    [(n_lowVoltageLimit, VFloat n_0_0); (n_highVoltageLimit, VFloat n_0_0)]
    []
    [n_Bays; n_BaseVoltage; n_Substation]
    [n_Bays]
    [(n_Bays, PManyOne n_VoltageLevel); (n_BaseVoltage, POneMany n_VoltageLevel); (n_Substation, POneMany n_VoltageLevels)];
(* CIM15/CDPSM/Connectivity/IEC61970/Wires/ACLineSegment.py:23-59 *)
  Cls n_CIM15_CDPSM_Connectivity_IEC61970_Wires_ACLineSegment_ACLineSegment n_ACLineSegment (Some n_CIM15_CDPSM_Connectivity_IEC61970_Wires_Conductor_Conductor)
    [(n_BaseVoltage, VNone)]
    [SOne n_BaseVoltage]
    true true
    []
    []
    []
    [n_BaseVoltage]
    []
    [(n_BaseVoltage, POneMany n_ConductingEquipment)];
(* CIM15/CDPSM/Connectivity/IEC61970/Wires/Breaker.py:23-38 *)
  Cls n_CIM15_CDPSM_Connectivity_IEC61970_Wires_Breaker_Breaker n_Breaker (Some n_CIM15_CDPSM_Connectivity_IEC61970_Wires_Switch_Switch)
    []
    []
    true true
    []
    []
    []
    []
    []
    [];
(* CIM15/CDPSM/Connectivity/IEC61970/Wires/BusbarSection.py:23-38 *)
  Cls n_CIM15_CDPSM_Connectivity_IEC61970_Wires_BusbarSection_BusbarSection n_BusbarSection (Some n_CIM15_CDPSM_Connectivity_IEC61970_Core_ConductingEquipment_ConductingEquipment)
    []
    []
    true true
    []
    []
    []
    []
    []
    [];
(* CIM15/CDPSM/Connectivity/IEC61970/Wires/Conductor.py:23-42 *)
  Cls n_CIM15_CDPSM_Connectivity_IEC61970_Wires_Conductor_Conductor n_Conductor (Some n_CIM15_CDPSM_Connectivity_IEC61970_Core_ConductingEquipment_ConductingEquipment)
    [(n_length, VFloat n_0_0)]
    [SAttr n_length]
    true true
    [n_length]
    [(n_length, VFloat n_0_0)]
    []
    []
    []
    [];
(* CIM15/CDPSM/Connectivity/IEC61970/Wires/DCLineSegment.py:23-38 *)
  Cls n_CIM15_CDPSM_Connectivity_IEC61970_Wires_DCLineSegment_DCLineSegment n_DCLineSegment (Some n_CIM15_CDPSM_Connectivity_IEC61970_Wires_Conductor_Conductor)
    []
    []
    true true
    []
    []
    []
    []
    []
    [];
(* CIM15/CDPSM/Connectivity/IEC61970/Wires/Disconnector.py:23-38 *)
  Cls n_CIM15_CDPSM_Connectivity_IEC61970_Wires_Disconnector_Disconnector n_Disconnector (Some n_CIM15_CDPSM_Connectivity_IEC61970_Wires_Switch_Switch)
    []
    []
    true true
    []
    []
    []
    []
    []
    [];
(* CIM15/CDPSM/Connectivity/IEC61970/Wires/EnergyConsumer.py:23-38 *)
  Cls n_CIM15_CDPSM_Connectivity_IEC61970_Wires_EnergyConsumer_EnergyConsumer n_EnergyConsumer (Some n_CIM15_CDPSM_Connectivity_IEC61970_Core_ConductingEquipment_ConductingEquipment)
    []
    []
    true true
    []
    []
    []
    []
    []
    [];
(* CIM15/CDPSM/Connectivity/IEC61970/Wires/EnergySource.py:23-38 *)
  Cls n_CIM15_CDPSM_Connectivity_IEC61970_Wires_EnergySource_EnergySource n_EnergySource (Some n_CIM15_CDPSM_Connectivity_IEC61970_Core_ConductingEquipment_ConductingEquipment)
    []
    []
    true true
    []
    []
    []
    []
    []
    [];
(* CIM15/CDPSM/Connectivity/IEC61970/Wires/Fuse.py:23-38 *)
  Cls n_CIM15_CDPSM_Connectivity_IEC61970_Wires_Fuse_Fuse n_Fuse (Some n_CIM15_CDPSM_Connectivity_IEC61970_Wires_Switch_Switch)
    []
    []
    true true
    []
    []
    []
    []
    []
    [];
(* CIM15/CDPSM/Connectivity/IEC61970/Wires/Ground.py:23-38 *)
  Cls n_CIM15_CDPSM_Connectivity_IEC61970_Wires_Ground_Ground n_Ground (Some n_CIM15_CDPSM_Connectivity_IEC61970_Core_ConductingEquipment_ConductingEquipment)
    []
    []
    true true
    []
    []
    []
    []
    []
    [];
(* CIM15/CDPSM/Connectivity/IEC61970/Wires/GroundDisconnector.py:23-38 *)
  Cls n_CIM15_CDPSM_Connectivity_IEC61970_Wires_GroundDisconnector_GroundDisconnector n_GroundDisconnector (Some n_CIM15_CDPSM_Connectivity_IEC61970_Wires_Switch_Switch)
    []
    []
    true true
    []
    []
    []
    []
    []
    [];
(* CIM15/CDPSM/Connectivity/IEC61970/Wires/Jumper.py:23-38 *)
  Cls n_CIM15_CDPSM_Connectivity_IEC61970_Wires_Jumper_Jumper n_Jumper (Some n_CIM15_CDPSM_Connectivity_IEC61970_Wires_Switch_Switch)
    []
    []
    true true
    []
    []
    []
    []
    []
    [];
(* CIM15/CDPSM/Connectivity/IEC61970/Wires/Junction.py:23-38 *)
  Cls n_CIM15_CDPSM_Connectivity_IEC61970_Wires_Junction_Junction n_Junction (Some n_CIM15_CDPSM_Connectivity_IEC61970_Core_ConductingEquipment_ConductingEquipment)
    []
    []
    true true
    []
    []
    []
    []
    []
    [];
(* CIM15/CDPSM/Connectivity/IEC61970/Wires/Line.py:23-59 *)
  Cls n_CIM15_CDPSM_Connectivity_IEC61970_Wires_Line_Line n_Line (Some n_CIM15_CDPSM_Connectivity_IEC61970_Core_EquipmentContainer_EquipmentContainer)
    [(n_Region, VNone)]
    [SOne n_Region]
    true true
    []
    []
    []
    [n_Region]
    []
    [(n_Region, POneMany n_Lines)];
(* CIM15/CDPSM/Connectivity/IEC61970/Wires/LoadBreakSwitch.py:23-38 *)
  Cls n_CIM15_CDPSM_Connectivity_IEC61970_Wires_LoadBreakSwitch_LoadBreakSwitch n_LoadBreakSwitch (Some n_CIM15_CDPSM_Connectivity_IEC61970_Wires_Switch_Switch)
    []
    []
    true true
    []
    []
    []
    []
    []
    [];
(* CIM15/CDPSM/Connectivity/IEC61970/Wires/PowerTransformer.py:23-90 *)
  Cls n_CIM15_CDPSM_Connectivity_IEC61970_Wires_PowerTransformer_PowerTransformer n_PowerTransformer (Some n_CIM15_CDPSM_Connectivity_IEC61970_Core_ConductingEquipment_ConductingEquipment)
    [(n_TransformerTanks, VNone); (n_PowerTransformerEnd, VNone)]
    [SMany n_TransformerTanks; SMany n_PowerTransformerEnd]
    true true
    []
    []
    []
    [n_TransformerTanks; n_PowerTransformerEnd]
    [n_TransformerTanks; n_PowerTransformerEnd]
    [(n_TransformerTanks, PManyOne n_PowerTransformer); (n_PowerTransformerEnd, PManyOne n_PowerTransformer)];
(* CIM15/CDPSM/Connectivity/IEC61970/Wires/PowerTransformerEnd.py:23-58 *)
  Cls n_CIM15_CDPSM_Connectivity_IEC61970_Wires_PowerTransformerEnd_PowerTransformerEnd n_PowerTransformerEnd (Some n_CIM15_CDPSM_Connectivity_IEC61970_Wires_TransformerEnd_TransformerEnd)
    [(n_PowerTransformer, VNone)]
    [SOne n_PowerTransformer]
    true true
    []
    []
    []
    [n_PowerTransformer]
    []
    [(n_PowerTransformer, POneMany n_PowerTransformerEnd)];
(* CIM15/CDPSM/Connectivity/IEC61970/Wires/Sectionaliser.py:23-38 *)
  Cls n_CIM15_CDPSM_Connectivity_IEC61970_Wires_Sectionaliser_Sectionaliser n_Sectionaliser (Some n_CIM15_CDPSM_Connectivity_IEC61970_Wires_Switch_Switch)
    []
    []
    true true
    []
    []
    []
    []
    []
    [];
(* CIM15/CDPSM/Connectivity/IEC61970/Wires/SeriesCompensator.py:23-38 *)
  Cls n_CIM15_CDPSM_Connectivity_IEC61970_Wires_SeriesCompensator_SeriesCompensator n_SeriesCompensator (Some n_CIM15_CDPSM_Connectivity_IEC61970_Core_ConductingEquipment_ConductingEquipment)
    []
    []
    true true
    []
    []
    []
    []
    []
    [];
(* CIM15/CDPSM/Connectivity/IEC61970/Wires/ShuntCompensator.py:23-38 *)
  Cls n_CIM15_CDPSM_Connectivity_IEC61970_Wires_ShuntCompensator_ShuntCompensator n_ShuntCompensator (Some n_CIM15_CDPSM_Connectivity_IEC61970_Core_ConductingEquipment_ConductingEquipment)
    []
    []
    true true
    []
    []
    []
    []
    []
    [];
(* CIM15/CDPSM/Connectivity/IEC61970/Wires/Switch.py:23-42 *)
  Cls n_CIM15_CDPSM_Connectivity_IEC61970_Wires_Switch_Switch n_Switch (Some n_CIM15_CDPSM_Connectivity_IEC61970_Core_ConductingEquipment_ConductingEquipment)
    [(n_normalOpen, VBool false)]
    [SAttr n_normalOpen]
    true true
    [n_normalOpen]
    [(n_normalOpen, VBool false)]
    []
    []
    []
    [];
(* CIM15/CDPSM/Connectivity/IEC61970/Wires/SynchronousMachine.py:23-38 *)
  Cls n_CIM15_CDPSM_Connectivity_IEC61970_Wires_SynchronousMachine_SynchronousMachine n_SynchronousMachine (Some n_CIM15_CDPSM_Connectivity_IEC61970_Core_ConductingEquipment_ConductingEquipment)
    []
    []
    true true
    []
    []
    []
    []
    []
    [];
(* CIM15/CDPSM/Connectivity/IEC61970/Wires/TransformerEnd.py:23-59 *)
  Cls n_CIM15_CDPSM_Connectivity_IEC61970_Wires_TransformerEnd_TransformerEnd n_TransformerEnd (Some n_CIM15_CDPSM_Connectivity_IEC61970_Core_IdentifiedObject_IdentifiedObject)
    [(n_Terminal, VNone)]
    [SOne n_Terminal]
    true true
    []
    []
    []
    [n_Terminal]
    []
    [(n_Terminal, POneMany n_TransformerEnd)];
(* CIM15/CDPSM/Connectivity/IEC61970/Wires/TransformerTank.py:23-85 *)
  Cls n_CIM15_CDPSM_Connectivity_IEC61970_Wires_TransformerTank_TransformerTank n_TransformerTank (Some n_CIM15_CDPSM_Connectivity_IEC61970_Core_Equipment_Equipment)
    [(n_PowerTransformer, VNone); (n_TransformerTankEnds, VNone)]
    [SOne n_PowerTransformer; SMany n_TransformerTankEnds]
    true true
    []
    []
    []
    [n_PowerTransformer; n_TransformerTankEnds]
    [n_TransformerTankEnds]
    [(n_PowerTransformer, POneMany n_TransformerTanks); (n_TransformerTankEnds, PManyOne n_TransformerTank)];
(* CIM15/CDPSM/Connectivity/IEC61970/Wires/TransformerTankEnd.py:23-63 *)
  Cls n_CIM15_CDPSM_Connectivity_IEC61970_Wires_TransformerTankEnd_TransformerTankEnd n_TransformerTankEnd (Some n_CIM15_CDPSM_Connectivity_IEC61970_Wires_TransformerEnd_TransformerEnd)
    [(n_phases, VStr n_s12N); (n_TransformerTank, VNone)]
    [SAttr n_phases; SOne n_TransformerTank]
    true true
    [n_phases]
    [(n_phases, VStr n_s12N)]
    [(n_phases, n_PhaseCode)]
    [n_TransformerTank]
    []
    [(n_TransformerTank, POneMany n_TransformerTankEnds)];
(* CIM15/CDPSM/Connectivity/IEC61970/WiresPhaseModel/ShuntCompensatorPhase.py:23-38 *)
  Cls n_CIM15_CDPSM_Connectivity_IEC61970_WiresPhaseModel_ShuntCompensatorPhase_ShuntCompensatorPhase n_ShuntCompensatorPhase (Some n_CIM15_CDPSM_Connectivity_IEC61970_Core_PowerSystemResource_PowerSystemResource)
    []
    []
    true true
    []
    []
    []
    []
    []
    [];
(* CIM15/CDPSM/Connectivity/IEC61970/WiresPhaseModel/SwitchPhase.py:23-38 *)
  Cls n_CIM15_CDPSM_Connectivity_IEC61970_WiresPhaseModel_SwitchPhase_SwitchPhase n_SwitchPhase (Some n_CIM15_CDPSM_Connectivity_IEC61970_Core_PowerSystemResource_PowerSystemResource)
    []
    []
    true true
    []
    []
    []
    []
    []
    []
].

(** packageMap, CIM15/CDPSM/Connectivity/__init__.py:29-76: tag to the class that the package exports under that name. *)
Definition cim15_cdpsm_connectivity_map : list (name * name) := [
  (n_Element, n_CIM15_CDPSM_Connectivity_Element_Element);
  (n_Fuse, n_CIM15_CDPSM_Connectivity_IEC61970_Wires_Fuse_Fuse);
  (n_EnergyConsumer, n_CIM15_CDPSM_Connectivity_IEC61970_Wires_EnergyConsumer_EnergyConsumer);
  (n_Switch, n_CIM15_CDPSM_Connectivity_IEC61970_Wires_Switch_Switch);
  (n_Disconnector, n_CIM15_CDPSM_Connectivity_IEC61970_Wires_Disconnector_Disconnector);
  (n_ACLineSegment, n_CIM15_CDPSM_Connectivity_IEC61970_Wires_ACLineSegment_ACLineSegment);
  (n_SynchronousMachine, n_CIM15_CDPSM_Connectivity_IEC61970_Wires_SynchronousMachine_SynchronousMachine);
  (n_BusbarSection, n_CIM15_CDPSM_Connectivity_IEC61970_Wires_BusbarSection_BusbarSection);
  (n_LoadBreakSwitch, n_CIM15_CDPSM_Connectivity_IEC61970_Wires_LoadBreakSwitch_LoadBreakSwitch);
  (n_TransformerTank, n_CIM15_CDPSM_Connectivity_IEC61970_Wires_TransformerTank_TransformerTank);
  (n_GroundDisconnector, n_CIM15_CDPSM_Connectivity_IEC61970_Wires_GroundDisconnector_GroundDisconnector);
  (n_PowerTransformerEnd, n_CIM15_CDPSM_Connectivity_IEC61970_Wires_PowerTransformerEnd_PowerTransformerEnd);
  (n_Junction, n_CIM15_CDPSM_Connectivity_IEC61970_Wires_Junction_Junction);
  (n_SeriesCompensator, n_CIM15_CDPSM_Connectivity_IEC61970_Wires_SeriesCompensator_SeriesCompensator);
  (n_Breaker, n_CIM15_CDPSM_Connectivity_IEC61970_Wires_Breaker_Breaker);
  (n_TransformerTankEnd, n_CIM15_CDPSM_Connectivity_IEC61970_Wires_TransformerTankEnd_TransformerTankEnd);
  (n_Sectionaliser, n_CIM15_CDPSM_Connectivity_IEC61970_Wires_Sectionaliser_Sectionaliser);
  (n_DCLineSegment, n_CIM15_CDPSM_Connectivity_IEC61970_Wires_DCLineSegment_DCLineSegment);
  (n_Line, n_CIM15_CDPSM_Connectivity_IEC61970_Wires_Line_Line);
  (n_Conductor, n_CIM15_CDPSM_Connectivity_IEC61970_Wires_Conductor_Conductor);
  (n_PowerTransformer, n_CIM15_CDPSM_Connectivity_IEC61970_Wires_PowerTransformer_PowerTransformer);
  (n_Ground, n_CIM15_CDPSM_Connectivity_IEC61970_Wires_Ground_Ground);
  (n_TransformerEnd, n_CIM15_CDPSM_Connectivity_IEC61970_Wires_TransformerEnd_TransformerEnd);
  (n_ShuntCompensator, n_CIM15_CDPSM_Connectivity_IEC61970_Wires_ShuntCompensator_ShuntCompensator);
  (n_EnergySource, n_CIM15_CDPSM_Connectivity_IEC61970_Wires_EnergySource_EnergySource);
  (n_Jumper, n_CIM15_CDPSM_Connectivity_IEC61970_Wires_Jumper_Jumper);
  (n_ShuntCompensatorPhase, n_CIM15_CDPSM_Connectivity_IEC61970_WiresPhaseModel_ShuntCompensatorPhase_ShuntCompensatorPhase);
  (n_SwitchPhase, n_CIM15_CDPSM_Connectivity_IEC61970_WiresPhaseModel_SwitchPhase_SwitchPhase);
  (n_Terminal, n_CIM15_CDPSM_Connectivity_IEC61970_Core_Terminal_Terminal);
  (n_Bay, n_CIM15_CDPSM_Connectivity_IEC61970_Core_Bay_Bay);
  (n_NameTypeAuthority, n_CIM15_CDPSM_Connectivity_IEC61970_Core_NameTypeAuthority_NameTypeAuthority);
  (n_VoltageLevel, n_CIM15_CDPSM_Connectivity_IEC61970_Core_VoltageLevel_VoltageLevel);
  (n_SubGeographicalRegion, n_CIM15_CDPSM_Connectivity_IEC61970_Core_SubGeographicalRegion_SubGeographicalRegion);
  (n_PSRType, n_CIM15_CDPSM_Connectivity_IEC61970_Core_PSRType_PSRType);
  (n_EquipmentContainer, n_CIM15_CDPSM_Connectivity_IEC61970_Core_EquipmentContainer_EquipmentContainer);
  (n_ConductingEquipment, n_CIM15_CDPSM_Connectivity_IEC61970_Core_ConductingEquipment_ConductingEquipment);
  (n_GeographicalRegion, n_CIM15_CDPSM_Connectivity_IEC61970_Core_GeographicalRegion_GeographicalRegion);
  (n_NameType, n_CIM15_CDPSM_Connectivity_IEC61970_Core_NameType_NameType);
  (n_Equipment, n_CIM15_CDPSM_Connectivity_IEC61970_Core_Equipment_Equipment);
  (n_IdentifiedObject, n_CIM15_CDPSM_Connectivity_IEC61970_Core_IdentifiedObject_IdentifiedObject);
  (n_ConnectivityNodeContainer, n_CIM15_CDPSM_Connectivity_IEC61970_Core_ConnectivityNodeContainer_ConnectivityNodeContainer);
  (n_Substation, n_CIM15_CDPSM_Connectivity_IEC61970_Core_Substation_Substation);
  (n_ConnectivityNode, n_CIM15_CDPSM_Connectivity_IEC61970_Core_ConnectivityNode_ConnectivityNode);
  (n_Name, n_CIM15_CDPSM_Connectivity_IEC61970_Core_Name_Name);
  (n_BaseVoltage, n_CIM15_CDPSM_Connectivity_IEC61970_Core_BaseVoltage_BaseVoltage);
  (n_PowerSystemResource, n_CIM15_CDPSM_Connectivity_IEC61970_Core_PowerSystemResource_PowerSystemResource)
].

(** nsURI and nsPrefix, CIM15/CDPSM/Connectivity/__init__.py. *)
Definition cim15_cdpsm_connectivity_uri : name := n_http___iec_ch_TC57_2010_CIM_schema_cim15_profile_http___iec_ch_TC57_2011_iec61968_13_CDPSM_Connectivity.
Definition cim15_cdpsm_connectivity_prefix : name := n_conn.

(** Class table of CIM15.CDPSM.Geographical: 27 classes. *)
Definition cim15_cdpsm_geographical : schema := [
(* CIM15/CDPSM/Geographical/Element.py:22-38 *)
  Cls n_CIM15_CDPSM_Geographical_Element_Element n_Element None
    [(n_UUID, VStr n_)]
    [SAttr n_UUID]
    false true
    [n_UUID]
    [(n_UUID, VStr n_)]
    []
    []
    []
    [];
(* CIM15/CDPSM/Geographical/IEC61968/Common/CoordinateSystem.py:23-68 *)
  Cls n_CIM15_CDPSM_Geographical_IEC61968_Common_CoordinateSystem_CoordinateSystem n_CoordinateSystem (Some n_CIM15_CDPSM_Geographical_IEC61970_Core_IdentifiedObject_IdentifiedObject)
    [(n_crsUrn, VStr n_); (n_Location, VNone)]
    [SAttr n_crsUrn; SMany n_Location]
    true true
    [n_crsUrn]
    [(n_crsUrn, VStr n_)]
    []
    [n_Location]
    [n_Location]
    [(n_Location, PManyOne n_CoordinateSystem)];
(* CIM15/CDPSM/Geographical/IEC61968/Common/Location.py:23-111 *)
  Cls n_CIM15_CDPSM_Geographical_IEC61968_Common_Location_Location n_Location (Some n_CIM15_CDPSM_Geographical_IEC61970_Core_IdentifiedObject_IdentifiedObject)
    [(n_PowerSystemResources, VNone); (n_PositionPoints, VNone); (n_CoordinateSystem, VNone)]
    [SMany n_PowerSystemResources; SMany n_PositionPoints; SOne n_CoordinateSystem]
    true true
    []
    []
    []
    [n_PowerSystemResources; n_PositionPoints; n_CoordinateSystem]
    [n_PowerSystemResources; n_PositionPoints]
    [(n_PowerSystemResources, PManyOne n_Location); (n_PositionPoints, PManyOne n_Location); (n_CoordinateSystem, POneMany n_Location)];
(* CIM15/CDPSM/Geographical/IEC61968/Common/PositionPoint.py:23-75 *)
  Cls n_CIM15_CDPSM_Geographical_IEC61968_Common_PositionPoint_PositionPoint n_PositionPoint (Some n_CIM15_CDPSM_Geographical_Element_Element)
    [(n_xPosition, VStr n_); (n_zPosition, VStr n_); (n_sequenceNumber, VInt 0); (n_yPosition, VStr n_); (n_Location, VNone)]
    [SAttr n_xPosition; SAttr n_zPosition; SAttr n_sequenceNumber; SAttr n_yPosition; SOne n_Location]
    true true
    [n_xPosition; n_zPosition; n_sequenceNumber; n_yPosition]
    [(n_xPosition, VStr n_); (n_zPosition, VStr n_); (n_sequenceNumber, VInt 0); (n_yPosition, VStr n_)]
    []
    [n_Location]
    []
    [(n_Location, POneMany n_PositionPoints)];
(* CIM15/CDPSM/Geographical/IEC61970/Core/ConductingEquipment.py:23-38 *)
  Cls n_CIM15_CDPSM_Geographical_IEC61970_Core_ConductingEquipment_ConductingEquipment n_ConductingEquipment (Some n_CIM15_CDPSM_Geographical_IEC61970_Core_Equipment_Equipment)
    []
    []
    true true
    []
    []
    []
    []
    []
    [];
(* CIM15/CDPSM/Geographical/IEC61970/Core/Equipment.py:23-38 *)
  Cls n_CIM15_CDPSM_Geographical_IEC61970_Core_Equipment_Equipment n_Equipment (Some n_CIM15_CDPSM_Geographical_IEC61970_Core_PowerSystemResource_PowerSystemResource)
    []
    []
    true true
    []
    []
    []
    []
    []
    [];
(* CIM15/CDPSM/Geographical/IEC61970/Core/IdentifiedObject.py:23-72 *)
  Cls n_CIM15_CDPSM_Geographical_IEC61970_Core_IdentifiedObject_IdentifiedObject n_IdentifiedObject (Some n_CIM15_CDPSM_Geographical_Element_Element)
    [(n_aliasName, VStr n_); (n_name, VStr n_); (n_Names, VNone)]
    [SAttr n_aliasName; SAttr n_name; SMany n_Names]
    true true
    [n_aliasName; n_name]
    [(n_aliasName, VStr n_); (n_name, VStr n_)]
    []
    [n_Names]
    [n_Names]
    [(n_Names, PManyOne n_IdentifiedObject)];
(* CIM15/CDPSM/Geographical/IEC61970/Core/Name.py:23-84 *)
  Cls n_CIM15_CDPSM_Geographical_IEC61970_Core_Name_Name n_Name (Some n_CIM15_CDPSM_Geographical_Element_Element)
    [(n_name, VStr n_); (n_NameType, VNone); (n_IdentifiedObject, VNone)]
    [SAttr n_name; SOne n_NameType; SOne n_IdentifiedObject]
    true true
    [n_name]
    [(n_name, VStr n_)]
    []
    [n_NameType; n_IdentifiedObject]
    []
    [(n_NameType, POneMany n_Names); (n_IdentifiedObject, POneMany n_Names)];
(* CIM15/CDPSM/Geographical/IEC61970/Core/NameType.py:23-64 *)
  Cls n_CIM15_CDPSM_Geographical_IEC61970_Core_NameType_NameType n_NameType (Some n_CIM15_CDPSM_Geographical_Element_Element)
    [(n_Names, VNone)]
    [SMany n_Names]
    true true
    []
    []
    []
    [n_Names]
    [n_Names]
    [(n_Names, PManyOne n_NameType)];
(* CIM15/CDPSM/Geographical/IEC61970/Core/PowerSystemResource.py:23-59 *)
  Cls n_CIM15_CDPSM_Geographical_IEC61970_Core_PowerSystemResource_PowerSystemResource n_PowerSystemResource (Some n_CIM15_CDPSM_Geographical_IEC61970_Core_IdentifiedObject_IdentifiedObject)
    [(n_Location, VNone)]
    [SOne n_Location]
    true true
    []
    []
    []
    [n_Location]
    []
    [(n_Location, POneMany n_PowerSystemResources)];
(* CIM15/CDPSM/Geographical/IEC61970/Wires/ACLineSegment.py:23-38 *)
  Cls n_CIM15_CDPSM_Geographical_IEC61970_Wires_ACLineSegment_ACLineSegment n_ACLineSegment (Some n_CIM15_CDPSM_Geographical_IEC61970_Core_ConductingEquipment_ConductingEquipment)
    []
    []
    true true
    []
    []
    []
    []
    []
    [];
(* CIM15/CDPSM/Geographical/IEC61970/Wires/Breaker.py:23-38 *)
  Cls n_CIM15_CDPSM_Geographical_IEC61970_Wires_Breaker_Breaker n_Breaker (Some n_CIM15_CDPSM_Geographical_IEC61970_Core_ConductingEquipment_ConductingEquipment)
    []
    []
    true true
    []
    []
    []
    []
    []
    [];
(* CIM15/CDPSM/Geographical/IEC61970/Wires/BusbarSection.py:23-38 *)
  Cls n_CIM15_CDPSM_Geographical_IEC61970_Wires_BusbarSection_BusbarSection n_BusbarSection (Some n_CIM15_CDPSM_Geographical_IEC61970_Core_ConductingEquipment_ConductingEquipment)
    []
    []
    true true
    []
    []
    []
    []
    []
    [];
(* CIM15/CDPSM/Geographical/IEC61970/Wires/DCLineSegment.py:23-38 *)
  Cls n_CIM15_CDPSM_Geographical_IEC61970_Wires_DCLineSegment_DCLineSegment n_DCLineSegment (Some n_CIM15_CDPSM_Geographical_IEC61970_Core_ConductingEquipment_ConductingEquipment)
    []
    []
    true true
    []
    []
    []
    []
    []
    [];
(* CIM15/CDPSM/Geographical/IEC61970/Wires/Disconnector.py:23-38 *)
  Cls n_CIM15_CDPSM_Geographical_IEC61970_Wires_Disconnector_Disconnector n_Disconnector (Some n_CIM15_CDPSM_Geographical_IEC61970_Core_ConductingEquipment_ConductingEquipment)
    []
    []
    true true
    []
    []
    []
    []
    []
    [];
(* CIM15/CDPSM/Geographical/IEC61970/Wires/EnergyConsumer.py:23-38 *)
  Cls n_CIM15_CDPSM_Geographical_IEC61970_Wires_EnergyConsumer_EnergyConsumer n_EnergyConsumer (Some n_CIM15_CDPSM_Geographical_IEC61970_Core_ConductingEquipment_ConductingEquipment)
    []
    []
    true true
    []
    []
    []
    []
    []
    [];
(* CIM15/CDPSM/Geographical/IEC61970/Wires/EnergySource.py:23-38 *)
  Cls n_CIM15_CDPSM_Geographical_IEC61970_Wires_EnergySource_EnergySource n_EnergySource (Some n_CIM15_CDPSM_Geographical_IEC61970_Core_ConductingEquipment_ConductingEquipment)
    []
    []
    true true
    []
    []
    []
    []
    []
    [];
(* CIM15/CDPSM/Geographical/IEC61970/Wires/Fuse.py:23-38 *)
  Cls n_CIM15_CDPSM_Geographical_IEC61970_Wires_Fuse_Fuse n_Fuse (Some n_CIM15_CDPSM_Geographical_IEC61970_Core_ConductingEquipment_ConductingEquipment)
    []
    []
    true true
    []
    []
    []
    []
    []
    [];
(* CIM15/CDPSM/Geographical/IEC61970/Wires/GroundDisconnector.py:23-38 *)
  Cls n_CIM15_CDPSM_Geographical_IEC61970_Wires_GroundDisconnector_GroundDisconnector n_GroundDisconnector (Some n_CIM15_CDPSM_Geographical_IEC61970_Core_ConductingEquipment_ConductingEquipment)
    []
    []
    true true
    []
    []
    []
    []
    []
    [];
(* CIM15/CDPSM/Geographical/IEC61970/Wires/Jumper.py:23-38 *)
  Cls n_CIM15_CDPSM_Geographical_IEC61970_Wires_Jumper_Jumper n_Jumper (Some n_CIM15_CDPSM_Geographical_IEC61970_Core_ConductingEquipment_ConductingEquipment)
    []
    []
    true true
    []
    []
    []
    []
    []
    [];
(* CIM15/CDPSM/Geographical/IEC61970/Wires/Junction.py:23-38 *)
  Cls n_CIM15_CDPSM_Geographical_IEC61970_Wires_Junction_Junction n_Junction (Some n_CIM15_CDPSM_Geographical_IEC61970_Core_ConductingEquipment_ConductingEquipment)
    []
    []
    true true
    []
    []
    []
    []
    []
    [];
(* CIM15/CDPSM/Geographical/IEC61970/Wires/Line.py:23-38 *)
  Cls n_CIM15_CDPSM_Geographical_IEC61970_Wires_Line_Line n_Line (Some n_CIM15_CDPSM_Geographical_IEC61970_Core_PowerSystemResource_PowerSystemResource)
    []
    []
    true true
    []
    []
    []
    []
    []
    [];
(* CIM15/CDPSM/Geographical/IEC61970/Wires/LoadBreakSwitch.py:23-38 *)
  Cls n_CIM15_CDPSM_Geographical_IEC61970_Wires_LoadBreakSwitch_LoadBreakSwitch n_LoadBreakSwitch (Some n_CIM15_CDPSM_Geographical_IEC61970_Core_ConductingEquipment_ConductingEquipment)
    []
    []
    true true
    []
    []
    []
    []
    []
    [];
(* CIM15/CDPSM/Geographical/IEC61970/Wires/PowerTransformer.py:23-38 *)
  Cls n_CIM15_CDPSM_Geographical_IEC61970_Wires_PowerTransformer_PowerTransformer n_PowerTransformer (Some n_CIM15_CDPSM_Geographical_IEC61970_Core_ConductingEquipment_ConductingEquipment)
    []
    []
    true true
    []
    []
    []
    []
    []
    [];
(* CIM15/CDPSM/Geographical/IEC61970/Wires/SeriesCompensator.py:23-38 *)
  Cls n_CIM15_CDPSM_Geographical_IEC61970_Wires_SeriesCompensator_SeriesCompensator n_SeriesCompensator (Some n_CIM15_CDPSM_Geographical_IEC61970_Core_ConductingEquipment_ConductingEquipment)
    []
    []
    true true
    []
    []
    []
    []
    []
    [];
(* CIM15/CDPSM/Geographical/IEC61970/Wires/ShuntCompensator.py:23-38 *)
  Cls n_CIM15_CDPSM_Geographical_IEC61970_Wires_ShuntCompensator_ShuntCompensator n_ShuntCompensator (Some n_CIM15_CDPSM_Geographical_IEC61970_Core_ConductingEquipment_ConductingEquipment)
    []
    []
    true true
    []
    []
    []
    []
    []
    [];
(* CIM15/CDPSM/Geographical/IEC61970/Wires/SynchronousMachine.py:23-38 *)
  Cls n_CIM15_CDPSM_Geographical_IEC61970_Wires_SynchronousMachine_SynchronousMachine n_SynchronousMachine (Some n_CIM15_CDPSM_Geographical_IEC61970_Core_ConductingEquipment_ConductingEquipment)
    []
    []
    true true
    []
    []
    []
    []
    []
    []
].

(** packageMap, CIM15/CDPSM/Geographical/__init__.py:29-57: tag to the class that the package exports under that name. *)
Definition cim15_cdpsm_geographical_map : list (name * name) := [
  (n_Element, n_CIM15_CDPSM_Geographical_Element_Element);
  (n_Fuse, n_CIM15_CDPSM_Geographical_IEC61970_Wires_Fuse_Fuse);
  (n_EnergyConsumer, n_CIM15_CDPSM_Geographical_IEC61970_Wires_EnergyConsumer_EnergyConsumer);
  (n_Disconnector, n_CIM15_CDPSM_Geographical_IEC61970_Wires_Disconnector_Disconnector);
  (n_ACLineSegment, n_CIM15_CDPSM_Geographical_IEC61970_Wires_ACLineSegment_ACLineSegment);
  (n_SynchronousMachine, n_CIM15_CDPSM_Geographical_IEC61970_Wires_SynchronousMachine_SynchronousMachine);
  (n_BusbarSection, n_CIM15_CDPSM_Geographical_IEC61970_Wires_BusbarSection_BusbarSection);
  (n_LoadBreakSwitch, n_CIM15_CDPSM_Geographical_IEC61970_Wires_LoadBreakSwitch_LoadBreakSwitch);
  (n_GroundDisconnector, n_CIM15_CDPSM_Geographical_IEC61970_Wires_GroundDisconnector_GroundDisconnector);
  (n_SeriesCompensator, n_CIM15_CDPSM_Geographical_IEC61970_Wires_SeriesCompensator_SeriesCompensator);
  (n_Junction, n_CIM15_CDPSM_Geographical_IEC61970_Wires_Junction_Junction);
  (n_Breaker, n_CIM15_CDPSM_Geographical_IEC61970_Wires_Breaker_Breaker);
  (n_DCLineSegment, n_CIM15_CDPSM_Geographical_IEC61970_Wires_DCLineSegment_DCLineSegment);
  (n_Line, n_CIM15_CDPSM_Geographical_IEC61970_Wires_Line_Line);
  (n_PowerTransformer, n_CIM15_CDPSM_Geographical_IEC61970_Wires_PowerTransformer_PowerTransformer);
  (n_EnergySource, n_CIM15_CDPSM_Geographical_IEC61970_Wires_EnergySource_EnergySource);
  (n_ShuntCompensator, n_CIM15_CDPSM_Geographical_IEC61970_Wires_ShuntCompensator_ShuntCompensator);
  (n_Jumper, n_CIM15_CDPSM_Geographical_IEC61970_Wires_Jumper_Jumper);
  (n_ConductingEquipment, n_CIM15_CDPSM_Geographical_IEC61970_Core_ConductingEquipment_ConductingEquipment);
  (n_NameType, n_CIM15_CDPSM_Geographical_IEC61970_Core_NameType_NameType);
  (n_Equipment, n_CIM15_CDPSM_Geographical_IEC61970_Core_Equipment_Equipment);
  (n_IdentifiedObject, n_CIM15_CDPSM_Geographical_IEC61970_Core_IdentifiedObject_IdentifiedObject);
  (n_Name, n_CIM15_CDPSM_Geographical_IEC61970_Core_Name_Name);
  (n_PowerSystemResource, n_CIM15_CDPSM_Geographical_IEC61970_Core_PowerSystemResource_PowerSystemResource);
  (n_Location, n_CIM15_CDPSM_Geographical_IEC61968_Common_Location_Location);
  (n_CoordinateSystem, n_CIM15_CDPSM_Geographical_IEC61968_Common_CoordinateSystem_CoordinateSystem);
  (n_PositionPoint, n_CIM15_CDPSM_Geographical_IEC61968_Common_PositionPoint_PositionPoint)
].

(** nsURI and nsPrefix, CIM15/CDPSM/Geographical/__init__.py. *)
Definition cim15_cdpsm_geographical_uri : name := n_http___iec_ch_TC57_2010_CIM_schema_cim15_profile_http___iec_ch_TC57_2011_iec61968_13_CDPSM_Geographical.
Definition cim15_cdpsm_geographical_prefix : name := n_geo.

(** All profile tables with their package maps. *)
Definition profiles : list (schema * list (name * name)) := [
  (cim14_cdpsm_balanced, cim14_cdpsm_balanced_map);
  (cim14_cdpsm_gis_connectivity, cim14_cdpsm_gis_connectivity_map);
  (cim14_cdpsm_unbalanced, cim14_cdpsm_unbalanced_map);
  (cim14_cpsm_equipment, cim14_cpsm_equipment_map);
  (cim14_cpsm_statevariables, cim14_cpsm_statevariables_map);
  (cim14_cpsm_topology, cim14_cpsm_topology_map);
  (cim14_entsoe_dynamics, cim14_entsoe_dynamics_map);
  (cim14_entsoe_equipment, cim14_entsoe_equipment_map);
  (cim14_entsoe_statevariables, cim14_entsoe_statevariables_map);
  (cim14_entsoe_topology, cim14_entsoe_topology_map);
  (cim15_cdpsm_asset, cim15_cdpsm_asset_map);
  (cim15_cdpsm_balanced, cim15_cdpsm_balanced_map);
  (cim15_cdpsm_connectivity, cim15_cdpsm_connectivity_map);
  (cim15_cdpsm_geographical, cim15_cdpsm_geographical_map)
].
