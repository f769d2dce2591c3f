(** Generated by tools/gen_tables.py from CIM15: do not edit. *)
From stdpp Require Import prelude.
From Verif Require Import PyStr PyHeap Schema Names.

(** Class table of CIM15: 605 classes. *)
Definition cim15 : schema := [
(* CIM15/CombinedVersion.py:23-46 *)
  Cls n_CIM15_CombinedVersion_CombinedVersion n_CombinedVersion (Some n_CIM15_Element_Element)
    [(n_date, VStr n_); (n_version, VStr n_)]
    [SAttr n_date; SAttr n_version]
    true true
    [n_date; n_version]
    [(n_date, VStr n_); (n_version, VStr n_)]
    []
    []
    []
    [];
(* CIM15/Element.py:22-38 *)
  Cls n_CIM15_Element_Element n_Element None
    [(n_UUID, VStr n_)]
    [SAttr n_UUID]
    false true
    [n_UUID]
    [(n_UUID, VStr n_)]
    []
    []
    []
    [];
(* CIM15/IEC61968/AssetModels/CableInfo.py:23-98 *)
  Cls n_CIM15_IEC61968_AssetModels_CableInfo_CableInfo n_CableInfo (Some n_CIM15_IEC61968_AssetModels_ConductorInfo_ConductorInfo)
    [(n_outerJacketKind, VStr n_pvc); (n_sheathAsNeutral, VBool false); (n_isStrandFill, VBool false); (n_nominalTemperature, VFloat n_0_0); (n_constructionKind, VStr n_sector); (n_diameterOverJacket, VFloat n_0_0); (n_diameterOverInsulation, VFloat n_0_0); (n_diameterOverScreen, VFloat n_0_0); (n_shieldMaterial, VStr n_lead); (n_diameterOverCore, VFloat n_0_0); (n_DuctBankInfo, VNone)]
    [SAttr n_outerJacketKind; SAttr n_sheathAsNeutral; SAttr n_isStrandFill; SAttr n_nominalTemperature; SAttr n_constructionKind; SAttr n_diameterOverJacket; SAttr n_diameterOverInsulation; SAttr n_diameterOverScreen; SAttr n_shieldMaterial; SAttr n_diameterOverCore; SOne n_DuctBankInfo]
    true true
    [n_outerJacketKind; n_sheathAsNeutral; n_isStrandFill; n_nominalTemperature; n_constructionKind; n_diameterOverJacket; n_diameterOverInsulation; n_diameterOverScreen; n_shieldMaterial; n_diameterOverCore]
    [(n_outerJacketKind, VStr n_pvc); (n_sheathAsNeutral, VBool false); (n_isStrandFill, VBool false); (n_nominalTemperature, VFloat n_0_0); (n_constructionKind, VStr n_sector); (n_diameterOverJacket, VFloat n_0_0); (n_diameterOverInsulation, VFloat n_0_0); (n_diameterOverScreen, VFloat n_0_0); (n_shieldMaterial, VStr n_lead); (n_diameterOverCore, VFloat n_0_0)]
    [(n_outerJacketKind, n_CableOuterJacketKind); (n_constructionKind, n_CableConstructionKind); (n_shieldMaterial, n_CableShieldMaterialKind)]
    [n_DuctBankInfo]
    []
    [(n_DuctBankInfo, POneMany n_CableInfos)];
(* CIM15/IEC61968/AssetModels/ConcentricNeutralCableInfo.py:23-67 *)
  Cls n_CIM15_IEC61968_AssetModels_ConcentricNeutralCableInfo_ConcentricNeutralCableInfo n_ConcentricNeutralCableInfo (Some n_CIM15_IEC61968_AssetModels_CableInfo_CableInfo)
    [(n_neutralStrandCount, VInt 0); (n_diameterOverNeutral, VFloat n_0_0); (n_WireType, VNone)]
    [SAttr n_neutralStrandCount; SAttr n_diameterOverNeutral; SOne n_WireType]
    true true
    [n_neutralStrandCount; n_diameterOverNeutral]
    [(n_neutralStrandCount, VInt 0); (n_diameterOverNeutral, VFloat n_0_0)]
    []
    [n_WireType]
    []
    [(n_WireType, POneMany n_ConcentricNeutralCableInfos)];
(* CIM15/IEC61968/AssetModels/ConductorInfo.py:23-110 *)
  Cls n_CIM15_IEC61968_AssetModels_ConductorInfo_ConductorInfo n_ConductorInfo (Some n_CIM15_IEC61968_Assets_AssetInfo_AssetInfo)
    [(n_insulated, VBool false); (n_usage, VStr n_secondary); (n_insulationMaterial, VStr n_treeRetardantCrosslinkedPolyethylene); (n_phaseCount, VInt 0); (n_insulationThickness, VFloat n_0_0); (n_WireArrangements, VNone); (n_LineSegments, VNone)]
    [SAttr n_insulated; SAttr n_usage; SAttr n_insulationMaterial; SAttr n_phaseCount; SAttr n_insulationThickness; SMany n_WireArrangements; SMany n_LineSegments]
    true true
    [n_insulated; n_usage; n_insulationMaterial; n_phaseCount; n_insulationThickness]
    [(n_insulated, VBool false); (n_usage, VStr n_secondary); (n_insulationMaterial, VStr n_treeRetardantCrosslinkedPolyethylene); (n_phaseCount, VInt 0); (n_insulationThickness, VFloat n_0_0)]
    [(n_usage, n_ConductorUsageKind); (n_insulationMaterial, n_ConductorInsulationKind)]
    [n_WireArrangements; n_LineSegments]
    [n_WireArrangements; n_LineSegments]
    [(n_WireArrangements, PManyOne n_ConductorInfo); (n_LineSegments, PManyOne n_ConductorInfo)];
(* CIM15/IEC61968/AssetModels/EndDeviceInfo.py:23-76 *)
  Cls n_CIM15_IEC61968_AssetModels_EndDeviceInfo_EndDeviceInfo n_EndDeviceInfo (Some n_CIM15_IEC61968_Assets_AssetInfo_AssetInfo)
    [(n_phaseCount, VInt 0); (n_ratedCurrent, VFloat n_0_0); (n_ratedVoltage, VFloat n_0_0); (n_EndDevices, VNone)]
    [SAttr n_phaseCount; SAttr n_ratedCurrent; SAttr n_ratedVoltage; SMany n_EndDevices]
    true true
    [n_phaseCount; n_ratedCurrent; n_ratedVoltage]
    [(n_phaseCount, VInt 0); (n_ratedCurrent, VFloat n_0_0); (n_ratedVoltage, VFloat n_0_0)]
    []
    [n_EndDevices]
    [n_EndDevices]
    [(n_EndDevices, PManyOne n_EndDeviceInfo)];
(* CIM15/IEC61968/AssetModels/NoLoadTest.py:23-79 *)
  Cls n_CIM15_IEC61968_AssetModels_NoLoadTest_NoLoadTest n_NoLoadTest (Some n_CIM15_IEC61968_AssetModels_TransformerTest_TransformerTest)
    [(n_excitingCurrent, VFloat n_0_0); (n_lossZero, VFloat n_0_0); (n_excitingCurrentZero, VFloat n_0_0); (n_energisedEndVoltage, VFloat n_0_0); (n_loss, VFloat n_0_0); (n_EnergisedEnd, VNone)]
    [SAttr n_excitingCurrent; SAttr n_lossZero; SAttr n_excitingCurrentZero; SAttr n_energisedEndVoltage; SAttr n_loss; SOne n_EnergisedEnd]
    true true
    [n_excitingCurrent; n_lossZero; n_excitingCurrentZero; n_energisedEndVoltage; n_loss]
    [(n_excitingCurrent, VFloat n_0_0); (n_lossZero, VFloat n_0_0); (n_excitingCurrentZero, VFloat n_0_0); (n_energisedEndVoltage, VFloat n_0_0); (n_loss, VFloat n_0_0)]
    []
    [n_EnergisedEnd]
    []
    [(n_EnergisedEnd, POneMany n_EnergisedEndNoLoadTest)];
(* CIM15/IEC61968/AssetModels/OpenCircuitTest.py:23-100 *)
  Cls n_CIM15_IEC61968_AssetModels_OpenCircuitTest_OpenCircuitTest n_OpenCircuitTest (Some n_CIM15_IEC61968_AssetModels_TransformerTest_TransformerTest)
    [(n_energisedEndStep, VInt 0); (n_openEndVoltage, VFloat n_0_0); (n_openEndStep, VInt 0); (n_energisedEndVoltage, VFloat n_0_0); (n_phaseShift, VFloat n_0_0); (n_OpenEnd, VNone); (n_EnergisedEnd, VNone)]
    [SAttr n_energisedEndStep; SAttr n_openEndVoltage; SAttr n_openEndStep; SAttr n_energisedEndVoltage; SAttr n_phaseShift; SOne n_OpenEnd; SOne n_EnergisedEnd]
    true true
    [n_energisedEndStep; n_openEndVoltage; n_openEndStep; n_energisedEndVoltage; n_phaseShift]
    [(n_energisedEndStep, VInt 0); (n_openEndVoltage, VFloat n_0_0); (n_openEndStep, VInt 0); (n_energisedEndVoltage, VFloat n_0_0); (n_phaseShift, VFloat n_0_0)]
    []
    [n_OpenEnd; n_EnergisedEnd]
    []
    [(n_OpenEnd, POneMany n_OpenEndOpenCircuitTests); (n_EnergisedEnd, POneMany n_EnergisedEndOpenCircuitTests)];
(* CIM15/IEC61968/AssetModels/OverheadConductorInfo.py:23-70 *)
  Cls n_CIM15_IEC61968_AssetModels_OverheadConductorInfo_OverheadConductorInfo n_OverheadConductorInfo (Some n_CIM15_IEC61968_AssetModels_ConductorInfo_ConductorInfo)
    [(n_neutralInsulationThickness, VFloat n_0_0); (n_phaseConductorSpacing, VFloat n_0_0); (n_phaseConductorCount, VInt 0); (n_MountingPoint, VNone)]
    [SAttr n_neutralInsulationThickness; SAttr n_phaseConductorSpacing; SAttr n_phaseConductorCount; SOne n_MountingPoint]
    true true
    [n_neutralInsulationThickness; n_phaseConductorSpacing; n_phaseConductorCount]
    [(n_neutralInsulationThickness, VFloat n_0_0); (n_phaseConductorSpacing, VFloat n_0_0); (n_phaseConductorCount, VInt 0)]
    []
    [n_MountingPoint]
    []
    [(n_MountingPoint, POneMany n_OverheadConductors)];
(* CIM15/IEC61968/AssetModels/PowerTransformerInfo.py:23-90 *)
  Cls n_CIM15_IEC61968_AssetModels_PowerTransformerInfo_PowerTransformerInfo n_PowerTransformerInfo (Some n_CIM15_IEC61968_Assets_AssetInfo_AssetInfo)
    [(n_TransformerTankInfo, VNone); (n_PowerTransformers, VNone)]
    [SMany n_TransformerTankInfo; SMany n_PowerTransformers]
    true true
    []
    []
    []
    [n_TransformerTankInfo; n_PowerTransformers]
    [n_TransformerTankInfo; n_PowerTransformers]
    [(n_TransformerTankInfo, PManyOne n_PowerTransformerInfo); (n_PowerTransformers, PManyOne n_PowerTransformerInfo)];
(* CIM15/IEC61968/AssetModels/ShortCircuitTest.py:23-115 *)
  Cls n_CIM15_IEC61968_AssetModels_ShortCircuitTest_ShortCircuitTest n_ShortCircuitTest (Some n_CIM15_IEC61968_AssetModels_TransformerTest_TransformerTest)
    [(n_lossZero, VFloat n_0_0); (n_leakageImpedance, VFloat n_0_0); (n_loss, VFloat n_0_0); (n_groundedEndStep, VInt 0); (n_leakageImpedanceZero, VFloat n_0_0); (n_energisedEndStep, VInt 0); (n_GroundedEnds, VNone); (n_EnergisedEnd, VNone)]
    [SAttr n_lossZero; SAttr n_leakageImpedance; SAttr n_loss; SAttr n_groundedEndStep; SAttr n_leakageImpedanceZero; SAttr n_energisedEndStep; SMany n_GroundedEnds; SOne n_EnergisedEnd]
    true true
    [n_lossZero; n_leakageImpedance; n_loss; n_groundedEndStep; n_leakageImpedanceZero; n_energisedEndStep]
    [(n_lossZero, VFloat n_0_0); (n_leakageImpedance, VFloat n_0_0); (n_loss, VFloat n_0_0); (n_groundedEndStep, VInt 0); (n_leakageImpedanceZero, VFloat n_0_0); (n_energisedEndStep, VInt 0)]
    []
    [n_GroundedEnds; n_EnergisedEnd]
    [n_GroundedEnds]
    [(n_GroundedEnds, PManyMany n_GroundedEndShortCircuitTests); (n_EnergisedEnd, POneMany n_EnergisedEndShortCircuitTests)];
(* CIM15/IEC61968/AssetModels/TapChangerInfo.py:23-124 *)
  Cls n_CIM15_IEC61968_AssetModels_TapChangerInfo_TapChangerInfo n_TapChangerInfo (Some n_CIM15_IEC61968_Assets_AssetInfo_AssetInfo)
    [(n_ctRating, VFloat n_0_0); (n_stepPhaseIncrement, VFloat n_0_0); (n_ratedApparentPower, VFloat n_0_0); (n_frequency, VFloat n_0_0); (n_neutralU, VFloat n_0_0); (n_ctRatio, VFloat n_0_0); (n_stepVoltageIncrement, VFloat n_0_0); (n_isTcul, VBool false); (n_neutralStep, VInt 0); (n_ratedCurrent, VFloat n_0_0); (n_lowStep, VInt 0); (n_ratedVoltage, VFloat n_0_0); (n_highStep, VInt 0); (n_ptRatio, VFloat n_0_0); (n_bil, VFloat n_0_0); (n_TapChangers, VNone)]
    [SAttr n_ctRating; SAttr n_stepPhaseIncrement; SAttr n_ratedApparentPower; SAttr n_frequency; SAttr n_neutralU; SAttr n_ctRatio; SAttr n_stepVoltageIncrement; SAttr n_isTcul; SAttr n_neutralStep; SAttr n_ratedCurrent; SAttr n_lowStep; SAttr n_ratedVoltage; SAttr n_highStep; SAttr n_ptRatio; SAttr n_bil; SMany n_TapChangers]
    true true
    [n_ctRating; n_stepPhaseIncrement; n_ratedApparentPower; n_frequency; n_neutralU; n_ctRatio; n_stepVoltageIncrement; n_isTcul; n_neutralStep; n_ratedCurrent; n_lowStep; n_ratedVoltage; n_highStep; n_ptRatio; n_bil]
    [(n_ctRating, VFloat n_0_0); (n_stepPhaseIncrement, VFloat n_0_0); (n_ratedApparentPower, VFloat n_0_0); (n_frequency, VFloat n_0_0); (n_neutralU, VFloat n_0_0); (n_ctRatio, VFloat n_0_0); (n_stepVoltageIncrement, VFloat n_0_0); (n_isTcul, VBool false); (n_neutralStep, VInt 0); (n_ratedCurrent, VFloat n_0_0); (n_lowStep, VInt 0); (n_ratedVoltage, VFloat n_0_0); (n_highStep, VInt 0); (n_ptRatio, VFloat n_0_0); (n_bil, VFloat n_0_0)]
    []
    [n_TapChangers]
    [n_TapChangers]
    [(n_TapChangers, PManyOne n_TapChangerInfo)];
(* CIM15/IEC61968/AssetModels/TapeShieldCableInfo.py:23-46 *)
  Cls n_CIM15_IEC61968_AssetModels_TapeShieldCableInfo_TapeShieldCableInfo n_TapeShieldCableInfo (Some n_CIM15_IEC61968_AssetModels_CableInfo_CableInfo)
    [(n_tapeLap, VFloat n_0_0); (n_tapeThickness, VFloat n_0_0)]
    [SAttr n_tapeLap; SAttr n_tapeThickness]
    true true
    [n_tapeLap; n_tapeThickness]
    [(n_tapeLap, VFloat n_0_0); (n_tapeThickness, VFloat n_0_0)]
    []
    []
    []
    [];
(* CIM15/IEC61968/AssetModels/TransformerEndInfo.py:23-335 *)
  Cls n_CIM15_IEC61968_AssetModels_TransformerEndInfo_TransformerEndInfo n_TransformerEndInfo (Some n_CIM15_IEC61968_Assets_AssetInfo_AssetInfo)
    [(n_r, VFloat n_0_0); (n_insulationU, VFloat n_0_0); (n_emergencyS, VFloat n_0_0); (n_shortTermS, VFloat n_0_0); (n_connectionKind, VStr n_Z); (n_endNumber, VInt 0); (n_ratedS, VFloat n_0_0); (n_ratedU, VFloat n_0_0); (n_phaseAngleClock, VInt 0); (n_FromMeshImpedance, VNone); (n_EnergisedEndNoLoadTest, VNone); (n_OpenEndOpenCircuitTests, VNone); (n_ToMeshImpedance, VNone); (n_TransformerEnd, VNone); (n_TransformerTankInfo, VNone); (n_EnergisedEndOpenCircuitTests, VNone); (n_GroundedEndShortCircuitTests, VNone); (n_EnergisedEndShortCircuitTests, VNone); (n_CoreAdmittance, VNone)]
    [SAttr n_r; SAttr n_insulationU; SAttr n_emergencyS; SAttr n_shortTermS; SAttr n_connectionKind; SAttr n_endNumber; SAttr n_ratedS; SAttr n_ratedU; SAttr n_phaseAngleClock; SMany n_FromMeshImpedance; SMany n_EnergisedEndNoLoadTest; SMany n_OpenEndOpenCircuitTests; SMany n_ToMeshImpedance; SMany n_TransformerEnd; SOne n_TransformerTankInfo; SMany n_EnergisedEndOpenCircuitTests; SMany n_GroundedEndShortCircuitTests; SMany n_EnergisedEndShortCircuitTests; SOne n_CoreAdmittance]
    true true
    [n_r; n_insulationU; n_emergencyS; n_shortTermS; n_connectionKind; n_endNumber; n_ratedS; n_ratedU; n_phaseAngleClock]
    [(n_r, VFloat n_0_0); (n_insulationU, VFloat n_0_0); (n_emergencyS, VFloat n_0_0); (n_shortTermS, VFloat n_0_0); (n_connectionKind, VStr n_Z); (n_endNumber, VInt 0); (n_ratedS, VFloat n_0_0); (n_ratedU, VFloat n_0_0); (n_phaseAngleClock, VInt 0)]
    [(n_connectionKind, n_WindingConnection)]
    [n_FromMeshImpedance; n_EnergisedEndNoLoadTest; n_OpenEndOpenCircuitTests; n_ToMeshImpedance; n_TransformerEnd; n_TransformerTankInfo; n_EnergisedEndOpenCircuitTests; n_GroundedEndShortCircuitTests; n_EnergisedEndShortCircuitTests; n_CoreAdmittance]
    [n_FromMeshImpedance; n_EnergisedEndNoLoadTest; n_OpenEndOpenCircuitTests; n_ToMeshImpedance; n_TransformerEnd; n_EnergisedEndOpenCircuitTests; n_GroundedEndShortCircuitTests; n_EnergisedEndShortCircuitTests]
    [(n_FromMeshImpedance, PManyOne n_FromTransformerEndInfo); (n_EnergisedEndNoLoadTest, PManyOne n_EnergisedEnd); (n_OpenEndOpenCircuitTests, PManyOne n_OpenEnd); (n_ToMeshImpedance, PManyMany n_ToTransformerEndInfo); (n_TransformerEnd, PManyOne n_TransformerEndInfo); (n_TransformerTankInfo, POneMany n_TransformerEndInfos); (n_EnergisedEndOpenCircuitTests, PManyOne n_EnergisedEnd); (n_GroundedEndShortCircuitTests, PManyMany n_GroundedEnds); (n_EnergisedEndShortCircuitTests, PManyOne n_EnergisedEnd); (n_CoreAdmittance, POneOne n_TransformerEndInfo)];
(* CIM15/IEC61968/AssetModels/TransformerTankInfo.py:23-161 *)
  Cls n_CIM15_IEC61968_AssetModels_TransformerTankInfo_TransformerTankInfo n_TransformerTankInfo (Some n_CIM15_IEC61968_Assets_AssetInfo_AssetInfo)
    [(n_TransformerAssets, VNone); (n_TransformerEndInfos, VNone); (n_PowerTransformerInfo, VNone); (n_TransformerAssetModels, VNone); (n_TransformerTanks, VNone)]
    [SMany n_TransformerAssets; SMany n_TransformerEndInfos; SOne n_PowerTransformerInfo; SMany n_TransformerAssetModels; SMany n_TransformerTanks]
    true true
    []
    []
    []
    [n_TransformerAssets; n_TransformerEndInfos; n_PowerTransformerInfo; n_TransformerAssetModels; n_TransformerTanks]
    [n_TransformerAssets; n_TransformerEndInfos; n_TransformerAssetModels; n_TransformerTanks]
    [(n_TransformerAssets, PManyOne n_TransformerInfo); (n_TransformerEndInfos, PManyOne n_TransformerTankInfo); (n_PowerTransformerInfo, POneMany n_TransformerTankInfo); (n_TransformerAssetModels, PManyOne n_TransformerInfo); (n_TransformerTanks, PManyOne n_TransformerTankInfo)];
(* CIM15/IEC61968/AssetModels/TransformerTest.py:23-46 *)
  Cls n_CIM15_IEC61968_AssetModels_TransformerTest_TransformerTest n_TransformerTest (Some n_CIM15_IEC61970_Core_IdentifiedObject_IdentifiedObject)
    [(n_basePower, VFloat n_0_0); (n_temperature, VFloat n_0_0)]
    [SAttr n_basePower; SAttr n_temperature]
    true true
    [n_basePower; n_temperature]
    [(n_basePower, VFloat n_0_0); (n_temperature, VFloat n_0_0)]
    []
    []
    []
    [];
(* CIM15/IEC61968/AssetModels/WireArrangement.py:23-92 *)
  Cls n_CIM15_IEC61968_AssetModels_WireArrangement_WireArrangement n_WireArrangement (Some n_CIM15_IEC61970_Core_IdentifiedObject_IdentifiedObject)
    [(n_mountingPointY, VFloat n_0_0); (n_mountingPointX, VFloat n_0_0); (n_position, VInt 0); (n_ConductorInfo, VNone); (n_WireType, VNone)]
    [SAttr n_mountingPointY; SAttr n_mountingPointX; SAttr n_position; SOne n_ConductorInfo; SOne n_WireType]
    true true
    [n_mountingPointY; n_mountingPointX; n_position]
    [(n_mountingPointY, VFloat n_0_0); (n_mountingPointX, VFloat n_0_0); (n_position, VInt 0)]
    []
    [n_ConductorInfo; n_WireType]
    []
    [(n_ConductorInfo, POneMany n_WireArrangements); (n_WireType, POneMany n_WireArrangements)];
(* CIM15/IEC61968/AssetModels/WireType.py:23-138 *)
  Cls n_CIM15_IEC61968_AssetModels_WireType_WireType n_WireType (Some n_CIM15_IEC61970_Core_IdentifiedObject_IdentifiedObject)
    [(n_coreRadius, VFloat n_0_0); (n_rAC50, VFloat n_0_0); (n_coreStrandCount, VInt 0); (n_radius, VFloat n_0_0); (n_material, VStr n_aluminum); (n_rDC20, VFloat n_0_0); (n_sizeDescription, VStr n_); (n_rAC75, VFloat n_0_0); (n_gmr, VFloat n_0_0); (n_ratedCurrent, VFloat n_0_0); (n_strandCount, VInt 0); (n_rAC25, VFloat n_0_0); (n_WireArrangements, VNone); (n_ConcentricNeutralCableInfos, VNone)]
    [SAttr n_coreRadius; SAttr n_rAC50; SAttr n_coreStrandCount; SAttr n_radius; SAttr n_material; SAttr n_rDC20; SAttr n_sizeDescription; SAttr n_rAC75; SAttr n_gmr; SAttr n_ratedCurrent; SAttr n_strandCount; SAttr n_rAC25; SMany n_WireArrangements; SMany n_ConcentricNeutralCableInfos]
    true true
    [n_coreRadius; n_rAC50; n_coreStrandCount; n_radius; n_material; n_rDC20; n_sizeDescription; n_rAC75; n_gmr; n_ratedCurrent; n_strandCount; n_rAC25]
    [(n_coreRadius, VFloat n_0_0); (n_rAC50, VFloat n_0_0); (n_coreStrandCount, VInt 0); (n_radius, VFloat n_0_0); (n_material, VStr n_aluminum); (n_rDC20, VFloat n_0_0); (n_sizeDescription, VStr n_); (n_rAC75, VFloat n_0_0); (n_gmr, VFloat n_0_0); (n_ratedCurrent, VFloat n_0_0); (n_strandCount, VInt 0); (n_rAC25, VFloat n_0_0)]
    [(n_material, n_ConductorMaterialKind)]
    [n_WireArrangements; n_ConcentricNeutralCableInfos]
    [n_WireArrangements; n_ConcentricNeutralCableInfos]
    [(n_WireArrangements, PManyOne n_WireType); (n_ConcentricNeutralCableInfos, PManyOne n_WireType)];
(* CIM15/IEC61968/Assets/AcceptanceTest.py:22-48 *)
  Cls n_CIM15_IEC61968_Assets_AcceptanceTest_AcceptanceTest n_AcceptanceTest None
    [(n_success, VBool false); (n_dateTime, VStr n_); (n_type, VStr n_)]
    [SAttr n_success; SAttr n_dateTime; SAttr n_type]
    false true
    [n_success; n_dateTime; n_type]
    [(n_success, VBool false); (n_dateTime, VStr n_); (n_type, VStr n_)]
    []
    []
    []
    [];
(* CIM15/IEC61968/Assets/Asset.py:23-700 *)
  Cls n_CIM15_IEC61968_Assets_Asset_Asset n_Asset (Some n_CIM15_IEC61970_Core_IdentifiedObject_IdentifiedObject)
    [(n_corporateCode, VStr n_); (n_utcNumber, VStr n_); (n_initialCondition, VStr n_); (n_category, VStr n_); (n_serialNumber, VStr n_); (n_critical, VBool false); (n_application, VStr n_); (n_purchasePrice, VFloat n_0_0); (n_initialLossOfLife, VFloat n_0_0); (n_manufacturedDate, VStr n_); (n_installationDate, VStr n_); (n_lotNumber, VStr n_); (n_DocumentRoles, VNone); (n_Mediums, VNone); (n_ErpRecDeliveryItems, VNone); (n_Ratings, VNone); (n_ToAssetRoles, VNone); (n_electronicAddress, VNone); (n_FromAssetRoles, VNone); (n_AssetFunctions, VNone); (n_ErpItemMaster, VNone); (n_ErpInventory, VNone); (n_ReliabilityInfos, VNone); (n_AssetInfo, VNone); (n_WorkTask, VNone); (n_acceptanceTest, VNone); (n_ErpOrganisationRoles, VNone); (n_ScheduledEvents, VNone); (n_AssetContainer, VNone); (n_AssetPropertyCurves, VNone); (n_ChangeItems, VNone); (n_ActivityRecords, VNone); (n_Location, VNone); (n_status, VNone); (n_PowerSystemResources, VNone); (n_FinancialInfo, VNone); (n_Properties, VNone); (n_Measurements, VNone)]
    [SAttr n_corporateCode; SAttr n_utcNumber; SAttr n_initialCondition; SAttr n_category; SAttr n_serialNumber; SAttr n_critical; SAttr n_application; SAttr n_purchasePrice; SAttr n_initialLossOfLife; SAttr n_manufacturedDate; SAttr n_installationDate; SAttr n_lotNumber; SMany n_DocumentRoles; SMany n_Mediums; SMany n_ErpRecDeliveryItems; SMany n_Ratings; SMany n_ToAssetRoles; SAttr n_electronicAddress; SMany n_FromAssetRoles; SMany n_AssetFunctions; SOne n_ErpItemMaster; SOne n_ErpInventory; SMany n_ReliabilityInfos; SOne n_AssetInfo; SOne n_WorkTask; SAttr n_acceptanceTest; SMany n_ErpOrganisationRoles; SMany n_ScheduledEvents; SOne n_AssetContainer; SMany n_AssetPropertyCurves; SMany n_ChangeItems; SMany n_ActivityRecords; SOne n_Location; SAttr n_status; SMany n_PowerSystemResources; SOne n_FinancialInfo; SMany n_Properties; SMany n_Measurements]
    true true
    [n_corporateCode; n_utcNumber; n_initialCondition; n_category; n_serialNumber; n_critical; n_application; n_purchasePrice; n_initialLossOfLife; n_manufacturedDate; n_installationDate; n_lotNumber]
    [(n_corporateCode, VStr n_); (n_utcNumber, VStr n_); (n_initialCondition, VStr n_); (n_category, VStr n_); (n_serialNumber, VStr n_); (n_critical, VBool false); (n_application, VStr n_); (n_purchasePrice, VFloat n_0_0); (n_initialLossOfLife, VFloat n_0_0); (n_manufacturedDate, VStr n_); (n_installationDate, VStr n_); (n_lotNumber, VStr n_)]
    []
    [n_DocumentRoles; n_Mediums; n_ErpRecDeliveryItems; n_Ratings; n_ToAssetRoles; n_electronicAddress; n_FromAssetRoles; n_AssetFunctions; n_ErpItemMaster; n_ErpInventory; n_ReliabilityInfos; n_AssetInfo; n_WorkTask; n_acceptanceTest; n_ErpOrganisationRoles; n_ScheduledEvents; n_AssetContainer; n_AssetPropertyCurves; n_ChangeItems; n_ActivityRecords; n_Location; n_status; n_PowerSystemResources; n_FinancialInfo; n_Properties; n_Measurements]
    [n_DocumentRoles; n_Mediums; n_ErpRecDeliveryItems; n_Ratings; n_ToAssetRoles; n_FromAssetRoles; n_AssetFunctions; n_ReliabilityInfos; n_ErpOrganisationRoles; n_ScheduledEvents; n_AssetPropertyCurves; n_ChangeItems; n_ActivityRecords; n_PowerSystemResources; n_Properties; n_Measurements]
    [(n_DocumentRoles, PManyOne n_Asset); (n_Mediums, PManyMany n_Assets); (n_ErpRecDeliveryItems, PManyMany n_Assets); (n_Ratings, PManyMany n_RatingAssets); (n_ToAssetRoles, PManyOne n_FromAsset); (n_FromAssetRoles, PManyOne n_ToAsset); (n_AssetFunctions, PManyOne n_Asset); (n_ErpItemMaster, POneOne n_Asset); (n_ErpInventory, POneOne n_Asset); (n_ReliabilityInfos, PManyMany n_Assets); (n_AssetInfo, POneOne n_Assets); (n_WorkTask, POneMany n_Assets); (n_ErpOrganisationRoles, PManyOne n_Asset); (n_ScheduledEvents, PManyMany n_Assets); (n_AssetContainer, POneMany n_Assets); (n_AssetPropertyCurves, PManyMany n_Assets); (n_ChangeItems, PManyOne n_Asset); (n_ActivityRecords, PManyMany n_Assets); (n_Location, POneMany n_Assets); (n_PowerSystemResources, PManyMany n_Assets); (n_FinancialInfo, POneOne n_Asset); (n_Properties, PManyMany n_PropertyAssets); (n_Measurements, PManyOne n_Asset)];
(* CIM15/IEC61968/Assets/AssetContainer.py:23-120 *)
  Cls n_CIM15_IEC61968_Assets_AssetContainer_AssetContainer n_AssetContainer (Some n_CIM15_IEC61968_Assets_Asset_Asset)
    [(n_Seals, VNone); (n_Assets, VNone); (n_LandProperties, VNone)]
    [SMany n_Seals; SMany n_Assets; SMany n_LandProperties]
    true true
    []
    []
    []
    [n_Seals; n_Assets; n_LandProperties]
    [n_Seals; n_Assets; n_LandProperties]
    [(n_Seals, PManyOne n_AssetContainer); (n_Assets, PManyOne n_AssetContainer); (n_LandProperties, PManyMany n_AssetContainers)];
(* CIM15/IEC61968/Assets/AssetFunction.py:23-78 *)
  Cls n_CIM15_IEC61968_Assets_AssetFunction_AssetFunction n_AssetFunction (Some n_CIM15_IEC61970_Core_IdentifiedObject_IdentifiedObject)
    [(n_password, VStr n_); (n_hardwareID, VStr n_); (n_firmwareID, VStr n_); (n_programID, VStr n_); (n_configID, VStr n_); (n_Asset, VNone)]
    [SAttr n_password; SAttr n_hardwareID; SAttr n_firmwareID; SAttr n_programID; SAttr n_configID; SOne n_Asset]
    true true
    [n_password; n_hardwareID; n_firmwareID; n_programID; n_configID]
    [(n_password, VStr n_); (n_hardwareID, VStr n_); (n_firmwareID, VStr n_); (n_programID, VStr n_); (n_configID, VStr n_)]
    []
    [n_Asset]
    []
    [(n_Asset, POneMany n_AssetFunctions)];
(* CIM15/IEC61968/Assets/AssetInfo.py:23-98 *)
  Cls n_CIM15_IEC61968_Assets_AssetInfo_AssetInfo n_AssetInfo (Some n_CIM15_IEC61970_Core_IdentifiedObject_IdentifiedObject)
    [(n_Assets, VNone); (n_DimensionsInfo, VNone); (n_AssetModel, VNone)]
    [SOne n_Assets; SOne n_DimensionsInfo; SOne n_AssetModel]
    true true
    []
    []
    []
    [n_Assets; n_DimensionsInfo; n_AssetModel]
    []
    [(n_Assets, POneOne n_AssetInfo); (n_DimensionsInfo, POneMany n_AssetInfos); (n_AssetModel, POneOne n_AssetInfo)];
(* CIM15/IEC61968/Assets/AssetModel.py:23-83 *)
  Cls n_CIM15_IEC61968_Assets_AssetModel_AssetModel n_AssetModel (Some n_CIM15_IEC61970_Core_IdentifiedObject_IdentifiedObject)
    [(n_AssetInfo, VNone); (n_ErpInventoryCounts, VNone)]
    [SOne n_AssetInfo; SMany n_ErpInventoryCounts]
    true true
    []
    []
    []
    [n_AssetInfo; n_ErpInventoryCounts]
    [n_ErpInventoryCounts]
    [(n_AssetInfo, POneOne n_AssetModel); (n_ErpInventoryCounts, PManyOne n_AssetModel)];
(* CIM15/IEC61968/Assets/ComMedia.py:23-38 *)
  Cls n_CIM15_IEC61968_Assets_ComMedia_ComMedia n_ComMedia (Some n_CIM15_IEC61968_Assets_Asset_Asset)
    []
    []
    true true
    []
    []
    []
    []
    []
    [];
(* CIM15/IEC61968/Assets/ProductAssetModel.py:23-104 *)
  Cls n_CIM15_IEC61968_Assets_ProductAssetModel_ProductAssetModel n_ProductAssetModel (Some n_CIM15_IEC61968_Assets_AssetModel_AssetModel)
    [(n_modelVersion, VStr n_); (n_usageKind, VStr n_customerSubstation); (n_corporateStandardKind, VStr n_standard); (n_modelNumber, VStr n_); (n_weightTotal, VFloat n_0_0); (n_GenericAssetModelOrMaterial, VNone); (n_AssetModelCatalogueItems, VNone)]
    [SAttr n_modelVersion; SAttr n_usageKind; SAttr n_corporateStandardKind; SAttr n_modelNumber; SAttr n_weightTotal; SOne n_GenericAssetModelOrMaterial; SMany n_AssetModelCatalogueItems]
    true true
    [n_modelVersion; n_usageKind; n_corporateStandardKind; n_modelNumber; n_weightTotal]
    [(n_modelVersion, VStr n_); (n_usageKind, VStr n_customerSubstation); (n_corporateStandardKind, VStr n_standard); (n_modelNumber, VStr n_); (n_weightTotal, VFloat n_0_0)]
    [(n_usageKind, n_AssetModelUsageKind); (n_corporateStandardKind, n_CorporateStandardKind)]
    [n_GenericAssetModelOrMaterial; n_AssetModelCatalogueItems]
    [n_AssetModelCatalogueItems]
    [(n_GenericAssetModelOrMaterial, POneMany n_ProductAssetModels); (n_AssetModelCatalogueItems, PManyOne n_AssetModel)];
(* CIM15/IEC61968/Assets/Seal.py:23-75 *)
  Cls n_CIM15_IEC61968_Assets_Seal_Seal n_Seal (Some n_CIM15_IEC61970_Core_IdentifiedObject_IdentifiedObject)
    [(n_appliedDateTime, VStr n_); (n_sealNumber, VStr n_); (n_kind, VStr n_lead); (n_condition, VStr n_open); (n_AssetContainer, VNone)]
    [SAttr n_appliedDateTime; SAttr n_sealNumber; SAttr n_kind; SAttr n_condition; SOne n_AssetContainer]
    true true
    [n_appliedDateTime; n_sealNumber; n_kind; n_condition]
    [(n_appliedDateTime, VStr n_); (n_sealNumber, VStr n_); (n_kind, VStr n_lead); (n_condition, VStr n_open)]
    [(n_kind, n_SealKind); (n_condition, n_SealConditionKind)]
    [n_AssetContainer]
    []
    [(n_AssetContainer, POneMany n_Seals)];
(* CIM15/IEC61968/Common/ActivityRecord.py:23-205 *)
  Cls n_CIM15_IEC61968_Common_ActivityRecord_ActivityRecord n_ActivityRecord (Some n_CIM15_IEC61970_Core_IdentifiedObject_IdentifiedObject)
    [(n_severity, VStr n_); (n_createdDateTime, VStr n_); (n_reason, VStr n_); (n_category, VStr n_); (n_ErpPersons, VNone); (n_Organisations, VNone); (n_Documents, VNone); (n_Assets, VNone); (n_status, VNone); (n_ScheduledEvent, VNone)]
    [SAttr n_severity; SAttr n_createdDateTime; SAttr n_reason; SAttr n_category; SMany n_ErpPersons; SMany n_Organisations; SMany n_Documents; SMany n_Assets; SAttr n_status; SOne n_ScheduledEvent]
    true true
    [n_severity; n_createdDateTime; n_reason; n_category]
    [(n_severity, VStr n_); (n_createdDateTime, VStr n_); (n_reason, VStr n_); (n_category, VStr n_)]
    []
    [n_ErpPersons; n_Organisations; n_Documents; n_Assets; n_status; n_ScheduledEvent]
    [n_ErpPersons; n_Organisations; n_Documents; n_Assets]
    [(n_ErpPersons, PManyMany n_ActivityRecords); (n_Organisations, PManyMany n_ActivityRecords); (n_Documents, PManyMany n_ActivityRecords); (n_Assets, PManyMany n_ActivityRecords); (n_ScheduledEvent, POneOne n_ActivityRecord)];
(* CIM15/IEC61968/Common/Agreement.py:23-48 *)
  Cls n_CIM15_IEC61968_Common_Agreement_Agreement n_Agreement (Some n_CIM15_IEC61968_Common_Document_Document)
    [(n_signDate, VStr n_); (n_validityInterval, VNone)]
    [SAttr n_signDate; SAttr n_validityInterval]
    true true
    [n_signDate]
    [(n_signDate, VStr n_)]
    []
    [n_validityInterval]
    []
    [];
(* CIM15/IEC61968/Common/CoordinateSystem.py:23-124 *)
  Cls n_CIM15_IEC61968_Common_CoordinateSystem_CoordinateSystem n_CoordinateSystem (Some n_CIM15_IEC61970_Core_IdentifiedObject_IdentifiedObject)
    [(n_crsUrn, VStr n_); (n_Diagrams, VNone); (n_Location, VNone); (n_GmlDiagramObjects, VNone)]
    [SAttr n_crsUrn; SMany n_Diagrams; SMany n_Location; SMany n_GmlDiagramObjects]
    true true
    [n_crsUrn]
    [(n_crsUrn, VStr n_)]
    []
    [n_Diagrams; n_Location; n_GmlDiagramObjects]
    [n_Diagrams; n_Location; n_GmlDiagramObjects]
    [(n_Diagrams, PManyOne n_CoordinateSystem); (n_Location, PManyOne n_CoordinateSystem); (n_GmlDiagramObjects, PManyMany n_CoordinateSystems)];
(* CIM15/IEC61968/Common/Document.py:23-437 *)
  Cls n_CIM15_IEC61968_Common_Document_Document n_Document (Some n_CIM15_IEC61970_Core_IdentifiedObject_IdentifiedObject)
    [(n_revisionNumber, VStr n_); (n_createdDateTime, VStr n_); (n_lastModifiedDateTime, VStr n_); (n_subject, VStr n_); (n_title, VStr n_); (n_category, VStr n_); (n_ChangeItems, VNone); (n_ToDocumentRoles, VNone); (n_electronicAddress, VNone); (n_NetworkDataSets, VNone); (n_FromDocumentRoles, VNone); (n_ScheduleParameterInfos, VNone); (n_ErpOrganisationRoles, VNone); (n_Measurements, VNone); (n_ActivityRecords, VNone); (n_ChangeSets, VNone); (n_ErpPersonRoles, VNone); (n_ScheduledEvents, VNone); (n_docStatus, VNone); (n_AssetRoles, VNone); (n_status, VNone); (n_PowerSystemResourceRoles, VNone)]
    [SAttr n_revisionNumber; SAttr n_createdDateTime; SAttr n_lastModifiedDateTime; SAttr n_subject; SAttr n_title; SAttr n_category; SMany n_ChangeItems; SMany n_ToDocumentRoles; SAttr n_electronicAddress; SMany n_NetworkDataSets; SMany n_FromDocumentRoles; SMany n_ScheduleParameterInfos; SMany n_ErpOrganisationRoles; SMany n_Measurements; SMany n_ActivityRecords; SMany n_ChangeSets; SMany n_ErpPersonRoles; SMany n_ScheduledEvents; SAttr n_docStatus; SMany n_AssetRoles; SAttr n_status; SMany n_PowerSystemResourceRoles]
    true true
    [n_revisionNumber; n_createdDateTime; n_lastModifiedDateTime; n_subject; n_title; n_category]
    [(n_revisionNumber, VStr n_); (n_createdDateTime, VStr n_); (n_lastModifiedDateTime, VStr n_); (n_subject, VStr n_); (n_title, VStr n_); (n_category, VStr n_)]
    []
    [n_ChangeItems; n_ToDocumentRoles; n_electronicAddress; n_NetworkDataSets; n_FromDocumentRoles; n_ScheduleParameterInfos; n_ErpOrganisationRoles; n_Measurements; n_ActivityRecords; n_ChangeSets; n_ErpPersonRoles; n_ScheduledEvents; n_docStatus; n_AssetRoles; n_status; n_PowerSystemResourceRoles]
    [n_ChangeItems; n_ToDocumentRoles; n_NetworkDataSets; n_FromDocumentRoles; n_ScheduleParameterInfos; n_ErpOrganisationRoles; n_Measurements; n_ActivityRecords; n_ChangeSets; n_ErpPersonRoles; n_ScheduledEvents; n_AssetRoles; n_PowerSystemResourceRoles]
    [(n_ChangeItems, PManyOne n_Document); (n_ToDocumentRoles, PManyOne n_FromDocument); (n_NetworkDataSets, PManyMany n_Documents); (n_FromDocumentRoles, PManyOne n_ToDocument); (n_ScheduleParameterInfos, PManyMany n_Documents); (n_ErpOrganisationRoles, PManyOne n_Document); (n_Measurements, PManyMany n_Documents); (n_ActivityRecords, PManyMany n_Documents); (n_ChangeSets, PManyMany n_Documents); (n_ErpPersonRoles, PManyOne n_Document); (n_ScheduledEvents, PManyOne n_Document); (n_AssetRoles, PManyOne n_Document); (n_PowerSystemResourceRoles, PManyOne n_Document)];
(* CIM15/IEC61968/Common/ElectronicAddress.py:22-66 *)
  Cls n_CIM15_IEC61968_Common_ElectronicAddress_ElectronicAddress n_ElectronicAddress None
    [(n_radio, VStr n_); (n_password, VStr n_); (n_lan, VStr n_); (n_userID, VStr n_); (n_email, VStr n_); (n_web, VStr n_); (n_status, VNone)]
    [SAttr n_radio; SAttr n_password; SAttr n_lan; SAttr n_userID; SAttr n_email; SAttr n_web; SAttr n_status]
    false true
    [n_radio; n_password; n_lan; n_userID; n_email; n_web]
    [(n_radio, VStr n_); (n_password, VStr n_); (n_lan, VStr n_); (n_userID, VStr n_); (n_email, VStr n_); (n_web, VStr n_)]
    []
    [n_status]
    []
    [];
(* CIM15/IEC61968/Common/Location.py:23-476 *)
  Cls n_CIM15_IEC61968_Common_Location_Location n_Location (Some n_CIM15_IEC61970_Core_IdentifiedObject_IdentifiedObject)
    [(n_category, VStr n_); (n_geoInfoReference, VStr n_); (n_corporateCode, VStr n_); (n_direction, VStr n_); (n_mainAddress, VNone); (n_phone1, VNone); (n_phone2, VNone); (n_PowerSystemResources, VNone); (n_secondaryAddress, VNone); (n_ChangeItems, VNone); (n_RedLines, VNone); (n_DimensionsInfo, VNone); (n_LandProperties, VNone); (n_Assets, VNone); (n_Hazards, VNone); (n_status, VNone); (n_Crews, VNone); (n_PositionPoints, VNone); (n_electronicAddress, VNone); (n_Directions, VNone); (n_Measurements, VNone); (n_Routes, VNone); (n_CoordinateSystem, VNone); (n_ErpOrganisations, VNone)]
    [SAttr n_category; SAttr n_geoInfoReference; SAttr n_corporateCode; SAttr n_direction; SAttr n_mainAddress; SAttr n_phone1; SAttr n_phone2; SMany n_PowerSystemResources; SAttr n_secondaryAddress; SMany n_ChangeItems; SMany n_RedLines; SOne n_DimensionsInfo; SMany n_LandProperties; SMany n_Assets; SMany n_Hazards; SAttr n_status; SMany n_Crews; SMany n_PositionPoints; SAttr n_electronicAddress; SMany n_Directions; SMany n_Measurements; SMany n_Routes; SOne n_CoordinateSystem; SMany n_ErpOrganisations]
    true true
    [n_category; n_geoInfoReference; n_corporateCode; n_direction]
    [(n_category, VStr n_); (n_geoInfoReference, VStr n_); (n_corporateCode, VStr n_); (n_direction, VStr n_)]
    []
    [n_mainAddress; n_phone1; n_phone2; n_PowerSystemResources; n_secondaryAddress; n_ChangeItems; n_RedLines; n_DimensionsInfo; n_LandProperties; n_Assets; n_Hazards; n_status; n_Crews; n_PositionPoints; n_electronicAddress; n_Directions; n_Measurements; n_Routes; n_CoordinateSystem; n_ErpOrganisations]
    [n_PowerSystemResources; n_ChangeItems; n_RedLines; n_LandProperties; n_Assets; n_Hazards; n_Crews; n_PositionPoints; n_Directions; n_Measurements; n_Routes; n_ErpOrganisations]
    [(n_PowerSystemResources, PManyOne n_Location); (n_ChangeItems, PManyOne n_Location); (n_RedLines, PManyMany n_Locations); (n_DimensionsInfo, POneMany n_Locations); (n_LandProperties, PManyMany n_Locations); (n_Assets, PManyOne n_Location); (n_Hazards, PManyMany n_Locations); (n_Crews, PManyMany n_Locations); (n_PositionPoints, PManyOne n_Location); (n_Directions, PManyOne n_Location); (n_Measurements, PManyMany n_Locations); (n_Routes, PManyMany n_Locations); (n_CoordinateSystem, POneMany n_Location); (n_ErpOrganisations, PManyMany n_Locations)];
(* CIM15/IEC61968/Common/Organisation.py:23-99 *)
  Cls n_CIM15_IEC61968_Common_Organisation_Organisation n_Organisation (Some n_CIM15_IEC61970_Core_IdentifiedObject_IdentifiedObject)
    [(n_phone2, VNone); (n_phone1, VNone); (n_streetAddress, VNone); (n_postalAddress, VNone); (n_electronicAddress, VNone); (n_BusinessRoles, VNone)]
    [SAttr n_phone2; SAttr n_phone1; SAttr n_streetAddress; SAttr n_postalAddress; SAttr n_electronicAddress; SMany n_BusinessRoles]
    true true
    []
    []
    []
    [n_phone2; n_phone1; n_streetAddress; n_postalAddress; n_electronicAddress; n_BusinessRoles]
    [n_BusinessRoles]
    [(n_BusinessRoles, PManyMany n_Organisations)];
(* CIM15/IEC61968/Common/PositionPoint.py:23-75 *)
  Cls n_CIM15_IEC61968_Common_PositionPoint_PositionPoint n_PositionPoint (Some n_CIM15_Element_Element)
    [(n_xPosition, VStr n_); (n_zPosition, VStr n_); (n_sequenceNumber, VInt 0); (n_yPosition, VStr n_); (n_Location, VNone)]
    [SAttr n_xPosition; SAttr n_zPosition; SAttr n_sequenceNumber; SAttr n_yPosition; SOne n_Location]
    true true
    [n_xPosition; n_zPosition; n_sequenceNumber; n_yPosition]
    [(n_xPosition, VStr n_); (n_zPosition, VStr n_); (n_sequenceNumber, VInt 0); (n_yPosition, VStr n_)]
    []
    [n_Location]
    []
    [(n_Location, POneMany n_PositionPoints)];
(* CIM15/IEC61968/Common/PostalAddress.py:22-56 *)
  Cls n_CIM15_IEC61968_Common_PostalAddress_PostalAddress n_PostalAddress None
    [(n_poBox, VStr n_); (n_postalCode, VStr n_); (n_streetDetail, VNone); (n_townDetail, VNone)]
    [SAttr n_poBox; SAttr n_postalCode; SAttr n_streetDetail; SAttr n_townDetail]
    false true
    [n_poBox; n_postalCode]
    [(n_poBox, VStr n_); (n_postalCode, VStr n_)]
    []
    [n_streetDetail; n_townDetail]
    []
    [];
(* CIM15/IEC61968/Common/Status.py:22-52 *)
  Cls n_CIM15_IEC61968_Common_Status_Status n_Status None
    [(n_reason, VStr n_); (n_dateTime, VStr n_); (n_value, VStr n_); (n_remark, VStr n_)]
    [SAttr n_reason; SAttr n_dateTime; SAttr n_value; SAttr n_remark]
    false true
    [n_reason; n_dateTime; n_value; n_remark]
    [(n_reason, VStr n_); (n_dateTime, VStr n_); (n_value, VStr n_); (n_remark, VStr n_)]
    []
    []
    []
    [];
(* CIM15/IEC61968/Common/StreetAddress.py:22-54 *)
  Cls n_CIM15_IEC61968_Common_StreetAddress_StreetAddress n_StreetAddress None
    [(n_status, VNone); (n_streetDetail, VNone); (n_townDetail, VNone)]
    [SAttr n_status; SAttr n_streetDetail; SAttr n_townDetail]
    false true
    []
    []
    []
    [n_status; n_streetDetail; n_townDetail]
    []
    [];
(* CIM15/IEC61968/Common/StreetDetail.py:22-76 *)
  Cls n_CIM15_IEC61968_Common_StreetDetail_StreetDetail n_StreetDetail None
    [(n_withinTownLimits, VBool false); (n_name, VStr n_); (n_type, VStr n_); (n_prefix, VStr n_); (n_buildingName, VStr n_); (n_suiteNumber, VStr n_); (n_suffix, VStr n_); (n_addressGeneral, VStr n_); (n_code, VStr n_); (n_number, VStr n_)]
    [SAttr n_withinTownLimits; SAttr n_name; SAttr n_type; SAttr n_prefix; SAttr n_buildingName; SAttr n_suiteNumber; SAttr n_suffix; SAttr n_addressGeneral; SAttr n_code; SAttr n_number]
    false true
    [n_withinTownLimits; n_name; n_type; n_prefix; n_buildingName; n_suiteNumber; n_suffix; n_addressGeneral; n_code; n_number]
    [(n_withinTownLimits, VBool false); (n_name, VStr n_); (n_type, VStr n_); (n_prefix, VStr n_); (n_buildingName, VStr n_); (n_suiteNumber, VStr n_); (n_suffix, VStr n_); (n_addressGeneral, VStr n_); (n_code, VStr n_); (n_number, VStr n_)]
    []
    []
    []
    [];
(* CIM15/IEC61968/Common/TelephoneNumber.py:22-56 *)
  Cls n_CIM15_IEC61968_Common_TelephoneNumber_TelephoneNumber n_TelephoneNumber None
    [(n_cityCode, VStr n_); (n_localNumber, VStr n_); (n_extension, VStr n_); (n_areaCode, VStr n_); (n_countryCode, VStr n_)]
    [SAttr n_cityCode; SAttr n_localNumber; SAttr n_extension; SAttr n_areaCode; SAttr n_countryCode]
    false true
    [n_cityCode; n_localNumber; n_extension; n_areaCode; n_countryCode]
    [(n_cityCode, VStr n_); (n_localNumber, VStr n_); (n_extension, VStr n_); (n_areaCode, VStr n_); (n_countryCode, VStr n_)]
    []
    []
    []
    [];
(* CIM15/IEC61968/Common/TimePoint.py:23-108 *)
  Cls n_CIM15_IEC61968_Common_TimePoint_TimePoint n_TimePoint (Some n_CIM15_IEC61970_Core_IdentifiedObject_IdentifiedObject)
    [(n_dateTime, VStr n_); (n_sequenceNumber, VInt 0); (n_relativeTimeInterval, VFloat n_0_0); (n_status, VNone); (n_window, VNone); (n_TimeSchedule, VNone); (n_ScheduledEvents, VNone)]
    [SAttr n_dateTime; SAttr n_sequenceNumber; SAttr n_relativeTimeInterval; SAttr n_status; SAttr n_window; SOne n_TimeSchedule; SMany n_ScheduledEvents]
    true true
    [n_dateTime; n_sequenceNumber; n_relativeTimeInterval]
    [(n_dateTime, VStr n_); (n_sequenceNumber, VInt 0); (n_relativeTimeInterval, VFloat n_0_0)]
    []
    [n_status; n_window; n_TimeSchedule; n_ScheduledEvents]
    [n_ScheduledEvents]
    [(n_TimeSchedule, POneMany n_TimePoints); (n_ScheduledEvents, PManyOne n_TimePoint)];
(* CIM15/IEC61968/Common/TimeSchedule.py:23-86 *)
  Cls n_CIM15_IEC61968_Common_TimeSchedule_TimeSchedule n_TimeSchedule (Some n_CIM15_IEC61968_Common_Document_Document)
    [(n_recurrencePeriod, VFloat n_0_0); (n_disabled, VBool false); (n_offset, VFloat n_0_0); (n_recurrencePattern, VStr n_); (n_TimePoints, VNone); (n_scheduleInterval, VNone)]
    [SAttr n_recurrencePeriod; SAttr n_disabled; SAttr n_offset; SAttr n_recurrencePattern; SMany n_TimePoints; SAttr n_scheduleInterval]
    true true
    [n_recurrencePeriod; n_disabled; n_offset; n_recurrencePattern]
    [(n_recurrencePeriod, VFloat n_0_0); (n_disabled, VBool false); (n_offset, VFloat n_0_0); (n_recurrencePattern, VStr n_)]
    []
    [n_TimePoints; n_scheduleInterval]
    [n_TimePoints]
    [(n_TimePoints, PManyOne n_TimeSchedule)];
(* CIM15/IEC61968/Common/TownDetail.py:22-56 *)
  Cls n_CIM15_IEC61968_Common_TownDetail_TownDetail n_TownDetail None
    [(n_name, VStr n_); (n_stateOrProvince, VStr n_); (n_section, VStr n_); (n_code, VStr n_); (n_country, VStr n_)]
    [SAttr n_name; SAttr n_stateOrProvince; SAttr n_section; SAttr n_code; SAttr n_country]
    false true
    [n_name; n_stateOrProvince; n_section; n_code; n_country]
    [(n_name, VStr n_); (n_stateOrProvince, VStr n_); (n_section, VStr n_); (n_code, VStr n_); (n_country, VStr n_)]
    []
    []
    []
    [];
(* CIM15/IEC61968/Common/UserAttribute.py:23-286 *)
  Cls n_CIM15_IEC61968_Common_UserAttribute_UserAttribute n_UserAttribute (Some n_CIM15_Element_Element)
    [(n_name, VStr n_); (n_value, VStr n_); (n_sequenceNumber, VInt 0); (n_ErpLedgerEntries, VNone); (n_ProcedureDataSets, VNone); (n_Transaction, VNone); (n_PropertySpecification, VNone); (n_Procedure, VNone); (n_PropertyAssets, VNone); (n_RatingSpecification, VNone); (n_ErpInvoiceLineItems, VNone); (n_RatingAssets, VNone)]
    [SAttr n_name; SAttr n_value; SAttr n_sequenceNumber; SMany n_ErpLedgerEntries; SMany n_ProcedureDataSets; SOne n_Transaction; SOne n_PropertySpecification; SOne n_Procedure; SMany n_PropertyAssets; SOne n_RatingSpecification; SMany n_ErpInvoiceLineItems; SMany n_RatingAssets]
    true true
    [n_name; n_value; n_sequenceNumber]
    [(n_name, VStr n_); (n_value, VStr n_); (n_sequenceNumber, VInt 0)]
    []
    [n_ErpLedgerEntries; n_ProcedureDataSets; n_Transaction; n_PropertySpecification; n_Procedure; n_PropertyAssets; n_RatingSpecification; n_ErpInvoiceLineItems; n_RatingAssets]
    [n_ErpLedgerEntries; n_ProcedureDataSets; n_PropertyAssets; n_ErpInvoiceLineItems; n_RatingAssets]
    [(n_ErpLedgerEntries, PManyMany n_UserAttributes); (n_ProcedureDataSets, PManyMany n_Properties); (n_Transaction, POneMany n_UserAttributes); (n_PropertySpecification, POneMany n_AssetProperites); (n_Procedure, POneMany n_ProcedureValues); (n_PropertyAssets, PManyMany n_Properties); (n_RatingSpecification, POneMany n_Ratings); (n_ErpInvoiceLineItems, PManyMany n_UserAttributes); (n_RatingAssets, PManyMany n_Ratings)];
(* CIM15/IEC61968/Customers/Customer.py:23-245 *)
  Cls n_CIM15_IEC61968_Customers_Customer_Customer n_Customer (Some n_CIM15_IEC61968_Common_Organisation_Organisation)
    [(n_vip, VBool false); (n_pucNumber, VStr n_); (n_specialNeed, VStr n_); (n_kind, VStr n_windMachine); (n_CustomerAgreements, VNone); (n_ErpPersons, VNone); (n_EndDevices, VNone); (n_Works, VNone); (n_status, VNone); (n_PlannedOutage, VNone); (n_OutageNotifications, VNone); (n_TroubleTickets, VNone)]
    [SAttr n_vip; SAttr n_pucNumber; SAttr n_specialNeed; SAttr n_kind; SMany n_CustomerAgreements; SMany n_ErpPersons; SMany n_EndDevices; SMany n_Works; SAttr n_status; SOne n_PlannedOutage; SMany n_OutageNotifications; SMany n_TroubleTickets]
    true true
    [n_vip; n_pucNumber; n_specialNeed; n_kind]
    [(n_vip, VBool false); (n_pucNumber, VStr n_); (n_specialNeed, VStr n_); (n_kind, VStr n_windMachine)]
    [(n_kind, n_CustomerKind)]
    [n_CustomerAgreements; n_ErpPersons; n_EndDevices; n_Works; n_status; n_PlannedOutage; n_OutageNotifications; n_TroubleTickets]
    [n_CustomerAgreements; n_ErpPersons; n_EndDevices; n_Works; n_OutageNotifications; n_TroubleTickets]
    [(n_CustomerAgreements, PManyOne n_Customer); (n_ErpPersons, PManyOne n_CustomerData); (n_EndDevices, PManyOne n_Customer); (n_Works, PManyMany n_Customers); (n_PlannedOutage, POneMany n_CustomerDatas); (n_OutageNotifications, PManyMany n_CustomerDatas); (n_TroubleTickets, PManyOne n_CustomerData)];
(* CIM15/IEC61968/Customers/CustomerAccount.py:23-165 *)
  Cls n_CIM15_IEC61968_Customers_CustomerAccount_CustomerAccount n_CustomerAccount (Some n_CIM15_IEC61968_Common_Document_Document)
    [(n_WorkBillingInfos, VNone); (n_CustomerAgreements, VNone); (n_ErpInvoicees, VNone); (n_PaymentTransactions, VNone); (n_CustomerBillingInfos, VNone)]
    [SMany n_WorkBillingInfos; SMany n_CustomerAgreements; SMany n_ErpInvoicees; SMany n_PaymentTransactions; SMany n_CustomerBillingInfos]
    true true
    []
    []
    []
    [n_WorkBillingInfos; n_CustomerAgreements; n_ErpInvoicees; n_PaymentTransactions; n_CustomerBillingInfos]
    [n_WorkBillingInfos; n_CustomerAgreements; n_ErpInvoicees; n_PaymentTransactions; n_CustomerBillingInfos]
    [(n_WorkBillingInfos, PManyOne n_CustomerAccount); (n_CustomerAgreements, PManyOne n_CustomerAccount); (n_ErpInvoicees, PManyOne n_CustomerAccount); (n_PaymentTransactions, PManyOne n_CustomerAccount); (n_CustomerBillingInfos, PManyOne n_CustomerAccount)];
(* CIM15/IEC61968/Customers/CustomerAgreement.py:23-353 *)
  Cls n_CIM15_IEC61968_Customers_CustomerAgreement_CustomerAgreement n_CustomerAgreement (Some n_CIM15_IEC61968_Common_Agreement_Agreement)
    [(n_billingCycle, VStr n_); (n_loadMgmt, VStr n_); (n_budgetBill, VStr n_); (n_PricingStructures, VNone); (n_CustomerAccount, VNone); (n_StandardIndustryCode, VNone); (n_AuxiliaryAgreements, VNone); (n_MeterReadings, VNone); (n_Equipments, VNone); (n_ServiceSupplier, VNone); (n_ServiceLocations, VNone); (n_DemandResponseProgram, VNone); (n_ServiceDeliveryPoints, VNone); (n_Customer, VNone); (n_EndDeviceControls, VNone)]
    [SAttr n_billingCycle; SAttr n_loadMgmt; SAttr n_budgetBill; SMany n_PricingStructures; SOne n_CustomerAccount; SOne n_StandardIndustryCode; SMany n_AuxiliaryAgreements; SMany n_MeterReadings; SMany n_Equipments; SOne n_ServiceSupplier; SMany n_ServiceLocations; SOne n_DemandResponseProgram; SMany n_ServiceDeliveryPoints; SOne n_Customer; SMany n_EndDeviceControls]
    true true
    [n_billingCycle; n_loadMgmt; n_budgetBill]
    [(n_billingCycle, VStr n_); (n_loadMgmt, VStr n_); (n_budgetBill, VStr n_)]
    []
    [n_PricingStructures; n_CustomerAccount; n_StandardIndustryCode; n_AuxiliaryAgreements; n_MeterReadings; n_Equipments; n_ServiceSupplier; n_ServiceLocations; n_DemandResponseProgram; n_ServiceDeliveryPoints; n_Customer; n_EndDeviceControls]
    [n_PricingStructures; n_AuxiliaryAgreements; n_MeterReadings; n_Equipments; n_ServiceLocations; n_ServiceDeliveryPoints; n_EndDeviceControls]
    [(n_PricingStructures, PManyMany n_CustomerAgreements); (n_CustomerAccount, POneMany n_CustomerAgreements); (n_StandardIndustryCode, POneMany n_CustomerAgreements); (n_AuxiliaryAgreements, PManyOne n_CustomerAgreement); (n_MeterReadings, PManyOne n_CustomerAgreement); (n_Equipments, PManyMany n_CustomerAgreements); (n_ServiceSupplier, POneMany n_CustomerAgreements); (n_ServiceLocations, PManyMany n_CustomerAgreements); (n_DemandResponseProgram, POneMany n_CustomerAgreements); (n_ServiceDeliveryPoints, PManyOne n_CustomerAgreement); (n_Customer, POneMany n_CustomerAgreements); (n_EndDeviceControls, PManyOne n_CustomerAgreement)];
(* CIM15/IEC61968/Customers/PricingStructure.py:23-205 *)
  Cls n_CIM15_IEC61968_Customers_PricingStructure_PricingStructure n_PricingStructure (Some n_CIM15_IEC61968_Common_Document_Document)
    [(n_dailyFloorUsage, VInt 0); (n_dailyCeilingUsage, VInt 0); (n_taxExemption, VBool false); (n_code, VStr n_); (n_dailyEstimatedUsage, VInt 0); (n_revenueKind, VStr n_irrigation); (n_ServiceCategory, VNone); (n_CustomerAgreements, VNone); (n_ServiceDeliveryPoints, VNone); (n_Tariffs, VNone); (n_Transactions, VNone)]
    [SAttr n_dailyFloorUsage; SAttr n_dailyCeilingUsage; SAttr n_taxExemption; SAttr n_code; SAttr n_dailyEstimatedUsage; SAttr n_revenueKind; SOne n_ServiceCategory; SMany n_CustomerAgreements; SMany n_ServiceDeliveryPoints; SMany n_Tariffs; SMany n_Transactions]
    true true
    [n_dailyFloorUsage; n_dailyCeilingUsage; n_taxExemption; n_code; n_dailyEstimatedUsage; n_revenueKind]
    [(n_dailyFloorUsage, VInt 0); (n_dailyCeilingUsage, VInt 0); (n_taxExemption, VBool false); (n_code, VStr n_); (n_dailyEstimatedUsage, VInt 0); (n_revenueKind, VStr n_irrigation)]
    [(n_revenueKind, n_RevenueKind)]
    [n_ServiceCategory; n_CustomerAgreements; n_ServiceDeliveryPoints; n_Tariffs; n_Transactions]
    [n_CustomerAgreements; n_ServiceDeliveryPoints; n_Tariffs; n_Transactions]
    [(n_ServiceCategory, POneMany n_PricingStructures); (n_CustomerAgreements, PManyMany n_PricingStructures); (n_ServiceDeliveryPoints, PManyMany n_PricingStructures); (n_Tariffs, PManyMany n_PricingStructures); (n_Transactions, PManyOne n_PricingStructure)];
(* CIM15/IEC61968/Customers/ServiceCategory.py:23-94 *)
  Cls n_CIM15_IEC61968_Customers_ServiceCategory_ServiceCategory n_ServiceCategory (Some n_CIM15_IEC61970_Core_IdentifiedObject_IdentifiedObject)
    [(n_kind, VStr n_other); (n_PricingStructures, VNone); (n_ServiceDeliveryPoints, VNone)]
    [SAttr n_kind; SMany n_PricingStructures; SMany n_ServiceDeliveryPoints]
    true true
    [n_kind]
    [(n_kind, VStr n_other)]
    [(n_kind, n_ServiceKind)]
    [n_PricingStructures; n_ServiceDeliveryPoints]
    [n_PricingStructures; n_ServiceDeliveryPoints]
    [(n_PricingStructures, PManyOne n_ServiceCategory); (n_ServiceDeliveryPoints, PManyOne n_ServiceCategory)];
(* CIM15/IEC61968/Customers/ServiceLocation.py:23-159 *)
  Cls n_CIM15_IEC61968_Customers_ServiceLocation_ServiceLocation n_ServiceLocation (Some n_CIM15_IEC61968_Common_Location_Location)
    [(n_siteAccessProblem, VStr n_); (n_accessMethod, VStr n_); (n_needsInspection, VBool false); (n_EndDevices, VNone); (n_ErpPersons, VNone); (n_ServiceDeliveryPoints, VNone); (n_CustomerAgreements, VNone)]
    [SAttr n_siteAccessProblem; SAttr n_accessMethod; SAttr n_needsInspection; SMany n_EndDevices; SMany n_ErpPersons; SMany n_ServiceDeliveryPoints; SMany n_CustomerAgreements]
    true true
    [n_siteAccessProblem; n_accessMethod; n_needsInspection]
    [(n_siteAccessProblem, VStr n_); (n_accessMethod, VStr n_); (n_needsInspection, VBool false)]
    []
    [n_EndDevices; n_ErpPersons; n_ServiceDeliveryPoints; n_CustomerAgreements]
    [n_EndDevices; n_ErpPersons; n_ServiceDeliveryPoints; n_CustomerAgreements]
    [(n_EndDevices, PManyOne n_ServiceLocation); (n_ErpPersons, PManyOne n_ServiceLocation); (n_ServiceDeliveryPoints, PManyOne n_ServiceLocation); (n_CustomerAgreements, PManyMany n_ServiceLocations)];
(* CIM15/IEC61968/Customers/Tariff.py:23-110 *)
  Cls n_CIM15_IEC61968_Customers_Tariff_Tariff n_Tariff (Some n_CIM15_IEC61968_Common_Document_Document)
    [(n_startDate, VStr n_); (n_endDate, VStr n_); (n_PricingStructures, VNone); (n_TariffProfiles, VNone)]
    [SAttr n_startDate; SAttr n_endDate; SMany n_PricingStructures; SMany n_TariffProfiles]
    true true
    [n_startDate; n_endDate]
    [(n_startDate, VStr n_); (n_endDate, VStr n_)]
    []
    [n_PricingStructures; n_TariffProfiles]
    [n_PricingStructures; n_TariffProfiles]
    [(n_PricingStructures, PManyMany n_Tariffs); (n_TariffProfiles, PManyMany n_Tariffs)];
(* CIM15/IEC61968/IEC61968CIMVersion.py:23-46 *)
  Cls n_CIM15_IEC61968_IEC61968CIMVersion_IEC61968CIMVersion n_IEC61968CIMVersion (Some n_CIM15_Element_Element)
    [(n_version, VStr n_); (n_date, VStr n_)]
    [SAttr n_version; SAttr n_date]
    true true
    [n_version; n_date]
    [(n_version, VStr n_); (n_date, VStr n_)]
    []
    []
    []
    [];
(* CIM15/IEC61968/LoadControl/ConnectDisconnectFunction.py:23-103 *)
  Cls n_CIM15_IEC61968_LoadControl_ConnectDisconnectFunction_ConnectDisconnectFunction n_ConnectDisconnectFunction (Some n_CIM15_IEC61968_Metering_EndDeviceFunction_EndDeviceFunction)
    [(n_isDelayedDiscon, VBool false); (n_eventCount, VInt 0); (n_isRemoteAutoReconOp, VBool false); (n_isRemoteAutoDisconOp, VBool false); (n_isLocalAutoDisconOp, VBool false); (n_isLocalAutoReconOp, VBool false); (n_isConnected, VBool false); (n_rcdInfo, VNone); (n_Switches, VNone)]
    [SAttr n_isDelayedDiscon; SAttr n_eventCount; SAttr n_isRemoteAutoReconOp; SAttr n_isRemoteAutoDisconOp; SAttr n_isLocalAutoDisconOp; SAttr n_isLocalAutoReconOp; SAttr n_isConnected; SAttr n_rcdInfo; SMany n_Switches]
    true true
    [n_isDelayedDiscon; n_eventCount; n_isRemoteAutoReconOp; n_isRemoteAutoDisconOp; n_isLocalAutoDisconOp; n_isLocalAutoReconOp; n_isConnected]
    [(n_isDelayedDiscon, VBool false); (n_eventCount, VInt 0); (n_isRemoteAutoReconOp, VBool false); (n_isRemoteAutoDisconOp, VBool false); (n_isLocalAutoDisconOp, VBool false); (n_isLocalAutoReconOp, VBool false); (n_isConnected, VBool false)]
    []
    [n_rcdInfo; n_Switches]
    [n_Switches]
    [(n_Switches, PManyMany n_ConnectDisconnectFunctions)];
(* CIM15/IEC61968/LoadControl/RemoteConnectDisconnectInfo.py:22-84 *)
  Cls n_CIM15_IEC61968_LoadControl_RemoteConnectDisconnectInfo_RemoteConnectDisconnectInfo n_RemoteConnectDisconnectInfo None
    [(n_isArmConnect, VBool false); (n_energyUsageWarning, VFloat n_0_0); (n_needsVoltageLimitCheck, VBool false); (n_customerVoltageLimit, VFloat n_0_0); (n_isArmDisconnect, VBool false); (n_isEnergyLimiting, VBool false); (n_armedTimeout, VFloat n_0_0); (n_powerLimit, VFloat n_0_0); (n_needsPowerLimitCheck, VBool false); (n_usePushbutton, VBool false); (n_energyLimit, VFloat n_0_0); (n_energyUsageStartDateTime, VStr n_)]
    [SAttr n_isArmConnect; SAttr n_energyUsageWarning; SAttr n_needsVoltageLimitCheck; SAttr n_customerVoltageLimit; SAttr n_isArmDisconnect; SAttr n_isEnergyLimiting; SAttr n_armedTimeout; SAttr n_powerLimit; SAttr n_needsPowerLimitCheck; SAttr n_usePushbutton; SAttr n_energyLimit; SAttr n_energyUsageStartDateTime]
    false true
    [n_isArmConnect; n_energyUsageWarning; n_needsVoltageLimitCheck; n_customerVoltageLimit; n_isArmDisconnect; n_isEnergyLimiting; n_armedTimeout; n_powerLimit; n_needsPowerLimitCheck; n_usePushbutton; n_energyLimit; n_energyUsageStartDateTime]
    [(n_isArmConnect, VBool false); (n_energyUsageWarning, VFloat n_0_0); (n_needsVoltageLimitCheck, VBool false); (n_customerVoltageLimit, VFloat n_0_0); (n_isArmDisconnect, VBool false); (n_isEnergyLimiting, VBool false); (n_armedTimeout, VFloat n_0_0); (n_powerLimit, VFloat n_0_0); (n_needsPowerLimitCheck, VBool false); (n_usePushbutton, VBool false); (n_energyLimit, VFloat n_0_0); (n_energyUsageStartDateTime, VStr n_)]
    []
    []
    []
    [];
(* CIM15/IEC61968/Metering/ComFunction.py:23-50 *)
  Cls n_CIM15_IEC61968_Metering_ComFunction_ComFunction n_ComFunction (Some n_CIM15_IEC61968_Metering_EndDeviceFunction_EndDeviceFunction)
    [(n_amrRouter, VStr n_); (n_amrAddress, VStr n_); (n_twoWay, VBool false)]
    [SAttr n_amrRouter; SAttr n_amrAddress; SAttr n_twoWay]
    true true
    [n_amrRouter; n_amrAddress; n_twoWay]
    [(n_amrRouter, VStr n_); (n_amrAddress, VStr n_); (n_twoWay, VBool false)]
    []
    []
    []
    [];
(* CIM15/IEC61968/Metering/DemandResponseProgram.py:23-126 *)
  Cls n_CIM15_IEC61968_Metering_DemandResponseProgram_DemandResponseProgram n_DemandResponseProgram (Some n_CIM15_IEC61970_Core_IdentifiedObject_IdentifiedObject)
    [(n_type, VStr n_); (n_EndDeviceControls, VNone); (n_validityInterval, VNone); (n_CustomerAgreements, VNone); (n_EndDeviceGroups, VNone)]
    [SAttr n_type; SMany n_EndDeviceControls; SAttr n_validityInterval; SMany n_CustomerAgreements; SMany n_EndDeviceGroups]
    true true
    [n_type]
    [(n_type, VStr n_)]
    []
    [n_EndDeviceControls; n_validityInterval; n_CustomerAgreements; n_EndDeviceGroups]
    [n_EndDeviceControls; n_CustomerAgreements; n_EndDeviceGroups]
    [(n_EndDeviceControls, PManyOne n_DemandResponseProgram); (n_CustomerAgreements, PManyOne n_DemandResponseProgram); (n_EndDeviceGroups, PManyOne n_DemandResponseProgram)];
(* CIM15/IEC61968/Metering/DynamicDemand.py:22-48 *)
  Cls n_CIM15_IEC61968_Metering_DynamicDemand_DynamicDemand n_DynamicDemand None
    [(n_subInterval, VFloat n_0_0); (n_interval, VFloat n_0_0); (n_kind, VStr n_fixedBlock)]
    [SAttr n_subInterval; SAttr n_interval; SAttr n_kind]
    false true
    [n_subInterval; n_interval; n_kind]
    [(n_subInterval, VFloat n_0_0); (n_interval, VFloat n_0_0); (n_kind, VStr n_fixedBlock)]
    [(n_kind, n_DemandKind)]
    []
    []
    [];
(* CIM15/IEC61968/Metering/ElectricMeteringFunction.py:23-70 *)
  Cls n_CIM15_IEC61968_Metering_ElectricMeteringFunction_ElectricMeteringFunction n_ElectricMeteringFunction (Some n_CIM15_IEC61968_Metering_EndDeviceFunction_EndDeviceFunction)
    [(n_kWMultiplier, VInt 0); (n_kWhMultiplier, VInt 0); (n_ctRatioMultiplier, VNone); (n_billingMultiplier, VNone); (n_vtRatioMultiplier, VNone); (n_demandMultiplier, VNone)]
    [SAttr n_kWMultiplier; SAttr n_kWhMultiplier; SAttr n_ctRatioMultiplier; SAttr n_billingMultiplier; SAttr n_vtRatioMultiplier; SAttr n_demandMultiplier]
    true true
    [n_kWMultiplier; n_kWhMultiplier]
    [(n_kWMultiplier, VInt 0); (n_kWhMultiplier, VInt 0)]
    []
    [n_ctRatioMultiplier; n_billingMultiplier; n_vtRatioMultiplier; n_demandMultiplier]
    []
    [];
(* CIM15/IEC61968/Metering/EndDevice.py:23-214 *)
  Cls n_CIM15_IEC61968_Metering_EndDevice_EndDevice n_EndDevice (Some n_CIM15_IEC61968_Assets_AssetContainer_AssetContainer)
    [(n_timeZoneOffset, VFloat n_0_0); (n_amrSystem, VStr n_); (n_EndDeviceInfo, VNone); (n_ServiceDeliveryPoint, VNone); (n_ServiceLocation, VNone); (n_EndDeviceFunctions, VNone); (n_EndDeviceControls, VNone); (n_Customer, VNone); (n_EndDeviceGroups, VNone)]
    [SAttr n_timeZoneOffset; SAttr n_amrSystem; SOne n_EndDeviceInfo; SOne n_ServiceDeliveryPoint; SOne n_ServiceLocation; SMany n_EndDeviceFunctions; SMany n_EndDeviceControls; SOne n_Customer; SMany n_EndDeviceGroups]
    true true
    [n_timeZoneOffset; n_amrSystem]
    [(n_timeZoneOffset, VFloat n_0_0); (n_amrSystem, VStr n_)]
    []
    [n_EndDeviceInfo; n_ServiceDeliveryPoint; n_ServiceLocation; n_EndDeviceFunctions; n_EndDeviceControls; n_Customer; n_EndDeviceGroups]
    [n_EndDeviceFunctions; n_EndDeviceControls; n_EndDeviceGroups]
    [(n_EndDeviceInfo, POneMany n_EndDevices); (n_ServiceDeliveryPoint, POneMany n_EndDevices); (n_ServiceLocation, POneMany n_EndDevices); (n_EndDeviceFunctions, PManyOne n_EndDevice); (n_EndDeviceControls, PManyOne n_EndDevice); (n_Customer, POneMany n_EndDevices); (n_EndDeviceGroups, PManyMany n_EndDevices)];
(* CIM15/IEC61968/Metering/EndDeviceControl.py:23-144 *)
  Cls n_CIM15_IEC61968_Metering_EndDeviceControl_EndDeviceControl n_EndDeviceControl (Some n_CIM15_IEC61970_Core_IdentifiedObject_IdentifiedObject)
    [(n_drProgramLevel, VInt 0); (n_drProgramMandatory, VBool false); (n_type, VStr n_); (n_priceSignal, VFloat n_0_0); (n_DemandResponseProgram, VNone); (n_CustomerAgreement, VNone); (n_scheduledInterval, VNone); (n_EndDeviceGroup, VNone); (n_EndDevice, VNone)]
    [SAttr n_drProgramLevel; SAttr n_drProgramMandatory; SAttr n_type; SAttr n_priceSignal; SOne n_DemandResponseProgram; SOne n_CustomerAgreement; SAttr n_scheduledInterval; SOne n_EndDeviceGroup; SOne n_EndDevice]
    true true
    [n_drProgramLevel; n_drProgramMandatory; n_type; n_priceSignal]
    [(n_drProgramLevel, VInt 0); (n_drProgramMandatory, VBool false); (n_type, VStr n_); (n_priceSignal, VFloat n_0_0)]
    []
    [n_DemandResponseProgram; n_CustomerAgreement; n_scheduledInterval; n_EndDeviceGroup; n_EndDevice]
    []
    [(n_DemandResponseProgram, POneMany n_EndDeviceControls); (n_CustomerAgreement, POneMany n_EndDeviceControls); (n_EndDeviceGroup, POneMany n_EndDeviceControls); (n_EndDevice, POneMany n_EndDeviceControls)];
(* CIM15/IEC61968/Metering/EndDeviceEvent.py:23-84 *)
  Cls n_CIM15_IEC61968_Metering_EndDeviceEvent_EndDeviceEvent n_EndDeviceEvent (Some n_CIM15_IEC61968_Common_ActivityRecord_ActivityRecord)
    [(n_userID, VStr n_); (n_EndDeviceFunction, VNone); (n_MeterReading, VNone)]
    [SAttr n_userID; SOne n_EndDeviceFunction; SOne n_MeterReading]
    true true
    [n_userID]
    [(n_userID, VStr n_)]
    []
    [n_EndDeviceFunction; n_MeterReading]
    []
    [(n_EndDeviceFunction, POneMany n_EndDeviceEvents); (n_MeterReading, POneMany n_EndDeviceEvents)];
(* CIM15/IEC61968/Metering/EndDeviceFunction.py:23-140 *)
  Cls n_CIM15_IEC61968_Metering_EndDeviceFunction_EndDeviceFunction n_EndDeviceFunction (Some n_CIM15_IEC61968_Assets_AssetFunction_AssetFunction)
    [(n_enabled, VBool false); (n_supported, VBool false); (n_Registers, VNone); (n_ComEquipment, VNone); (n_EndDeviceEvents, VNone); (n_EndDevice, VNone)]
    [SAttr n_enabled; SAttr n_supported; SMany n_Registers; SOne n_ComEquipment; SMany n_EndDeviceEvents; SOne n_EndDevice]
    true true
    [n_enabled; n_supported]
    [(n_enabled, VBool false); (n_supported, VBool false)]
    []
    [n_Registers; n_ComEquipment; n_EndDeviceEvents; n_EndDevice]
    [n_Registers; n_EndDeviceEvents]
    [(n_Registers, PManyOne n_EndDeviceFunction); (n_ComEquipment, POneMany n_EndDeviceFunctions); (n_EndDeviceEvents, PManyOne n_EndDeviceFunction); (n_EndDevice, POneMany n_EndDeviceFunctions)];
(* CIM15/IEC61968/Metering/EndDeviceGroup.py:23-121 *)
  Cls n_CIM15_IEC61968_Metering_EndDeviceGroup_EndDeviceGroup n_EndDeviceGroup (Some n_CIM15_IEC61970_Core_IdentifiedObject_IdentifiedObject)
    [(n_groupAddress, VInt 0); (n_EndDeviceControls, VNone); (n_EndDevices, VNone); (n_DemandResponseProgram, VNone)]
    [SAttr n_groupAddress; SMany n_EndDeviceControls; SMany n_EndDevices; SOne n_DemandResponseProgram]
    true true
    [n_groupAddress]
    [(n_groupAddress, VInt 0)]
    []
    [n_EndDeviceControls; n_EndDevices; n_DemandResponseProgram]
    [n_EndDeviceControls; n_EndDevices]
    [(n_EndDeviceControls, PManyOne n_EndDeviceGroup); (n_EndDevices, PManyMany n_EndDeviceGroups); (n_DemandResponseProgram, POneMany n_EndDeviceGroups)];
(* CIM15/IEC61968/Metering/IntervalBlock.py:23-133 *)
  Cls n_CIM15_IEC61968_Metering_IntervalBlock_IntervalBlock n_IntervalBlock (Some n_CIM15_Element_Element)
    [(n_ReadingType, VNone); (n_IntervalReadings, VNone); (n_MeterReading, VNone); (n_PendingCalculation, VNone)]
    [SOne n_ReadingType; SMany n_IntervalReadings; SOne n_MeterReading; SOne n_PendingCalculation]
    true true
    []
    []
    []
    [n_ReadingType; n_IntervalReadings; n_MeterReading; n_PendingCalculation]
    [n_IntervalReadings]
    [(n_ReadingType, POneMany n_IntervalBlocks); (n_IntervalReadings, PManyMany n_IntervalBlocks); (n_MeterReading, POneMany n_IntervalBlocks); (n_PendingCalculation, POneMany n_IntervalBlocks)];
(* CIM15/IEC61968/Metering/IntervalReading.py:23-100 *)
  Cls n_CIM15_IEC61968_Metering_IntervalReading_IntervalReading n_IntervalReading (Some n_CIM15_IEC61970_Meas_MeasurementValue_MeasurementValue)
    [(n_value, VFloat n_0_0); (n_IntervalBlocks, VNone); (n_ReadingQualities, VNone)]
    [SAttr n_value; SMany n_IntervalBlocks; SMany n_ReadingQualities]
    true true
    [n_value]
    [(n_value, VFloat n_0_0)]
    []
    [n_IntervalBlocks; n_ReadingQualities]
    [n_IntervalBlocks; n_ReadingQualities]
    [(n_IntervalBlocks, PManyMany n_IntervalReadings); (n_ReadingQualities, PManyOne n_IntervalReading)];
(* CIM15/IEC61968/Metering/Meter.py:23-154 *)
  Cls n_CIM15_IEC61968_Metering_Meter_Meter n_Meter (Some n_CIM15_IEC61968_Metering_EndDevice_EndDevice)
    [(n_kR, VFloat n_0_0); (n_kH, VFloat n_0_0); (n_formNumber, VStr n_); (n_MeterReplacementWorks, VNone); (n_MeterReadings, VNone); (n_MeterServiceWorks, VNone); (n_VendingTransactions, VNone)]
    [SAttr n_kR; SAttr n_kH; SAttr n_formNumber; SMany n_MeterReplacementWorks; SMany n_MeterReadings; SMany n_MeterServiceWorks; SMany n_VendingTransactions]
    true true
    [n_kR; n_kH; n_formNumber]
    [(n_kR, VFloat n_0_0); (n_kH, VFloat n_0_0); (n_formNumber, VStr n_)]
    []
    [n_MeterReplacementWorks; n_MeterReadings; n_MeterServiceWorks; n_VendingTransactions]
    [n_MeterReplacementWorks; n_MeterReadings; n_MeterServiceWorks; n_VendingTransactions]
    [(n_MeterReplacementWorks, PManyOne n_OldMeter); (n_MeterReadings, PManyOne n_Meter); (n_MeterServiceWorks, PManyOne n_Meter); (n_VendingTransactions, PManyOne n_Meter)];
(* CIM15/IEC61968/Metering/MeterReading.py:23-191 *)
  Cls n_CIM15_IEC61968_Metering_MeterReading_MeterReading n_MeterReading (Some n_CIM15_IEC61970_Core_IdentifiedObject_IdentifiedObject)
    [(n_ServiceDeliveryPoint, VNone); (n_valuesInterval, VNone); (n_EndDeviceEvents, VNone); (n_Readings, VNone); (n_CustomerAgreement, VNone); (n_Meter, VNone); (n_IntervalBlocks, VNone)]
    [SOne n_ServiceDeliveryPoint; SAttr n_valuesInterval; SMany n_EndDeviceEvents; SMany n_Readings; SOne n_CustomerAgreement; SOne n_Meter; SMany n_IntervalBlocks]
    true true
    []
    []
    []
    [n_ServiceDeliveryPoint; n_valuesInterval; n_EndDeviceEvents; n_Readings; n_CustomerAgreement; n_Meter; n_IntervalBlocks]
    [n_EndDeviceEvents; n_Readings; n_IntervalBlocks]
    [(n_ServiceDeliveryPoint, POneMany n_MeterReadings); (n_EndDeviceEvents, PManyOne n_MeterReading); (n_Readings, PManyMany n_MeterReadings); (n_CustomerAgreement, POneMany n_MeterReadings); (n_Meter, POneMany n_MeterReadings); (n_IntervalBlocks, PManyOne n_MeterReading)];
(* CIM15/IEC61968/Metering/MeterServiceWork.py:23-80 *)
  Cls n_CIM15_IEC61968_Metering_MeterServiceWork_MeterServiceWork n_MeterServiceWork (Some n_CIM15_IEC61968_Work_Work_Work)
    [(n_OldMeter, VNone); (n_Meter, VNone)]
    [SOne n_OldMeter; SOne n_Meter]
    true true
    []
    []
    []
    [n_OldMeter; n_Meter]
    []
    [(n_OldMeter, POneMany n_MeterReplacementWorks); (n_Meter, POneMany n_MeterServiceWorks)];
(* CIM15/IEC61968/Metering/PendingCalculation.py:23-104 *)
  Cls n_CIM15_IEC61968_Metering_PendingCalculation_PendingCalculation n_PendingCalculation (Some n_CIM15_Element_Element)
    [(n_scalarNumerator, VInt 0); (n_multiplyBeforeAdd, VBool false); (n_scalarDenominator, VInt 0); (n_scalarFloat, VFloat n_0_0); (n_offset, VInt 0); (n_IntervalBlocks, VNone); (n_ReadingType, VNone)]
    [SAttr n_scalarNumerator; SAttr n_multiplyBeforeAdd; SAttr n_scalarDenominator; SAttr n_scalarFloat; SAttr n_offset; SMany n_IntervalBlocks; SOne n_ReadingType]
    true true
    [n_scalarNumerator; n_multiplyBeforeAdd; n_scalarDenominator; n_scalarFloat; n_offset]
    [(n_scalarNumerator, VInt 0); (n_multiplyBeforeAdd, VBool false); (n_scalarDenominator, VInt 0); (n_scalarFloat, VFloat n_0_0); (n_offset, VInt 0)]
    []
    [n_IntervalBlocks; n_ReadingType]
    [n_IntervalBlocks]
    [(n_IntervalBlocks, PManyOne n_PendingCalculation); (n_ReadingType, POneOne n_PendingCalculation)];
(* CIM15/IEC61968/Metering/Reading.py:23-121 *)
  Cls n_CIM15_IEC61968_Metering_Reading_Reading n_Reading (Some n_CIM15_IEC61970_Meas_MeasurementValue_MeasurementValue)
    [(n_value, VFloat n_0_0); (n_ReadingType, VNone); (n_MeterReadings, VNone); (n_ReadingQualities, VNone)]
    [SAttr n_value; SOne n_ReadingType; SMany n_MeterReadings; SMany n_ReadingQualities]
    true true
    [n_value]
    [(n_value, VFloat n_0_0)]
    []
    [n_ReadingType; n_MeterReadings; n_ReadingQualities]
    [n_MeterReadings; n_ReadingQualities]
    [(n_ReadingType, POneMany n_Readings); (n_MeterReadings, PManyMany n_Readings); (n_ReadingQualities, PManyOne n_Reading)];
(* CIM15/IEC61968/Metering/ReadingMultiplier.py:22-44 *)
  Cls n_CIM15_IEC61968_Metering_ReadingMultiplier_ReadingMultiplier n_ReadingMultiplier None
    [(n_value, VFloat n_0_0); (n_isApplied, VBool false)]
    [SAttr n_value; SAttr n_isApplied]
    false true
    [n_value; n_isApplied]
    [(n_value, VFloat n_0_0); (n_isApplied, VBool false)]
    []
    []
    []
    [];
(* CIM15/IEC61968/Metering/ReadingQuality.py:23-84 *)
  Cls n_CIM15_IEC61968_Metering_ReadingQuality_ReadingQuality n_ReadingQuality (Some n_CIM15_Element_Element)
    [(n_quality, VStr n_); (n_Reading, VNone); (n_IntervalReading, VNone)]
    [SAttr n_quality; SOne n_Reading; SOne n_IntervalReading]
    true true
    [n_quality]
    [(n_quality, VStr n_)]
    []
    [n_Reading; n_IntervalReading]
    []
    [(n_Reading, POneMany n_ReadingQualities); (n_IntervalReading, POneMany n_ReadingQualities)];
(* CIM15/IEC61968/Metering/ReadingType.py:23-168 *)
  Cls n_CIM15_IEC61968_Metering_ReadingType_ReadingType n_ReadingType (Some n_CIM15_IEC61970_Core_IdentifiedObject_IdentifiedObject)
    [(n_multiplier, VStr n_M); (n_unit, VStr n_N); (n_kind, VStr n_phaseAngle); (n_reverseChronology, VBool false); (n_defaultQuality, VStr n_); (n_intervalLength, VFloat n_0_0); (n_channelNumber, VInt 0); (n_defaultValueDataType, VStr n_); (n_IntervalBlocks, VNone); (n_dynamicConfiguration, VNone); (n_Readings, VNone); (n_Register, VNone); (n_PendingCalculation, VNone)]
    [SAttr n_multiplier; SAttr n_unit; SAttr n_kind; SAttr n_reverseChronology; SAttr n_defaultQuality; SAttr n_intervalLength; SAttr n_channelNumber; SAttr n_defaultValueDataType; SMany n_IntervalBlocks; SAttr n_dynamicConfiguration; SMany n_Readings; SOne n_Register; SOne n_PendingCalculation]
    true true
    [n_multiplier; n_unit; n_kind; n_reverseChronology; n_defaultQuality; n_intervalLength; n_channelNumber; n_defaultValueDataType]
    [(n_multiplier, VStr n_M); (n_unit, VStr n_N); (n_kind, VStr n_phaseAngle); (n_reverseChronology, VBool false); (n_defaultQuality, VStr n_); (n_intervalLength, VFloat n_0_0); (n_channelNumber, VInt 0); (n_defaultValueDataType, VStr n_)]
    [(n_multiplier, n_UnitMultiplier); (n_unit, n_UnitSymbol); (n_kind, n_ReadingKind)]
    [n_IntervalBlocks; n_dynamicConfiguration; n_Readings; n_Register; n_PendingCalculation]
    [n_IntervalBlocks; n_Readings]
    [(n_IntervalBlocks, PManyOne n_ReadingType); (n_Readings, PManyOne n_ReadingType); (n_Register, POneOne n_ReadingType); (n_PendingCalculation, POneOne n_ReadingType)];
(* CIM15/IEC61968/Metering/Register.py:23-87 *)
  Cls n_CIM15_IEC61968_Metering_Register_Register n_Register (Some n_CIM15_IEC61970_Core_IdentifiedObject_IdentifiedObject)
    [(n_leftDigitCount, VInt 0); (n_rightDigitCount, VInt 0); (n_ReadingType, VNone); (n_EndDeviceFunction, VNone)]
    [SAttr n_leftDigitCount; SAttr n_rightDigitCount; SOne n_ReadingType; SOne n_EndDeviceFunction]
    true true
    [n_leftDigitCount; n_rightDigitCount]
    [(n_leftDigitCount, VInt 0); (n_rightDigitCount, VInt 0)]
    []
    [n_ReadingType; n_EndDeviceFunction]
    []
    [(n_ReadingType, POneOne n_Register); (n_EndDeviceFunction, POneMany n_Registers)];
(* CIM15/IEC61968/Metering/SDPLocation.py:23-86 *)
  Cls n_CIM15_IEC61968_Metering_SDPLocation_SDPLocation n_SDPLocation (Some n_CIM15_IEC61968_Common_Location_Location)
    [(n_accessMethod, VStr n_); (n_remark, VStr n_); (n_siteAccessProblem, VStr n_); (n_occupancyDate, VStr n_); (n_ServiceDeliveryPoints, VNone)]
    [SAttr n_accessMethod; SAttr n_remark; SAttr n_siteAccessProblem; SAttr n_occupancyDate; SMany n_ServiceDeliveryPoints]
    true true
    [n_accessMethod; n_remark; n_siteAccessProblem; n_occupancyDate]
    [(n_accessMethod, VStr n_); (n_remark, VStr n_); (n_siteAccessProblem, VStr n_); (n_occupancyDate, VStr n_)]
    []
    [n_ServiceDeliveryPoints]
    [n_ServiceDeliveryPoints]
    [(n_ServiceDeliveryPoints, PManyMany n_SDPLocations)];
(* CIM15/IEC61968/Metering/ServiceDeliveryPoint.py:23-319 *)
  Cls n_CIM15_IEC61968_Metering_ServiceDeliveryPoint_ServiceDeliveryPoint n_ServiceDeliveryPoint (Some n_CIM15_IEC61970_Core_IdentifiedObject_IdentifiedObject)
    [(n_checkBilling, VBool false); (n_estimatedLoad, VFloat n_0_0); (n_ratedPower, VFloat n_0_0); (n_servicePriority, VStr n_); (n_grounded, VBool false); (n_serviceDeliveryRemark, VStr n_); (n_phaseCode, VStr n_s12N); (n_ctptReference, VInt 0); (n_ratedCurrent, VFloat n_0_0); (n_ratedVoltage, VFloat n_0_0); (n_SDPLocations, VNone); (n_ServiceLocation, VNone); (n_EndDevices, VNone); (n_MeterReadings, VNone); (n_ServiceCategory, VNone); (n_PricingStructures, VNone); (n_EnergyConsumer, VNone); (n_ServiceSupplier, VNone); (n_CustomerAgreement, VNone); (n_TransformerTanks, VNone)]
    [SAttr n_checkBilling; SAttr n_estimatedLoad; SAttr n_ratedPower; SAttr n_servicePriority; SAttr n_grounded; SAttr n_serviceDeliveryRemark; SAttr n_phaseCode; SAttr n_ctptReference; SAttr n_ratedCurrent; SAttr n_ratedVoltage; SMany n_SDPLocations; SOne n_ServiceLocation; SMany n_EndDevices; SMany n_MeterReadings; SOne n_ServiceCategory; SMany n_PricingStructures; SOne n_EnergyConsumer; SOne n_ServiceSupplier; SOne n_CustomerAgreement; SOne n_TransformerTanks]
    true true
    [n_checkBilling; n_estimatedLoad; n_ratedPower; n_servicePriority; n_grounded; n_serviceDeliveryRemark; n_phaseCode; n_ctptReference; n_ratedCurrent; n_ratedVoltage]
    [(n_checkBilling, VBool false); (n_estimatedLoad, VFloat n_0_0); (n_ratedPower, VFloat n_0_0); (n_servicePriority, VStr n_); (n_grounded, VBool false); (n_serviceDeliveryRemark, VStr n_); (n_phaseCode, VStr n_s12N); (n_ctptReference, VInt 0); (n_ratedCurrent, VFloat n_0_0); (n_ratedVoltage, VFloat n_0_0)]
    [(n_phaseCode, n_PhaseCode)]
    [n_SDPLocations; n_ServiceLocation; n_EndDevices; n_MeterReadings; n_ServiceCategory; n_PricingStructures; n_EnergyConsumer; n_ServiceSupplier; n_CustomerAgreement; n_TransformerTanks]
    [n_SDPLocations; n_EndDevices; n_MeterReadings; n_PricingStructures]
    [(n_SDPLocations, PManyMany n_ServiceDeliveryPoints); (n_ServiceLocation, POneMany n_ServiceDeliveryPoints); (n_EndDevices, PManyOne n_ServiceDeliveryPoint); (n_MeterReadings, PManyOne n_ServiceDeliveryPoint); (n_ServiceCategory, POneMany n_ServiceDeliveryPoints); (n_PricingStructures, PManyMany n_ServiceDeliveryPoints); (n_EnergyConsumer, POneMany n_ServiceDeliveryPoints); (n_ServiceSupplier, POneMany n_ServiceDeliveryPoints); (n_CustomerAgreement, POneMany n_ServiceDeliveryPoints); (n_TransformerTanks, POneMany n_ServiceDeliveryPoints)];
(* CIM15/IEC61968/Metering/SimpleEndDeviceFunction.py:23-42 *)
  Cls n_CIM15_IEC61968_Metering_SimpleEndDeviceFunction_SimpleEndDeviceFunction n_SimpleEndDeviceFunction (Some n_CIM15_IEC61968_Metering_EndDeviceFunction_EndDeviceFunction)
    [(n_kind, VStr n_onRequestRead)]
    [SAttr n_kind]
    true true
    [n_kind]
    [(n_kind, VStr n_onRequestRead)]
    [(n_kind, n_EndDeviceFunctionKind)]
    []
    []
    [];
(* CIM15/IEC61968/PaymentMetering/AccountMovement.py:22-48 *)
  Cls n_CIM15_IEC61968_PaymentMetering_AccountMovement_AccountMovement n_AccountMovement None
    [(n_dateTime, VStr n_); (n_reason, VStr n_); (n_amount, VFloat n_0_0)]
    [SAttr n_dateTime; SAttr n_reason; SAttr n_amount]
    false true
    [n_dateTime; n_reason; n_amount]
    [(n_dateTime, VStr n_); (n_reason, VStr n_); (n_amount, VFloat n_0_0)]
    []
    []
    []
    [];
(* CIM15/IEC61968/PaymentMetering/AccountingUnit.py:22-52 *)
  Cls n_CIM15_IEC61968_PaymentMetering_AccountingUnit_AccountingUnit n_AccountingUnit None
    [(n_multiplier, VStr n_M); (n_energyUnit, VFloat n_0_0); (n_monetaryUnit, VStr n_CAD); (n_value, VFloat n_0_0)]
    [SAttr n_multiplier; SAttr n_energyUnit; SAttr n_monetaryUnit; SAttr n_value]
    false true
    [n_multiplier; n_energyUnit; n_monetaryUnit; n_value]
    [(n_multiplier, VStr n_M); (n_energyUnit, VFloat n_0_0); (n_monetaryUnit, VStr n_CAD); (n_value, VFloat n_0_0)]
    [(n_multiplier, n_UnitMultiplier); (n_monetaryUnit, n_Currency)]
    []
    []
    [];
(* CIM15/IEC61968/PaymentMetering/AuxiliaryAccount.py:23-143 *)
  Cls n_CIM15_IEC61968_PaymentMetering_AuxiliaryAccount_AuxiliaryAccount n_AuxiliaryAccount (Some n_CIM15_IEC61968_Common_Document_Document)
    [(n_principleAmount, VFloat n_0_0); (n_balance, VFloat n_0_0); (n_lastDebit, VNone); (n_PaymentTransactions, VNone); (n_Charges, VNone); (n_lastCredit, VNone); (n_AuxiliaryAgreement, VNone); (n_due, VNone)]
    [SAttr n_principleAmount; SAttr n_balance; SAttr n_lastDebit; SMany n_PaymentTransactions; SMany n_Charges; SAttr n_lastCredit; SOne n_AuxiliaryAgreement; SAttr n_due]
    true true
    [n_principleAmount; n_balance]
    [(n_principleAmount, VFloat n_0_0); (n_balance, VFloat n_0_0)]
    []
    [n_lastDebit; n_PaymentTransactions; n_Charges; n_lastCredit; n_AuxiliaryAgreement; n_due]
    [n_PaymentTransactions; n_Charges]
    [(n_PaymentTransactions, PManyOne n_AuxiliaryAccount); (n_Charges, PManyMany n_AuxiliaryAccounts); (n_AuxiliaryAgreement, POneMany n_AuxiliaryAccounts)];
(* CIM15/IEC61968/PaymentMetering/AuxiliaryAgreement.py:23-125 *)
  Cls n_CIM15_IEC61968_PaymentMetering_AuxiliaryAgreement_AuxiliaryAgreement n_AuxiliaryAgreement (Some n_CIM15_IEC61968_Common_Agreement_Agreement)
    [(n_vendPortionArrear, VFloat n_0_0); (n_auxRef, VStr n_); (n_payCycle, VStr n_); (n_arrearsInterest, VFloat n_0_0); (n_fixedAmount, VFloat n_0_0); (n_vendPortion, VFloat n_0_0); (n_subCategory, VStr n_); (n_auxCycle, VStr n_); (n_auxPriorityCode, VStr n_); (n_minAmount, VFloat n_0_0); (n_CustomerAgreement, VNone); (n_AuxiliaryAccounts, VNone)]
    [SAttr n_vendPortionArrear; SAttr n_auxRef; SAttr n_payCycle; SAttr n_arrearsInterest; SAttr n_fixedAmount; SAttr n_vendPortion; SAttr n_subCategory; SAttr n_auxCycle; SAttr n_auxPriorityCode; SAttr n_minAmount; SOne n_CustomerAgreement; SMany n_AuxiliaryAccounts]
    true true
    [n_vendPortionArrear; n_auxRef; n_payCycle; n_arrearsInterest; n_fixedAmount; n_vendPortion; n_subCategory; n_auxCycle; n_auxPriorityCode; n_minAmount]
    [(n_vendPortionArrear, VFloat n_0_0); (n_auxRef, VStr n_); (n_payCycle, VStr n_); (n_arrearsInterest, VFloat n_0_0); (n_fixedAmount, VFloat n_0_0); (n_vendPortion, VFloat n_0_0); (n_subCategory, VStr n_); (n_auxCycle, VStr n_); (n_auxPriorityCode, VStr n_); (n_minAmount, VFloat n_0_0)]
    []
    [n_CustomerAgreement; n_AuxiliaryAccounts]
    [n_AuxiliaryAccounts]
    [(n_CustomerAgreement, POneMany n_AuxiliaryAgreements); (n_AuxiliaryAccounts, PManyOne n_AuxiliaryAgreement)];
(* CIM15/IEC61968/PaymentMetering/BankAccountDetail.py:22-56 *)
  Cls n_CIM15_IEC61968_PaymentMetering_BankAccountDetail_BankAccountDetail n_BankAccountDetail None
    [(n_holderID, VStr n_); (n_holderName, VStr n_); (n_bankName, VStr n_); (n_branchCode, VStr n_); (n_accountNumber, VStr n_)]
    [SAttr n_holderID; SAttr n_holderName; SAttr n_bankName; SAttr n_branchCode; SAttr n_accountNumber]
    false true
    [n_holderID; n_holderName; n_bankName; n_branchCode; n_accountNumber]
    [(n_holderID, VStr n_); (n_holderName, VStr n_); (n_bankName, VStr n_); (n_branchCode, VStr n_); (n_accountNumber, VStr n_)]
    []
    []
    []
    [];
(* CIM15/IEC61968/PaymentMetering/Card.py:23-74 *)
  Cls n_CIM15_IEC61968_PaymentMetering_Card_Card n_Card (Some n_CIM15_Element_Element)
    [(n_cvNumber, VStr n_); (n_expiryDate, VStr n_); (n_pan, VStr n_); (n_accountHolderName, VStr n_); (n_Tender, VNone)]
    [SAttr n_cvNumber; SAttr n_expiryDate; SAttr n_pan; SAttr n_accountHolderName; SOne n_Tender]
    true true
    [n_cvNumber; n_expiryDate; n_pan; n_accountHolderName]
    [(n_cvNumber, VStr n_); (n_expiryDate, VStr n_); (n_pan, VStr n_); (n_accountHolderName, VStr n_)]
    []
    [n_Tender]
    []
    [(n_Tender, POneOne n_Card)];
(* CIM15/IEC61968/PaymentMetering/Cashier.py:23-70 *)
  Cls n_CIM15_IEC61968_PaymentMetering_Cashier_Cashier n_Cashier (Some n_CIM15_IEC61970_Core_IdentifiedObject_IdentifiedObject)
    [(n_electronicAddress, VNone); (n_CashierShifts, VNone)]
    [SAttr n_electronicAddress; SMany n_CashierShifts]
    true true
    []
    []
    []
    [n_electronicAddress; n_CashierShifts]
    [n_CashierShifts]
    [(n_CashierShifts, PManyOne n_Cashier)];
(* CIM15/IEC61968/PaymentMetering/CashierShift.py:23-135 *)
  Cls n_CIM15_IEC61968_PaymentMetering_CashierShift_CashierShift n_CashierShift (Some n_CIM15_IEC61968_PaymentMetering_Shift_Shift)
    [(n_cashFloat, VFloat n_0_0); (n_Transactions, VNone); (n_PointOfSale, VNone); (n_Receipts, VNone); (n_Cashier, VNone)]
    [SAttr n_cashFloat; SMany n_Transactions; SOne n_PointOfSale; SMany n_Receipts; SOne n_Cashier]
    true true
    [n_cashFloat]
    [(n_cashFloat, VFloat n_0_0)]
    []
    [n_Transactions; n_PointOfSale; n_Receipts; n_Cashier]
    [n_Transactions; n_Receipts]
    [(n_Transactions, PManyOne n_CashierShift); (n_PointOfSale, POneMany n_CashierShifts); (n_Receipts, PManyOne n_CashierShift); (n_Cashier, POneMany n_CashierShifts)];
(* CIM15/IEC61968/PaymentMetering/Charge.py:23-195 *)
  Cls n_CIM15_IEC61968_PaymentMetering_Charge_Charge n_Charge (Some n_CIM15_IEC61970_Core_IdentifiedObject_IdentifiedObject)
    [(n_variablePortion, VFloat n_0_0); (n_kind, VStr n_other); (n_ConsumptionTariffIntervals, VNone); (n_TimeTariffIntervals, VNone); (n_AuxiliaryAccounts, VNone); (n_ChildCharges, VNone); (n_fixedPortion, VNone); (n_ParentCharge, VNone)]
    [SAttr n_variablePortion; SAttr n_kind; SMany n_ConsumptionTariffIntervals; SMany n_TimeTariffIntervals; SMany n_AuxiliaryAccounts; SMany n_ChildCharges; SAttr n_fixedPortion; SOne n_ParentCharge]
    true true
    [n_variablePortion; n_kind]
    [(n_variablePortion, VFloat n_0_0); (n_kind, VStr n_other)]
    [(n_kind, n_ChargeKind)]
    [n_ConsumptionTariffIntervals; n_TimeTariffIntervals; n_AuxiliaryAccounts; n_ChildCharges; n_fixedPortion; n_ParentCharge]
    [n_ConsumptionTariffIntervals; n_TimeTariffIntervals; n_AuxiliaryAccounts; n_ChildCharges]
    [(n_ConsumptionTariffIntervals, PManyMany n_Charges); (n_TimeTariffIntervals, PManyMany n_Charges); (n_AuxiliaryAccounts, PManyMany n_Charges); (n_ChildCharges, PManyOne n_ParentCharge); (n_ParentCharge, POneMany n_ChildCharges)];
(* CIM15/IEC61968/PaymentMetering/Cheque.py:23-80 *)
  Cls n_CIM15_IEC61968_PaymentMetering_Cheque_Cheque n_Cheque (Some n_CIM15_Element_Element)
    [(n_micrNumber, VStr n_); (n_chequeNumber, VStr n_); (n_date, VStr n_); (n_kind, VStr n_other); (n_Tender, VNone); (n_bankAccountDetail, VNone)]
    [SAttr n_micrNumber; SAttr n_chequeNumber; SAttr n_date; SAttr n_kind; SOne n_Tender; SAttr n_bankAccountDetail]
    true true
    [n_micrNumber; n_chequeNumber; n_date; n_kind]
    [(n_micrNumber, VStr n_); (n_chequeNumber, VStr n_); (n_date, VStr n_); (n_kind, VStr n_other)]
    [(n_kind, n_ChequeKind)]
    [n_Tender; n_bankAccountDetail]
    []
    [(n_Tender, POneOne n_Cheque)];
(* CIM15/IEC61968/PaymentMetering/ConsumptionTariffInterval.py:23-142 *)
  Cls n_CIM15_IEC61968_PaymentMetering_ConsumptionTariffInterval_ConsumptionTariffInterval n_ConsumptionTariffInterval (Some n_CIM15_Element_Element)
    [(n_startValue, VFloat n_0_0); (n_sequenceNumber, VInt 0); (n_Charges, VNone); (n_TariffProfiles, VNone); (n_TouTariffIntervals, VNone)]
    [SAttr n_startValue; SAttr n_sequenceNumber; SMany n_Charges; SMany n_TariffProfiles; SMany n_TouTariffIntervals]
    true true
    [n_startValue; n_sequenceNumber]
    [(n_startValue, VFloat n_0_0); (n_sequenceNumber, VInt 0)]
    []
    [n_Charges; n_TariffProfiles; n_TouTariffIntervals]
    [n_Charges; n_TariffProfiles; n_TouTariffIntervals]
    [(n_Charges, PManyMany n_ConsumptionTariffIntervals); (n_TariffProfiles, PManyMany n_ConsumptionTariffIntervals); (n_TouTariffIntervals, PManyMany n_ConsumptionTariffIntervals)];
(* CIM15/IEC61968/PaymentMetering/Due.py:22-56 *)
  Cls n_CIM15_IEC61968_PaymentMetering_Due_Due n_Due None
    [(n_interest, VFloat n_0_0); (n_charges, VFloat n_0_0); (n_principle, VFloat n_0_0); (n_current, VFloat n_0_0); (n_arrears, VFloat n_0_0)]
    [SAttr n_interest; SAttr n_charges; SAttr n_principle; SAttr n_current; SAttr n_arrears]
    false true
    [n_interest; n_charges; n_principle; n_current; n_arrears]
    [(n_interest, VFloat n_0_0); (n_charges, VFloat n_0_0); (n_principle, VFloat n_0_0); (n_current, VFloat n_0_0); (n_arrears, VFloat n_0_0)]
    []
    []
    []
    [];
(* CIM15/IEC61968/PaymentMetering/LineDetail.py:22-52 *)
  Cls n_CIM15_IEC61968_PaymentMetering_LineDetail_LineDetail n_LineDetail None
    [(n_amount, VFloat n_0_0); (n_rounding, VFloat n_0_0); (n_dateTime, VStr n_); (n_note, VStr n_)]
    [SAttr n_amount; SAttr n_rounding; SAttr n_dateTime; SAttr n_note]
    false true
    [n_amount; n_rounding; n_dateTime; n_note]
    [(n_amount, VFloat n_0_0); (n_rounding, VFloat n_0_0); (n_dateTime, VStr n_); (n_note, VStr n_)]
    []
    []
    []
    [];
(* CIM15/IEC61968/PaymentMetering/MerchantAccount.py:23-125 *)
  Cls n_CIM15_IEC61968_PaymentMetering_MerchantAccount_MerchantAccount n_MerchantAccount (Some n_CIM15_IEC61968_Common_Document_Document)
    [(n_currentBalance, VFloat n_0_0); (n_provisionalBalance, VFloat n_0_0); (n_MerchantAgreement, VNone); (n_Transactors, VNone); (n_VendorShifts, VNone)]
    [SAttr n_currentBalance; SAttr n_provisionalBalance; SOne n_MerchantAgreement; SMany n_Transactors; SMany n_VendorShifts]
    true true
    [n_currentBalance; n_provisionalBalance]
    [(n_currentBalance, VFloat n_0_0); (n_provisionalBalance, VFloat n_0_0)]
    []
    [n_MerchantAgreement; n_Transactors; n_VendorShifts]
    [n_Transactors; n_VendorShifts]
    [(n_MerchantAgreement, POneMany n_MerchantAccounts); (n_Transactors, PManyMany n_MerchantAccounts); (n_VendorShifts, PManyOne n_MerchantAccount)];
(* CIM15/IEC61968/PaymentMetering/MerchantAgreement.py:23-64 *)
  Cls n_CIM15_IEC61968_PaymentMetering_MerchantAgreement_MerchantAgreement n_MerchantAgreement (Some n_CIM15_IEC61968_Common_Agreement_Agreement)
    [(n_MerchantAccounts, VNone)]
    [SMany n_MerchantAccounts]
    true true
    []
    []
    []
    [n_MerchantAccounts]
    [n_MerchantAccounts]
    [(n_MerchantAccounts, PManyOne n_MerchantAgreement)];
(* CIM15/IEC61968/PaymentMetering/PointOfSale.py:23-68 *)
  Cls n_CIM15_IEC61968_PaymentMetering_PointOfSale_PointOfSale n_PointOfSale (Some n_CIM15_IEC61970_Core_IdentifiedObject_IdentifiedObject)
    [(n_location, VStr n_); (n_CashierShifts, VNone)]
    [SAttr n_location; SMany n_CashierShifts]
    true true
    [n_location]
    [(n_location, VStr n_)]
    []
    [n_CashierShifts]
    [n_CashierShifts]
    [(n_CashierShifts, PManyOne n_PointOfSale)];
(* CIM15/IEC61968/PaymentMetering/Receipt.py:23-142 *)
  Cls n_CIM15_IEC61968_PaymentMetering_Receipt_Receipt n_Receipt (Some n_CIM15_IEC61970_Core_IdentifiedObject_IdentifiedObject)
    [(n_isBankable, VBool false); (n_VendorShift, VNone); (n_line, VNone); (n_CashierShift, VNone); (n_Tenders, VNone); (n_Transactions, VNone)]
    [SAttr n_isBankable; SOne n_VendorShift; SAttr n_line; SOne n_CashierShift; SMany n_Tenders; SMany n_Transactions]
    true true
    [n_isBankable]
    [(n_isBankable, VBool false)]
    []
    [n_VendorShift; n_line; n_CashierShift; n_Tenders; n_Transactions]
    [n_Tenders; n_Transactions]
    [(n_VendorShift, POneMany n_Receipts); (n_CashierShift, POneMany n_Receipts); (n_Tenders, PManyOne n_Receipt); (n_Transactions, PManyOne n_Receipt)];
(* CIM15/IEC61968/PaymentMetering/ServiceSupplier.py:23-124 *)
  Cls n_CIM15_IEC61968_PaymentMetering_ServiceSupplier_ServiceSupplier n_ServiceSupplier (Some n_CIM15_IEC61968_Common_Organisation_Organisation)
    [(n_issuerIdentificationNumber, VStr n_); (n_kind, VStr n_other); (n_BankAccounts, VNone); (n_ServiceDeliveryPoints, VNone); (n_CustomerAgreements, VNone)]
    [SAttr n_issuerIdentificationNumber; SAttr n_kind; SMany n_BankAccounts; SMany n_ServiceDeliveryPoints; SMany n_CustomerAgreements]
    true true
    [n_issuerIdentificationNumber; n_kind]
    [(n_issuerIdentificationNumber, VStr n_); (n_kind, VStr n_other)]
    [(n_kind, n_SupplierKind)]
    [n_BankAccounts; n_ServiceDeliveryPoints; n_CustomerAgreements]
    [n_BankAccounts; n_ServiceDeliveryPoints; n_CustomerAgreements]
    [(n_BankAccounts, PManyOne n_ServiceSupplier); (n_ServiceDeliveryPoints, PManyOne n_ServiceSupplier); (n_CustomerAgreements, PManyOne n_ServiceSupplier)];
(* CIM15/IEC61968/PaymentMetering/Shift.py:23-64 *)
  Cls n_CIM15_IEC61968_PaymentMetering_Shift_Shift n_Shift (Some n_CIM15_IEC61970_Core_IdentifiedObject_IdentifiedObject)
    [(n_transactionsGrandTotal, VFloat n_0_0); (n_receiptsGrandTotalBankable, VFloat n_0_0); (n_receiptsGrandTotalRounding, VFloat n_0_0); (n_transactionsGrandTotalRounding, VFloat n_0_0); (n_receiptsGrandTotalNonBankable, VFloat n_0_0); (n_activityInterval, VNone)]
    [SAttr n_transactionsGrandTotal; SAttr n_receiptsGrandTotalBankable; SAttr n_receiptsGrandTotalRounding; SAttr n_transactionsGrandTotalRounding; SAttr n_receiptsGrandTotalNonBankable; SAttr n_activityInterval]
    true true
    [n_transactionsGrandTotal; n_receiptsGrandTotalBankable; n_receiptsGrandTotalRounding; n_transactionsGrandTotalRounding; n_receiptsGrandTotalNonBankable]
    [(n_transactionsGrandTotal, VFloat n_0_0); (n_receiptsGrandTotalBankable, VFloat n_0_0); (n_receiptsGrandTotalRounding, VFloat n_0_0); (n_transactionsGrandTotalRounding, VFloat n_0_0); (n_receiptsGrandTotalNonBankable, VFloat n_0_0)]
    []
    [n_activityInterval]
    []
    [];
(* CIM15/IEC61968/PaymentMetering/TariffProfile.py:23-138 *)
  Cls n_CIM15_IEC61968_PaymentMetering_TariffProfile_TariffProfile n_TariffProfile (Some n_CIM15_IEC61968_Common_Document_Document)
    [(n_tariffCycle, VStr n_); (n_Tariffs, VNone); (n_ConsumptionTariffIntervals, VNone); (n_TimeTariffIntervals, VNone)]
    [SAttr n_tariffCycle; SMany n_Tariffs; SMany n_ConsumptionTariffIntervals; SMany n_TimeTariffIntervals]
    true true
    [n_tariffCycle]
    [(n_tariffCycle, VStr n_)]
    []
    [n_Tariffs; n_ConsumptionTariffIntervals; n_TimeTariffIntervals]
    [n_Tariffs; n_ConsumptionTariffIntervals; n_TimeTariffIntervals]
    [(n_Tariffs, PManyMany n_TariffProfiles); (n_ConsumptionTariffIntervals, PManyMany n_TariffProfiles); (n_TimeTariffIntervals, PManyMany n_TariffProfiles)];
(* CIM15/IEC61968/PaymentMetering/Tender.py:23-111 *)
  Cls n_CIM15_IEC61968_PaymentMetering_Tender_Tender n_Tender (Some n_CIM15_IEC61970_Core_IdentifiedObject_IdentifiedObject)
    [(n_kind, VStr n_unspecified); (n_change, VFloat n_0_0); (n_amount, VFloat n_0_0); (n_Card, VNone); (n_Receipt, VNone); (n_Cheque, VNone)]
    [SAttr n_kind; SAttr n_change; SAttr n_amount; SOne n_Card; SOne n_Receipt; SOne n_Cheque]
    true true
    [n_kind; n_change; n_amount]
    [(n_kind, VStr n_unspecified); (n_change, VFloat n_0_0); (n_amount, VFloat n_0_0)]
    [(n_kind, n_TenderKind)]
    [n_Card; n_Receipt; n_Cheque]
    []
    [(n_Card, POneOne n_Tender); (n_Receipt, POneMany n_Tenders); (n_Cheque, POneOne n_Tender)];
(* CIM15/IEC61968/PaymentMetering/TimeTariffInterval.py:23-142 *)
  Cls n_CIM15_IEC61968_PaymentMetering_TimeTariffInterval_TimeTariffInterval n_TimeTariffInterval (Some n_CIM15_Element_Element)
    [(n_startDateTime, VStr n_); (n_sequenceNumber, VInt 0); (n_ConsumptionTariffIntervals, VNone); (n_TariffProfiles, VNone); (n_Charges, VNone)]
    [SAttr n_startDateTime; SAttr n_sequenceNumber; SMany n_ConsumptionTariffIntervals; SMany n_TariffProfiles; SMany n_Charges]
    true true
    [n_startDateTime; n_sequenceNumber]
    [(n_startDateTime, VStr n_); (n_sequenceNumber, VInt 0)]
    []
    [n_ConsumptionTariffIntervals; n_TariffProfiles; n_Charges]
    [n_ConsumptionTariffIntervals; n_TariffProfiles; n_Charges]
    [(n_ConsumptionTariffIntervals, PManyMany n_TouTariffIntervals); (n_TariffProfiles, PManyMany n_TimeTariffIntervals); (n_Charges, PManyMany n_TimeTariffIntervals)];
(* CIM15/IEC61968/PaymentMetering/Transaction.py:23-245 *)
  Cls n_CIM15_IEC61968_PaymentMetering_Transaction_Transaction n_Transaction (Some n_CIM15_IEC61970_Core_IdentifiedObject_IdentifiedObject)
    [(n_donorReference, VStr n_); (n_kind, VStr n_other); (n_receiverReference, VStr n_); (n_serviceUnitsError, VFloat n_0_0); (n_diverseReference, VStr n_); (n_serviceUnitsEnergy, VFloat n_0_0); (n_reversedId, VStr n_); (n_PricingStructure, VNone); (n_line, VNone); (n_UserAttributes, VNone); (n_AuxiliaryAccount, VNone); (n_VendorShift, VNone); (n_Receipt, VNone); (n_Meter, VNone); (n_CustomerAccount, VNone); (n_CashierShift, VNone)]
    [SAttr n_donorReference; SAttr n_kind; SAttr n_receiverReference; SAttr n_serviceUnitsError; SAttr n_diverseReference; SAttr n_serviceUnitsEnergy; SAttr n_reversedId; SOne n_PricingStructure; SAttr n_line; SMany n_UserAttributes; SOne n_AuxiliaryAccount; SOne n_VendorShift; SOne n_Receipt; SOne n_Meter; SOne n_CustomerAccount; SOne n_CashierShift]
    true true
    [n_donorReference; n_kind; n_receiverReference; n_serviceUnitsError; n_diverseReference; n_serviceUnitsEnergy; n_reversedId]
    [(n_donorReference, VStr n_); (n_kind, VStr n_other); (n_receiverReference, VStr n_); (n_serviceUnitsError, VFloat n_0_0); (n_diverseReference, VStr n_); (n_serviceUnitsEnergy, VFloat n_0_0); (n_reversedId, VStr n_)]
    [(n_kind, n_TransactionKind)]
    [n_PricingStructure; n_line; n_UserAttributes; n_AuxiliaryAccount; n_VendorShift; n_Receipt; n_Meter; n_CustomerAccount; n_CashierShift]
    [n_UserAttributes]
    [(n_PricingStructure, POneMany n_Transactions); (n_UserAttributes, PManyOne n_Transaction); (n_AuxiliaryAccount, POneMany n_PaymentTransactions); (n_VendorShift, POneMany n_Transactions); (n_Receipt, POneMany n_Transactions); (n_Meter, POneMany n_VendingTransactions); (n_CustomerAccount, POneMany n_PaymentTransactions); (n_CashierShift, POneMany n_Transactions)];
(* CIM15/IEC61968/PaymentMetering/Transactor.py:23-70 *)
  Cls n_CIM15_IEC61968_PaymentMetering_Transactor_Transactor n_Transactor (Some n_CIM15_IEC61970_Core_IdentifiedObject_IdentifiedObject)
    [(n_MerchantAccounts, VNone)]
    [SMany n_MerchantAccounts]
    true true
    []
    []
    []
    [n_MerchantAccounts]
    [n_MerchantAccounts]
    [(n_MerchantAccounts, PManyMany n_Transactors)];
(* CIM15/IEC61968/PaymentMetering/Vendor.py:23-64 *)
  Cls n_CIM15_IEC61968_PaymentMetering_Vendor_Vendor n_Vendor (Some n_CIM15_IEC61970_Core_IdentifiedObject_IdentifiedObject)
    [(n_VendorShifts, VNone)]
    [SMany n_VendorShifts]
    true true
    []
    []
    []
    [n_VendorShifts]
    [n_VendorShifts]
    [(n_VendorShifts, PManyOne n_Vendor)];
(* CIM15/IEC61968/PaymentMetering/VendorShift.py:23-138 *)
  Cls n_CIM15_IEC61968_PaymentMetering_VendorShift_VendorShift n_VendorShift (Some n_CIM15_IEC61968_PaymentMetering_Shift_Shift)
    [(n_merchantDebitAmount, VFloat n_0_0); (n_posted, VBool false); (n_Vendor, VNone); (n_Receipts, VNone); (n_MerchantAccount, VNone); (n_Transactions, VNone)]
    [SAttr n_merchantDebitAmount; SAttr n_posted; SOne n_Vendor; SMany n_Receipts; SOne n_MerchantAccount; SMany n_Transactions]
    true true
    [n_merchantDebitAmount; n_posted]
    [(n_merchantDebitAmount, VFloat n_0_0); (n_posted, VBool false)]
    []
    [n_Vendor; n_Receipts; n_MerchantAccount; n_Transactions]
    [n_Receipts; n_Transactions]
    [(n_Vendor, POneMany n_VendorShifts); (n_Receipts, PManyOne n_VendorShift); (n_MerchantAccount, POneMany n_VendorShifts); (n_Transactions, PManyOne n_VendorShift)];
(* CIM15/IEC61968/Work/Work.py:23-288 *)
  Cls n_CIM15_IEC61968_Work_Work_Work n_Work (Some n_CIM15_IEC61968_Common_Document_Document)
    [(n_kind, VStr n_disconnect); (n_priority, VStr n_); (n_requestDateTime, VStr n_); (n_Designs, VNone); (n_WorkCostDetails, VNone); (n_ErpProjectAccounting, VNone); (n_Project, VNone); (n_WorkFlowSteps, VNone); (n_WorkTasks, VNone); (n_BusinessCase, VNone); (n_WorkBillingInfo, VNone); (n_Request, VNone); (n_Customers, VNone)]
    [SAttr n_kind; SAttr n_priority; SAttr n_requestDateTime; SMany n_Designs; SMany n_WorkCostDetails; SOne n_ErpProjectAccounting; SOne n_Project; SMany n_WorkFlowSteps; SMany n_WorkTasks; SOne n_BusinessCase; SOne n_WorkBillingInfo; SOne n_Request; SMany n_Customers]
    true true
    [n_kind; n_priority; n_requestDateTime]
    [(n_kind, VStr n_disconnect); (n_priority, VStr n_); (n_requestDateTime, VStr n_)]
    [(n_kind, n_WorkKind)]
    [n_Designs; n_WorkCostDetails; n_ErpProjectAccounting; n_Project; n_WorkFlowSteps; n_WorkTasks; n_BusinessCase; n_WorkBillingInfo; n_Request; n_Customers]
    [n_Designs; n_WorkCostDetails; n_WorkFlowSteps; n_WorkTasks; n_Customers]
    [(n_Designs, PManyOne n_Work); (n_WorkCostDetails, PManyMany n_Works); (n_ErpProjectAccounting, POneMany n_Works); (n_Project, POneMany n_Works); (n_WorkFlowSteps, PManyOne n_Work); (n_WorkTasks, PManyOne n_Work); (n_BusinessCase, POneMany n_Works); (n_WorkBillingInfo, POneMany n_Works); (n_Request, POneMany n_Works); (n_Customers, PManyMany n_Works)];
(* CIM15/IEC61970/AuxiliaryEquipment/AuxiliaryEquipment.py:23-59 *)
  Cls n_CIM15_IEC61970_AuxiliaryEquipment_AuxiliaryEquipment_AuxiliaryEquipment n_AuxiliaryEquipment (Some n_CIM15_IEC61970_Core_Equipment_Equipment)
    [(n_Terminal, VNone)]
    [SOne n_Terminal]
    true true
    []
    []
    []
    [n_Terminal]
    []
    [(n_Terminal, POneMany n_AuxiliaryEquipment)];
(* CIM15/IEC61970/AuxiliaryEquipment/CurrentTransformer.py:23-83 *)
  Cls n_CIM15_IEC61970_AuxiliaryEquipment_CurrentTransformer_CurrentTransformer n_CurrentTransformer (Some n_CIM15_IEC61970_AuxiliaryEquipment_Sensor_Sensor)
    [(n_ctClass, VStr n_); (n_accuracyLimit, VStr n_); (n_usage, VStr n_); (n_accuracyClass, VStr n_); (n_coreCount, VInt 0); (n_maxRatio, VFloat n_0_0); (n_CTInfo, VNone)]
    [SAttr n_ctClass; SAttr n_accuracyLimit; SAttr n_usage; SAttr n_accuracyClass; SAttr n_coreCount; SAttr n_maxRatio; SOne n_CTInfo]
    true true
    [n_ctClass; n_accuracyLimit; n_usage; n_accuracyClass; n_coreCount; n_maxRatio]
    [(n_ctClass, VStr n_); (n_accuracyLimit, VStr n_); (n_usage, VStr n_); (n_accuracyClass, VStr n_); (n_coreCount, VInt 0); (n_maxRatio, VFloat n_0_0)]
    []
    [n_CTInfo]
    []
    [(n_CTInfo, POneMany n_CTs)];
(* CIM15/IEC61970/AuxiliaryEquipment/FaultIndicator.py:23-59 *)
  Cls n_CIM15_IEC61970_AuxiliaryEquipment_FaultIndicator_FaultIndicator n_FaultIndicator (Some n_CIM15_IEC61970_AuxiliaryEquipment_AuxiliaryEquipment_AuxiliaryEquipment)
    [(n_FaultIndicatorInfo, VNone)]
    [SOne n_FaultIndicatorInfo]
    true true
    []
    []
    []
    [n_FaultIndicatorInfo]
    []
    [(n_FaultIndicatorInfo, POneMany n_FaultIndicators)];
(* CIM15/IEC61970/AuxiliaryEquipment/PotentialTransformer.py:23-71 *)
  Cls n_CIM15_IEC61970_AuxiliaryEquipment_PotentialTransformer_PotentialTransformer n_PotentialTransformer (Some n_CIM15_IEC61970_AuxiliaryEquipment_Sensor_Sensor)
    [(n_nominalRatio, VFloat n_0_0); (n_accuracyClass, VStr n_); (n_ptClass, VStr n_); (n_PTInfo, VNone)]
    [SAttr n_nominalRatio; SAttr n_accuracyClass; SAttr n_ptClass; SOne n_PTInfo]
    true true
    [n_nominalRatio; n_accuracyClass; n_ptClass]
    [(n_nominalRatio, VFloat n_0_0); (n_accuracyClass, VStr n_); (n_ptClass, VStr n_)]
    []
    [n_PTInfo]
    []
    [(n_PTInfo, POneMany n_PTs)];
(* CIM15/IEC61970/AuxiliaryEquipment/Sensor.py:23-38 *)
  Cls n_CIM15_IEC61970_AuxiliaryEquipment_Sensor_Sensor n_Sensor (Some n_CIM15_IEC61970_AuxiliaryEquipment_AuxiliaryEquipment_AuxiliaryEquipment)
    []
    []
    true true
    []
    []
    []
    []
    []
    [];
(* CIM15/IEC61970/AuxiliaryEquipment/SurgeProtector.py:23-59 *)
  Cls n_CIM15_IEC61970_AuxiliaryEquipment_SurgeProtector_SurgeProtector n_SurgeProtector (Some n_CIM15_IEC61970_AuxiliaryEquipment_AuxiliaryEquipment_AuxiliaryEquipment)
    [(n_SurgeProtectorInfo, VNone)]
    [SOne n_SurgeProtectorInfo]
    true true
    []
    []
    []
    [n_SurgeProtectorInfo]
    []
    [(n_SurgeProtectorInfo, POneMany n_SurgeProtectors)];
(* CIM15/IEC61970/Contingency/Contingency.py:23-68 *)
  Cls n_CIM15_IEC61970_Contingency_Contingency_Contingency n_Contingency (Some n_CIM15_IEC61970_Core_IdentifiedObject_IdentifiedObject)
    [(n_mustStudy, VBool false); (n_ContingencyElement, VNone)]
    [SAttr n_mustStudy; SMany n_ContingencyElement]
    true true
    [n_mustStudy]
    [(n_mustStudy, VBool false)]
    []
    [n_ContingencyElement]
    [n_ContingencyElement]
    [(n_ContingencyElement, PManyOne n_Contingency)];
(* CIM15/IEC61970/Contingency/ContingencyElement.py:23-59 *)
  Cls n_CIM15_IEC61970_Contingency_ContingencyElement_ContingencyElement n_ContingencyElement (Some n_CIM15_IEC61970_Core_IdentifiedObject_IdentifiedObject)
    [(n_Contingency, VNone)]
    [SOne n_Contingency]
    true true
    []
    []
    []
    [n_Contingency]
    []
    [(n_Contingency, POneMany n_ContingencyElement)];
(* CIM15/IEC61970/Contingency/ContingencyEquipment.py:23-63 *)
  Cls n_CIM15_IEC61970_Contingency_ContingencyEquipment_ContingencyEquipment n_ContingencyEquipment (Some n_CIM15_IEC61970_Contingency_ContingencyElement_ContingencyElement)
    [(n_contingentStatus, VStr n_outOfService); (n_Equipment, VNone)]
    [SAttr n_contingentStatus; SOne n_Equipment]
    true true
    [n_contingentStatus]
    [(n_contingentStatus, VStr n_outOfService)]
    [(n_contingentStatus, n_ContingencyEquipmentStatusKind)]
    [n_Equipment]
    []
    [(n_Equipment, POneMany n_ContingencyEquipment)];
(* CIM15/IEC61970/ControlArea/AltGeneratingUnitMeas.py:23-84 *)
  Cls n_CIM15_IEC61970_ControlArea_AltGeneratingUnitMeas_AltGeneratingUnitMeas n_AltGeneratingUnitMeas (Some n_CIM15_Element_Element)
    [(n_priority, VInt 0); (n_AnalogValue, VNone); (n_ControlAreaGeneratingUnit, VNone)]
    [SAttr n_priority; SOne n_AnalogValue; SOne n_ControlAreaGeneratingUnit]
    true true
    [n_priority]
    [(n_priority, VInt 0)]
    []
    [n_AnalogValue; n_ControlAreaGeneratingUnit]
    []
    [(n_AnalogValue, POneMany n_AltGeneratingUnit); (n_ControlAreaGeneratingUnit, POneMany n_AltGeneratingUnitMeas)];
(* CIM15/IEC61970/ControlArea/AltTieMeas.py:23-84 *)
  Cls n_CIM15_IEC61970_ControlArea_AltTieMeas_AltTieMeas n_AltTieMeas (Some n_CIM15_Element_Element)
    [(n_priority, VInt 0); (n_AnalogValue, VNone); (n_TieFlow, VNone)]
    [SAttr n_priority; SOne n_AnalogValue; SOne n_TieFlow]
    true true
    [n_priority]
    [(n_priority, VInt 0)]
    []
    [n_AnalogValue; n_TieFlow]
    []
    [(n_AnalogValue, POneMany n_AltTieMeas); (n_TieFlow, POneMany n_AltTieMeas)];
(* CIM15/IEC61970/ControlArea/ControlArea.py:23-122 *)
  Cls n_CIM15_IEC61970_ControlArea_ControlArea_ControlArea n_ControlArea (Some n_CIM15_IEC61970_Core_PowerSystemResource_PowerSystemResource)
    [(n_type, VStr n_Forecast); (n_pTolerance, VFloat n_0_0); (n_netInterchange, VFloat n_0_0); (n_ControlAreaGeneratingUnit, VNone); (n_TieFlow, VNone); (n_EnergyArea, VNone)]
    [SAttr n_type; SAttr n_pTolerance; SAttr n_netInterchange; SMany n_ControlAreaGeneratingUnit; SMany n_TieFlow; SOne n_EnergyArea]
    true true
    [n_type; n_pTolerance; n_netInterchange]
    [(n_type, VStr n_Forecast); (n_pTolerance, VFloat n_0_0); (n_netInterchange, VFloat n_0_0)]
    [(n_type, n_ControlAreaTypeKind)]
    [n_ControlAreaGeneratingUnit; n_TieFlow; n_EnergyArea]
    [n_ControlAreaGeneratingUnit; n_TieFlow]
    [(n_ControlAreaGeneratingUnit, PManyOne n_ControlArea); (n_TieFlow, PManyOne n_ControlArea); (n_EnergyArea, POneOne n_ControlArea)];
(* CIM15/IEC61970/ControlArea/ControlAreaGeneratingUnit.py:23-106 *)
  Cls n_CIM15_IEC61970_ControlArea_ControlAreaGeneratingUnit_ControlAreaGeneratingUnit n_ControlAreaGeneratingUnit (Some n_CIM15_Element_Element)
    [(n_AltGeneratingUnitMeas, VNone); (n_GeneratingUnit, VNone); (n_ControlArea, VNone)]
    [SMany n_AltGeneratingUnitMeas; SOne n_GeneratingUnit; SOne n_ControlArea]
    true true
    []
    []
    []
    [n_AltGeneratingUnitMeas; n_GeneratingUnit; n_ControlArea]
    [n_AltGeneratingUnitMeas]
    [(n_AltGeneratingUnitMeas, PManyOne n_ControlAreaGeneratingUnit); (n_GeneratingUnit, POneMany n_ControlAreaGeneratingUnit); (n_ControlArea, POneMany n_ControlAreaGeneratingUnit)];
(* CIM15/IEC61970/ControlArea/TieFlow.py:23-110 *)
  Cls n_CIM15_IEC61970_ControlArea_TieFlow_TieFlow n_TieFlow (Some n_CIM15_Element_Element)
    [(n_positiveFlowIn, VBool false); (n_AltTieMeas, VNone); (n_Terminal, VNone); (n_ControlArea, VNone)]
    [SAttr n_positiveFlowIn; SMany n_AltTieMeas; SOne n_Terminal; SOne n_ControlArea]
    true true
    [n_positiveFlowIn]
    [(n_positiveFlowIn, VBool false)]
    []
    [n_AltTieMeas; n_Terminal; n_ControlArea]
    [n_AltTieMeas]
    [(n_AltTieMeas, PManyOne n_TieFlow); (n_Terminal, POneMany n_TieFlow); (n_ControlArea, POneMany n_TieFlow)];
(* CIM15/IEC61970/Core/BasePower.py:23-42 *)
  Cls n_CIM15_IEC61970_Core_BasePower_BasePower n_BasePower (Some n_CIM15_IEC61970_Core_IdentifiedObject_IdentifiedObject)
    [(n_basePower, VFloat n_0_0)]
    [SAttr n_basePower]
    true true
    [n_basePower]
    [(n_basePower, VFloat n_0_0)]
    []
    []
    []
    [];
(* CIM15/IEC61970/Core/BaseVoltage.py:23-147 *)
  Cls n_CIM15_IEC61970_Core_BaseVoltage_BaseVoltage n_BaseVoltage (Some n_CIM15_IEC61970_Core_IdentifiedObject_IdentifiedObject)
    [(n_nominalVoltage, VFloat n_0_0); (n_isDC, VBool false); (n_TopologicalNode, VNone); (n_VoltageLevel, VNone); (n_ConductingEquipment, VNone); (n_TransformerEnd, VNone)]
    [SAttr n_nominalVoltage; SAttr n_isDC; SMany n_TopologicalNode; SMany n_VoltageLevel; SMany n_ConductingEquipment; SMany n_TransformerEnd]
    true true
    [n_nominalVoltage; n_isDC]
    [(n_nominalVoltage, VFloat n_0_0); (n_isDC, VBool false)]
    []
    [n_TopologicalNode; n_VoltageLevel; n_ConductingEquipment; n_TransformerEnd]
    [n_TopologicalNode; n_VoltageLevel; n_ConductingEquipment; n_TransformerEnd]
    [(n_TopologicalNode, PManyOne n_BaseVoltage); (n_VoltageLevel, PManyOne n_BaseVoltage); (n_ConductingEquipment, PManyOne n_BaseVoltage); (n_TransformerEnd, PManyOne n_BaseVoltage)];
(* CIM15/IEC61970/Core/BasicIntervalSchedule.py:23-58 *)
  Cls n_CIM15_IEC61970_Core_BasicIntervalSchedule_BasicIntervalSchedule n_BasicIntervalSchedule (Some n_CIM15_IEC61970_Core_IdentifiedObject_IdentifiedObject)
    [(n_startTime, VStr n_); (n_value1Multiplier, VStr n_M); (n_value2Unit, VStr n_N); (n_value1Unit, VStr n_N); (n_value2Multiplier, VStr n_M)]
    [SAttr n_startTime; SAttr n_value1Multiplier; SAttr n_value2Unit; SAttr n_value1Unit; SAttr n_value2Multiplier]
    true true
    [n_startTime; n_value1Multiplier; n_value2Unit; n_value1Unit; n_value2Multiplier]
    [(n_startTime, VStr n_); (n_value1Multiplier, VStr n_M); (n_value2Unit, VStr n_N); (n_value1Unit, VStr n_N); (n_value2Multiplier, VStr n_M)]
    [(n_value1Multiplier, n_UnitMultiplier); (n_value2Unit, n_UnitSymbol); (n_value1Unit, n_UnitSymbol); (n_value2Multiplier, n_UnitMultiplier)]
    []
    []
    [];
(* CIM15/IEC61970/Core/Bay.py:23-96 *)
  Cls n_CIM15_IEC61970_Core_Bay_Bay n_Bay (Some n_CIM15_IEC61970_Core_EquipmentContainer_EquipmentContainer)
    [(n_bayPowerMeasFlag, VBool false); (n_bayEnergyMeasFlag, VBool false); (n_busBarConfiguration, VStr n_doubleBus); (n_breakerConfiguration, VStr n_breakerAndAHalf); (n_VoltageLevel, VNone); (n_Substation, VNone)]
    [SAttr n_bayPowerMeasFlag; SAttr n_bayEnergyMeasFlag; SAttr n_busBarConfiguration; SAttr n_breakerConfiguration; SOne n_VoltageLevel; SOne n_Substation]
    true true
    [n_bayPowerMeasFlag; n_bayEnergyMeasFlag; n_busBarConfiguration; n_breakerConfiguration]
    [(n_bayPowerMeasFlag, VBool false); (n_bayEnergyMeasFlag, VBool false); (n_busBarConfiguration, VStr n_doubleBus); (n_breakerConfiguration, VStr n_breakerAndAHalf)]
    [(n_busBarConfiguration, n_BusbarConfiguration); (n_breakerConfiguration, n_BreakerConfiguration)]
    [n_VoltageLevel; n_Substation]
    []
    [(n_VoltageLevel, POneMany n_Bays); (n_Substation, POneMany n_Bays)];
(* CIM15/IEC61970/Core/ConductingEquipment.py:23-188 *)
  Cls n_CIM15_IEC61970_Core_ConductingEquipment_ConductingEquipment n_ConductingEquipment (Some n_CIM15_IEC61970_Core_Equipment_Equipment)
    [(n_BaseVoltage, VNone); (n_ClearanceTags, VNone); (n_ProtectionEquipments, VNone); (n_Terminals, VNone); (n_OutageStepRoles, VNone); (n_SvStatus, VNone)]
    [SOne n_BaseVoltage; SMany n_ClearanceTags; SMany n_ProtectionEquipments; SMany n_Terminals; SMany n_OutageStepRoles; SOne n_SvStatus]
    true true
    []
    []
    []
    [n_BaseVoltage; n_ClearanceTags; n_ProtectionEquipments; n_Terminals; n_OutageStepRoles; n_SvStatus]
    [n_ClearanceTags; n_ProtectionEquipments; n_Terminals; n_OutageStepRoles]
    [(n_BaseVoltage, POneMany n_ConductingEquipment); (n_ClearanceTags, PManyOne n_ConductingEquipment); (n_ProtectionEquipments, PManyMany n_ConductingEquipments); (n_Terminals, PManyOne n_ConductingEquipment); (n_OutageStepRoles, PManyOne n_ConductingEquipment); (n_SvStatus, POneOne n_ConductingEquipment)];
(* CIM15/IEC61970/Core/ConnectivityNode.py:23-106 *)
  Cls n_CIM15_IEC61970_Core_ConnectivityNode_ConnectivityNode n_ConnectivityNode (Some n_CIM15_IEC61970_Core_IdentifiedObject_IdentifiedObject)
    [(n_TopologicalNode, VNone); (n_ConnectivityNodeContainer, VNone); (n_Terminals, VNone)]
    [SOne n_TopologicalNode; SOne n_ConnectivityNodeContainer; SMany n_Terminals]
    true true
    []
    []
    []
    [n_TopologicalNode; n_ConnectivityNodeContainer; n_Terminals]
    [n_Terminals]
    [(n_TopologicalNode, POneMany n_ConnectivityNodes); (n_ConnectivityNodeContainer, POneMany n_ConnectivityNodes); (n_Terminals, PManyOne n_ConnectivityNode)];
(* CIM15/IEC61970/Core/ConnectivityNodeContainer.py:23-90 *)
  Cls n_CIM15_IEC61970_Core_ConnectivityNodeContainer_ConnectivityNodeContainer n_ConnectivityNodeContainer (Some n_CIM15_IEC61970_Core_PowerSystemResource_PowerSystemResource)
    [(n_TopologicalNode, VNone); (n_ConnectivityNodes, VNone)]
    [SMany n_TopologicalNode; SMany n_ConnectivityNodes]
    true true
    []
    []
    []
    [n_TopologicalNode; n_ConnectivityNodes]
    [n_TopologicalNode; n_ConnectivityNodes]
    [(n_TopologicalNode, PManyOne n_ConnectivityNodeContainer); (n_ConnectivityNodes, PManyOne n_ConnectivityNodeContainer)];
(* CIM15/IEC61970/Core/Curve.py:23-100 *)
  Cls n_CIM15_IEC61970_Core_Curve_Curve n_Curve (Some n_CIM15_IEC61970_Core_IdentifiedObject_IdentifiedObject)
    [(n_xUnit, VStr n_N); (n_y1Multiplier, VStr n_M); (n_y2Unit, VStr n_N); (n_y3Multiplier, VStr n_M); (n_y1Unit, VStr n_N); (n_xMultiplier, VStr n_M); (n_y3Unit, VStr n_N); (n_y2Multiplier, VStr n_M); (n_curveStyle, VStr n_formula); (n_CurveDatas, VNone)]
    [SAttr n_xUnit; SAttr n_y1Multiplier; SAttr n_y2Unit; SAttr n_y3Multiplier; SAttr n_y1Unit; SAttr n_xMultiplier; SAttr n_y3Unit; SAttr n_y2Multiplier; SAttr n_curveStyle; SMany n_CurveDatas]
    true true
    [n_xUnit; n_y1Multiplier; n_y2Unit; n_y3Multiplier; n_y1Unit; n_xMultiplier; n_y3Unit; n_y2Multiplier; n_curveStyle]
    [(n_xUnit, VStr n_N); (n_y1Multiplier, VStr n_M); (n_y2Unit, VStr n_N); (n_y3Multiplier, VStr n_M); (n_y1Unit, VStr n_N); (n_xMultiplier, VStr n_M); (n_y3Unit, VStr n_N); (n_y2Multiplier, VStr n_M); (n_curveStyle, VStr n_formula)]
    [(n_xUnit, n_UnitSymbol); (n_y1Multiplier, n_UnitMultiplier); (n_y2Unit, n_UnitSymbol); (n_y3Multiplier, n_UnitMultiplier); (n_y1Unit, n_UnitSymbol); (n_xMultiplier, n_UnitMultiplier); (n_y3Unit, n_UnitSymbol); (n_y2Multiplier, n_UnitMultiplier); (n_curveStyle, n_CurveStyle)]
    [n_CurveDatas]
    [n_CurveDatas]
    [(n_CurveDatas, PManyOne n_Curve)];
(* CIM15/IEC61970/Core/CurveData.py:23-75 *)
  Cls n_CIM15_IEC61970_Core_CurveData_CurveData n_CurveData (Some n_CIM15_Element_Element)
    [(n_y3value, VFloat n_0_0); (n_xvalue, VFloat n_0_0); (n_y2value, VFloat n_0_0); (n_y1value, VFloat n_0_0); (n_Curve, VNone)]
    [SAttr n_y3value; SAttr n_xvalue; SAttr n_y2value; SAttr n_y1value; SOne n_Curve]
    true true
    [n_y3value; n_xvalue; n_y2value; n_y1value]
    [(n_y3value, VFloat n_0_0); (n_xvalue, VFloat n_0_0); (n_y2value, VFloat n_0_0); (n_y1value, VFloat n_0_0)]
    []
    [n_Curve]
    []
    [(n_Curve, POneMany n_CurveDatas)];
(* CIM15/IEC61970/Core/Equipment.py:24-153 *)
  Cls n_CIM15_IEC61970_Core_Equipment_Equipment n_Equipment (Some n_CIM15_IEC61970_Core_PowerSystemResource_PowerSystemResource)
    [(n_normallyInService, VBool false); (n_aggregate, VBool false); (n_ContingencyEquipment, VNone); (n_CustomerAgreements, VNone); (n_EquipmentContainer, VNone); (n_OperationalLimitSet, VNone)]
    [SAttr n_normallyInService; SAttr n_aggregate; SMany n_ContingencyEquipment; SMany n_CustomerAgreements; SOne n_EquipmentContainer; SMany n_OperationalLimitSet]
    true true
    [n_normallyInService; n_aggregate]
    [(n_normallyInService, VBool false); (n_aggregate, VBool false)]
    []
    [n_ContingencyEquipment; n_CustomerAgreements; n_EquipmentContainer; n_OperationalLimitSet]
    [n_ContingencyEquipment; n_CustomerAgreements; n_OperationalLimitSet]
    [(n_ContingencyEquipment, PManyOne n_Equipment); (n_CustomerAgreements, PManyMany n_Equipments); (n_EquipmentContainer, POneMany n_Equipments); (n_OperationalLimitSet, PManyOneDbl n_Equipment)];
(* CIM15/IEC61970/Core/EquipmentContainer.py:23-64 *)
  Cls n_CIM15_IEC61970_Core_EquipmentContainer_EquipmentContainer n_EquipmentContainer (Some n_CIM15_IEC61970_Core_ConnectivityNodeContainer_ConnectivityNodeContainer)
    [(n_Equipments, VNone)]
    [SMany n_Equipments]
    true true
    []
    []
    []
    [n_Equipments]
    [n_Equipments]
    [(n_Equipments, PManyOne n_EquipmentContainer)];
(* CIM15/IEC61970/Core/GeographicalRegion.py:23-64 *)
  Cls n_CIM15_IEC61970_Core_GeographicalRegion_GeographicalRegion n_GeographicalRegion (Some n_CIM15_IEC61970_Core_IdentifiedObject_IdentifiedObject)
    [(n_Regions, VNone)]
    [SMany n_Regions]
    true true
    []
    []
    []
    [n_Regions]
    [n_Regions]
    [(n_Regions, PManyOne n_Region)];
(* CIM15/IEC61970/Core/IdentifiedObject.py:23-123 *)
  Cls n_CIM15_IEC61970_Core_IdentifiedObject_IdentifiedObject n_IdentifiedObject (Some n_CIM15_Element_Element)
    [(n_mRID, VStr n_); (n_aliasName, VStr n_); (n_name, VStr n_); (n_Names, VNone); (n_DiagramObjects, VNone); (n_ModelingAuthoritySet, VNone)]
    [SAttr n_mRID; SAttr n_aliasName; SAttr n_name; SMany n_Names; SMany n_DiagramObjects; SOne n_ModelingAuthoritySet]
    true true
    [n_mRID; n_aliasName; n_name]
    [(n_mRID, VStr n_); (n_aliasName, VStr n_); (n_name, VStr n_)]
    []
    [n_Names; n_DiagramObjects; n_ModelingAuthoritySet]
    [n_Names; n_DiagramObjects]
    [(n_Names, PManyOne n_IdentifiedObject); (n_DiagramObjects, PManyOne n_IdentifiedObject); (n_ModelingAuthoritySet, POneMany n_IdentifiedObjects)];
(* CIM15/IEC61970/Core/IrregularIntervalSchedule.py:23-64 *)
  Cls n_CIM15_IEC61970_Core_IrregularIntervalSchedule_IrregularIntervalSchedule n_IrregularIntervalSchedule (Some n_CIM15_IEC61970_Core_BasicIntervalSchedule_BasicIntervalSchedule)
    [(n_TimePoints, VNone)]
    [SMany n_TimePoints]
    true true
    []
    []
    []
    [n_TimePoints]
    [n_TimePoints]
    [(n_TimePoints, PManyOne n_IntervalSchedule)];
(* CIM15/IEC61970/Core/IrregularTimePoint.py:23-71 *)
  Cls n_CIM15_IEC61970_Core_IrregularTimePoint_IrregularTimePoint n_IrregularTimePoint (Some n_CIM15_Element_Element)
    [(n_time, VFloat n_0_0); (n_value1, VFloat n_0_0); (n_value2, VFloat n_0_0); (n_IntervalSchedule, VNone)]
    [SAttr n_time; SAttr n_value1; SAttr n_value2; SOne n_IntervalSchedule]
    true true
    [n_time; n_value1; n_value2]
    [(n_time, VFloat n_0_0); (n_value1, VFloat n_0_0); (n_value2, VFloat n_0_0)]
    []
    [n_IntervalSchedule]
    []
    [(n_IntervalSchedule, POneMany n_TimePoints)];
(* CIM15/IEC61970/Core/Name.py:23-84 *)
  Cls n_CIM15_IEC61970_Core_Name_Name n_Name (Some n_CIM15_Element_Element)
    [(n_name, VStr n_); (n_NameType, VNone); (n_IdentifiedObject, VNone)]
    [SAttr n_name; SOne n_NameType; SOne n_IdentifiedObject]
    true true
    [n_name]
    [(n_name, VStr n_)]
    []
    [n_NameType; n_IdentifiedObject]
    []
    [(n_NameType, POneMany n_Names); (n_IdentifiedObject, POneMany n_Names)];
(* CIM15/IEC61970/Core/NameType.py:23-93 *)
  Cls n_CIM15_IEC61970_Core_NameType_NameType n_NameType (Some n_CIM15_Element_Element)
    [(n_name, VStr n_); (n_description, VStr n_); (n_Names, VNone); (n_NameTypeAuthority, VNone)]
    [SAttr n_name; SAttr n_description; SMany n_Names; SOne n_NameTypeAuthority]
    true true
    [n_name; n_description]
    [(n_name, VStr n_); (n_description, VStr n_)]
    []
    [n_Names; n_NameTypeAuthority]
    [n_Names]
    [(n_Names, PManyOne n_NameType); (n_NameTypeAuthority, POneMany n_NameTypes)];
(* CIM15/IEC61970/Core/NameTypeAuthority.py:23-72 *)
  Cls n_CIM15_IEC61970_Core_NameTypeAuthority_NameTypeAuthority n_NameTypeAuthority (Some n_CIM15_Element_Element)
    [(n_name, VStr n_); (n_description, VStr n_); (n_NameTypes, VNone)]
    [SAttr n_name; SAttr n_description; SMany n_NameTypes]
    true true
    [n_name; n_description]
    [(n_name, VStr n_); (n_description, VStr n_)]
    []
    [n_NameTypes]
    [n_NameTypes]
    [(n_NameTypes, PManyOne n_NameTypeAuthority)];
(* CIM15/IEC61970/Core/OperatingParticipant.py:23-64 *)
  Cls n_CIM15_IEC61970_Core_OperatingParticipant_OperatingParticipant n_OperatingParticipant (Some n_CIM15_IEC61970_Core_IdentifiedObject_IdentifiedObject)
    [(n_OperatingShare, VNone)]
    [SMany n_OperatingShare]
    true true
    []
    []
    []
    [n_OperatingShare]
    [n_OperatingShare]
    [(n_OperatingShare, PManyOne n_OperatingParticipant)];
(* CIM15/IEC61970/Core/OperatingShare.py:23-84 *)
  Cls n_CIM15_IEC61970_Core_OperatingShare_OperatingShare n_OperatingShare (Some n_CIM15_Element_Element)
    [(n_percentage, VFloat n_0_0); (n_PowerSystemResource, VNone); (n_OperatingParticipant, VNone)]
    [SAttr n_percentage; SOne n_PowerSystemResource; SOne n_OperatingParticipant]
    true true
    [n_percentage]
    [(n_percentage, VFloat n_0_0)]
    []
    [n_PowerSystemResource; n_OperatingParticipant]
    []
    [(n_PowerSystemResource, POneMany n_OperatingShare); (n_OperatingParticipant, POneMany n_OperatingShare)];
(* CIM15/IEC61970/Core/PSRType.py:23-64 *)
  Cls n_CIM15_IEC61970_Core_PSRType_PSRType n_PSRType (Some n_CIM15_IEC61970_Core_IdentifiedObject_IdentifiedObject)
    [(n_PowerSystemResources, VNone)]
    [SMany n_PowerSystemResources]
    true true
    []
    []
    []
    [n_PowerSystemResources]
    [n_PowerSystemResources]
    [(n_PowerSystemResources, PManyOne n_PSRType)];
(* CIM15/IEC61970/Core/PowerSystemResource.py:23-435 *)
  Cls n_CIM15_IEC61970_Core_PowerSystemResource_PowerSystemResource n_PowerSystemResource (Some n_CIM15_IEC61970_Core_IdentifiedObject_IdentifiedObject)
    [(n_ChangeItems, VNone); (n_ScheduleSteps, VNone); (n_SafetyDocuments, VNone); (n_OperatingShare, VNone); (n_DocumentRoles, VNone); (n_PsrLists, VNone); (n_Measurements, VNone); (n_ReportingGroup, VNone); (n_PSRType, VNone); (n_Assets, VNone); (n_ErpOrganisationRoles, VNone); (n_Location, VNone); (n_PSREvent, VNone); (n_NetworkDataSets, VNone); (n_OutageSchedule, VNone)]
    [SMany n_ChangeItems; SMany n_ScheduleSteps; SMany n_SafetyDocuments; SMany n_OperatingShare; SMany n_DocumentRoles; SMany n_PsrLists; SMany n_Measurements; SMany n_ReportingGroup; SOne n_PSRType; SMany n_Assets; SMany n_ErpOrganisationRoles; SOne n_Location; SMany n_PSREvent; SMany n_NetworkDataSets; SOne n_OutageSchedule]
    true true
    []
    []
    []
    [n_ChangeItems; n_ScheduleSteps; n_SafetyDocuments; n_OperatingShare; n_DocumentRoles; n_PsrLists; n_Measurements; n_ReportingGroup; n_PSRType; n_Assets; n_ErpOrganisationRoles; n_Location; n_PSREvent; n_NetworkDataSets; n_OutageSchedule]
    [n_ChangeItems; n_ScheduleSteps; n_SafetyDocuments; n_OperatingShare; n_DocumentRoles; n_PsrLists; n_Measurements; n_ReportingGroup; n_Assets; n_ErpOrganisationRoles; n_PSREvent; n_NetworkDataSets]
    [(n_ChangeItems, PManyOne n_PowerSystemResource); (n_ScheduleSteps, PManyMany n_PowerSystemResources); (n_SafetyDocuments, PManyOne n_PowerSystemResource); (n_OperatingShare, PManyOne n_PowerSystemResource); (n_DocumentRoles, PManyOne n_PowerSystemResource); (n_PsrLists, PManyMany n_PowerSystemResources); (n_Measurements, PManyOne n_PowerSystemResource); (n_ReportingGroup, PManyMany n_PowerSystemResource); (n_PSRType, POneMany n_PowerSystemResources); (n_Assets, PManyMany n_PowerSystemResources); (n_ErpOrganisationRoles, PManyOne n_PowerSystemResource); (n_Location, POneMany n_PowerSystemResources); (n_PSREvent, PManyOne n_PowerSystemResource); (n_NetworkDataSets, PManyMany n_PowerSystemResources); (n_OutageSchedule, POneOne n_PowerSystemResource)];
(* CIM15/IEC61970/Core/PsrList.py:23-73 *)
  Cls n_CIM15_IEC61970_Core_PsrList_PsrList n_PsrList (Some n_CIM15_IEC61970_Core_IdentifiedObject_IdentifiedObject)
    [(n_typePSRList, VStr n_); (n_PowerSystemResources, VNone)]
    [SAttr n_typePSRList; SMany n_PowerSystemResources]
    true true
    [n_typePSRList]
    [(n_typePSRList, VStr n_)]
    []
    [n_PowerSystemResources]
    [n_PowerSystemResources]
    [(n_PowerSystemResources, PManyMany n_PsrLists)];
(* CIM15/IEC61970/Core/RegularIntervalSchedule.py:23-72 *)
  Cls n_CIM15_IEC61970_Core_RegularIntervalSchedule_RegularIntervalSchedule n_RegularIntervalSchedule (Some n_CIM15_IEC61970_Core_BasicIntervalSchedule_BasicIntervalSchedule)
    [(n_endTime, VStr n_); (n_timeStep, VFloat n_0_0); (n_TimePoints, VNone)]
    [SAttr n_endTime; SAttr n_timeStep; SMany n_TimePoints]
    true true
    [n_endTime; n_timeStep]
    [(n_endTime, VStr n_); (n_timeStep, VFloat n_0_0)]
    []
    [n_TimePoints]
    [n_TimePoints]
    [(n_TimePoints, PManyOne n_IntervalSchedule)];
(* CIM15/IEC61970/Core/RegularTimePoint.py:23-71 *)
  Cls n_CIM15_IEC61970_Core_RegularTimePoint_RegularTimePoint n_RegularTimePoint (Some n_CIM15_Element_Element)
    [(n_value2, VFloat n_0_0); (n_value1, VFloat n_0_0); (n_sequenceNumber, VInt 0); (n_IntervalSchedule, VNone)]
    [SAttr n_value2; SAttr n_value1; SAttr n_sequenceNumber; SOne n_IntervalSchedule]
    true true
    [n_value2; n_value1; n_sequenceNumber]
    [(n_value2, VFloat n_0_0); (n_value1, VFloat n_0_0); (n_sequenceNumber, VInt 0)]
    []
    [n_IntervalSchedule]
    []
    [(n_IntervalSchedule, POneMany n_TimePoints)];
(* CIM15/IEC61970/Core/ReportingGroup.py:23-143 *)
  Cls n_CIM15_IEC61970_Core_ReportingGroup_ReportingGroup n_ReportingGroup (Some n_CIM15_IEC61970_Core_IdentifiedObject_IdentifiedObject)
    [(n_BusNameMarker, VNone); (n_ReportingSuperGroup, VNone); (n_TopologicalNode, VNone); (n_PowerSystemResource, VNone)]
    [SMany n_BusNameMarker; SOne n_ReportingSuperGroup; SMany n_TopologicalNode; SMany n_PowerSystemResource]
    true true
    []
    []
    []
    [n_BusNameMarker; n_ReportingSuperGroup; n_TopologicalNode; n_PowerSystemResource]
    [n_BusNameMarker; n_TopologicalNode; n_PowerSystemResource]
    [(n_BusNameMarker, PManyOne n_ReportingGroup); (n_ReportingSuperGroup, POneMany n_ReportingGroup); (n_TopologicalNode, PManyOne n_ReportingGroup); (n_PowerSystemResource, PManyMany n_ReportingGroup)];
(* CIM15/IEC61970/Core/ReportingSuperGroup.py:23-64 *)
  Cls n_CIM15_IEC61970_Core_ReportingSuperGroup_ReportingSuperGroup n_ReportingSuperGroup (Some n_CIM15_IEC61970_Core_IdentifiedObject_IdentifiedObject)
    [(n_ReportingGroup, VNone)]
    [SMany n_ReportingGroup]
    true true
    []
    []
    []
    [n_ReportingGroup]
    [n_ReportingGroup]
    [(n_ReportingGroup, PManyOne n_ReportingSuperGroup)];
(* CIM15/IEC61970/Core/SubGeographicalRegion.py:23-111 *)
  Cls n_CIM15_IEC61970_Core_SubGeographicalRegion_SubGeographicalRegion n_SubGeographicalRegion (Some n_CIM15_IEC61970_Core_IdentifiedObject_IdentifiedObject)
    [(n_Substations, VNone); (n_Lines, VNone); (n_Region, VNone)]
    [SMany n_Substations; SMany n_Lines; SOne n_Region]
    true true
    []
    []
    []
    [n_Substations; n_Lines; n_Region]
    [n_Substations; n_Lines]
    [(n_Substations, PManyOne n_Region); (n_Lines, PManyOne n_Region); (n_Region, POneMany n_Regions)];
(* CIM15/IEC61970/Core/Substation.py:23-111 *)
  Cls n_CIM15_IEC61970_Core_Substation_Substation n_Substation (Some n_CIM15_IEC61970_Core_EquipmentContainer_EquipmentContainer)
    [(n_Bays, VNone); (n_VoltageLevels, VNone); (n_Region, VNone)]
    [SMany n_Bays; SMany n_VoltageLevels; SOne n_Region]
    true true
    []
    []
    []
    [n_Bays; n_VoltageLevels; n_Region]
    [n_Bays; n_VoltageLevels]
    [(n_Bays, PManyOne n_Substation); (n_VoltageLevels, PManyOne n_Substation); (n_Region, POneMany n_Substations)];
(* CIM15/IEC61970/Core/Terminal.py:23-406 *)
  Cls n_CIM15_IEC61970_Core_Terminal_Terminal n_Terminal (Some n_CIM15_IEC61970_Core_IdentifiedObject_IdentifiedObject)
    [(n_phases, VStr n_s12N); (n_connected, VBool false); (n_sequenceNumber, VInt 0); (n_BushingInfo, VNone); (n_TieFlow, VNone); (n_HasSecond_MutualCoupling, VNone); (n_OperationalLimitSet, VNone); (n_Measurements, VNone); (n_ConductingEquipment, VNone); (n_RegulatingControl, VNone); (n_HasFirst_MutualCoupling, VNone); (n_AuxiliaryEquipment, VNone); (n_TransformerEnd, VNone); (n_ConnectivityNode, VNone); (n_BranchGroupTerminal, VNone); (n_BusNameMarker, VNone); (n_SvPowerFlow, VNone); (n_TopologicalNode, VNone)]
    [SAttr n_phases; SAttr n_connected; SAttr n_sequenceNumber; SOne n_BushingInfo; SMany n_TieFlow; SMany n_HasSecond_MutualCoupling; SMany n_OperationalLimitSet; SMany n_Measurements; SOne n_ConductingEquipment; SMany n_RegulatingControl; SMany n_HasFirst_MutualCoupling; SMany n_AuxiliaryEquipment; SMany n_TransformerEnd; SOne n_ConnectivityNode; SMany n_BranchGroupTerminal; SOne n_BusNameMarker; SOne n_SvPowerFlow; SOne n_TopologicalNode]
    true true
    [n_phases; n_connected; n_sequenceNumber]
    [(n_phases, VStr n_s12N); (n_connected, VBool false); (n_sequenceNumber, VInt 0)]
    [(n_phases, n_PhaseCode)]
    [n_BushingInfo; n_TieFlow; n_HasSecond_MutualCoupling; n_OperationalLimitSet; n_Measurements; n_ConductingEquipment; n_RegulatingControl; n_HasFirst_MutualCoupling; n_AuxiliaryEquipment; n_TransformerEnd; n_ConnectivityNode; n_BranchGroupTerminal; n_BusNameMarker; n_SvPowerFlow; n_TopologicalNode]
    [n_TieFlow; n_HasSecond_MutualCoupling; n_OperationalLimitSet; n_Measurements; n_RegulatingControl; n_HasFirst_MutualCoupling; n_AuxiliaryEquipment; n_TransformerEnd; n_BranchGroupTerminal]
    [(n_BushingInfo, POneOne n_Terminal); (n_TieFlow, PManyOne n_Terminal); (n_HasSecond_MutualCoupling, PManyOne n_Second_Terminal); (n_OperationalLimitSet, PManyOne n_Terminal); (n_Measurements, PManyOne n_Terminal); (n_ConductingEquipment, POneMany n_Terminals); (n_RegulatingControl, PManyOne n_Terminal); (n_HasFirst_MutualCoupling, PManyOne n_First_Terminal); (n_AuxiliaryEquipment, PManyOne n_Terminal); (n_TransformerEnd, PManyOne n_Terminal); (n_ConnectivityNode, POneMany n_Terminals); (n_BranchGroupTerminal, PManyOne n_Terminal); (n_BusNameMarker, POneMany n_Terminal); (n_SvPowerFlow, POneOne n_Terminal); (n_TopologicalNode, POneMany n_Terminal)];
(* CIM15/IEC61970/Core/VoltageLevel.py:23-114 *)
  Cls n_CIM15_IEC61970_Core_VoltageLevel_VoltageLevel n_VoltageLevel (Some n_CIM15_IEC61970_Core_EquipmentContainer_EquipmentContainer)
    [(n_highVoltageLimit, VFloat n_0_0); (n_lowVoltageLimit, VFloat n_0_0); (n_Bays, VNone); (n_Substation, VNone); (n_BaseVoltage, VNone)]
    [SAttr n_highVoltageLimit; SAttr n_lowVoltageLimit; SMany n_Bays; SOne n_Substation; SOne n_BaseVoltage]
    true true
    [n_highVoltageLimit; n_lowVoltageLimit]
    [(n_highVoltageLimit, VFloat n_0_0); (n_lowVoltageLimit, VFloat n_0_0)]
    []
    [n_Bays; n_Substation; n_BaseVoltage]
    [n_Bays]
    [(n_Bays, PManyOne n_VoltageLevel); (n_Substation, POneMany n_VoltageLevels); (n_BaseVoltage, POneMany n_VoltageLevel)];
(* CIM15/IEC61970/CutsJumpers/Clamp.py:23-62 *)
  Cls n_CIM15_IEC61970_CutsJumpers_Clamp_Clamp n_Clamp (Some n_CIM15_IEC61970_Core_ConductingEquipment_ConductingEquipment)
    [(n_lengthFromTerminal1, VFloat n_0_0); (n_ACLineSegment, VNone)]
    [SAttr n_lengthFromTerminal1; SOne n_ACLineSegment]
    true true
    [n_lengthFromTerminal1]
    [(n_lengthFromTerminal1, VFloat n_0_0)]
    []
    [n_ACLineSegment]
    []
    [(n_ACLineSegment, POneMany n_Clamp)];
(* CIM15/IEC61970/CutsJumpers/Cut.py:23-62 *)
  Cls n_CIM15_IEC61970_CutsJumpers_Cut_Cut n_Cut (Some n_CIM15_IEC61970_Wires_Switch_Switch)
    [(n_lengthFromTerminal1, VFloat n_0_0); (n_ACLineSegment, VNone)]
    [SAttr n_lengthFromTerminal1; SOne n_ACLineSegment]
    true true
    [n_lengthFromTerminal1]
    [(n_lengthFromTerminal1, VFloat n_0_0)]
    []
    [n_ACLineSegment]
    []
    [(n_ACLineSegment, POneMany n_Cut)];
(* CIM15/IEC61970/Domain/DateTimeInterval.py:22-44 *)
  Cls n_CIM15_IEC61970_Domain_DateTimeInterval_DateTimeInterval n_DateTimeInterval None
    [(n_start, VStr n_); (n_end, VStr n_)]
    [SAttr n_start; SAttr n_end]
    false true
    [n_start; n_end]
    [(n_start, VStr n_); (n_end, VStr n_)]
    []
    []
    []
    [];
(* CIM15/IEC61970/Equivalents/EquivalentBranch.py:23-46 *)
  Cls n_CIM15_IEC61970_Equivalents_EquivalentBranch_EquivalentBranch n_EquivalentBranch (Some n_CIM15_IEC61970_Equivalents_EquivalentEquipment_EquivalentEquipment)
    [(n_x, VFloat n_0_0); (n_r, VFloat n_0_0)]
    [SAttr n_x; SAttr n_r]
    true true
    [n_x; n_r]
    [(n_x, VFloat n_0_0); (n_r, VFloat n_0_0)]
    []
    []
    []
    [];
(* CIM15/IEC61970/Equivalents/EquivalentEquipment.py:23-59 *)
  Cls n_CIM15_IEC61970_Equivalents_EquivalentEquipment_EquivalentEquipment n_EquivalentEquipment (Some n_CIM15_IEC61970_Core_ConductingEquipment_ConductingEquipment)
    [(n_EquivalentNetwork, VNone)]
    [SOne n_EquivalentNetwork]
    true true
    []
    []
    []
    [n_EquivalentNetwork]
    []
    [(n_EquivalentNetwork, POneMany n_EquivalentEquipments)];
(* CIM15/IEC61970/Equivalents/EquivalentInjection.py:23-58 *)
  Cls n_CIM15_IEC61970_Equivalents_EquivalentInjection_EquivalentInjection n_EquivalentInjection (Some n_CIM15_IEC61970_Equivalents_EquivalentEquipment_EquivalentEquipment)
    [(n_regulationCapability, VBool false); (n_maxP, VFloat n_0_0); (n_regulationStatus, VBool false); (n_regulationTarget, VFloat n_0_0); (n_minP, VFloat n_0_0)]
    [SAttr n_regulationCapability; SAttr n_maxP; SAttr n_regulationStatus; SAttr n_regulationTarget; SAttr n_minP]
    true true
    [n_regulationCapability; n_maxP; n_regulationStatus; n_regulationTarget; n_minP]
    [(n_regulationCapability, VBool false); (n_maxP, VFloat n_0_0); (n_regulationStatus, VBool false); (n_regulationTarget, VFloat n_0_0); (n_minP, VFloat n_0_0)]
    []
    []
    []
    [];
(* CIM15/IEC61970/Equivalents/EquivalentNetwork.py:23-64 *)
  Cls n_CIM15_IEC61970_Equivalents_EquivalentNetwork_EquivalentNetwork n_EquivalentNetwork (Some n_CIM15_IEC61970_Core_ConnectivityNodeContainer_ConnectivityNodeContainer)
    [(n_EquivalentEquipments, VNone)]
    [SMany n_EquivalentEquipments]
    true true
    []
    []
    []
    [n_EquivalentEquipments]
    [n_EquivalentEquipments]
    [(n_EquivalentEquipments, PManyOne n_EquivalentNetwork)];
(* CIM15/IEC61970/Equivalents/EquivalentShunt.py:23-46 *)
  Cls n_CIM15_IEC61970_Equivalents_EquivalentShunt_EquivalentShunt n_EquivalentShunt (Some n_CIM15_IEC61970_Equivalents_EquivalentEquipment_EquivalentEquipment)
    [(n_b, VFloat n_0_0); (n_g, VFloat n_0_0)]
    [SAttr n_b; SAttr n_g]
    true true
    [n_b; n_g]
    [(n_b, VFloat n_0_0); (n_g, VFloat n_0_0)]
    []
    []
    []
    [];
(* CIM15/IEC61970/Generation/GenerationDynamics/BWRSteamSupply.py:23-122 *)
  Cls n_CIM15_IEC61970_Generation_GenerationDynamics_BWRSteamSupply_BWRSteamSupply n_BWRSteamSupply (Some n_CIM15_IEC61970_Generation_GenerationDynamics_SteamSupply_SteamSupply)
    [(n_lowerLimit, VFloat n_0_0); (n_pressureSetpointTC1, VFloat n_0_0); (n_pressureSetpointTC2, VFloat n_0_0); (n_rodPattern, VFloat n_0_0); (n_pressureSetpointGA, VFloat n_0_0); (n_upperLimit, VFloat n_0_0); (n_pressureLimit, VFloat n_0_0); (n_rfAux5, VFloat n_0_0); (n_rfAux6, VFloat n_0_0); (n_rfAux3, VFloat n_0_0); (n_rodPatternConstant, VFloat n_0_0); (n_rfAux4, VFloat n_0_0); (n_rfAux7, VFloat n_0_0); (n_rfAux8, VFloat n_0_0); (n_highPowerLimit, VFloat n_0_0); (n_rfAux1, VFloat n_0_0); (n_inCoreThermalTC, VFloat n_0_0); (n_rfAux2, VFloat n_0_0); (n_proportionalGain, VFloat n_0_0); (n_lowPowerLimit, VFloat n_0_0); (n_integralGain, VFloat n_0_0)]
    [SAttr n_lowerLimit; SAttr n_pressureSetpointTC1; SAttr n_pressureSetpointTC2; SAttr n_rodPattern; SAttr n_pressureSetpointGA; SAttr n_upperLimit; SAttr n_pressureLimit; SAttr n_rfAux5; SAttr n_rfAux6; SAttr n_rfAux3; SAttr n_rodPatternConstant; SAttr n_rfAux4; SAttr n_rfAux7; SAttr n_rfAux8; SAttr n_highPowerLimit; SAttr n_rfAux1; SAttr n_inCoreThermalTC; SAttr n_rfAux2; SAttr n_proportionalGain; SAttr n_lowPowerLimit; SAttr n_integralGain]
    true true
    [n_lowerLimit; n_pressureSetpointTC1; n_pressureSetpointTC2; n_rodPattern; n_pressureSetpointGA; n_upperLimit; n_pressureLimit; n_rfAux5; n_rfAux6; n_rfAux3; n_rodPatternConstant; n_rfAux4; n_rfAux7; n_rfAux8; n_highPowerLimit; n_rfAux1; n_inCoreThermalTC; n_rfAux2; n_proportionalGain; n_lowPowerLimit; n_integralGain]
    [(n_lowerLimit, VFloat n_0_0); (n_pressureSetpointTC1, VFloat n_0_0); (n_pressureSetpointTC2, VFloat n_0_0); (n_rodPattern, VFloat n_0_0); (n_pressureSetpointGA, VFloat n_0_0); (n_upperLimit, VFloat n_0_0); (n_pressureLimit, VFloat n_0_0); (n_rfAux5, VFloat n_0_0); (n_rfAux6, VFloat n_0_0); (n_rfAux3, VFloat n_0_0); (n_rodPatternConstant, VFloat n_0_0); (n_rfAux4, VFloat n_0_0); (n_rfAux7, VFloat n_0_0); (n_rfAux8, VFloat n_0_0); (n_highPowerLimit, VFloat n_0_0); (n_rfAux1, VFloat n_0_0); (n_inCoreThermalTC, VFloat n_0_0); (n_rfAux2, VFloat n_0_0); (n_proportionalGain, VFloat n_0_0); (n_lowPowerLimit, VFloat n_0_0); (n_integralGain, VFloat n_0_0)]
    []
    []
    []
    [];
(* CIM15/IEC61970/Generation/GenerationDynamics/CTTempActivePowerCurve.py:23-58 *)
  Cls n_CIM15_IEC61970_Generation_GenerationDynamics_CTTempActivePowerCurve_CTTempActivePowerCurve n_CTTempActivePowerCurve (Some n_CIM15_IEC61970_Core_Curve_Curve)
    [(n_CombustionTurbine, VNone)]
    [SOne n_CombustionTurbine]
    true true
    []
    []
    []
    [n_CombustionTurbine]
    []
    [(n_CombustionTurbine, POneOne n_CTTempActivePowerCurve)];
(* CIM15/IEC61970/Generation/GenerationDynamics/CombustionTurbine.py:23-131 *)
  Cls n_CIM15_IEC61970_Generation_GenerationDynamics_CombustionTurbine_CombustionTurbine n_CombustionTurbine (Some n_CIM15_IEC61970_Generation_GenerationDynamics_PrimeMover_PrimeMover)
    [(n_capabilityVersusFrequency, VFloat n_0_0); (n_referenceTemp, VFloat n_0_0); (n_auxPowerVersusFrequency, VFloat n_0_0); (n_powerVariationByTemp, VFloat n_0_0); (n_auxPowerVersusVoltage, VFloat n_0_0); (n_timeConstant, VFloat n_0_0); (n_heatRecoveryFlag, VBool false); (n_ambientTemp, VFloat n_0_0); (n_HeatRecoveryBoiler, VNone); (n_AirCompressor, VNone); (n_CTTempActivePowerCurve, VNone)]
    [SAttr n_capabilityVersusFrequency; SAttr n_referenceTemp; SAttr n_auxPowerVersusFrequency; SAttr n_powerVariationByTemp; SAttr n_auxPowerVersusVoltage; SAttr n_timeConstant; SAttr n_heatRecoveryFlag; SAttr n_ambientTemp; SOne n_HeatRecoveryBoiler; SOne n_AirCompressor; SOne n_CTTempActivePowerCurve]
    true true
    [n_capabilityVersusFrequency; n_referenceTemp; n_auxPowerVersusFrequency; n_powerVariationByTemp; n_auxPowerVersusVoltage; n_timeConstant; n_heatRecoveryFlag; n_ambientTemp]
    [(n_capabilityVersusFrequency, VFloat n_0_0); (n_referenceTemp, VFloat n_0_0); (n_auxPowerVersusFrequency, VFloat n_0_0); (n_powerVariationByTemp, VFloat n_0_0); (n_auxPowerVersusVoltage, VFloat n_0_0); (n_timeConstant, VFloat n_0_0); (n_heatRecoveryFlag, VBool false); (n_ambientTemp, VFloat n_0_0)]
    []
    [n_HeatRecoveryBoiler; n_AirCompressor; n_CTTempActivePowerCurve]
    []
    [(n_HeatRecoveryBoiler, POneMany n_CombustionTurbines); (n_AirCompressor, POneOne n_CombustionTurbine); (n_CTTempActivePowerCurve, POneOne n_CombustionTurbine)];
(* CIM15/IEC61970/Generation/GenerationDynamics/DrumBoiler.py:23-42 *)
  Cls n_CIM15_IEC61970_Generation_GenerationDynamics_DrumBoiler_DrumBoiler n_DrumBoiler (Some n_CIM15_IEC61970_Generation_GenerationDynamics_FossilSteamSupply_FossilSteamSupply)
    [(n_drumBoilerRating, VFloat n_0_0)]
    [SAttr n_drumBoilerRating]
    true true
    [n_drumBoilerRating]
    [(n_drumBoilerRating, VFloat n_0_0)]
    []
    []
    []
    [];
(* CIM15/IEC61970/Generation/GenerationDynamics/FossilSteamSupply.py:23-142 *)
  Cls n_CIM15_IEC61970_Generation_GenerationDynamics_FossilSteamSupply_FossilSteamSupply n_FossilSteamSupply (Some n_CIM15_IEC61970_Generation_GenerationDynamics_SteamSupply_SteamSupply)
    [(n_fuelDemandLimit, VFloat n_0_0); (n_auxPowerVersusFrequency, VFloat n_0_0); (n_mechPowerSensorLag, VFloat n_0_0); (n_pressureCtrlDG, VFloat n_0_0); (n_throttlePressureSP, VFloat n_0_0); (n_feedWaterPG, VFloat n_0_0); (n_feedWaterTC, VFloat n_0_0); (n_controlPC, VFloat n_0_0); (n_fuelSupplyDelay, VFloat n_0_0); (n_controlPED, VFloat n_0_0); (n_controlPEB, VFloat n_0_0); (n_boilerControlMode, VStr n_following); (n_controlTC, VFloat n_0_0); (n_minErrorRateP, VFloat n_0_0); (n_superHeater1Capacity, VFloat n_0_0); (n_controlErrorBiasP, VFloat n_0_0); (n_pressureCtrlIG, VFloat n_0_0); (n_feedWaterIG, VFloat n_0_0); (n_pressureFeedback, VInt 0); (n_auxPowerVersusVoltage, VFloat n_0_0); (n_fuelSupplyTC, VFloat n_0_0); (n_maxErrorRateP, VFloat n_0_0); (n_superHeaterPipePD, VFloat n_0_0); (n_pressureCtrlPG, VFloat n_0_0); (n_superHeater2Capacity, VFloat n_0_0); (n_controlIC, VFloat n_0_0)]
    [SAttr n_fuelDemandLimit; SAttr n_auxPowerVersusFrequency; SAttr n_mechPowerSensorLag; SAttr n_pressureCtrlDG; SAttr n_throttlePressureSP; SAttr n_feedWaterPG; SAttr n_feedWaterTC; SAttr n_controlPC; SAttr n_fuelSupplyDelay; SAttr n_controlPED; SAttr n_controlPEB; SAttr n_boilerControlMode; SAttr n_controlTC; SAttr n_minErrorRateP; SAttr n_superHeater1Capacity; SAttr n_controlErrorBiasP; SAttr n_pressureCtrlIG; SAttr n_feedWaterIG; SAttr n_pressureFeedback; SAttr n_auxPowerVersusVoltage; SAttr n_fuelSupplyTC; SAttr n_maxErrorRateP; SAttr n_superHeaterPipePD; SAttr n_pressureCtrlPG; SAttr n_superHeater2Capacity; SAttr n_controlIC]
    true true
    [n_fuelDemandLimit; n_auxPowerVersusFrequency; n_mechPowerSensorLag; n_pressureCtrlDG; n_throttlePressureSP; n_feedWaterPG; n_feedWaterTC; n_controlPC; n_fuelSupplyDelay; n_controlPED; n_controlPEB; n_boilerControlMode; n_controlTC; n_minErrorRateP; n_superHeater1Capacity; n_controlErrorBiasP; n_pressureCtrlIG; n_feedWaterIG; n_pressureFeedback; n_auxPowerVersusVoltage; n_fuelSupplyTC; n_maxErrorRateP; n_superHeaterPipePD; n_pressureCtrlPG; n_superHeater2Capacity; n_controlIC]
    [(n_fuelDemandLimit, VFloat n_0_0); (n_auxPowerVersusFrequency, VFloat n_0_0); (n_mechPowerSensorLag, VFloat n_0_0); (n_pressureCtrlDG, VFloat n_0_0); (n_throttlePressureSP, VFloat n_0_0); (n_feedWaterPG, VFloat n_0_0); (n_feedWaterTC, VFloat n_0_0); (n_controlPC, VFloat n_0_0); (n_fuelSupplyDelay, VFloat n_0_0); (n_controlPED, VFloat n_0_0); (n_controlPEB, VFloat n_0_0); (n_boilerControlMode, VStr n_following); (n_controlTC, VFloat n_0_0); (n_minErrorRateP, VFloat n_0_0); (n_superHeater1Capacity, VFloat n_0_0); (n_controlErrorBiasP, VFloat n_0_0); (n_pressureCtrlIG, VFloat n_0_0); (n_feedWaterIG, VFloat n_0_0); (n_pressureFeedback, VInt 0); (n_auxPowerVersusVoltage, VFloat n_0_0); (n_fuelSupplyTC, VFloat n_0_0); (n_maxErrorRateP, VFloat n_0_0); (n_superHeaterPipePD, VFloat n_0_0); (n_pressureCtrlPG, VFloat n_0_0); (n_superHeater2Capacity, VFloat n_0_0); (n_controlIC, VFloat n_0_0)]
    [(n_boilerControlMode, n_BoilerControlMode)]
    []
    []
    [];
(* CIM15/IEC61970/Generation/GenerationDynamics/HeatRecoveryBoiler.py:23-68 *)
  Cls n_CIM15_IEC61970_Generation_GenerationDynamics_HeatRecoveryBoiler_HeatRecoveryBoiler n_HeatRecoveryBoiler (Some n_CIM15_IEC61970_Generation_GenerationDynamics_FossilSteamSupply_FossilSteamSupply)
    [(n_steamSupplyRating2, VFloat n_0_0); (n_CombustionTurbines, VNone)]
    [SAttr n_steamSupplyRating2; SMany n_CombustionTurbines]
    true true
    [n_steamSupplyRating2]
    [(n_steamSupplyRating2, VFloat n_0_0)]
    []
    [n_CombustionTurbines]
    [n_CombustionTurbines]
    [(n_CombustionTurbines, PManyOne n_HeatRecoveryBoiler)];
(* CIM15/IEC61970/Generation/GenerationDynamics/HydroTurbine.py:23-82 *)
  Cls n_CIM15_IEC61970_Generation_GenerationDynamics_HydroTurbine_HydroTurbine n_HydroTurbine (Some n_CIM15_IEC61970_Generation_GenerationDynamics_PrimeMover_PrimeMover)
    [(n_maxHeadMaxP, VFloat n_0_0); (n_minHeadMaxP, VFloat n_0_0); (n_turbineRating, VFloat n_0_0); (n_gateRateLimit, VFloat n_0_0); (n_turbineType, VStr n_pelton); (n_gateUpperLimit, VFloat n_0_0); (n_speedRating, VFloat n_0_0); (n_speedRegulation, VFloat n_0_0); (n_transientDroopTime, VFloat n_0_0); (n_transientRegulation, VFloat n_0_0); (n_waterStartingTime, VFloat n_0_0)]
    [SAttr n_maxHeadMaxP; SAttr n_minHeadMaxP; SAttr n_turbineRating; SAttr n_gateRateLimit; SAttr n_turbineType; SAttr n_gateUpperLimit; SAttr n_speedRating; SAttr n_speedRegulation; SAttr n_transientDroopTime; SAttr n_transientRegulation; SAttr n_waterStartingTime]
    true true
    [n_maxHeadMaxP; n_minHeadMaxP; n_turbineRating; n_gateRateLimit; n_turbineType; n_gateUpperLimit; n_speedRating; n_speedRegulation; n_transientDroopTime; n_transientRegulation; n_waterStartingTime]
    [(n_maxHeadMaxP, VFloat n_0_0); (n_minHeadMaxP, VFloat n_0_0); (n_turbineRating, VFloat n_0_0); (n_gateRateLimit, VFloat n_0_0); (n_turbineType, VStr n_pelton); (n_gateUpperLimit, VFloat n_0_0); (n_speedRating, VFloat n_0_0); (n_speedRegulation, VFloat n_0_0); (n_transientDroopTime, VFloat n_0_0); (n_transientRegulation, VFloat n_0_0); (n_waterStartingTime, VFloat n_0_0)]
    [(n_turbineType, n_TurbineType)]
    []
    []
    [];
(* CIM15/IEC61970/Generation/GenerationDynamics/PWRSteamSupply.py:23-118 *)
  Cls n_CIM15_IEC61970_Generation_GenerationDynamics_PWRSteamSupply_PWRSteamSupply n_PWRSteamSupply (Some n_CIM15_IEC61970_Generation_GenerationDynamics_SteamSupply_SteamSupply)
    [(n_coreNeutronicsHT, VFloat n_0_0); (n_steamFlowFG, VFloat n_0_0); (n_hotLegToColdLegGain, VFloat n_0_0); (n_steamPressureDropLagTC, VFloat n_0_0); (n_coreHTLagTC1, VFloat n_0_0); (n_coreHTLagTC2, VFloat n_0_0); (n_hotLegLagTC, VFloat n_0_0); (n_throttlePressureSP, VFloat n_0_0); (n_hotLegSteamGain, VFloat n_0_0); (n_throttlePressureFactor, VFloat n_0_0); (n_coldLegFBLagTC, VFloat n_0_0); (n_pressureCG, VFloat n_0_0); (n_steamPressureFG, VFloat n_0_0); (n_feedbackFactor, VFloat n_0_0); (n_coreNeutronicsEffTC, VFloat n_0_0); (n_coldLegFG2, VFloat n_0_0); (n_coldLegFG1, VFloat n_0_0); (n_coldLegLagTC, VFloat n_0_0); (n_coldLegFBLeadTC2, VFloat n_0_0); (n_coldLegFBLeadTC1, VFloat n_0_0)]
    [SAttr n_coreNeutronicsHT; SAttr n_steamFlowFG; SAttr n_hotLegToColdLegGain; SAttr n_steamPressureDropLagTC; SAttr n_coreHTLagTC1; SAttr n_coreHTLagTC2; SAttr n_hotLegLagTC; SAttr n_throttlePressureSP; SAttr n_hotLegSteamGain; SAttr n_throttlePressureFactor; SAttr n_coldLegFBLagTC; SAttr n_pressureCG; SAttr n_steamPressureFG; SAttr n_feedbackFactor; SAttr n_coreNeutronicsEffTC; SAttr n_coldLegFG2; SAttr n_coldLegFG1; SAttr n_coldLegLagTC; SAttr n_coldLegFBLeadTC2; SAttr n_coldLegFBLeadTC1]
    true true
    [n_coreNeutronicsHT; n_steamFlowFG; n_hotLegToColdLegGain; n_steamPressureDropLagTC; n_coreHTLagTC1; n_coreHTLagTC2; n_hotLegLagTC; n_throttlePressureSP; n_hotLegSteamGain; n_throttlePressureFactor; n_coldLegFBLagTC; n_pressureCG; n_steamPressureFG; n_feedbackFactor; n_coreNeutronicsEffTC; n_coldLegFG2; n_coldLegFG1; n_coldLegLagTC; n_coldLegFBLeadTC2; n_coldLegFBLeadTC1]
    [(n_coreNeutronicsHT, VFloat n_0_0); (n_steamFlowFG, VFloat n_0_0); (n_hotLegToColdLegGain, VFloat n_0_0); (n_steamPressureDropLagTC, VFloat n_0_0); (n_coreHTLagTC1, VFloat n_0_0); (n_coreHTLagTC2, VFloat n_0_0); (n_hotLegLagTC, VFloat n_0_0); (n_throttlePressureSP, VFloat n_0_0); (n_hotLegSteamGain, VFloat n_0_0); (n_throttlePressureFactor, VFloat n_0_0); (n_coldLegFBLagTC, VFloat n_0_0); (n_pressureCG, VFloat n_0_0); (n_steamPressureFG, VFloat n_0_0); (n_feedbackFactor, VFloat n_0_0); (n_coreNeutronicsEffTC, VFloat n_0_0); (n_coldLegFG2, VFloat n_0_0); (n_coldLegFG1, VFloat n_0_0); (n_coldLegLagTC, VFloat n_0_0); (n_coldLegFBLeadTC2, VFloat n_0_0); (n_coldLegFBLeadTC1, VFloat n_0_0)]
    []
    []
    []
    [];
(* CIM15/IEC61970/Generation/GenerationDynamics/PrimeMover.py:23-74 *)
  Cls n_CIM15_IEC61970_Generation_GenerationDynamics_PrimeMover_PrimeMover n_PrimeMover (Some n_CIM15_IEC61970_Core_PowerSystemResource_PowerSystemResource)
    [(n_primeMoverRating, VFloat n_0_0); (n_SynchronousMachines, VNone)]
    [SAttr n_primeMoverRating; SMany n_SynchronousMachines]
    true true
    [n_primeMoverRating]
    [(n_primeMoverRating, VFloat n_0_0)]
    []
    [n_SynchronousMachines]
    [n_SynchronousMachines]
    [(n_SynchronousMachines, PManyMany n_PrimeMovers)];
(* CIM15/IEC61970/Generation/GenerationDynamics/SteamSupply.py:23-74 *)
  Cls n_CIM15_IEC61970_Generation_GenerationDynamics_SteamSupply_SteamSupply n_SteamSupply (Some n_CIM15_IEC61970_Core_PowerSystemResource_PowerSystemResource)
    [(n_steamSupplyRating, VFloat n_0_0); (n_SteamTurbines, VNone)]
    [SAttr n_steamSupplyRating; SMany n_SteamTurbines]
    true true
    [n_steamSupplyRating]
    [(n_steamSupplyRating, VFloat n_0_0)]
    []
    [n_SteamTurbines]
    [n_SteamTurbines]
    [(n_SteamTurbines, PManyMany n_SteamSupplys)];
(* CIM15/IEC61970/Generation/GenerationDynamics/SteamTurbine.py:23-118 *)
  Cls n_CIM15_IEC61970_Generation_GenerationDynamics_SteamTurbine_SteamTurbine n_SteamTurbine (Some n_CIM15_IEC61970_Generation_GenerationDynamics_PrimeMover_PrimeMover)
    [(n_shaft1PowerIP, VFloat n_0_0); (n_shaft2PowerIP, VFloat n_0_0); (n_crossoverTC, VFloat n_0_0); (n_shaft1PowerLP1, VFloat n_0_0); (n_shaft1PowerLP2, VFloat n_0_0); (n_reheater1TC, VFloat n_0_0); (n_shaft2PowerLP1, VFloat n_0_0); (n_shaft2PowerLP2, VFloat n_0_0); (n_reheater2TC, VFloat n_0_0); (n_steamChestTC, VFloat n_0_0); (n_shaft1PowerHP, VFloat n_0_0); (n_shaft2PowerHP, VFloat n_0_0); (n_SteamSupplys, VNone)]
    [SAttr n_shaft1PowerIP; SAttr n_shaft2PowerIP; SAttr n_crossoverTC; SAttr n_shaft1PowerLP1; SAttr n_shaft1PowerLP2; SAttr n_reheater1TC; SAttr n_shaft2PowerLP1; SAttr n_shaft2PowerLP2; SAttr n_reheater2TC; SAttr n_steamChestTC; SAttr n_shaft1PowerHP; SAttr n_shaft2PowerHP; SMany n_SteamSupplys]
    true true
    [n_shaft1PowerIP; n_shaft2PowerIP; n_crossoverTC; n_shaft1PowerLP1; n_shaft1PowerLP2; n_reheater1TC; n_shaft2PowerLP1; n_shaft2PowerLP2; n_reheater2TC; n_steamChestTC; n_shaft1PowerHP; n_shaft2PowerHP]
    [(n_shaft1PowerIP, VFloat n_0_0); (n_shaft2PowerIP, VFloat n_0_0); (n_crossoverTC, VFloat n_0_0); (n_shaft1PowerLP1, VFloat n_0_0); (n_shaft1PowerLP2, VFloat n_0_0); (n_reheater1TC, VFloat n_0_0); (n_shaft2PowerLP1, VFloat n_0_0); (n_shaft2PowerLP2, VFloat n_0_0); (n_reheater2TC, VFloat n_0_0); (n_steamChestTC, VFloat n_0_0); (n_shaft1PowerHP, VFloat n_0_0); (n_shaft2PowerHP, VFloat n_0_0)]
    []
    [n_SteamSupplys]
    [n_SteamSupplys]
    [(n_SteamSupplys, PManyMany n_SteamTurbines)];
(* CIM15/IEC61970/Generation/GenerationDynamics/Subcritical.py:23-38 *)
  Cls n_CIM15_IEC61970_Generation_GenerationDynamics_Subcritical_Subcritical n_Subcritical (Some n_CIM15_IEC61970_Generation_GenerationDynamics_FossilSteamSupply_FossilSteamSupply)
    []
    []
    true true
    []
    []
    []
    []
    []
    [];
(* CIM15/IEC61970/Generation/GenerationDynamics/Supercritical.py:23-38 *)
  Cls n_CIM15_IEC61970_Generation_GenerationDynamics_Supercritical_Supercritical n_Supercritical (Some n_CIM15_IEC61970_Generation_GenerationDynamics_FossilSteamSupply_FossilSteamSupply)
    []
    []
    true true
    []
    []
    []
    []
    []
    [];
(* CIM15/IEC61970/Generation/Production/AirCompressor.py:23-82 *)
  Cls n_CIM15_IEC61970_Generation_Production_AirCompressor_AirCompressor n_AirCompressor (Some n_CIM15_IEC61970_Core_PowerSystemResource_PowerSystemResource)
    [(n_airCompressorRating, VFloat n_0_0); (n_CombustionTurbine, VNone); (n_CAESPlant, VNone)]
    [SAttr n_airCompressorRating; SOne n_CombustionTurbine; SOne n_CAESPlant]
    true true
    [n_airCompressorRating]
    [(n_airCompressorRating, VFloat n_0_0)]
    []
    [n_CombustionTurbine; n_CAESPlant]
    []
    [(n_CombustionTurbine, POneOne n_AirCompressor); (n_CAESPlant, POneOne n_AirCompressor)];
(* CIM15/IEC61970/Generation/Production/CAESPlant.py:23-86 *)
  Cls n_CIM15_IEC61970_Generation_Production_CAESPlant_CAESPlant n_CAESPlant (Some n_CIM15_IEC61970_Core_PowerSystemResource_PowerSystemResource)
    [(n_ratedCapacityP, VFloat n_0_0); (n_energyStorageCapacity, VFloat n_0_0); (n_AirCompressor, VNone); (n_ThermalGeneratingUnit, VNone)]
    [SAttr n_ratedCapacityP; SAttr n_energyStorageCapacity; SOne n_AirCompressor; SOne n_ThermalGeneratingUnit]
    true true
    [n_ratedCapacityP; n_energyStorageCapacity]
    [(n_ratedCapacityP, VFloat n_0_0); (n_energyStorageCapacity, VFloat n_0_0)]
    []
    [n_AirCompressor; n_ThermalGeneratingUnit]
    []
    [(n_AirCompressor, POneOne n_CAESPlant); (n_ThermalGeneratingUnit, POneOne n_CAESPlant)];
(* CIM15/IEC61970/Generation/Production/CogenerationPlant.py:23-104 *)
  Cls n_CIM15_IEC61970_Generation_Production_CogenerationPlant_CogenerationPlant n_CogenerationPlant (Some n_CIM15_IEC61970_Core_PowerSystemResource_PowerSystemResource)
    [(n_cogenLPSteamRating, VFloat n_0_0); (n_cogenLPSendoutRating, VFloat n_0_0); (n_ratedP, VFloat n_0_0); (n_cogenHPSendoutRating, VFloat n_0_0); (n_cogenHPSteamRating, VFloat n_0_0); (n_SteamSendoutSchedule, VNone); (n_ThermalGeneratingUnits, VNone)]
    [SAttr n_cogenLPSteamRating; SAttr n_cogenLPSendoutRating; SAttr n_ratedP; SAttr n_cogenHPSendoutRating; SAttr n_cogenHPSteamRating; SOne n_SteamSendoutSchedule; SMany n_ThermalGeneratingUnits]
    true true
    [n_cogenLPSteamRating; n_cogenLPSendoutRating; n_ratedP; n_cogenHPSendoutRating; n_cogenHPSteamRating]
    [(n_cogenLPSteamRating, VFloat n_0_0); (n_cogenLPSendoutRating, VFloat n_0_0); (n_ratedP, VFloat n_0_0); (n_cogenHPSendoutRating, VFloat n_0_0); (n_cogenHPSteamRating, VFloat n_0_0)]
    []
    [n_SteamSendoutSchedule; n_ThermalGeneratingUnits]
    [n_ThermalGeneratingUnits]
    [(n_SteamSendoutSchedule, POneOne n_CogenerationPlant); (n_ThermalGeneratingUnits, PManyOne n_CogenerationPlant)];
(* CIM15/IEC61970/Generation/Production/CombinedCyclePlant.py:23-68 *)
  Cls n_CIM15_IEC61970_Generation_Production_CombinedCyclePlant_CombinedCyclePlant n_CombinedCyclePlant (Some n_CIM15_IEC61970_Core_PowerSystemResource_PowerSystemResource)
    [(n_combCyclePlantRating, VFloat n_0_0); (n_ThermalGeneratingUnits, VNone)]
    [SAttr n_combCyclePlantRating; SMany n_ThermalGeneratingUnits]
    true true
    [n_combCyclePlantRating]
    [(n_combCyclePlantRating, VFloat n_0_0)]
    []
    [n_ThermalGeneratingUnits]
    [n_ThermalGeneratingUnits]
    [(n_ThermalGeneratingUnits, PManyOne n_CombinedCyclePlant)];
(* CIM15/IEC61970/Generation/Production/EmissionAccount.py:23-67 *)
  Cls n_CIM15_IEC61970_Generation_Production_EmissionAccount_EmissionAccount n_EmissionAccount (Some n_CIM15_IEC61970_Core_Curve_Curve)
    [(n_emissionType, VStr n_carbonDisulfide); (n_emissionValueSource, VStr n_calculated); (n_ThermalGeneratingUnit, VNone)]
    [SAttr n_emissionType; SAttr n_emissionValueSource; SOne n_ThermalGeneratingUnit]
    true true
    [n_emissionType; n_emissionValueSource]
    [(n_emissionType, VStr n_carbonDisulfide); (n_emissionValueSource, VStr n_calculated)]
    [(n_emissionType, n_EmissionType); (n_emissionValueSource, n_EmissionValueSource)]
    [n_ThermalGeneratingUnit]
    []
    [(n_ThermalGeneratingUnit, POneMany n_EmmissionAccounts)];
(* CIM15/IEC61970/Generation/Production/EmissionCurve.py:23-71 *)
  Cls n_CIM15_IEC61970_Generation_Production_EmissionCurve_EmissionCurve n_EmissionCurve (Some n_CIM15_IEC61970_Core_Curve_Curve)
    [(n_emissionContent, VFloat n_0_0); (n_isNetGrossP, VBool false); (n_emissionType, VStr n_carbonDisulfide); (n_ThermalGeneratingUnit, VNone)]
    [SAttr n_emissionContent; SAttr n_isNetGrossP; SAttr n_emissionType; SOne n_ThermalGeneratingUnit]
    true true
    [n_emissionContent; n_isNetGrossP; n_emissionType]
    [(n_emissionContent, VFloat n_0_0); (n_isNetGrossP, VBool false); (n_emissionType, VStr n_carbonDisulfide)]
    [(n_emissionType, n_EmissionType)]
    [n_ThermalGeneratingUnit]
    []
    [(n_ThermalGeneratingUnit, POneMany n_EmissionCurves)];
(* CIM15/IEC61970/Generation/Production/FossilFuel.py:23-125 *)
  Cls n_CIM15_IEC61970_Generation_Production_FossilFuel_FossilFuel n_FossilFuel (Some n_CIM15_IEC61970_Core_IdentifiedObject_IdentifiedObject)
    [(n_fuelSulfur, VFloat n_0_0); (n_fuelCost, VFloat n_0_0); (n_fossilFuelType, VStr n_oil); (n_lowBreakpointP, VFloat n_0_0); (n_fuelDispatchCost, VFloat n_0_0); (n_fuelHandlingCost, VFloat n_0_0); (n_fuelHeatContent, VFloat n_0_0); (n_fuelEffFactor, VFloat n_0_0); (n_fuelMixture, VFloat n_0_0); (n_highBreakpointP, VFloat n_0_0); (n_ThermalGeneratingUnit, VNone); (n_FuelAllocationSchedules, VNone)]
    [SAttr n_fuelSulfur; SAttr n_fuelCost; SAttr n_fossilFuelType; SAttr n_lowBreakpointP; SAttr n_fuelDispatchCost; SAttr n_fuelHandlingCost; SAttr n_fuelHeatContent; SAttr n_fuelEffFactor; SAttr n_fuelMixture; SAttr n_highBreakpointP; SOne n_ThermalGeneratingUnit; SMany n_FuelAllocationSchedules]
    true true
    [n_fuelSulfur; n_fuelCost; n_fossilFuelType; n_lowBreakpointP; n_fuelDispatchCost; n_fuelHandlingCost; n_fuelHeatContent; n_fuelEffFactor; n_fuelMixture; n_highBreakpointP]
    [(n_fuelSulfur, VFloat n_0_0); (n_fuelCost, VFloat n_0_0); (n_fossilFuelType, VStr n_oil); (n_lowBreakpointP, VFloat n_0_0); (n_fuelDispatchCost, VFloat n_0_0); (n_fuelHandlingCost, VFloat n_0_0); (n_fuelHeatContent, VFloat n_0_0); (n_fuelEffFactor, VFloat n_0_0); (n_fuelMixture, VFloat n_0_0); (n_highBreakpointP, VFloat n_0_0)]
    [(n_fossilFuelType, n_FuelType)]
    [n_ThermalGeneratingUnit; n_FuelAllocationSchedules]
    [n_FuelAllocationSchedules]
    [(n_ThermalGeneratingUnit, POneMany n_FossilFuels); (n_FuelAllocationSchedules, PManyOne n_FossilFuel)];
(* CIM15/IEC61970/Generation/Production/FuelAllocationSchedule.py:23-100 *)
  Cls n_CIM15_IEC61970_Generation_Production_FuelAllocationSchedule_FuelAllocationSchedule n_FuelAllocationSchedule (Some n_CIM15_IEC61970_Core_Curve_Curve)
    [(n_minFuelAllocation, VFloat n_0_0); (n_fuelAllocationEndDate, VStr n_); (n_maxFuelAllocation, VFloat n_0_0); (n_fuelAllocationStartDate, VStr n_); (n_fuelType, VStr n_oil); (n_FossilFuel, VNone); (n_ThermalGeneratingUnit, VNone)]
    [SAttr n_minFuelAllocation; SAttr n_fuelAllocationEndDate; SAttr n_maxFuelAllocation; SAttr n_fuelAllocationStartDate; SAttr n_fuelType; SOne n_FossilFuel; SOne n_ThermalGeneratingUnit]
    true true
    [n_minFuelAllocation; n_fuelAllocationEndDate; n_maxFuelAllocation; n_fuelAllocationStartDate; n_fuelType]
    [(n_minFuelAllocation, VFloat n_0_0); (n_fuelAllocationEndDate, VStr n_); (n_maxFuelAllocation, VFloat n_0_0); (n_fuelAllocationStartDate, VStr n_); (n_fuelType, VStr n_oil)]
    [(n_fuelType, n_FuelType)]
    [n_FossilFuel; n_ThermalGeneratingUnit]
    []
    [(n_FossilFuel, POneMany n_FuelAllocationSchedules); (n_ThermalGeneratingUnit, POneMany n_FuelAllocationSchedules)];
(* CIM15/IEC61970/Generation/Production/GenUnitOpCostCurve.py:23-63 *)
  Cls n_CIM15_IEC61970_Generation_Production_GenUnitOpCostCurve_GenUnitOpCostCurve n_GenUnitOpCostCurve (Some n_CIM15_IEC61970_Core_Curve_Curve)
    [(n_isNetGrossP, VBool false); (n_GeneratingUnit, VNone)]
    [SAttr n_isNetGrossP; SOne n_GeneratingUnit]
    true true
    [n_isNetGrossP]
    [(n_isNetGrossP, VBool false)]
    []
    [n_GeneratingUnit]
    []
    [(n_GeneratingUnit, POneMany n_GenUnitOpCostCurves)];
(* CIM15/IEC61970/Generation/Production/GenUnitOpSchedule.py:23-58 *)
  Cls n_CIM15_IEC61970_Generation_Production_GenUnitOpSchedule_GenUnitOpSchedule n_GenUnitOpSchedule (Some n_CIM15_IEC61970_Core_RegularIntervalSchedule_RegularIntervalSchedule)
    [(n_GeneratingUnit, VNone)]
    [SOne n_GeneratingUnit]
    true true
    []
    []
    []
    [n_GeneratingUnit]
    []
    [(n_GeneratingUnit, POneOne n_GenUnitOpSchedule)];
(* CIM15/IEC61970/Generation/Production/GeneratingUnit.py:23-334 *)
  Cls n_CIM15_IEC61970_Generation_Production_GeneratingUnit_GeneratingUnit n_GeneratingUnit (Some n_CIM15_IEC61970_Core_Equipment_Equipment)
    [(n_ratedGrossMinP, VFloat n_0_0); (n_efficiency, VFloat n_0_0); (n_stepChange, VFloat n_0_0); (n_ratedNetMaxP, VFloat n_0_0); (n_tieLinePF, VFloat n_0_0); (n_dispReserveFlag, VBool false); (n_controlPulseHigh, VFloat n_0_0); (n_startupTime, VFloat n_0_0); (n_maxOperatingP, VFloat n_0_0); (n_genControlSource, VStr n_plantControl); (n_normalPF, VFloat n_0_0); (n_initialP, VFloat n_0_0); (n_spinReserveRamp, VFloat n_0_0); (n_allocSpinResP, VFloat n_0_0); (n_minEconomicP, VFloat n_0_0); (n_longPF, VFloat n_0_0); (n_nominalP, VFloat n_0_0); (n_controlResponseRate, VFloat n_0_0); (n_ratedGrossMaxP, VFloat n_0_0); (n_penaltyFactor, VFloat n_0_0); (n_fastStartFlag, VBool false); (n_minimumOffTime, VFloat n_0_0); (n_shortPF, VFloat n_0_0); (n_governorMPL, VFloat n_0_0); (n_energyMinP, VFloat n_0_0); (n_fuelPriority, VInt 0); (n_maxEconomicP, VFloat n_0_0); (n_autoCntrlMarginP, VFloat n_0_0); (n_highControlLimit, VFloat n_0_0); (n_modelDetail, VStr n_); (n_controlPulseLow, VFloat n_0_0); (n_raiseRampRate, VFloat n_0_0); (n_controlDeadband, VFloat n_0_0); (n_baseP, VFloat n_0_0); (n_startupCost, VFloat n_0_0); (n_variableCost, VFloat n_0_0); (n_genOperatingMode, VStr n_MRN); (n_lowerRampRate, VFloat n_0_0); (n_minOperatingP, VFloat n_0_0); (n_lowControlLimit, VFloat n_0_0); (n_maximumAllowableSpinningReserve, VFloat n_0_0); (n_genControlMode, VStr n_setpoint); (n_governorSCD, VFloat n_0_0); (n_ControlAreaGeneratingUnit, VNone); (n_SynchronousMachines, VNone); (n_GenUnitOpSchedule, VNone); (n_GrossToNetActivePowerCurves, VNone); (n_GenUnitOpCostCurves, VNone)]
    [SAttr n_ratedGrossMinP; SAttr n_efficiency; SAttr n_stepChange; SAttr n_ratedNetMaxP; SAttr n_tieLinePF; SAttr n_dispReserveFlag; SAttr n_controlPulseHigh; SAttr n_startupTime; SAttr n_maxOperatingP; SAttr n_genControlSource; SAttr n_normalPF; SAttr n_initialP; SAttr n_spinReserveRamp; SAttr n_allocSpinResP; SAttr n_minEconomicP; SAttr n_longPF; SAttr n_nominalP; SAttr n_controlResponseRate; SAttr n_ratedGrossMaxP; SAttr n_penaltyFactor; SAttr n_fastStartFlag; SAttr n_minimumOffTime; SAttr n_shortPF; SAttr n_governorMPL; SAttr n_energyMinP; SAttr n_fuelPriority; SAttr n_maxEconomicP; SAttr n_autoCntrlMarginP; SAttr n_highControlLimit; SAttr n_modelDetail; SAttr n_controlPulseLow; SAttr n_raiseRampRate; SAttr n_controlDeadband; SAttr n_baseP; SAttr n_startupCost; SAttr n_variableCost; SAttr n_genOperatingMode; SAttr n_lowerRampRate; SAttr n_minOperatingP; SAttr n_lowControlLimit; SAttr n_maximumAllowableSpinningReserve; SAttr n_genControlMode; SAttr n_governorSCD; SMany n_ControlAreaGeneratingUnit; SMany n_SynchronousMachines; SOne n_GenUnitOpSchedule; SMany n_GrossToNetActivePowerCurves; SMany n_GenUnitOpCostCurves]
    true true
    [n_ratedGrossMinP; n_efficiency; n_stepChange; n_ratedNetMaxP; n_tieLinePF; n_dispReserveFlag; n_controlPulseHigh; n_startupTime; n_maxOperatingP; n_genControlSource; n_normalPF; n_initialP; n_spinReserveRamp; n_allocSpinResP; n_minEconomicP; n_longPF; n_nominalP; n_controlResponseRate; n_ratedGrossMaxP; n_penaltyFactor; n_fastStartFlag; n_minimumOffTime; n_shortPF; n_governorMPL; n_energyMinP; n_fuelPriority; n_maxEconomicP; n_autoCntrlMarginP; n_highControlLimit; n_modelDetail; n_controlPulseLow; n_raiseRampRate; n_controlDeadband; n_baseP; n_startupCost; n_variableCost; n_genOperatingMode; n_lowerRampRate; n_minOperatingP; n_lowControlLimit; n_maximumAllowableSpinningReserve; n_genControlMode; n_governorSCD]
    [(n_ratedGrossMinP, VFloat n_0_0); (n_efficiency, VFloat n_0_0); (n_stepChange, VFloat n_0_0); (n_ratedNetMaxP, VFloat n_0_0); (n_tieLinePF, VFloat n_0_0); (n_dispReserveFlag, VBool false); (n_controlPulseHigh, VFloat n_0_0); (n_startupTime, VFloat n_0_0); (n_maxOperatingP, VFloat n_0_0); (n_genControlSource, VStr n_plantControl); (n_normalPF, VFloat n_0_0); (n_initialP, VFloat n_0_0); (n_spinReserveRamp, VFloat n_0_0); (n_allocSpinResP, VFloat n_0_0); (n_minEconomicP, VFloat n_0_0); (n_longPF, VFloat n_0_0); (n_nominalP, VFloat n_0_0); (n_controlResponseRate, VFloat n_0_0); (n_ratedGrossMaxP, VFloat n_0_0); (n_penaltyFactor, VFloat n_0_0); (n_fastStartFlag, VBool false); (n_minimumOffTime, VFloat n_0_0); (n_shortPF, VFloat n_0_0); (n_governorMPL, VFloat n_0_0); (n_energyMinP, VFloat n_0_0); (n_fuelPriority, VInt 0); (n_maxEconomicP, VFloat n_0_0); (n_autoCntrlMarginP, VFloat n_0_0); (n_highControlLimit, VFloat n_0_0); (n_modelDetail, VStr n_); (n_controlPulseLow, VFloat n_0_0); (n_raiseRampRate, VFloat n_0_0); (n_controlDeadband, VFloat n_0_0); (n_baseP, VFloat n_0_0); (n_startupCost, VFloat n_0_0); (n_variableCost, VFloat n_0_0); (n_genOperatingMode, VStr n_MRN); (n_lowerRampRate, VFloat n_0_0); (n_minOperatingP, VFloat n_0_0); (n_lowControlLimit, VFloat n_0_0); (n_maximumAllowableSpinningReserve, VFloat n_0_0); (n_genControlMode, VStr n_setpoint); (n_governorSCD, VFloat n_0_0)]
    [(n_genControlSource, n_GeneratorControlSource); (n_genOperatingMode, n_GeneratorOperatingMode); (n_genControlMode, n_GeneratorControlMode)]
    [n_ControlAreaGeneratingUnit; n_SynchronousMachines; n_GenUnitOpSchedule; n_GrossToNetActivePowerCurves; n_GenUnitOpCostCurves]
    [n_ControlAreaGeneratingUnit; n_SynchronousMachines; n_GrossToNetActivePowerCurves; n_GenUnitOpCostCurves]
    [(n_ControlAreaGeneratingUnit, PManyOne n_GeneratingUnit); (n_SynchronousMachines, PManyOne n_GeneratingUnit); (n_GenUnitOpSchedule, POneOne n_GeneratingUnit); (n_GrossToNetActivePowerCurves, PManyOne n_GeneratingUnit); (n_GenUnitOpCostCurves, PManyOne n_GeneratingUnit)];
(* CIM15/IEC61970/Generation/Production/GrossToNetActivePowerCurve.py:23-59 *)
  Cls n_CIM15_IEC61970_Generation_Production_GrossToNetActivePowerCurve_GrossToNetActivePowerCurve n_GrossToNetActivePowerCurve (Some n_CIM15_IEC61970_Core_Curve_Curve)
    [(n_GeneratingUnit, VNone)]
    [SOne n_GeneratingUnit]
    true true
    []
    []
    []
    [n_GeneratingUnit]
    []
    [(n_GeneratingUnit, POneMany n_GrossToNetActivePowerCurves)];
(* CIM15/IEC61970/Generation/Production/HeatInputCurve.py:23-78 *)
  Cls n_CIM15_IEC61970_Generation_Production_HeatInputCurve_HeatInputCurve n_HeatInputCurve (Some n_CIM15_IEC61970_Core_Curve_Curve)
    [(n_isNetGrossP, VBool false); (n_heatInputEff, VFloat n_0_0); (n_heatInputOffset, VFloat n_0_0); (n_auxPowerOffset, VFloat n_0_0); (n_auxPowerMult, VFloat n_0_0); (n_ThermalGeneratingUnit, VNone)]
    [SAttr n_isNetGrossP; SAttr n_heatInputEff; SAttr n_heatInputOffset; SAttr n_auxPowerOffset; SAttr n_auxPowerMult; SOne n_ThermalGeneratingUnit]
    true true
    [n_isNetGrossP; n_heatInputEff; n_heatInputOffset; n_auxPowerOffset; n_auxPowerMult]
    [(n_isNetGrossP, VBool false); (n_heatInputEff, VFloat n_0_0); (n_heatInputOffset, VFloat n_0_0); (n_auxPowerOffset, VFloat n_0_0); (n_auxPowerMult, VFloat n_0_0)]
    []
    [n_ThermalGeneratingUnit]
    []
    [(n_ThermalGeneratingUnit, POneOne n_HeatInputCurve)];
(* CIM15/IEC61970/Generation/Production/HeatRateCurve.py:23-62 *)
  Cls n_CIM15_IEC61970_Generation_Production_HeatRateCurve_HeatRateCurve n_HeatRateCurve (Some n_CIM15_IEC61970_Core_Curve_Curve)
    [(n_isNetGrossP, VBool false); (n_ThermalGeneratingUnit, VNone)]
    [SAttr n_isNetGrossP; SOne n_ThermalGeneratingUnit]
    true true
    [n_isNetGrossP]
    [(n_isNetGrossP, VBool false)]
    []
    [n_ThermalGeneratingUnit]
    []
    [(n_ThermalGeneratingUnit, POneOne n_HeatRateCurve)];
(* CIM15/IEC61970/Generation/Production/HydroGeneratingEfficiencyCurve.py:23-59 *)
  Cls n_CIM15_IEC61970_Generation_Production_HydroGeneratingEfficiencyCurve_HydroGeneratingEfficiencyCurve n_HydroGeneratingEfficiencyCurve (Some n_CIM15_IEC61970_Core_Curve_Curve)
    [(n_HydroGeneratingUnit, VNone)]
    [SOne n_HydroGeneratingUnit]
    true true
    []
    []
    []
    [n_HydroGeneratingUnit]
    []
    [(n_HydroGeneratingUnit, POneMany n_HydroGeneratingEfficiencyCurves)];
(* CIM15/IEC61970/Generation/Production/HydroGeneratingUnit.py:23-139 *)
  Cls n_CIM15_IEC61970_Generation_Production_HydroGeneratingUnit_HydroGeneratingUnit n_HydroGeneratingUnit (Some n_CIM15_IEC61970_Generation_Production_GeneratingUnit_GeneratingUnit)
    [(n_energyConversionCapability, VStr n_generator); (n_hydroUnitWaterCost, VFloat n_0_0); (n_PenstockLossCurve, VNone); (n_HydroPowerPlant, VNone); (n_TailbayLossCurve, VNone); (n_HydroGeneratingEfficiencyCurves, VNone)]
    [SAttr n_energyConversionCapability; SAttr n_hydroUnitWaterCost; SOne n_PenstockLossCurve; SOne n_HydroPowerPlant; SMany n_TailbayLossCurve; SMany n_HydroGeneratingEfficiencyCurves]
    true true
    [n_energyConversionCapability; n_hydroUnitWaterCost]
    [(n_energyConversionCapability, VStr n_generator); (n_hydroUnitWaterCost, VFloat n_0_0)]
    [(n_energyConversionCapability, n_HydroEnergyConversionKind)]
    [n_PenstockLossCurve; n_HydroPowerPlant; n_TailbayLossCurve; n_HydroGeneratingEfficiencyCurves]
    [n_TailbayLossCurve; n_HydroGeneratingEfficiencyCurves]
    [(n_PenstockLossCurve, POneOne n_HydroGeneratingUnit); (n_HydroPowerPlant, POneMany n_HydroGeneratingUnits); (n_TailbayLossCurve, PManyOne n_HydroGeneratingUnit); (n_HydroGeneratingEfficiencyCurves, PManyOne n_HydroGeneratingUnit)];
(* CIM15/IEC61970/Generation/Production/HydroPowerPlant.py:23-168 *)
  Cls n_CIM15_IEC61970_Generation_Production_HydroPowerPlant_HydroPowerPlant n_HydroPowerPlant (Some n_CIM15_IEC61970_Core_PowerSystemResource_PowerSystemResource)
    [(n_penstockType, VStr n_); (n_pumpRatedP, VFloat n_0_0); (n_hydroPlantType, VStr n_pumpedStorage); (n_surgeTankCrestLevel, VFloat n_0_0); (n_dischargeTravelDelay, VFloat n_0_0); (n_plantDischargeCapacity, VFloat n_0_0); (n_plantRatedHead, VFloat n_0_0); (n_genRatedP, VFloat n_0_0); (n_surgeTankCode, VStr n_); (n_HydroGeneratingUnits, VNone); (n_GenSourcePumpDischargeReservoir, VNone); (n_Reservoir, VNone); (n_HydroPumps, VNone)]
    [SAttr n_penstockType; SAttr n_pumpRatedP; SAttr n_hydroPlantType; SAttr n_surgeTankCrestLevel; SAttr n_dischargeTravelDelay; SAttr n_plantDischargeCapacity; SAttr n_plantRatedHead; SAttr n_genRatedP; SAttr n_surgeTankCode; SMany n_HydroGeneratingUnits; SOne n_GenSourcePumpDischargeReservoir; SOne n_Reservoir; SMany n_HydroPumps]
    true true
    [n_penstockType; n_pumpRatedP; n_hydroPlantType; n_surgeTankCrestLevel; n_dischargeTravelDelay; n_plantDischargeCapacity; n_plantRatedHead; n_genRatedP; n_surgeTankCode]
    [(n_penstockType, VStr n_); (n_pumpRatedP, VFloat n_0_0); (n_hydroPlantType, VStr n_pumpedStorage); (n_surgeTankCrestLevel, VFloat n_0_0); (n_dischargeTravelDelay, VFloat n_0_0); (n_plantDischargeCapacity, VFloat n_0_0); (n_plantRatedHead, VFloat n_0_0); (n_genRatedP, VFloat n_0_0); (n_surgeTankCode, VStr n_)]
    [(n_penstockType, n_PenstockType); (n_hydroPlantType, n_HydroPlantType); (n_surgeTankCode, n_SurgeTankCode)]
    [n_HydroGeneratingUnits; n_GenSourcePumpDischargeReservoir; n_Reservoir; n_HydroPumps]
    [n_HydroGeneratingUnits; n_HydroPumps]
    [(n_HydroGeneratingUnits, PManyOne n_HydroPowerPlant); (n_GenSourcePumpDischargeReservoir, POneMany n_UpstreamFromHydroPowerPlants); (n_Reservoir, POneMany n_HydroPowerPlants); (n_HydroPumps, PManyOne n_HydroPowerPlant)];
(* CIM15/IEC61970/Generation/Production/HydroPump.py:23-115 *)
  Cls n_CIM15_IEC61970_Generation_Production_HydroPump_HydroPump n_HydroPump (Some n_CIM15_IEC61970_Core_PowerSystemResource_PowerSystemResource)
    [(n_pumpDischAtMaxHead, VFloat n_0_0); (n_pumpDischAtMinHead, VFloat n_0_0); (n_pumpPowerAtMinHead, VFloat n_0_0); (n_pumpPowerAtMaxHead, VFloat n_0_0); (n_HydroPowerPlant, VNone); (n_HydroPumpOpSchedule, VNone); (n_SynchronousMachine, VNone)]
    [SAttr n_pumpDischAtMaxHead; SAttr n_pumpDischAtMinHead; SAttr n_pumpPowerAtMinHead; SAttr n_pumpPowerAtMaxHead; SOne n_HydroPowerPlant; SOne n_HydroPumpOpSchedule; SOne n_SynchronousMachine]
    true true
    [n_pumpDischAtMaxHead; n_pumpDischAtMinHead; n_pumpPowerAtMinHead; n_pumpPowerAtMaxHead]
    [(n_pumpDischAtMaxHead, VFloat n_0_0); (n_pumpDischAtMinHead, VFloat n_0_0); (n_pumpPowerAtMinHead, VFloat n_0_0); (n_pumpPowerAtMaxHead, VFloat n_0_0)]
    []
    [n_HydroPowerPlant; n_HydroPumpOpSchedule; n_SynchronousMachine]
    []
    [(n_HydroPowerPlant, POneMany n_HydroPumps); (n_HydroPumpOpSchedule, POneOne n_HydroPump); (n_SynchronousMachine, POneOne n_HydroPump)];
(* CIM15/IEC61970/Generation/Production/HydroPumpOpSchedule.py:23-58 *)
  Cls n_CIM15_IEC61970_Generation_Production_HydroPumpOpSchedule_HydroPumpOpSchedule n_HydroPumpOpSchedule (Some n_CIM15_IEC61970_Core_RegularIntervalSchedule_RegularIntervalSchedule)
    [(n_HydroPump, VNone)]
    [SOne n_HydroPump]
    true true
    []
    []
    []
    [n_HydroPump]
    []
    [(n_HydroPump, POneOne n_HydroPumpOpSchedule)];
(* CIM15/IEC61970/Generation/Production/IncrementalHeatRateCurve.py:23-62 *)
  Cls n_CIM15_IEC61970_Generation_Production_IncrementalHeatRateCurve_IncrementalHeatRateCurve n_IncrementalHeatRateCurve (Some n_CIM15_IEC61970_Core_Curve_Curve)
    [(n_isNetGrossP, VBool false); (n_ThermalGeneratingUnit, VNone)]
    [SAttr n_isNetGrossP; SOne n_ThermalGeneratingUnit]
    true true
    [n_isNetGrossP]
    [(n_isNetGrossP, VBool false)]
    []
    [n_ThermalGeneratingUnit]
    []
    [(n_ThermalGeneratingUnit, POneOne n_IncrementalHeatRateCurve)];
(* CIM15/IEC61970/Generation/Production/InflowForecast.py:23-59 *)
  Cls n_CIM15_IEC61970_Generation_Production_InflowForecast_InflowForecast n_InflowForecast (Some n_CIM15_IEC61970_Core_RegularIntervalSchedule_RegularIntervalSchedule)
    [(n_Reservoir, VNone)]
    [SOne n_Reservoir]
    true true
    []
    []
    []
    [n_Reservoir]
    []
    [(n_Reservoir, POneMany n_InflowForecasts)];
(* CIM15/IEC61970/Generation/Production/LevelVsVolumeCurve.py:23-59 *)
  Cls n_CIM15_IEC61970_Generation_Production_LevelVsVolumeCurve_LevelVsVolumeCurve n_LevelVsVolumeCurve (Some n_CIM15_IEC61970_Core_Curve_Curve)
    [(n_Reservoir, VNone)]
    [SOne n_Reservoir]
    true true
    []
    []
    []
    [n_Reservoir]
    []
    [(n_Reservoir, POneMany n_LevelVsVolumeCurves)];
(* CIM15/IEC61970/Generation/Production/NuclearGeneratingUnit.py:23-38 *)
  Cls n_CIM15_IEC61970_Generation_Production_NuclearGeneratingUnit_NuclearGeneratingUnit n_NuclearGeneratingUnit (Some n_CIM15_IEC61970_Generation_Production_GeneratingUnit_GeneratingUnit)
    []
    []
    true true
    []
    []
    []
    []
    []
    [];
(* CIM15/IEC61970/Generation/Production/PenstockLossCurve.py:23-58 *)
  Cls n_CIM15_IEC61970_Generation_Production_PenstockLossCurve_PenstockLossCurve n_PenstockLossCurve (Some n_CIM15_IEC61970_Core_Curve_Curve)
    [(n_HydroGeneratingUnit, VNone)]
    [SOne n_HydroGeneratingUnit]
    true true
    []
    []
    []
    [n_HydroGeneratingUnit]
    []
    [(n_HydroGeneratingUnit, POneOne n_PenstockLossCurve)];
(* CIM15/IEC61970/Generation/Production/Reservoir.py:23-253 *)
  Cls n_CIM15_IEC61970_Generation_Production_Reservoir_Reservoir n_Reservoir (Some n_CIM15_IEC61970_Core_PowerSystemResource_PowerSystemResource)
    [(n_spillwayCapacity, VFloat n_0_0); (n_energyStorageRating, VFloat n_0_0); (n_grossCapacity, VFloat n_0_0); (n_riverOutletWorks, VStr n_); (n_spillwayCrestLevel, VFloat n_0_0); (n_normalMinOperateLevel, VFloat n_0_0); (n_spillwayCrestLength, VFloat n_0_0); (n_spillTravelDelay, VFloat n_0_0); (n_activeStorageCapacity, VFloat n_0_0); (n_spillWayGateType, VStr n_); (n_fullSupplyLevel, VFloat n_0_0); (n_LevelVsVolumeCurves, VNone); (n_TargetLevelSchedule, VNone); (n_HydroPowerPlants, VNone); (n_UpstreamFromHydroPowerPlants, VNone); (n_InflowForecasts, VNone); (n_SpillsFromReservoir, VNone); (n_SpillsIntoReservoirs, VNone)]
    [SAttr n_spillwayCapacity; SAttr n_energyStorageRating; SAttr n_grossCapacity; SAttr n_riverOutletWorks; SAttr n_spillwayCrestLevel; SAttr n_normalMinOperateLevel; SAttr n_spillwayCrestLength; SAttr n_spillTravelDelay; SAttr n_activeStorageCapacity; SAttr n_spillWayGateType; SAttr n_fullSupplyLevel; SMany n_LevelVsVolumeCurves; SOne n_TargetLevelSchedule; SMany n_HydroPowerPlants; SMany n_UpstreamFromHydroPowerPlants; SMany n_InflowForecasts; SOne n_SpillsFromReservoir; SMany n_SpillsIntoReservoirs]
    true true
    [n_spillwayCapacity; n_energyStorageRating; n_grossCapacity; n_riverOutletWorks; n_spillwayCrestLevel; n_normalMinOperateLevel; n_spillwayCrestLength; n_spillTravelDelay; n_activeStorageCapacity; n_spillWayGateType; n_fullSupplyLevel]
    [(n_spillwayCapacity, VFloat n_0_0); (n_energyStorageRating, VFloat n_0_0); (n_grossCapacity, VFloat n_0_0); (n_riverOutletWorks, VStr n_); (n_spillwayCrestLevel, VFloat n_0_0); (n_normalMinOperateLevel, VFloat n_0_0); (n_spillwayCrestLength, VFloat n_0_0); (n_spillTravelDelay, VFloat n_0_0); (n_activeStorageCapacity, VFloat n_0_0); (n_spillWayGateType, VStr n_); (n_fullSupplyLevel, VFloat n_0_0)]
    [(n_spillWayGateType, n_SpillwayGateType)]
    [n_LevelVsVolumeCurves; n_TargetLevelSchedule; n_HydroPowerPlants; n_UpstreamFromHydroPowerPlants; n_InflowForecasts; n_SpillsFromReservoir; n_SpillsIntoReservoirs]
    [n_LevelVsVolumeCurves; n_HydroPowerPlants; n_UpstreamFromHydroPowerPlants; n_InflowForecasts; n_SpillsIntoReservoirs]
    [(n_LevelVsVolumeCurves, PManyOne n_Reservoir); (n_TargetLevelSchedule, POneOne n_Reservoir); (n_HydroPowerPlants, PManyOne n_Reservoir); (n_UpstreamFromHydroPowerPlants, PManyOne n_GenSourcePumpDischargeReservoir); (n_InflowForecasts, PManyOne n_Reservoir); (n_SpillsFromReservoir, POneMany n_SpillsIntoReservoirs); (n_SpillsIntoReservoirs, PManyOne n_SpillsFromReservoir)];
(* CIM15/IEC61970/Generation/Production/ShutdownCurve.py:23-66 *)
  Cls n_CIM15_IEC61970_Generation_Production_ShutdownCurve_ShutdownCurve n_ShutdownCurve (Some n_CIM15_IEC61970_Core_Curve_Curve)
    [(n_shutdownDate, VStr n_); (n_shutdownCost, VFloat n_0_0); (n_ThermalGeneratingUnit, VNone)]
    [SAttr n_shutdownDate; SAttr n_shutdownCost; SOne n_ThermalGeneratingUnit]
    true true
    [n_shutdownDate; n_shutdownCost]
    [(n_shutdownDate, VStr n_); (n_shutdownCost, VFloat n_0_0)]
    []
    [n_ThermalGeneratingUnit]
    []
    [(n_ThermalGeneratingUnit, POneOne n_ShutdownCurve)];
(* CIM15/IEC61970/Generation/Production/StartIgnFuelCurve.py:23-62 *)
  Cls n_CIM15_IEC61970_Generation_Production_StartIgnFuelCurve_StartIgnFuelCurve n_StartIgnFuelCurve (Some n_CIM15_IEC61970_Core_Curve_Curve)
    [(n_ignitionFuelType, VStr n_oil); (n_StartupModel, VNone)]
    [SAttr n_ignitionFuelType; SOne n_StartupModel]
    true true
    [n_ignitionFuelType]
    [(n_ignitionFuelType, VStr n_oil)]
    [(n_ignitionFuelType, n_FuelType)]
    [n_StartupModel]
    []
    [(n_StartupModel, POneOne n_StartIgnFuelCurve)];
(* CIM15/IEC61970/Generation/Production/StartMainFuelCurve.py:23-62 *)
  Cls n_CIM15_IEC61970_Generation_Production_StartMainFuelCurve_StartMainFuelCurve n_StartMainFuelCurve (Some n_CIM15_IEC61970_Core_Curve_Curve)
    [(n_mainFuelType, VStr n_oil); (n_StartupModel, VNone)]
    [SAttr n_mainFuelType; SOne n_StartupModel]
    true true
    [n_mainFuelType]
    [(n_mainFuelType, VStr n_oil)]
    [(n_mainFuelType, n_FuelType)]
    [n_StartupModel]
    []
    [(n_StartupModel, POneOne n_StartMainFuelCurve)];
(* CIM15/IEC61970/Generation/Production/StartRampCurve.py:23-62 *)
  Cls n_CIM15_IEC61970_Generation_Production_StartRampCurve_StartRampCurve n_StartRampCurve (Some n_CIM15_IEC61970_Core_Curve_Curve)
    [(n_hotStandbyRamp, VFloat n_0_0); (n_StartupModel, VNone)]
    [SAttr n_hotStandbyRamp; SOne n_StartupModel]
    true true
    [n_hotStandbyRamp]
    [(n_hotStandbyRamp, VFloat n_0_0)]
    []
    [n_StartupModel]
    []
    [(n_StartupModel, POneOne n_StartRampCurve)];
(* CIM15/IEC61970/Generation/Production/StartupModel.py:23-158 *)
  Cls n_CIM15_IEC61970_Generation_Production_StartupModel_StartupModel n_StartupModel (Some n_CIM15_IEC61970_Core_IdentifiedObject_IdentifiedObject)
    [(n_startupCost, VFloat n_0_0); (n_stbyAuxP, VFloat n_0_0); (n_minimumRunTime, VFloat n_0_0); (n_riskFactorCost, VFloat n_0_0); (n_minimumDownTime, VFloat n_0_0); (n_fixedMaintCost, VFloat n_0_0); (n_startupDate, VStr n_); (n_hotStandbyHeat, VFloat n_0_0); (n_startupPriority, VInt 0); (n_incrementalMaintCost, VFloat n_0_0); (n_StartRampCurve, VNone); (n_StartMainFuelCurve, VNone); (n_StartIgnFuelCurve, VNone); (n_ThermalGeneratingUnit, VNone)]
    [SAttr n_startupCost; SAttr n_stbyAuxP; SAttr n_minimumRunTime; SAttr n_riskFactorCost; SAttr n_minimumDownTime; SAttr n_fixedMaintCost; SAttr n_startupDate; SAttr n_hotStandbyHeat; SAttr n_startupPriority; SAttr n_incrementalMaintCost; SOne n_StartRampCurve; SOne n_StartMainFuelCurve; SOne n_StartIgnFuelCurve; SOne n_ThermalGeneratingUnit]
    true true
    [n_startupCost; n_stbyAuxP; n_minimumRunTime; n_riskFactorCost; n_minimumDownTime; n_fixedMaintCost; n_startupDate; n_hotStandbyHeat; n_startupPriority; n_incrementalMaintCost]
    [(n_startupCost, VFloat n_0_0); (n_stbyAuxP, VFloat n_0_0); (n_minimumRunTime, VFloat n_0_0); (n_riskFactorCost, VFloat n_0_0); (n_minimumDownTime, VFloat n_0_0); (n_fixedMaintCost, VFloat n_0_0); (n_startupDate, VStr n_); (n_hotStandbyHeat, VFloat n_0_0); (n_startupPriority, VInt 0); (n_incrementalMaintCost, VFloat n_0_0)]
    []
    [n_StartRampCurve; n_StartMainFuelCurve; n_StartIgnFuelCurve; n_ThermalGeneratingUnit]
    []
    [(n_StartRampCurve, POneOne n_StartupModel); (n_StartMainFuelCurve, POneOne n_StartupModel); (n_StartIgnFuelCurve, POneOne n_StartupModel); (n_ThermalGeneratingUnit, POneOne n_StartupModel)];
(* CIM15/IEC61970/Generation/Production/SteamSendoutSchedule.py:23-58 *)
  Cls n_CIM15_IEC61970_Generation_Production_SteamSendoutSchedule_SteamSendoutSchedule n_SteamSendoutSchedule (Some n_CIM15_IEC61970_Core_RegularIntervalSchedule_RegularIntervalSchedule)
    [(n_CogenerationPlant, VNone)]
    [SOne n_CogenerationPlant]
    true true
    []
    []
    []
    [n_CogenerationPlant]
    []
    [(n_CogenerationPlant, POneOne n_SteamSendoutSchedule)];
(* CIM15/IEC61970/Generation/Production/TailbayLossCurve.py:23-59 *)
  Cls n_CIM15_IEC61970_Generation_Production_TailbayLossCurve_TailbayLossCurve n_TailbayLossCurve (Some n_CIM15_IEC61970_Core_Curve_Curve)
    [(n_HydroGeneratingUnit, VNone)]
    [SOne n_HydroGeneratingUnit]
    true true
    []
    []
    []
    [n_HydroGeneratingUnit]
    []
    [(n_HydroGeneratingUnit, POneMany n_TailbayLossCurve)];
(* CIM15/IEC61970/Generation/Production/TargetLevelSchedule.py:23-66 *)
  Cls n_CIM15_IEC61970_Generation_Production_TargetLevelSchedule_TargetLevelSchedule n_TargetLevelSchedule (Some n_CIM15_IEC61970_Core_Curve_Curve)
    [(n_lowLevelLimit, VFloat n_0_0); (n_highLevelLimit, VFloat n_0_0); (n_Reservoir, VNone)]
    [SAttr n_lowLevelLimit; SAttr n_highLevelLimit; SOne n_Reservoir]
    true true
    [n_lowLevelLimit; n_highLevelLimit]
    [(n_lowLevelLimit, VFloat n_0_0); (n_highLevelLimit, VFloat n_0_0)]
    []
    [n_Reservoir]
    []
    [(n_Reservoir, POneOne n_TargetLevelSchedule)];
(* CIM15/IEC61970/Generation/Production/ThermalGeneratingUnit.py:23-308 *)
  Cls n_CIM15_IEC61970_Generation_Production_ThermalGeneratingUnit_ThermalGeneratingUnit n_ThermalGeneratingUnit (Some n_CIM15_IEC61970_Generation_Production_GeneratingUnit_GeneratingUnit)
    [(n_oMCost, VFloat n_0_0); (n_CAESPlant, VNone); (n_CogenerationPlant, VNone); (n_ShutdownCurve, VNone); (n_FossilFuels, VNone); (n_HeatRateCurve, VNone); (n_FuelAllocationSchedules, VNone); (n_EmissionCurves, VNone); (n_HeatInputCurve, VNone); (n_CombinedCyclePlant, VNone); (n_IncrementalHeatRateCurve, VNone); (n_StartupModel, VNone); (n_EmmissionAccounts, VNone)]
    [SAttr n_oMCost; SOne n_CAESPlant; SOne n_CogenerationPlant; SOne n_ShutdownCurve; SMany n_FossilFuels; SOne n_HeatRateCurve; SMany n_FuelAllocationSchedules; SMany n_EmissionCurves; SOne n_HeatInputCurve; SOne n_CombinedCyclePlant; SOne n_IncrementalHeatRateCurve; SOne n_StartupModel; SMany n_EmmissionAccounts]
    true true
    [n_oMCost]
    [(n_oMCost, VFloat n_0_0)]
    []
    [n_CAESPlant; n_CogenerationPlant; n_ShutdownCurve; n_FossilFuels; n_HeatRateCurve; n_FuelAllocationSchedules; n_EmissionCurves; n_HeatInputCurve; n_CombinedCyclePlant; n_IncrementalHeatRateCurve; n_StartupModel; n_EmmissionAccounts]
    [n_FossilFuels; n_FuelAllocationSchedules; n_EmissionCurves; n_EmmissionAccounts]
    [(n_CAESPlant, POneOne n_ThermalGeneratingUnit); (n_CogenerationPlant, POneMany n_ThermalGeneratingUnits); (n_ShutdownCurve, POneOne n_ThermalGeneratingUnit); (n_FossilFuels, PManyOne n_ThermalGeneratingUnit); (n_HeatRateCurve, POneOne n_ThermalGeneratingUnit); (n_FuelAllocationSchedules, PManyOne n_ThermalGeneratingUnit); (n_EmissionCurves, PManyOne n_ThermalGeneratingUnit); (n_HeatInputCurve, POneOne n_ThermalGeneratingUnit); (n_CombinedCyclePlant, POneMany n_ThermalGeneratingUnits); (n_IncrementalHeatRateCurve, POneOne n_ThermalGeneratingUnit); (n_StartupModel, POneOne n_ThermalGeneratingUnit); (n_EmmissionAccounts, PManyOne n_ThermalGeneratingUnit)];
(* CIM15/IEC61970/Generation/Production/WindGeneratingUnit.py:23-38 *)
  Cls n_CIM15_IEC61970_Generation_Production_WindGeneratingUnit_WindGeneratingUnit n_WindGeneratingUnit (Some n_CIM15_IEC61970_Generation_Production_GeneratingUnit_GeneratingUnit)
    []
    []
    true true
    []
    []
    []
    []
    []
    [];
(* CIM15/IEC61970/Graphics/DiagramObject.py:23-179 *)
  Cls n_CIM15_IEC61970_Graphics_DiagramObject_DiagramObject n_DiagramObject (Some n_CIM15_IEC61970_Core_IdentifiedObject_IdentifiedObject)
    [(n_offsetY, VFloat n_0_0); (n_offsetX, VFloat n_0_0); (n_isPolygon, VBool false); (n_rotation, VFloat n_0_0); (n_drawingOrder, VInt 0); (n_VisibilityLayers, VNone); (n_IdentifiedObject, VNone); (n_DiagramObjectStyle, VNone); (n_DiagramObjectPoints, VNone); (n_Diagram, VNone)]
    [SAttr n_offsetY; SAttr n_offsetX; SAttr n_isPolygon; SAttr n_rotation; SAttr n_drawingOrder; SMany n_VisibilityLayers; SOne n_IdentifiedObject; SOne n_DiagramObjectStyle; SMany n_DiagramObjectPoints; SOne n_Diagram]
    true true
    [n_offsetY; n_offsetX; n_isPolygon; n_rotation; n_drawingOrder]
    [(n_offsetY, VFloat n_0_0); (n_offsetX, VFloat n_0_0); (n_isPolygon, VBool false); (n_rotation, VFloat n_0_0); (n_drawingOrder, VInt 0)]
    []
    [n_VisibilityLayers; n_IdentifiedObject; n_DiagramObjectStyle; n_DiagramObjectPoints; n_Diagram]
    [n_VisibilityLayers; n_DiagramObjectPoints]
    [(n_VisibilityLayers, PManyMany n_DiagramObjects); (n_IdentifiedObject, POneMany n_DiagramObjects); (n_DiagramObjectStyle, POneMany n_DiagramObjects); (n_DiagramObjectPoints, PManyOne n_DiagramObject); (n_Diagram, POneMany n_DiagramObjects)];
(* CIM15/IEC61970/Graphics/DiagramObjectGluePoint.py:23-64 *)
  Cls n_CIM15_IEC61970_Graphics_DiagramObjectGluePoint_DiagramObjectGluePoint n_DiagramObjectGluePoint (Some n_CIM15_Element_Element)
    [(n_DiagramObjectPoints, VNone)]
    [SMany n_DiagramObjectPoints]
    true true
    []
    []
    []
    [n_DiagramObjectPoints]
    [n_DiagramObjectPoints]
    [(n_DiagramObjectPoints, PManyOne n_DiagramObjectGluePoint)];
(* CIM15/IEC61970/Graphics/DiagramObjectPoint.py:23-96 *)
  Cls n_CIM15_IEC61970_Graphics_DiagramObjectPoint_DiagramObjectPoint n_DiagramObjectPoint (Some n_CIM15_Element_Element)
    [(n_sequenceNumber, VInt 0); (n_xPosition, VFloat n_0_0); (n_yPosition, VFloat n_0_0); (n_zPosition, VFloat n_0_0); (n_DiagramObjectGluePoint, VNone); (n_DiagramObject, VNone)]
    [SAttr n_sequenceNumber; SAttr n_xPosition; SAttr n_yPosition; SAttr n_zPosition; SOne n_DiagramObjectGluePoint; SOne n_DiagramObject]
    true true
    [n_sequenceNumber; n_xPosition; n_yPosition; n_zPosition]
    [(n_sequenceNumber, VInt 0); (n_xPosition, VFloat n_0_0); (n_yPosition, VFloat n_0_0); (n_zPosition, VFloat n_0_0)]
    []
    [n_DiagramObjectGluePoint; n_DiagramObject]
    []
    [(n_DiagramObjectGluePoint, POneMany n_DiagramObjectPoints); (n_DiagramObject, POneMany n_DiagramObjectPoints)];
(* CIM15/IEC61970/Graphics/DiagramObjectStyle.py:23-64 *)
  Cls n_CIM15_IEC61970_Graphics_DiagramObjectStyle_DiagramObjectStyle n_DiagramObjectStyle (Some n_CIM15_IEC61970_Core_IdentifiedObject_IdentifiedObject)
    [(n_DiagramObjects, VNone)]
    [SMany n_DiagramObjects]
    true true
    []
    []
    []
    [n_DiagramObjects]
    [n_DiagramObjects]
    [(n_DiagramObjects, PManyOne n_DiagramObjectStyle)];
(* CIM15/IEC61970/Graphics/TextDiagramObject.py:23-42 *)
  Cls n_CIM15_IEC61970_Graphics_TextDiagramObject_TextDiagramObject n_TextDiagramObject (Some n_CIM15_IEC61970_Graphics_DiagramObject_DiagramObject)
    [(n_text, VStr n_)]
    [SAttr n_text]
    true true
    [n_text]
    [(n_text, VStr n_)]
    []
    []
    []
    [];
(* CIM15/IEC61970/Graphics/VisibilityLayer.py:23-74 *)
  Cls n_CIM15_IEC61970_Graphics_VisibilityLayer_VisibilityLayer n_VisibilityLayer (Some n_CIM15_IEC61970_Core_IdentifiedObject_IdentifiedObject)
    [(n_drawingOrder, VInt 0); (n_DiagramObjects, VNone)]
    [SAttr n_drawingOrder; SMany n_DiagramObjects]
    true true
    [n_drawingOrder]
    [(n_drawingOrder, VInt 0)]
    []
    [n_DiagramObjects]
    [n_DiagramObjects]
    [(n_DiagramObjects, PManyMany n_VisibilityLayers)];
(* CIM15/IEC61970/IEC61970CIMVersion.py:23-46 *)
  Cls n_CIM15_IEC61970_IEC61970CIMVersion_IEC61970CIMVersion n_IEC61970CIMVersion (Some n_CIM15_Element_Element)
    [(n_date, VStr n_); (n_version, VStr n_)]
    [SAttr n_date; SAttr n_version]
    true true
    [n_date; n_version]
    [(n_date, VStr n_); (n_version, VStr n_)]
    []
    []
    []
    [];
(* CIM15/IEC61970/Informative/InfAssetModels/AssetModelCatalogue.py:23-68 *)
  Cls n_CIM15_IEC61970_Informative_InfAssetModels_AssetModelCatalogue_AssetModelCatalogue n_AssetModelCatalogue (Some n_CIM15_IEC61970_Core_IdentifiedObject_IdentifiedObject)
    [(n_AssetModelCatalogueItems, VNone); (n_status, VNone)]
    [SMany n_AssetModelCatalogueItems; SAttr n_status]
    true true
    []
    []
    []
    [n_AssetModelCatalogueItems; n_status]
    [n_AssetModelCatalogueItems]
    [(n_AssetModelCatalogueItems, PManyOne n_AssetModelCatalogue)];
(* CIM15/IEC61970/Informative/InfAssetModels/AssetModelCatalogueItem.py:23-132 *)
  Cls n_CIM15_IEC61970_Informative_InfAssetModels_AssetModelCatalogueItem_AssetModelCatalogueItem n_AssetModelCatalogueItem (Some n_CIM15_IEC61968_Common_Document_Document)
    [(n_unitCost, VFloat n_0_0); (n_ErpPOLineItems, VNone); (n_AssetModelCatalogue, VNone); (n_AssetModel, VNone); (n_ErpQuoteLineItems, VNone)]
    [SAttr n_unitCost; SMany n_ErpPOLineItems; SOne n_AssetModelCatalogue; SOne n_AssetModel; SMany n_ErpQuoteLineItems]
    true true
    [n_unitCost]
    [(n_unitCost, VFloat n_0_0)]
    []
    [n_ErpPOLineItems; n_AssetModelCatalogue; n_AssetModel; n_ErpQuoteLineItems]
    [n_ErpPOLineItems; n_ErpQuoteLineItems]
    [(n_ErpPOLineItems, PManyOne n_AssetModelCatalogueItem); (n_AssetModelCatalogue, POneMany n_AssetModelCatalogueItems); (n_AssetModel, POneMany n_AssetModelCatalogueItems); (n_ErpQuoteLineItems, PManyOne n_AssetModelCatalogueItem)];
(* CIM15/IEC61970/Informative/InfAssetModels/TransformerAssetModel.py:23-139 *)
  Cls n_CIM15_IEC61970_Informative_InfAssetModels_TransformerAssetModel_TransformerAssetModel n_TransformerAssetModel (Some n_CIM15_IEC61968_Assets_ProductAssetModel_ProductAssetModel)
    [(n_neutralBIL, VFloat n_0_0); (n_constructionKind, VStr n_dryType); (n_coreCoilsWeight, VFloat n_0_0); (n_windingInsulationKind, VStr n_thermallyUpgradedPaper); (n_hourOverLoadRating, VFloat n_0_0); (n_altPrimaryNomVoltage, VFloat n_0_0); (n_altSecondaryNomVoltage, VFloat n_0_0); (n_reconfigWinding, VBool false); (n_function, VStr n_autotransformer); (n_oilPreservationKind, VStr n_other); (n_dayOverLoadRating, VFloat n_0_0); (n_coreKind, VStr n_shell); (n_autoTransformer, VBool false); (n_solidInsulationWeight, VFloat n_0_0); (n_TransformerAssets, VNone); (n_TransformerInfo, VNone)]
    [SAttr n_neutralBIL; SAttr n_constructionKind; SAttr n_coreCoilsWeight; SAttr n_windingInsulationKind; SAttr n_hourOverLoadRating; SAttr n_altPrimaryNomVoltage; SAttr n_altSecondaryNomVoltage; SAttr n_reconfigWinding; SAttr n_function; SAttr n_oilPreservationKind; SAttr n_dayOverLoadRating; SAttr n_coreKind; SAttr n_autoTransformer; SAttr n_solidInsulationWeight; SMany n_TransformerAssets; SOne n_TransformerInfo]
    true true
    [n_neutralBIL; n_constructionKind; n_coreCoilsWeight; n_windingInsulationKind; n_hourOverLoadRating; n_altPrimaryNomVoltage; n_altSecondaryNomVoltage; n_reconfigWinding; n_function; n_oilPreservationKind; n_dayOverLoadRating; n_coreKind; n_autoTransformer; n_solidInsulationWeight]
    [(n_neutralBIL, VFloat n_0_0); (n_constructionKind, VStr n_dryType); (n_coreCoilsWeight, VFloat n_0_0); (n_windingInsulationKind, VStr n_thermallyUpgradedPaper); (n_hourOverLoadRating, VFloat n_0_0); (n_altPrimaryNomVoltage, VFloat n_0_0); (n_altSecondaryNomVoltage, VFloat n_0_0); (n_reconfigWinding, VBool false); (n_function, VStr n_autotransformer); (n_oilPreservationKind, VStr n_other); (n_dayOverLoadRating, VFloat n_0_0); (n_coreKind, VStr n_shell); (n_autoTransformer, VBool false); (n_solidInsulationWeight, VFloat n_0_0)]
    [(n_constructionKind, n_TransformerConstructionKind); (n_windingInsulationKind, n_WindingInsulationKind); (n_function, n_TransformerFunctionKind); (n_oilPreservationKind, n_OilPreservationKind); (n_coreKind, n_TransformerCoreKind)]
    [n_TransformerAssets; n_TransformerInfo]
    [n_TransformerAssets]
    [(n_TransformerAssets, PManyOne n_TransformerAssetModel); (n_TransformerInfo, POneMany n_TransformerAssetModels)];
(* CIM15/IEC61970/Informative/InfAssets/AssetAssetRole.py:23-78 *)
  Cls n_CIM15_IEC61970_Informative_InfAssets_AssetAssetRole_AssetAssetRole n_AssetAssetRole (Some n_CIM15_IEC61970_Informative_InfCommon_Role_Role)
    [(n_ToAsset, VNone); (n_FromAsset, VNone)]
    [SOne n_ToAsset; SOne n_FromAsset]
    true true
    []
    []
    []
    [n_ToAsset; n_FromAsset]
    []
    [(n_ToAsset, POneMany n_FromAssetRoles); (n_FromAsset, POneMany n_ToAssetRoles)];
(* CIM15/IEC61970/Informative/InfAssets/AssetPropertyCurve.py:23-89 *)
  Cls n_CIM15_IEC61970_Informative_InfAssets_AssetPropertyCurve_AssetPropertyCurve n_AssetPropertyCurve (Some n_CIM15_IEC61970_Core_Curve_Curve)
    [(n_Specification, VNone); (n_Assets, VNone)]
    [SOne n_Specification; SMany n_Assets]
    true true
    []
    []
    []
    [n_Specification; n_Assets]
    [n_Assets]
    [(n_Specification, POneMany n_AssetPropertyCurves); (n_Assets, PManyMany n_AssetPropertyCurves)];
(* CIM15/IEC61970/Informative/InfAssets/BreakerInfo.py:23-42 *)
  Cls n_CIM15_IEC61970_Informative_InfAssets_BreakerInfo_BreakerInfo n_BreakerInfo (Some n_CIM15_IEC61970_Informative_InfAssets_SwitchInfo_SwitchInfo)
    [(n_phaseTrip, VFloat n_0_0)]
    [SAttr n_phaseTrip]
    true true
    [n_phaseTrip]
    [(n_phaseTrip, VFloat n_0_0)]
    []
    []
    []
    [];
(* CIM15/IEC61970/Informative/InfAssets/Bushing.py:23-102 *)
  Cls n_CIM15_IEC61970_Informative_InfAssets_Bushing_Bushing n_Bushing (Some n_CIM15_IEC61968_Assets_Asset_Asset)
    [(n_c2PowerFactor, VFloat n_0_0); (n_c2Capacitance, VFloat n_0_0); (n_c1PowerFactor, VFloat n_0_0); (n_insulationKind, VStr n_solidPorcelain); (n_c1Capacitance, VFloat n_0_0); (n_Terminal, VNone); (n_BushingInsulationPFs, VNone)]
    [SAttr n_c2PowerFactor; SAttr n_c2Capacitance; SAttr n_c1PowerFactor; SAttr n_insulationKind; SAttr n_c1Capacitance; SOne n_Terminal; SMany n_BushingInsulationPFs]
    true true
    [n_c2PowerFactor; n_c2Capacitance; n_c1PowerFactor; n_insulationKind; n_c1Capacitance]
    [(n_c2PowerFactor, VFloat n_0_0); (n_c2Capacitance, VFloat n_0_0); (n_c1PowerFactor, VFloat n_0_0); (n_insulationKind, VStr n_solidPorcelain); (n_c1Capacitance, VFloat n_0_0)]
    [(n_insulationKind, n_BushingInsulationKind)]
    [n_Terminal; n_BushingInsulationPFs]
    [n_BushingInsulationPFs]
    [(n_Terminal, POneOne n_BushingInfo); (n_BushingInsulationPFs, PManyOne n_BushingInfo)];
(* CIM15/IEC61970/Informative/InfAssets/BushingInsulationPF.py:23-87 *)
  Cls n_CIM15_IEC61970_Informative_InfAssets_BushingInsulationPF_BushingInsulationPF n_BushingInsulationPF (Some n_CIM15_IEC61970_Core_IdentifiedObject_IdentifiedObject)
    [(n_testKind, VStr n_c2); (n_status, VNone); (n_TransformerObservation, VNone); (n_BushingInfo, VNone)]
    [SAttr n_testKind; SAttr n_status; SOne n_TransformerObservation; SOne n_BushingInfo]
    true true
    [n_testKind]
    [(n_testKind, VStr n_c2)]
    [(n_testKind, n_BushingInsulationPfTestKind)]
    [n_status; n_TransformerObservation; n_BushingInfo]
    []
    [(n_TransformerObservation, POneMany n_BushingInsultationPFs); (n_BushingInfo, POneMany n_BushingInsulationPFs)];
(* CIM15/IEC61970/Informative/InfAssets/Cabinet.py:23-38 *)
  Cls n_CIM15_IEC61970_Informative_InfAssets_Cabinet_Cabinet n_Cabinet (Some n_CIM15_IEC61968_Assets_AssetContainer_AssetContainer)
    []
    []
    true true
    []
    []
    []
    []
    []
    [];
(* CIM15/IEC61970/Informative/InfAssets/ComEquipment.py:23-64 *)
  Cls n_CIM15_IEC61970_Informative_InfAssets_ComEquipment_ComEquipment n_ComEquipment (Some n_CIM15_IEC61968_Assets_Asset_Asset)
    [(n_EndDeviceFunctions, VNone)]
    [SMany n_EndDeviceFunctions]
    true true
    []
    []
    []
    [n_EndDeviceFunctions]
    [n_EndDeviceFunctions]
    [(n_EndDeviceFunctions, PManyOne n_ComEquipment)];
(* CIM15/IEC61970/Informative/InfAssets/CompositeSwitchInfo.py:23-74 *)
  Cls n_CIM15_IEC61970_Informative_InfAssets_CompositeSwitchInfo_CompositeSwitchInfo n_CompositeSwitchInfo (Some n_CIM15_IEC61968_Assets_AssetInfo_AssetInfo)
    [(n_kind, VStr n_throwOver); (n_phaseCode, VStr n_s12N); (n_remote, VBool false); (n_switchStateCount, VInt 0); (n_ratedVoltage, VFloat n_0_0); (n_ganged, VBool false); (n_phaseCount, VInt 0); (n_initOpMode, VStr n_); (n_interruptingRating, VFloat n_0_0)]
    [SAttr n_kind; SAttr n_phaseCode; SAttr n_remote; SAttr n_switchStateCount; SAttr n_ratedVoltage; SAttr n_ganged; SAttr n_phaseCount; SAttr n_initOpMode; SAttr n_interruptingRating]
    true true
    [n_kind; n_phaseCode; n_remote; n_switchStateCount; n_ratedVoltage; n_ganged; n_phaseCount; n_initOpMode; n_interruptingRating]
    [(n_kind, VStr n_throwOver); (n_phaseCode, VStr n_s12N); (n_remote, VBool false); (n_switchStateCount, VInt 0); (n_ratedVoltage, VFloat n_0_0); (n_ganged, VBool false); (n_phaseCount, VInt 0); (n_initOpMode, VStr n_); (n_interruptingRating, VFloat n_0_0)]
    [(n_kind, n_CompositeSwitchKind); (n_phaseCode, n_PhaseCode)]
    []
    []
    [];
(* CIM15/IEC61970/Informative/InfAssets/ConductorAsset.py:23-90 *)
  Cls n_CIM15_IEC61970_Informative_InfAssets_ConductorAsset_ConductorAsset n_ConductorAsset (Some n_CIM15_IEC61968_Assets_Asset_Asset)
    [(n_isHorizontal, VBool false); (n_groundingMethod, VStr n_); (n_insulated, VBool false); (n_CircuitSection, VNone); (n_ConductorSegment, VNone)]
    [SAttr n_isHorizontal; SAttr n_groundingMethod; SAttr n_insulated; SOne n_CircuitSection; SOne n_ConductorSegment]
    true true
    [n_isHorizontal; n_groundingMethod; n_insulated]
    [(n_isHorizontal, VBool false); (n_groundingMethod, VStr n_); (n_insulated, VBool false)]
    []
    [n_CircuitSection; n_ConductorSegment]
    []
    [(n_CircuitSection, POneMany n_ConductorAssets); (n_ConductorSegment, POneMany n_ConductorAssets)];
(* CIM15/IEC61970/Informative/InfAssets/CurrentTransformerInfo.py:23-138 *)
  Cls n_CIM15_IEC61970_Informative_InfAssets_CurrentTransformerInfo_CurrentTransformerInfo n_CurrentTransformerInfo (Some n_CIM15_IEC61968_Assets_AssetInfo_AssetInfo)
    [(n_tertiaryFlsRating, VFloat n_0_0); (n_coreCount, VInt 0); (n_secondaryFlsRating, VFloat n_0_0); (n_usage, VStr n_); (n_accuracyClass, VStr n_); (n_ctClass, VStr n_); (n_kneePointVoltage, VFloat n_0_0); (n_coreBurden, VFloat n_0_0); (n_accuracyLimit, VFloat n_0_0); (n_kneePointCurrent, VFloat n_0_0); (n_primaryFlsRating, VFloat n_0_0); (n_nominalRatio, VNone); (n_secondaryRatio, VNone); (n_CTs, VNone); (n_tertiaryRatio, VNone); (n_maxRatio, VNone); (n_primaryRatio, VNone)]
    [SAttr n_tertiaryFlsRating; SAttr n_coreCount; SAttr n_secondaryFlsRating; SAttr n_usage; SAttr n_accuracyClass; SAttr n_ctClass; SAttr n_kneePointVoltage; SAttr n_coreBurden; SAttr n_accuracyLimit; SAttr n_kneePointCurrent; SAttr n_primaryFlsRating; SAttr n_nominalRatio; SAttr n_secondaryRatio; SMany n_CTs; SAttr n_tertiaryRatio; SAttr n_maxRatio; SAttr n_primaryRatio]
    true true
    [n_tertiaryFlsRating; n_coreCount; n_secondaryFlsRating; n_usage; n_accuracyClass; n_ctClass; n_kneePointVoltage; n_coreBurden; n_accuracyLimit; n_kneePointCurrent; n_primaryFlsRating]
    [(n_tertiaryFlsRating, VFloat n_0_0); (n_coreCount, VInt 0); (n_secondaryFlsRating, VFloat n_0_0); (n_usage, VStr n_); (n_accuracyClass, VStr n_); (n_ctClass, VStr n_); (n_kneePointVoltage, VFloat n_0_0); (n_coreBurden, VFloat n_0_0); (n_accuracyLimit, VFloat n_0_0); (n_kneePointCurrent, VFloat n_0_0); (n_primaryFlsRating, VFloat n_0_0)]
    []
    [n_nominalRatio; n_secondaryRatio; n_CTs; n_tertiaryRatio; n_maxRatio; n_primaryRatio]
    [n_CTs]
    [(n_CTs, PManyOne n_CTInfo)];
(* CIM15/IEC61970/Informative/InfAssets/DimensionsInfo.py:23-139 *)
  Cls n_CIM15_IEC61970_Informative_InfAssets_DimensionsInfo_DimensionsInfo n_DimensionsInfo (Some n_CIM15_IEC61970_Core_IdentifiedObject_IdentifiedObject)
    [(n_sizeWidth, VFloat n_0_0); (n_sizeDiameter, VFloat n_0_0); (n_sizeLength, VFloat n_0_0); (n_orientation, VStr n_); (n_sizeDepth, VFloat n_0_0); (n_Locations, VNone); (n_AssetInfos, VNone); (n_Specifications, VNone)]
    [SAttr n_sizeWidth; SAttr n_sizeDiameter; SAttr n_sizeLength; SAttr n_orientation; SAttr n_sizeDepth; SMany n_Locations; SMany n_AssetInfos; SMany n_Specifications]
    true true
    [n_sizeWidth; n_sizeDiameter; n_sizeLength; n_orientation; n_sizeDepth]
    [(n_sizeWidth, VFloat n_0_0); (n_sizeDiameter, VFloat n_0_0); (n_sizeLength, VFloat n_0_0); (n_orientation, VStr n_); (n_sizeDepth, VFloat n_0_0)]
    []
    [n_Locations; n_AssetInfos; n_Specifications]
    [n_Locations; n_AssetInfos; n_Specifications]
    [(n_Locations, PManyOne n_DimensionsInfo); (n_AssetInfos, PManyOne n_DimensionsInfo); (n_Specifications, PManyMany n_DimensionsInfos)];
(* CIM15/IEC61970/Informative/InfAssets/DocAssetRole.py:23-78 *)
  Cls n_CIM15_IEC61970_Informative_InfAssets_DocAssetRole_DocAssetRole n_DocAssetRole (Some n_CIM15_IEC61970_Informative_InfCommon_Role_Role)
    [(n_Document, VNone); (n_Asset, VNone)]
    [SOne n_Document; SOne n_Asset]
    true true
    []
    []
    []
    [n_Document; n_Asset]
    []
    [(n_Document, POneMany n_AssetRoles); (n_Asset, POneMany n_DocumentRoles)];
(* CIM15/IEC61970/Informative/InfAssets/Duct.py:23-91 *)
  Cls n_CIM15_IEC61970_Informative_InfAssets_Duct_Duct n_Duct (Some n_CIM15_IEC61968_Assets_AssetContainer_AssetContainer)
    [(n_xCoord, VInt 0); (n_yCoord, VInt 0); (n_DuctBankInfo, VNone); (n_CableInfos, VNone)]
    [SAttr n_xCoord; SAttr n_yCoord; SOne n_DuctBankInfo; SMany n_CableInfos]
    true true
    [n_xCoord; n_yCoord]
    [(n_xCoord, VInt 0); (n_yCoord, VInt 0)]
    []
    [n_DuctBankInfo; n_CableInfos]
    [n_CableInfos]
    [(n_DuctBankInfo, POneMany n_DuctInfos); (n_CableInfos, PManyOne n_DuctBankInfo)];
(* CIM15/IEC61970/Informative/InfAssets/DuctBank.py:23-67 *)
  Cls n_CIM15_IEC61970_Informative_InfAssets_DuctBank_DuctBank n_DuctBank (Some n_CIM15_IEC61968_Assets_AssetContainer_AssetContainer)
    [(n_circuitCount, VInt 0); (n_DuctInfos, VNone)]
    [SAttr n_circuitCount; SMany n_DuctInfos]
    true true
    [n_circuitCount]
    [(n_circuitCount, VInt 0)]
    []
    [n_DuctInfos]
    [n_DuctInfos]
    [(n_DuctInfos, PManyOne n_DuctBankInfo)];
(* CIM15/IEC61970/Informative/InfAssets/ElectricalInfo.py:23-106 *)
  Cls n_CIM15_IEC61970_Informative_InfAssets_ElectricalInfo_ElectricalInfo n_ElectricalInfo (Some n_CIM15_IEC61968_Assets_AssetInfo_AssetInfo)
    [(n_phaseCount, VInt 0); (n_ratedApparentPower, VFloat n_0_0); (n_phaseCode, VStr n_s12N); (n_frequency, VFloat n_0_0); (n_r0, VFloat n_0_0); (n_r, VFloat n_0_0); (n_bil, VFloat n_0_0); (n_x0, VFloat n_0_0); (n_x, VFloat n_0_0); (n_ratedCurrent, VFloat n_0_0); (n_wireCount, VInt 0); (n_b0, VFloat n_0_0); (n_b, VFloat n_0_0); (n_ratedVoltage, VFloat n_0_0); (n_g, VFloat n_0_0); (n_g0, VFloat n_0_0); (n_isConnected, VBool false)]
    [SAttr n_phaseCount; SAttr n_ratedApparentPower; SAttr n_phaseCode; SAttr n_frequency; SAttr n_r0; SAttr n_r; SAttr n_bil; SAttr n_x0; SAttr n_x; SAttr n_ratedCurrent; SAttr n_wireCount; SAttr n_b0; SAttr n_b; SAttr n_ratedVoltage; SAttr n_g; SAttr n_g0; SAttr n_isConnected]
    true true
    [n_phaseCount; n_ratedApparentPower; n_phaseCode; n_frequency; n_r0; n_r; n_bil; n_x0; n_x; n_ratedCurrent; n_wireCount; n_b0; n_b; n_ratedVoltage; n_g; n_g0; n_isConnected]
    [(n_phaseCount, VInt 0); (n_ratedApparentPower, VFloat n_0_0); (n_phaseCode, VStr n_s12N); (n_frequency, VFloat n_0_0); (n_r0, VFloat n_0_0); (n_r, VFloat n_0_0); (n_bil, VFloat n_0_0); (n_x0, VFloat n_0_0); (n_x, VFloat n_0_0); (n_ratedCurrent, VFloat n_0_0); (n_wireCount, VInt 0); (n_b0, VFloat n_0_0); (n_b, VFloat n_0_0); (n_ratedVoltage, VFloat n_0_0); (n_g, VFloat n_0_0); (n_g0, VFloat n_0_0); (n_isConnected, VBool false)]
    [(n_phaseCode, n_PhaseCode)]
    []
    []
    [];
(* CIM15/IEC61970/Informative/InfAssets/FACTSDevice.py:23-42 *)
  Cls n_CIM15_IEC61970_Informative_InfAssets_FACTSDevice_FACTSDevice n_FACTSDevice (Some n_CIM15_IEC61968_Assets_Asset_Asset)
    [(n_kind, VStr n_tcpar)]
    [SAttr n_kind]
    true true
    [n_kind]
    [(n_kind, VStr n_tcpar)]
    [(n_kind, n_FACTSDeviceKind)]
    []
    []
    [];
(* CIM15/IEC61970/Informative/InfAssets/Facility.py:23-42 *)
  Cls n_CIM15_IEC61970_Informative_InfAssets_Facility_Facility n_Facility (Some n_CIM15_IEC61968_Assets_AssetContainer_AssetContainer)
    [(n_kind, VStr n_)]
    [SAttr n_kind]
    true true
    [n_kind]
    [(n_kind, VStr n_)]
    []
    []
    []
    [];
(* CIM15/IEC61970/Informative/InfAssets/FailureEvent.py:23-54 *)
  Cls n_CIM15_IEC61970_Informative_InfAssets_FailureEvent_FailureEvent n_FailureEvent (Some n_CIM15_IEC61968_Common_ActivityRecord_ActivityRecord)
    [(n_failureIsolationMethod, VStr n_fuse); (n_corporateCode, VStr n_); (n_faultLocatingMethod, VStr n_); (n_location, VStr n_)]
    [SAttr n_failureIsolationMethod; SAttr n_corporateCode; SAttr n_faultLocatingMethod; SAttr n_location]
    true true
    [n_failureIsolationMethod; n_corporateCode; n_faultLocatingMethod; n_location]
    [(n_failureIsolationMethod, VStr n_fuse); (n_corporateCode, VStr n_); (n_faultLocatingMethod, VStr n_); (n_location, VStr n_)]
    [(n_failureIsolationMethod, n_FailureIsolationMethodKind)]
    []
    []
    [];
(* CIM15/IEC61970/Informative/InfAssets/FaultIndicatorInfo.py:23-68 *)
  Cls n_CIM15_IEC61970_Informative_InfAssets_FaultIndicatorInfo_FaultIndicatorInfo n_FaultIndicatorInfo (Some n_CIM15_IEC61968_Assets_AssetInfo_AssetInfo)
    [(n_resetKind, VStr n_automatic); (n_FaultIndicators, VNone)]
    [SAttr n_resetKind; SMany n_FaultIndicators]
    true true
    [n_resetKind]
    [(n_resetKind, VStr n_automatic)]
    [(n_resetKind, n_FaultIndicatorResetKind)]
    [n_FaultIndicators]
    [n_FaultIndicators]
    [(n_FaultIndicators, PManyOne n_FaultIndicatorInfo)];
(* CIM15/IEC61970/Informative/InfAssets/FinancialInfo.py:23-101 *)
  Cls n_CIM15_IEC61970_Informative_InfAssets_FinancialInfo_FinancialInfo n_FinancialInfo (Some n_CIM15_IEC61970_Core_IdentifiedObject_IdentifiedObject)
    [(n_warrantyEndDateTime, VStr n_); (n_costDescription, VStr n_); (n_purchaseDateTime, VStr n_); (n_account, VStr n_); (n_financialValue, VFloat n_0_0); (n_purchaseOrderNumber, VStr n_); (n_plantTransferDateTime, VStr n_); (n_quantity, VStr n_); (n_valueDateTime, VStr n_); (n_costType, VStr n_); (n_actualPurchaseCost, VFloat n_0_0); (n_Asset, VNone)]
    [SAttr n_warrantyEndDateTime; SAttr n_costDescription; SAttr n_purchaseDateTime; SAttr n_account; SAttr n_financialValue; SAttr n_purchaseOrderNumber; SAttr n_plantTransferDateTime; SAttr n_quantity; SAttr n_valueDateTime; SAttr n_costType; SAttr n_actualPurchaseCost; SOne n_Asset]
    true true
    [n_warrantyEndDateTime; n_costDescription; n_purchaseDateTime; n_account; n_financialValue; n_purchaseOrderNumber; n_plantTransferDateTime; n_quantity; n_valueDateTime; n_costType; n_actualPurchaseCost]
    [(n_warrantyEndDateTime, VStr n_); (n_costDescription, VStr n_); (n_purchaseDateTime, VStr n_); (n_account, VStr n_); (n_financialValue, VFloat n_0_0); (n_purchaseOrderNumber, VStr n_); (n_plantTransferDateTime, VStr n_); (n_quantity, VStr n_); (n_valueDateTime, VStr n_); (n_costType, VStr n_); (n_actualPurchaseCost, VFloat n_0_0)]
    []
    [n_Asset]
    []
    [(n_Asset, POneOne n_FinancialInfo)];
(* CIM15/IEC61970/Informative/InfAssets/GenericAssetModelOrMaterial.py:23-209 *)
  Cls n_CIM15_IEC61970_Informative_InfAssets_GenericAssetModelOrMaterial_GenericAssetModelOrMaterial n_GenericAssetModelOrMaterial (Some n_CIM15_IEC61968_Assets_AssetModel_AssetModel)
    [(n_estimatedUnitCost, VFloat n_0_0); (n_stockItem, VBool false); (n_quantity, VStr n_); (n_ErpReqLineItems, VNone); (n_ProductAssetModels, VNone); (n_ErpInventoryIssues, VNone); (n_CUWorkEquipmentAsset, VNone); (n_TypeAssetCatalogue, VNone); (n_CUAsset, VNone); (n_ErpBomItemDatas, VNone)]
    [SAttr n_estimatedUnitCost; SAttr n_stockItem; SAttr n_quantity; SMany n_ErpReqLineItems; SMany n_ProductAssetModels; SMany n_ErpInventoryIssues; SOne n_CUWorkEquipmentAsset; SOne n_TypeAssetCatalogue; SOne n_CUAsset; SMany n_ErpBomItemDatas]
    true true
    [n_estimatedUnitCost; n_stockItem; n_quantity]
    [(n_estimatedUnitCost, VFloat n_0_0); (n_stockItem, VBool false); (n_quantity, VStr n_)]
    []
    [n_ErpReqLineItems; n_ProductAssetModels; n_ErpInventoryIssues; n_CUWorkEquipmentAsset; n_TypeAssetCatalogue; n_CUAsset; n_ErpBomItemDatas]
    [n_ErpReqLineItems; n_ProductAssetModels; n_ErpInventoryIssues; n_ErpBomItemDatas]
    [(n_ErpReqLineItems, PManyOne n_TypeAsset); (n_ProductAssetModels, PManyOne n_GenericAssetModelOrMaterial); (n_ErpInventoryIssues, PManyOne n_TypeAsset); (n_CUWorkEquipmentAsset, POneOne n_TypeAsset); (n_TypeAssetCatalogue, POneMany n_TypeAssets); (n_CUAsset, POneOne n_TypeAsset); (n_ErpBomItemDatas, PManyOne n_TypeAsset)];
(* CIM15/IEC61970/Informative/InfAssets/Joint.py:23-50 *)
  Cls n_CIM15_IEC61970_Informative_InfAssets_Joint_Joint n_Joint (Some n_CIM15_IEC61968_Assets_Asset_Asset)
    [(n_insulation, VStr n_); (n_fillKind, VStr n_epoxy); (n_configurationKind, VStr n_other)]
    [SAttr n_insulation; SAttr n_fillKind; SAttr n_configurationKind]
    true true
    [n_insulation; n_fillKind; n_configurationKind]
    [(n_insulation, VStr n_); (n_fillKind, VStr n_epoxy); (n_configurationKind, VStr n_other)]
    [(n_fillKind, n_JointFillKind); (n_configurationKind, n_JointConfigurationKind)]
    []
    []
    [];
(* CIM15/IEC61970/Informative/InfAssets/Medium.py:23-97 *)
  Cls n_CIM15_IEC61970_Informative_InfAssets_Medium_Medium n_Medium (Some n_CIM15_IEC61970_Core_IdentifiedObject_IdentifiedObject)
    [(n_kind, VStr n_gas); (n_volumeSpec, VFloat n_0_0); (n_Specification, VNone); (n_Assets, VNone)]
    [SAttr n_kind; SAttr n_volumeSpec; SOne n_Specification; SMany n_Assets]
    true true
    [n_kind; n_volumeSpec]
    [(n_kind, VStr n_gas); (n_volumeSpec, VFloat n_0_0)]
    [(n_kind, n_MediumKind)]
    [n_Specification; n_Assets]
    [n_Assets]
    [(n_Specification, POneMany n_Mediums); (n_Assets, PManyMany n_Mediums)];
(* CIM15/IEC61970/Informative/InfAssets/MountingConnection.py:23-100 *)
  Cls n_CIM15_IEC61970_Informative_InfAssets_MountingConnection_MountingConnection n_MountingConnection (Some n_CIM15_IEC61970_Core_IdentifiedObject_IdentifiedObject)
    [(n_StructureInfos, VNone); (n_MountingPoints, VNone)]
    [SMany n_StructureInfos; SMany n_MountingPoints]
    true true
    []
    []
    []
    [n_StructureInfos; n_MountingPoints]
    [n_StructureInfos; n_MountingPoints]
    [(n_StructureInfos, PManyMany n_MountingConnections); (n_MountingPoints, PManyMany n_Connections)];
(* CIM15/IEC61970/Informative/InfAssets/MountingPoint.py:23-106 *)
  Cls n_CIM15_IEC61970_Informative_InfAssets_MountingPoint_MountingPoint n_MountingPoint (Some n_CIM15_IEC61970_Core_IdentifiedObject_IdentifiedObject)
    [(n_xCoord, VInt 0); (n_phaseCode, VStr n_s12N); (n_yCoord, VInt 0); (n_Connections, VNone); (n_OverheadConductors, VNone)]
    [SAttr n_xCoord; SAttr n_phaseCode; SAttr n_yCoord; SMany n_Connections; SMany n_OverheadConductors]
    true true
    [n_xCoord; n_phaseCode; n_yCoord]
    [(n_xCoord, VInt 0); (n_phaseCode, VStr n_s12N); (n_yCoord, VInt 0)]
    [(n_phaseCode, n_PhaseCode)]
    [n_Connections; n_OverheadConductors]
    [n_Connections; n_OverheadConductors]
    [(n_Connections, PManyMany n_MountingPoints); (n_OverheadConductors, PManyOne n_MountingPoint)];
(* CIM15/IEC61970/Informative/InfAssets/OrgAssetRole.py:23-82 *)
  Cls n_CIM15_IEC61970_Informative_InfAssets_OrgAssetRole_OrgAssetRole n_OrgAssetRole (Some n_CIM15_IEC61970_Informative_InfCommon_Role_Role)
    [(n_percentOwnership, VFloat n_0_0); (n_ErpOrganisation, VNone); (n_Asset, VNone)]
    [SAttr n_percentOwnership; SOne n_ErpOrganisation; SOne n_Asset]
    true true
    [n_percentOwnership]
    [(n_percentOwnership, VFloat n_0_0)]
    []
    [n_ErpOrganisation; n_Asset]
    []
    [(n_ErpOrganisation, POneMany n_AssetRoles); (n_Asset, POneMany n_ErpOrganisationRoles)];
(* CIM15/IEC61970/Informative/InfAssets/Pole.py:23-108 *)
  Cls n_CIM15_IEC61970_Informative_InfAssets_Pole_Pole n_Pole (Some n_CIM15_IEC61970_Informative_InfAssets_Structure_Structure)
    [(n_breastBlock, VBool false); (n_diameter, VFloat n_0_0); (n_baseKind, VStr n_dirt); (n_jpaReference, VStr n_); (n_treatmentKind, VStr n_unknown); (n_preservativeKind, VStr n_penta); (n_length, VFloat n_0_0); (n_construction, VStr n_); (n_speciesType, VStr n_); (n_classification, VStr n_); (n_treatedDateTime, VStr n_); (n_Streetlights, VNone)]
    [SAttr n_breastBlock; SAttr n_diameter; SAttr n_baseKind; SAttr n_jpaReference; SAttr n_treatmentKind; SAttr n_preservativeKind; SAttr n_length; SAttr n_construction; SAttr n_speciesType; SAttr n_classification; SAttr n_treatedDateTime; SMany n_Streetlights]
    true true
    [n_breastBlock; n_diameter; n_baseKind; n_jpaReference; n_treatmentKind; n_preservativeKind; n_length; n_construction; n_speciesType; n_classification; n_treatedDateTime]
    [(n_breastBlock, VBool false); (n_diameter, VFloat n_0_0); (n_baseKind, VStr n_dirt); (n_jpaReference, VStr n_); (n_treatmentKind, VStr n_unknown); (n_preservativeKind, VStr n_penta); (n_length, VFloat n_0_0); (n_construction, VStr n_); (n_speciesType, VStr n_); (n_classification, VStr n_); (n_treatedDateTime, VStr n_)]
    [(n_baseKind, n_PoleBaseKind); (n_treatmentKind, n_PoleTreatmentKind); (n_preservativeKind, n_PolePreservativeKind)]
    [n_Streetlights]
    [n_Streetlights]
    [(n_Streetlights, PManyOne n_Pole)];
(* CIM15/IEC61970/Informative/InfAssets/PotentialTransformerInfo.py:23-95 *)
  Cls n_CIM15_IEC61970_Informative_InfAssets_PotentialTransformerInfo_PotentialTransformerInfo n_PotentialTransformerInfo (Some n_CIM15_IEC61968_Assets_AssetInfo_AssetInfo)
    [(n_ptClass, VStr n_); (n_accuracyClass, VStr n_); (n_nominalRatio, VNone); (n_primaryRatio, VNone); (n_tertiaryRatio, VNone); (n_PTs, VNone); (n_secondaryRatio, VNone)]
    [SAttr n_ptClass; SAttr n_accuracyClass; SAttr n_nominalRatio; SAttr n_primaryRatio; SAttr n_tertiaryRatio; SMany n_PTs; SAttr n_secondaryRatio]
    true true
    [n_ptClass; n_accuracyClass]
    [(n_ptClass, VStr n_); (n_accuracyClass, VStr n_)]
    []
    [n_nominalRatio; n_primaryRatio; n_tertiaryRatio; n_PTs; n_secondaryRatio]
    [n_PTs]
    [(n_PTs, PManyOne n_PTInfo)];
(* CIM15/IEC61970/Informative/InfAssets/PowerRating.py:23-81 *)
  Cls n_CIM15_IEC61970_Informative_InfAssets_PowerRating_PowerRating n_PowerRating (Some n_CIM15_IEC61970_Core_IdentifiedObject_IdentifiedObject)
    [(n_stage, VInt 0); (n_powerRating, VFloat n_0_0); (n_coolingKind, VStr n_forcedAir); (n_TransformerAssets, VNone)]
    [SAttr n_stage; SAttr n_powerRating; SAttr n_coolingKind; SMany n_TransformerAssets]
    true true
    [n_stage; n_powerRating; n_coolingKind]
    [(n_stage, VInt 0); (n_powerRating, VFloat n_0_0); (n_coolingKind, VStr n_forcedAir)]
    [(n_coolingKind, n_CoolingKind)]
    [n_TransformerAssets]
    [n_TransformerAssets]
    [(n_TransformerAssets, PManyMany n_PowerRatings)];
(* CIM15/IEC61970/Informative/InfAssets/Procedure.py:23-167 *)
  Cls n_CIM15_IEC61970_Informative_InfAssets_Procedure_Procedure n_Procedure (Some n_CIM15_IEC61968_Common_Document_Document)
    [(n_corporateCode, VStr n_); (n_sequenceNumber, VStr n_); (n_kind, VStr n_test); (n_instruction, VStr n_); (n_ProcedureValues, VNone); (n_ProcedureDataSets, VNone); (n_CompatibleUnits, VNone); (n_Limits, VNone)]
    [SAttr n_corporateCode; SAttr n_sequenceNumber; SAttr n_kind; SAttr n_instruction; SMany n_ProcedureValues; SMany n_ProcedureDataSets; SMany n_CompatibleUnits; SMany n_Limits]
    true true
    [n_corporateCode; n_sequenceNumber; n_kind; n_instruction]
    [(n_corporateCode, VStr n_); (n_sequenceNumber, VStr n_); (n_kind, VStr n_test); (n_instruction, VStr n_)]
    [(n_kind, n_ProcedureKind)]
    [n_ProcedureValues; n_ProcedureDataSets; n_CompatibleUnits; n_Limits]
    [n_ProcedureValues; n_ProcedureDataSets; n_CompatibleUnits; n_Limits]
    [(n_ProcedureValues, PManyOne n_Procedure); (n_ProcedureDataSets, PManyOne n_Procedure); (n_CompatibleUnits, PManyMany n_Procedures); (n_Limits, PManyMany n_Procedures)];
(* CIM15/IEC61970/Informative/InfAssets/ProcedureDataSet.py:23-156 *)
  Cls n_CIM15_IEC61970_Informative_InfAssets_ProcedureDataSet_ProcedureDataSet n_ProcedureDataSet (Some n_CIM15_IEC61968_Common_Document_Document)
    [(n_completedDateTime, VStr n_); (n_Properties, VNone); (n_TransformerObservations, VNone); (n_Procedure, VNone); (n_MeasurementValues, VNone)]
    [SAttr n_completedDateTime; SMany n_Properties; SMany n_TransformerObservations; SOne n_Procedure; SMany n_MeasurementValues]
    true true
    [n_completedDateTime]
    [(n_completedDateTime, VStr n_)]
    []
    [n_Properties; n_TransformerObservations; n_Procedure; n_MeasurementValues]
    [n_Properties; n_TransformerObservations; n_MeasurementValues]
    [(n_Properties, PManyMany n_ProcedureDataSets); (n_TransformerObservations, PManyMany n_ProcedureDataSets); (n_Procedure, POneMany n_ProcedureDataSets); (n_MeasurementValues, PManyMany n_ProcedureDataSets)];
(* CIM15/IEC61970/Informative/InfAssets/ProtectionEquipmentInfo.py:23-46 *)
  Cls n_CIM15_IEC61970_Informative_InfAssets_ProtectionEquipmentInfo_ProtectionEquipmentInfo n_ProtectionEquipmentInfo (Some n_CIM15_IEC61968_Assets_AssetInfo_AssetInfo)
    [(n_groundTrip, VFloat n_0_0); (n_phaseTrip, VFloat n_0_0)]
    [SAttr n_groundTrip; SAttr n_phaseTrip]
    true true
    [n_groundTrip; n_phaseTrip]
    [(n_groundTrip, VFloat n_0_0); (n_phaseTrip, VFloat n_0_0)]
    []
    []
    []
    [];
(* CIM15/IEC61970/Informative/InfAssets/RecloserInfo.py:23-58 *)
  Cls n_CIM15_IEC61970_Informative_InfAssets_RecloserInfo_RecloserInfo n_RecloserInfo (Some n_CIM15_IEC61970_Informative_InfAssets_SwitchInfo_SwitchInfo)
    [(n_groundTripNormalEnabled, VBool false); (n_groundTripCapable, VBool false); (n_recloseLockoutCount, VInt 0); (n_phaseTripRating, VFloat n_0_0); (n_groundTripRating, VFloat n_0_0)]
    [SAttr n_groundTripNormalEnabled; SAttr n_groundTripCapable; SAttr n_recloseLockoutCount; SAttr n_phaseTripRating; SAttr n_groundTripRating]
    true true
    [n_groundTripNormalEnabled; n_groundTripCapable; n_recloseLockoutCount; n_phaseTripRating; n_groundTripRating]
    [(n_groundTripNormalEnabled, VBool false); (n_groundTripCapable, VBool false); (n_recloseLockoutCount, VInt 0); (n_phaseTripRating, VFloat n_0_0); (n_groundTripRating, VFloat n_0_0)]
    []
    []
    []
    [];
(* CIM15/IEC61970/Informative/InfAssets/ReliabilityInfo.py:23-97 *)
  Cls n_CIM15_IEC61970_Informative_InfAssets_ReliabilityInfo_ReliabilityInfo n_ReliabilityInfo (Some n_CIM15_IEC61970_Core_IdentifiedObject_IdentifiedObject)
    [(n_momFailureRate, VFloat n_0_0); (n_mTTR, VFloat n_0_0); (n_Specification, VNone); (n_Assets, VNone)]
    [SAttr n_momFailureRate; SAttr n_mTTR; SOne n_Specification; SMany n_Assets]
    true true
    [n_momFailureRate; n_mTTR]
    [(n_momFailureRate, VFloat n_0_0); (n_mTTR, VFloat n_0_0)]
    []
    [n_Specification; n_Assets]
    [n_Assets]
    [(n_Specification, POneMany n_ReliabilityInfos); (n_Assets, PManyMany n_ReliabilityInfos)];
(* CIM15/IEC61970/Informative/InfAssets/SVC.py:23-46 *)
  Cls n_CIM15_IEC61970_Informative_InfAssets_SVC_SVC n_SVC (Some n_CIM15_IEC61970_Informative_InfAssets_FACTSDevice_FACTSDevice)
    [(n_inductiveRating, VFloat n_0_0); (n_capacitiveRating, VFloat n_0_0)]
    [SAttr n_inductiveRating; SAttr n_capacitiveRating]
    true true
    [n_inductiveRating; n_capacitiveRating]
    [(n_inductiveRating, VFloat n_0_0); (n_capacitiveRating, VFloat n_0_0)]
    []
    []
    []
    [];
(* CIM15/IEC61970/Informative/InfAssets/ShuntCompensatorInfo.py:23-62 *)
  Cls n_CIM15_IEC61970_Informative_InfAssets_ShuntCompensatorInfo_ShuntCompensatorInfo n_ShuntCompensatorInfo (Some n_CIM15_IEC61968_Assets_AssetInfo_AssetInfo)
    [(n_maxPowerLoss, VFloat n_0_0); (n_ShuntImpedanceInfo, VNone)]
    [SAttr n_maxPowerLoss; SOne n_ShuntImpedanceInfo]
    true true
    [n_maxPowerLoss]
    [(n_maxPowerLoss, VFloat n_0_0)]
    []
    [n_ShuntImpedanceInfo]
    []
    [(n_ShuntImpedanceInfo, POneMany n_ShuntCompensatorInfos)];
(* CIM15/IEC61970/Informative/InfAssets/ShuntImpedanceInfo.py:23-131 *)
  Cls n_CIM15_IEC61970_Informative_InfAssets_ShuntImpedanceInfo_ShuntImpedanceInfo n_ShuntImpedanceInfo (Some n_CIM15_IEC61968_Assets_AssetInfo_AssetInfo)
    [(n_maxSwitchOperationCount, VInt 0); (n_localControlKind, VStr n_none); (n_switchOperationCycle, VFloat n_0_0); (n_vRegLineLine, VBool false); (n_highVoltageOverride, VFloat n_0_0); (n_lowVoltageOverride, VFloat n_0_0); (n_regBranch, VStr n_); (n_cellSize, VFloat n_0_0); (n_localOnLevel, VStr n_); (n_regBranchKind, VStr n_recloser); (n_normalOpen, VBool false); (n_controlKind, VStr n_remoteOnly); (n_regBranchEnd, VInt 0); (n_branchDirect, VInt 0); (n_localOffLevel, VStr n_); (n_sensingPhaseCode, VStr n_s12N); (n_localOverride, VBool false); (n_ShuntCompensatorInfos, VNone)]
    [SAttr n_maxSwitchOperationCount; SAttr n_localControlKind; SAttr n_switchOperationCycle; SAttr n_vRegLineLine; SAttr n_highVoltageOverride; SAttr n_lowVoltageOverride; SAttr n_regBranch; SAttr n_cellSize; SAttr n_localOnLevel; SAttr n_regBranchKind; SAttr n_normalOpen; SAttr n_controlKind; SAttr n_regBranchEnd; SAttr n_branchDirect; SAttr n_localOffLevel; SAttr n_sensingPhaseCode; SAttr n_localOverride; SMany n_ShuntCompensatorInfos]
    true true
    [n_maxSwitchOperationCount; n_localControlKind; n_switchOperationCycle; n_vRegLineLine; n_highVoltageOverride; n_lowVoltageOverride; n_regBranch; n_cellSize; n_localOnLevel; n_regBranchKind; n_normalOpen; n_controlKind; n_regBranchEnd; n_branchDirect; n_localOffLevel; n_sensingPhaseCode; n_localOverride]
    [(n_maxSwitchOperationCount, VInt 0); (n_localControlKind, VStr n_none); (n_switchOperationCycle, VFloat n_0_0); (n_vRegLineLine, VBool false); (n_highVoltageOverride, VFloat n_0_0); (n_lowVoltageOverride, VFloat n_0_0); (n_regBranch, VStr n_); (n_cellSize, VFloat n_0_0); (n_localOnLevel, VStr n_); (n_regBranchKind, VStr n_recloser); (n_normalOpen, VBool false); (n_controlKind, VStr n_remoteOnly); (n_regBranchEnd, VInt 0); (n_branchDirect, VInt 0); (n_localOffLevel, VStr n_); (n_sensingPhaseCode, VStr n_s12N); (n_localOverride, VBool false)]
    [(n_localControlKind, n_ShuntImpedanceLocalControlKind); (n_regBranchKind, n_RegulationBranchKind); (n_controlKind, n_ShuntImpedanceControlKind); (n_sensingPhaseCode, n_PhaseCode)]
    [n_ShuntCompensatorInfos]
    [n_ShuntCompensatorInfos]
    [(n_ShuntCompensatorInfos, PManyOne n_ShuntImpedanceInfo)];
(* CIM15/IEC61970/Informative/InfAssets/Specification.py:23-227 *)
  Cls n_CIM15_IEC61970_Informative_InfAssets_Specification_Specification n_Specification (Some n_CIM15_IEC61968_Common_Document_Document)
    [(n_AssetPropertyCurves, VNone); (n_Mediums, VNone); (n_AssetProperites, VNone); (n_ReliabilityInfos, VNone); (n_DimensionsInfos, VNone); (n_Ratings, VNone); (n_QualificationRequirements, VNone)]
    [SMany n_AssetPropertyCurves; SMany n_Mediums; SMany n_AssetProperites; SMany n_ReliabilityInfos; SMany n_DimensionsInfos; SMany n_Ratings; SMany n_QualificationRequirements]
    true true
    []
    []
    []
    [n_AssetPropertyCurves; n_Mediums; n_AssetProperites; n_ReliabilityInfos; n_DimensionsInfos; n_Ratings; n_QualificationRequirements]
    [n_AssetPropertyCurves; n_Mediums; n_AssetProperites; n_ReliabilityInfos; n_DimensionsInfos; n_Ratings; n_QualificationRequirements]
    [(n_AssetPropertyCurves, PManyOne n_Specification); (n_Mediums, PManyOne n_Specification); (n_AssetProperites, PManyOne n_PropertySpecification); (n_ReliabilityInfos, PManyOne n_Specification); (n_DimensionsInfos, PManyMany n_Specifications); (n_Ratings, PManyOne n_RatingSpecification); (n_QualificationRequirements, PManyMany n_Specifications)];
(* CIM15/IEC61970/Informative/InfAssets/Streetlight.py:23-71 *)
  Cls n_CIM15_IEC61970_Informative_InfAssets_Streetlight_Streetlight n_Streetlight (Some n_CIM15_IEC61968_Assets_Asset_Asset)
    [(n_armLength, VFloat n_0_0); (n_lampKind, VStr n_metalHalide); (n_lightRating, VFloat n_0_0); (n_Pole, VNone)]
    [SAttr n_armLength; SAttr n_lampKind; SAttr n_lightRating; SOne n_Pole]
    true true
    [n_armLength; n_lampKind; n_lightRating]
    [(n_armLength, VFloat n_0_0); (n_lampKind, VStr n_metalHalide); (n_lightRating, VFloat n_0_0)]
    [(n_lampKind, n_StreetlightLampKind)]
    [n_Pole]
    []
    [(n_Pole, POneMany n_Streetlights)];
(* CIM15/IEC61970/Informative/InfAssets/Structure.py:23-122 *)
  Cls n_CIM15_IEC61970_Informative_InfAssets_Structure_Structure n_Structure (Some n_CIM15_IEC61968_Assets_AssetContainer_AssetContainer)
    [(n_ratedVoltage, VFloat n_0_0); (n_fumigantAppliedDate, VStr n_); (n_weedRemovedDate, VStr n_); (n_removeWeed, VBool false); (n_height, VFloat n_0_0); (n_fumigantName, VStr n_); (n_materialKind, VStr n_wood); (n_StructureSupportInfos, VNone); (n_MountingConnections, VNone)]
    [SAttr n_ratedVoltage; SAttr n_fumigantAppliedDate; SAttr n_weedRemovedDate; SAttr n_removeWeed; SAttr n_height; SAttr n_fumigantName; SAttr n_materialKind; SMany n_StructureSupportInfos; SMany n_MountingConnections]
    true true
    [n_ratedVoltage; n_fumigantAppliedDate; n_weedRemovedDate; n_removeWeed; n_height; n_fumigantName; n_materialKind]
    [(n_ratedVoltage, VFloat n_0_0); (n_fumigantAppliedDate, VStr n_); (n_weedRemovedDate, VStr n_); (n_removeWeed, VBool false); (n_height, VFloat n_0_0); (n_fumigantName, VStr n_); (n_materialKind, VStr n_wood)]
    [(n_materialKind, n_StructureMaterialKind)]
    [n_StructureSupportInfos; n_MountingConnections]
    [n_StructureSupportInfos; n_MountingConnections]
    [(n_StructureSupportInfos, PManyOne n_SecuredStructure); (n_MountingConnections, PManyMany n_StructureInfos)];
(* CIM15/IEC61970/Informative/InfAssets/StructureSupport.py:23-86 *)
  Cls n_CIM15_IEC61970_Informative_InfAssets_StructureSupport_StructureSupport n_StructureSupport (Some n_CIM15_IEC61968_Assets_Asset_Asset)
    [(n_anchorRodCount, VInt 0); (n_length, VFloat n_0_0); (n_anchorRodLength, VFloat n_0_0); (n_direction, VFloat n_0_0); (n_anchorKind, VStr n_concrete); (n_kind, VStr n_guy); (n_size, VStr n_); (n_SecuredStructure, VNone)]
    [SAttr n_anchorRodCount; SAttr n_length; SAttr n_anchorRodLength; SAttr n_direction; SAttr n_anchorKind; SAttr n_kind; SAttr n_size; SOne n_SecuredStructure]
    true true
    [n_anchorRodCount; n_length; n_anchorRodLength; n_direction; n_anchorKind; n_kind; n_size]
    [(n_anchorRodCount, VInt 0); (n_length, VFloat n_0_0); (n_anchorRodLength, VFloat n_0_0); (n_direction, VFloat n_0_0); (n_anchorKind, VStr n_concrete); (n_kind, VStr n_guy); (n_size, VStr n_)]
    [(n_anchorKind, n_AnchorKind); (n_kind, n_StructureSupportKind)]
    [n_SecuredStructure]
    []
    [(n_SecuredStructure, POneMany n_StructureSupportInfos)];
(* CIM15/IEC61970/Informative/InfAssets/SubstationAsset.py:23-42 *)
  Cls n_CIM15_IEC61970_Informative_InfAssets_SubstationAsset_SubstationAsset n_SubstationAsset (Some n_CIM15_IEC61968_Assets_Asset_Asset)
    [(n_function, VStr n_transmission)]
    [SAttr n_function]
    true true
    [n_function]
    [(n_function, VStr n_transmission)]
    [(n_function, n_SubstationFunctionKind)]
    []
    []
    [];
(* CIM15/IEC61970/Informative/InfAssets/SurgeProtectorInfo.py:23-80 *)
  Cls n_CIM15_IEC61970_Informative_InfAssets_SurgeProtectorInfo_SurgeProtectorInfo n_SurgeProtectorInfo (Some n_CIM15_IEC61968_Assets_AssetInfo_AssetInfo)
    [(n_maxCurrentRating, VFloat n_0_0); (n_maxContinousOperatingVoltage, VFloat n_0_0); (n_nominalDesignVoltage, VFloat n_0_0); (n_maxEnergyAbsorption, VFloat n_0_0); (n_SurgeProtectors, VNone)]
    [SAttr n_maxCurrentRating; SAttr n_maxContinousOperatingVoltage; SAttr n_nominalDesignVoltage; SAttr n_maxEnergyAbsorption; SMany n_SurgeProtectors]
    true true
    [n_maxCurrentRating; n_maxContinousOperatingVoltage; n_nominalDesignVoltage; n_maxEnergyAbsorption]
    [(n_maxCurrentRating, VFloat n_0_0); (n_maxContinousOperatingVoltage, VFloat n_0_0); (n_nominalDesignVoltage, VFloat n_0_0); (n_maxEnergyAbsorption, VFloat n_0_0)]
    []
    [n_SurgeProtectors]
    [n_SurgeProtectors]
    [(n_SurgeProtectors, PManyOne n_SurgeProtectorInfo)];
(* CIM15/IEC61970/Informative/InfAssets/SwitchInfo.py:23-74 *)
  Cls n_CIM15_IEC61970_Informative_InfAssets_SwitchInfo_SwitchInfo n_SwitchInfo (Some n_CIM15_IEC61968_Assets_AssetInfo_AssetInfo)
    [(n_dielectricStrength, VFloat n_0_0); (n_gang, VBool false); (n_makingCapacity, VFloat n_0_0); (n_withstandCurrent, VFloat n_0_0); (n_loadBreak, VBool false); (n_minimumCurrent, VFloat n_0_0); (n_interruptingRating, VFloat n_0_0); (n_remote, VBool false); (n_poleCount, VInt 0)]
    [SAttr n_dielectricStrength; SAttr n_gang; SAttr n_makingCapacity; SAttr n_withstandCurrent; SAttr n_loadBreak; SAttr n_minimumCurrent; SAttr n_interruptingRating; SAttr n_remote; SAttr n_poleCount]
    true true
    [n_dielectricStrength; n_gang; n_makingCapacity; n_withstandCurrent; n_loadBreak; n_minimumCurrent; n_interruptingRating; n_remote; n_poleCount]
    [(n_dielectricStrength, VFloat n_0_0); (n_gang, VBool false); (n_makingCapacity, VFloat n_0_0); (n_withstandCurrent, VFloat n_0_0); (n_loadBreak, VBool false); (n_minimumCurrent, VFloat n_0_0); (n_interruptingRating, VFloat n_0_0); (n_remote, VBool false); (n_poleCount, VInt 0)]
    []
    []
    []
    [];
(* CIM15/IEC61970/Informative/InfAssets/TestDataSet.py:23-50 *)
  Cls n_CIM15_IEC61970_Informative_InfAssets_TestDataSet_TestDataSet n_TestDataSet (Some n_CIM15_IEC61970_Informative_InfAssets_ProcedureDataSet_ProcedureDataSet)
    [(n_specimenToLabDateTime, VStr n_); (n_conclusion, VStr n_); (n_specimenID, VStr n_)]
    [SAttr n_specimenToLabDateTime; SAttr n_conclusion; SAttr n_specimenID]
    true true
    [n_specimenToLabDateTime; n_conclusion; n_specimenID]
    [(n_specimenToLabDateTime, VStr n_); (n_conclusion, VStr n_); (n_specimenID, VStr n_)]
    []
    []
    []
    [];
(* CIM15/IEC61970/Informative/InfAssets/Tool.py:23-62 *)
  Cls n_CIM15_IEC61970_Informative_InfAssets_Tool_Tool n_Tool (Some n_CIM15_IEC61968_Assets_Asset_Asset)
    [(n_lastCalibrationDate, VStr n_); (n_Crew, VNone)]
    [SAttr n_lastCalibrationDate; SOne n_Crew]
    true true
    [n_lastCalibrationDate]
    [(n_lastCalibrationDate, VStr n_)]
    []
    [n_Crew]
    []
    [(n_Crew, POneMany n_Tools)];
(* CIM15/IEC61970/Informative/InfAssets/Tower.py:23-42 *)
  Cls n_CIM15_IEC61970_Informative_InfAssets_Tower_Tower n_Tower (Some n_CIM15_IEC61970_Informative_InfAssets_Structure_Structure)
    [(n_constructionKind, VStr n_suspension)]
    [SAttr n_constructionKind]
    true true
    [n_constructionKind]
    [(n_constructionKind, VStr n_suspension)]
    [(n_constructionKind, n_TowerConstructionKind)]
    []
    []
    [];
(* CIM15/IEC61970/Informative/InfAssets/TransformerAsset.py:23-138 *)
  Cls n_CIM15_IEC61970_Informative_InfAssets_TransformerAsset_TransformerAsset n_TransformerAsset (Some n_CIM15_IEC61968_Assets_Asset_Asset)
    [(n_reconditionedDateTime, VStr n_); (n_PowerRatings, VNone); (n_TransformerObservations, VNone); (n_TransformerInfo, VNone); (n_TransformerAssetModel, VNone)]
    [SAttr n_reconditionedDateTime; SMany n_PowerRatings; SMany n_TransformerObservations; SOne n_TransformerInfo; SOne n_TransformerAssetModel]
    true true
    [n_reconditionedDateTime]
    [(n_reconditionedDateTime, VStr n_)]
    []
    [n_PowerRatings; n_TransformerObservations; n_TransformerInfo; n_TransformerAssetModel]
    [n_PowerRatings; n_TransformerObservations]
    [(n_PowerRatings, PManyMany n_TransformerAssets); (n_TransformerObservations, PManyOne n_TransformerAsset); (n_TransformerInfo, POneMany n_TransformerAssets); (n_TransformerAssetModel, POneMany n_TransformerAssets)];
(* CIM15/IEC61970/Informative/InfAssets/TransformerObservation.py:23-216 *)
  Cls n_CIM15_IEC61970_Informative_InfAssets_TransformerObservation_TransformerObservation n_TransformerObservation (Some n_CIM15_IEC61970_Core_IdentifiedObject_IdentifiedObject)
    [(n_oilNeutralizationNumber, VStr n_); (n_waterContent, VStr n_); (n_oilLevel, VStr n_); (n_freqResp, VStr n_); (n_oilDielectricStrength, VFloat n_0_0); (n_oilColor, VStr n_); (n_hotSpotTemp, VFloat n_0_0); (n_dga, VStr n_); (n_furfuralDP, VStr n_); (n_oilIFT, VStr n_); (n_bushingTemp, VFloat n_0_0); (n_topOilTemp, VFloat n_0_0); (n_pumpVibration, VStr n_); (n_BushingInsultationPFs, VNone); (n_ProcedureDataSets, VNone); (n_Transformer, VNone); (n_status, VNone); (n_WindingInsulationPFs, VNone); (n_TransformerAsset, VNone)]
    [SAttr n_oilNeutralizationNumber; SAttr n_waterContent; SAttr n_oilLevel; SAttr n_freqResp; SAttr n_oilDielectricStrength; SAttr n_oilColor; SAttr n_hotSpotTemp; SAttr n_dga; SAttr n_furfuralDP; SAttr n_oilIFT; SAttr n_bushingTemp; SAttr n_topOilTemp; SAttr n_pumpVibration; SMany n_BushingInsultationPFs; SMany n_ProcedureDataSets; SOne n_Transformer; SAttr n_status; SMany n_WindingInsulationPFs; SOne n_TransformerAsset]
    true true
    [n_oilNeutralizationNumber; n_waterContent; n_oilLevel; n_freqResp; n_oilDielectricStrength; n_oilColor; n_hotSpotTemp; n_dga; n_furfuralDP; n_oilIFT; n_bushingTemp; n_topOilTemp; n_pumpVibration]
    [(n_oilNeutralizationNumber, VStr n_); (n_waterContent, VStr n_); (n_oilLevel, VStr n_); (n_freqResp, VStr n_); (n_oilDielectricStrength, VFloat n_0_0); (n_oilColor, VStr n_); (n_hotSpotTemp, VFloat n_0_0); (n_dga, VStr n_); (n_furfuralDP, VStr n_); (n_oilIFT, VStr n_); (n_bushingTemp, VFloat n_0_0); (n_topOilTemp, VFloat n_0_0); (n_pumpVibration, VStr n_)]
    []
    [n_BushingInsultationPFs; n_ProcedureDataSets; n_Transformer; n_status; n_WindingInsulationPFs; n_TransformerAsset]
    [n_BushingInsultationPFs; n_ProcedureDataSets; n_WindingInsulationPFs]
    [(n_BushingInsultationPFs, PManyOne n_TransformerObservation); (n_ProcedureDataSets, PManyMany n_TransformerObservations); (n_Transformer, POneMany n_TransformerObservations); (n_WindingInsulationPFs, PManyOne n_TransformerObservation); (n_TransformerAsset, POneMany n_TransformerObservations)];
(* CIM15/IEC61970/Informative/InfAssets/UndergroundStructure.py:23-54 *)
  Cls n_CIM15_IEC61970_Informative_InfAssets_UndergroundStructure_UndergroundStructure n_UndergroundStructure (Some n_CIM15_IEC61970_Informative_InfAssets_Structure_Structure)
    [(n_hasVentilation, VBool false); (n_kind, VStr n_trench); (n_material, VStr n_); (n_sealingWarrantyExpiresDate, VStr n_)]
    [SAttr n_hasVentilation; SAttr n_kind; SAttr n_material; SAttr n_sealingWarrantyExpiresDate]
    true true
    [n_hasVentilation; n_kind; n_material; n_sealingWarrantyExpiresDate]
    [(n_hasVentilation, VBool false); (n_kind, VStr n_trench); (n_material, VStr n_); (n_sealingWarrantyExpiresDate, VStr n_)]
    [(n_kind, n_UndergroundStructureKind)]
    []
    []
    [];
(* CIM15/IEC61970/Informative/InfAssets/Vehicle.py:23-70 *)
  Cls n_CIM15_IEC61970_Informative_InfAssets_Vehicle_Vehicle n_Vehicle (Some n_CIM15_IEC61968_Assets_Asset_Asset)
    [(n_odometerReading, VFloat n_0_0); (n_odometerReadDateTime, VStr n_); (n_usageKind, VStr n_crew); (n_Crew, VNone)]
    [SAttr n_odometerReading; SAttr n_odometerReadDateTime; SAttr n_usageKind; SOne n_Crew]
    true true
    [n_odometerReading; n_odometerReadDateTime; n_usageKind]
    [(n_odometerReading, VFloat n_0_0); (n_odometerReadDateTime, VStr n_); (n_usageKind, VStr n_crew)]
    [(n_usageKind, n_VehicleUsageKind)]
    [n_Crew]
    []
    [(n_Crew, POneMany n_Vehicles)];
(* CIM15/IEC61970/Informative/InfAssets/WindingInsulation.py:23-135 *)
  Cls n_CIM15_IEC61970_Informative_InfAssets_WindingInsulation_WindingInsulation n_WindingInsulation (Some n_CIM15_IEC61970_Core_IdentifiedObject_IdentifiedObject)
    [(n_insulationPFStatus, VStr n_); (n_insulationResistance, VStr n_); (n_leakageReactance, VFloat n_0_0); (n_Ground, VNone); (n_TransformerObservation, VNone); (n_ToWinding, VNone); (n_FromWinding, VNone); (n_status, VNone)]
    [SAttr n_insulationPFStatus; SAttr n_insulationResistance; SAttr n_leakageReactance; SOne n_Ground; SOne n_TransformerObservation; SOne n_ToWinding; SOne n_FromWinding; SAttr n_status]
    true true
    [n_insulationPFStatus; n_insulationResistance; n_leakageReactance]
    [(n_insulationPFStatus, VStr n_); (n_insulationResistance, VStr n_); (n_leakageReactance, VFloat n_0_0)]
    []
    [n_Ground; n_TransformerObservation; n_ToWinding; n_FromWinding; n_status]
    []
    [(n_Ground, POneMany n_WindingInsulations); (n_TransformerObservation, POneMany n_WindingInsulationPFs); (n_ToWinding, POneMany n_ToWindingInsulations); (n_FromWinding, POneMany n_FromWindingInsulations)];
(* CIM15/IEC61970/Informative/InfAssets/WorkEquipment.py:23-83 *)
  Cls n_CIM15_IEC61970_Informative_InfAssets_WorkEquipment_WorkEquipment n_WorkEquipment (Some n_CIM15_IEC61968_Assets_Asset_Asset)
    [(n_Crew, VNone); (n_Usages, VNone)]
    [SOne n_Crew; SMany n_Usages]
    true true
    []
    []
    []
    [n_Crew; n_Usages]
    [n_Usages]
    [(n_Crew, POneMany n_WorkEquipmentAssets); (n_Usages, PManyOne n_WorkEquipmentAsset)];
(* CIM15/IEC61970/Informative/InfCommon/Bank.py:23-76 *)
  Cls n_CIM15_IEC61970_Informative_InfCommon_Bank_Bank n_Bank (Some n_CIM15_IEC61968_Common_Organisation_Organisation)
    [(n_bic, VStr n_); (n_iban, VStr n_); (n_branchCode, VStr n_); (n_BankAccounts, VNone)]
    [SAttr n_bic; SAttr n_iban; SAttr n_branchCode; SMany n_BankAccounts]
    true true
    [n_bic; n_iban; n_branchCode]
    [(n_bic, VStr n_); (n_iban, VStr n_); (n_branchCode, VStr n_)]
    []
    [n_BankAccounts]
    [n_BankAccounts]
    [(n_BankAccounts, PManyOne n_Bank)];
(* CIM15/IEC61970/Informative/InfCommon/BankAccount.py:23-84 *)
  Cls n_CIM15_IEC61970_Informative_InfCommon_BankAccount_BankAccount n_BankAccount (Some n_CIM15_IEC61968_Common_Document_Document)
    [(n_accountNumber, VStr n_); (n_ServiceSupplier, VNone); (n_Bank, VNone)]
    [SAttr n_accountNumber; SOne n_ServiceSupplier; SOne n_Bank]
    true true
    [n_accountNumber]
    [(n_accountNumber, VStr n_)]
    []
    [n_ServiceSupplier; n_Bank]
    []
    [(n_ServiceSupplier, POneMany n_BankAccounts); (n_Bank, POneMany n_BankAccounts)];
(* CIM15/IEC61970/Informative/InfCommon/BusinessPlan.py:23-38 *)
  Cls n_CIM15_IEC61970_Informative_InfCommon_BusinessPlan_BusinessPlan n_BusinessPlan (Some n_CIM15_IEC61968_Common_Document_Document)
    []
    []
    true true
    []
    []
    []
    []
    []
    [];
(* CIM15/IEC61970/Informative/InfCommon/BusinessRole.py:23-78 *)
  Cls n_CIM15_IEC61970_Informative_InfCommon_BusinessRole_BusinessRole n_BusinessRole (Some n_CIM15_IEC61970_Core_IdentifiedObject_IdentifiedObject)
    [(n_category, VStr n_); (n_Organisations, VNone); (n_status, VNone)]
    [SAttr n_category; SMany n_Organisations; SAttr n_status]
    true true
    [n_category]
    [(n_category, VStr n_)]
    []
    [n_Organisations; n_status]
    [n_Organisations]
    [(n_Organisations, PManyMany n_BusinessRoles)];
(* CIM15/IEC61970/Informative/InfCommon/Craft.py:23-140 *)
  Cls n_CIM15_IEC61970_Informative_InfCommon_Craft_Craft n_Craft (Some n_CIM15_IEC61970_Core_IdentifiedObject_IdentifiedObject)
    [(n_category, VStr n_); (n_Skills, VNone); (n_ErpPersons, VNone); (n_status, VNone); (n_Capabilities, VNone)]
    [SAttr n_category; SMany n_Skills; SMany n_ErpPersons; SAttr n_status; SMany n_Capabilities]
    true true
    [n_category]
    [(n_category, VStr n_)]
    []
    [n_Skills; n_ErpPersons; n_status; n_Capabilities]
    [n_Skills; n_ErpPersons; n_Capabilities]
    [(n_Skills, PManyMany n_Crafts); (n_ErpPersons, PManyMany n_Crafts); (n_Capabilities, PManyMany n_Crafts)];
(* CIM15/IEC61970/Informative/InfCommon/DocDocRole.py:23-78 *)
  Cls n_CIM15_IEC61970_Informative_InfCommon_DocDocRole_DocDocRole n_DocDocRole (Some n_CIM15_IEC61970_Informative_InfCommon_Role_Role)
    [(n_ToDocument, VNone); (n_FromDocument, VNone)]
    [SOne n_ToDocument; SOne n_FromDocument]
    true true
    []
    []
    []
    [n_ToDocument; n_FromDocument]
    []
    [(n_ToDocument, POneMany n_FromDocumentRoles); (n_FromDocument, POneMany n_ToDocumentRoles)];
(* CIM15/IEC61970/Informative/InfCommon/DocPsrRole.py:23-78 *)
  Cls n_CIM15_IEC61970_Informative_InfCommon_DocPsrRole_DocPsrRole n_DocPsrRole (Some n_CIM15_IEC61970_Informative_InfCommon_Role_Role)
    [(n_Document, VNone); (n_PowerSystemResource, VNone)]
    [SOne n_Document; SOne n_PowerSystemResource]
    true true
    []
    []
    []
    [n_Document; n_PowerSystemResource]
    []
    [(n_Document, POneMany n_PowerSystemResourceRoles); (n_PowerSystemResource, POneMany n_DocumentRoles)];
(* CIM15/IEC61970/Informative/InfCommon/Ratio.py:22-44 *)
  Cls n_CIM15_IEC61970_Informative_InfCommon_Ratio_Ratio n_Ratio None
    [(n_numerator, VFloat n_0_0); (n_denominator, VFloat n_0_0)]
    [SAttr n_numerator; SAttr n_denominator]
    false true
    [n_numerator; n_denominator]
    [(n_numerator, VFloat n_0_0); (n_denominator, VFloat n_0_0)]
    []
    []
    []
    [];
(* CIM15/IEC61970/Informative/InfCommon/Role.py:23-47 *)
  Cls n_CIM15_IEC61970_Informative_InfCommon_Role_Role n_Role (Some n_CIM15_IEC61970_Core_IdentifiedObject_IdentifiedObject)
    [(n_category, VStr n_); (n_status, VNone)]
    [SAttr n_category; SAttr n_status]
    true true
    [n_category]
    [(n_category, VStr n_)]
    []
    [n_status]
    []
    [];
(* CIM15/IEC61970/Informative/InfCommon/ScheduleParameterInfo.py:23-131 *)
  Cls n_CIM15_IEC61970_Informative_InfCommon_ScheduleParameterInfo_ScheduleParameterInfo n_ScheduleParameterInfo (Some n_CIM15_IEC61970_Core_IdentifiedObject_IdentifiedObject)
    [(n_ForInspectionDataSet, VNone); (n_requestedWindow, VNone); (n_Documents, VNone); (n_estimatedWindow, VNone); (n_ScheduledEvents, VNone); (n_status, VNone)]
    [SOne n_ForInspectionDataSet; SAttr n_requestedWindow; SMany n_Documents; SAttr n_estimatedWindow; SMany n_ScheduledEvents; SAttr n_status]
    true true
    []
    []
    []
    [n_ForInspectionDataSet; n_requestedWindow; n_Documents; n_estimatedWindow; n_ScheduledEvents; n_status]
    [n_Documents; n_ScheduledEvents]
    [(n_ForInspectionDataSet, POneMany n_AccordingToSchedules); (n_Documents, PManyMany n_ScheduleParameterInfos); (n_ScheduledEvents, PManyOne n_ScheduleParameterInfo)];
(* CIM15/IEC61970/Informative/InfCommon/ScheduledEvent.py:23-161 *)
  Cls n_CIM15_IEC61970_Informative_InfCommon_ScheduledEvent_ScheduledEvent n_ScheduledEvent (Some n_CIM15_IEC61970_Core_IdentifiedObject_IdentifiedObject)
    [(n_duration, VFloat n_0_0); (n_category, VStr n_); (n_Document, VNone); (n_ActivityRecord, VNone); (n_status, VNone); (n_TimePoint, VNone); (n_ScheduleParameterInfo, VNone); (n_Assets, VNone)]
    [SAttr n_duration; SAttr n_category; SOne n_Document; SOne n_ActivityRecord; SAttr n_status; SOne n_TimePoint; SOne n_ScheduleParameterInfo; SMany n_Assets]
    true true
    [n_duration; n_category]
    [(n_duration, VFloat n_0_0); (n_category, VStr n_)]
    []
    [n_Document; n_ActivityRecord; n_status; n_TimePoint; n_ScheduleParameterInfo; n_Assets]
    [n_Assets]
    [(n_Document, POneMany n_ScheduledEvents); (n_ActivityRecord, POneOne n_ScheduledEvent); (n_TimePoint, POneMany n_ScheduledEvents); (n_ScheduleParameterInfo, POneMany n_ScheduledEvents); (n_Assets, PManyMany n_ScheduledEvents)];
(* CIM15/IEC61970/Informative/InfCommon/Skill.py:23-134 *)
  Cls n_CIM15_IEC61970_Informative_InfCommon_Skill_Skill n_Skill (Some n_CIM15_IEC61968_Common_Document_Document)
    [(n_effectiveDateTime, VStr n_); (n_level, VStr n_apprentice); (n_Crafts, VNone); (n_ErpPerson, VNone); (n_QualificationRequirements, VNone); (n_certificationPeriod, VNone)]
    [SAttr n_effectiveDateTime; SAttr n_level; SMany n_Crafts; SOne n_ErpPerson; SMany n_QualificationRequirements; SAttr n_certificationPeriod]
    true true
    [n_effectiveDateTime; n_level]
    [(n_effectiveDateTime, VStr n_); (n_level, VStr n_apprentice)]
    [(n_level, n_SkillLevelKind)]
    [n_Crafts; n_ErpPerson; n_QualificationRequirements; n_certificationPeriod]
    [n_Crafts; n_QualificationRequirements]
    [(n_Crafts, PManyMany n_Skills); (n_ErpPerson, POneMany n_Skills); (n_QualificationRequirements, PManyMany n_Skills)];
(* CIM15/IEC61970/Informative/InfCore/ModelingAuthority.py:23-64 *)
  Cls n_CIM15_IEC61970_Informative_InfCore_ModelingAuthority_ModelingAuthority n_ModelingAuthority (Some n_CIM15_IEC61970_Core_IdentifiedObject_IdentifiedObject)
    [(n_ModelingAuthoritySets, VNone)]
    [SMany n_ModelingAuthoritySets]
    true true
    []
    []
    []
    [n_ModelingAuthoritySets]
    [n_ModelingAuthoritySets]
    [(n_ModelingAuthoritySets, PManyOne n_ModelingAuthority)];
(* CIM15/IEC61970/Informative/InfCore/ModelingAuthoritySet.py:23-85 *)
  Cls n_CIM15_IEC61970_Informative_InfCore_ModelingAuthoritySet_ModelingAuthoritySet n_ModelingAuthoritySet (Some n_CIM15_IEC61970_Core_IdentifiedObject_IdentifiedObject)
    [(n_IdentifiedObjects, VNone); (n_ModelingAuthority, VNone)]
    [SMany n_IdentifiedObjects; SOne n_ModelingAuthority]
    true true
    []
    []
    []
    [n_IdentifiedObjects; n_ModelingAuthority]
    [n_IdentifiedObjects]
    [(n_IdentifiedObjects, PManyOne n_ModelingAuthoritySet); (n_ModelingAuthority, POneMany n_ModelingAuthoritySets)];
(* CIM15/IEC61970/Informative/InfCustomers/ComplianceEvent.py:23-42 *)
  Cls n_CIM15_IEC61970_Informative_InfCustomers_ComplianceEvent_ComplianceEvent n_ComplianceEvent (Some n_CIM15_IEC61968_Common_ActivityRecord_ActivityRecord)
    [(n_deadline, VStr n_)]
    [SAttr n_deadline]
    true true
    [n_deadline]
    [(n_deadline, VStr n_)]
    []
    []
    []
    [];
(* CIM15/IEC61970/Informative/InfCustomers/CustomerBillingInfo.py:23-121 *)
  Cls n_CIM15_IEC61970_Informative_InfCustomers_CustomerBillingInfo_CustomerBillingInfo n_CustomerBillingInfo (Some n_CIM15_IEC61968_Common_Document_Document)
    [(n_pymtPlanType, VStr n_); (n_kind, VStr n_consolidatedUdc); (n_pymtPlanAmt, VFloat n_0_0); (n_lastPaymentAmt, VFloat n_0_0); (n_dueDate, VStr n_); (n_outBalance, VFloat n_0_0); (n_lastPaymentDate, VStr n_); (n_billingDate, VStr n_); (n_ErpInvoiceLineItems, VNone); (n_CustomerAccount, VNone)]
    [SAttr n_pymtPlanType; SAttr n_kind; SAttr n_pymtPlanAmt; SAttr n_lastPaymentAmt; SAttr n_dueDate; SAttr n_outBalance; SAttr n_lastPaymentDate; SAttr n_billingDate; SMany n_ErpInvoiceLineItems; SOne n_CustomerAccount]
    true true
    [n_pymtPlanType; n_kind; n_pymtPlanAmt; n_lastPaymentAmt; n_dueDate; n_outBalance; n_lastPaymentDate; n_billingDate]
    [(n_pymtPlanType, VStr n_); (n_kind, VStr n_consolidatedUdc); (n_pymtPlanAmt, VFloat n_0_0); (n_lastPaymentAmt, VFloat n_0_0); (n_dueDate, VStr n_); (n_outBalance, VFloat n_0_0); (n_lastPaymentDate, VStr n_); (n_billingDate, VStr n_)]
    [(n_kind, n_CustomerBillingKind)]
    [n_ErpInvoiceLineItems; n_CustomerAccount]
    [n_ErpInvoiceLineItems]
    [(n_ErpInvoiceLineItems, PManyMany n_CustomerBillingInfos); (n_CustomerAccount, POneMany n_CustomerBillingInfos)];
(* CIM15/IEC61970/Informative/InfCustomers/ExternalCustomerAgreement.py:23-38 *)
  Cls n_CIM15_IEC61970_Informative_InfCustomers_ExternalCustomerAgreement_ExternalCustomerAgreement n_ExternalCustomerAgreement (Some n_CIM15_IEC61968_Common_Agreement_Agreement)
    []
    []
    true true
    []
    []
    []
    []
    []
    [];
(* CIM15/IEC61970/Informative/InfCustomers/OutageHistory.py:23-64 *)
  Cls n_CIM15_IEC61970_Informative_InfCustomers_OutageHistory_OutageHistory n_OutageHistory (Some n_CIM15_IEC61968_Common_Document_Document)
    [(n_OutageReports, VNone)]
    [SMany n_OutageReports]
    true true
    []
    []
    []
    [n_OutageReports]
    [n_OutageReports]
    [(n_OutageReports, PManyOne n_OutageHistory)];
(* CIM15/IEC61970/Informative/InfCustomers/PowerQualityPricing.py:23-74 *)
  Cls n_CIM15_IEC61970_Informative_InfCustomers_PowerQualityPricing_PowerQualityPricing n_PowerQualityPricing (Some n_CIM15_IEC61968_Common_Document_Document)
    [(n_normalLowVoltLimit, VFloat n_0_0); (n_valueUninterruptedServiceEnergy, VFloat n_0_0); (n_voltLimitViolCost, VFloat n_0_0); (n_normalHighVoltLimit, VFloat n_0_0); (n_emergencyHighVoltLimit, VFloat n_0_0); (n_emergencyLowVoltLimit, VFloat n_0_0); (n_powerFactorMin, VFloat n_0_0); (n_voltImbalanceViolCost, VFloat n_0_0); (n_valueUninterruptedServiceP, VFloat n_0_0)]
    [SAttr n_normalLowVoltLimit; SAttr n_valueUninterruptedServiceEnergy; SAttr n_voltLimitViolCost; SAttr n_normalHighVoltLimit; SAttr n_emergencyHighVoltLimit; SAttr n_emergencyLowVoltLimit; SAttr n_powerFactorMin; SAttr n_voltImbalanceViolCost; SAttr n_valueUninterruptedServiceP]
    true true
    [n_normalLowVoltLimit; n_valueUninterruptedServiceEnergy; n_voltLimitViolCost; n_normalHighVoltLimit; n_emergencyHighVoltLimit; n_emergencyLowVoltLimit; n_powerFactorMin; n_voltImbalanceViolCost; n_valueUninterruptedServiceP]
    [(n_normalLowVoltLimit, VFloat n_0_0); (n_valueUninterruptedServiceEnergy, VFloat n_0_0); (n_voltLimitViolCost, VFloat n_0_0); (n_normalHighVoltLimit, VFloat n_0_0); (n_emergencyHighVoltLimit, VFloat n_0_0); (n_emergencyLowVoltLimit, VFloat n_0_0); (n_powerFactorMin, VFloat n_0_0); (n_voltImbalanceViolCost, VFloat n_0_0); (n_valueUninterruptedServiceP, VFloat n_0_0)]
    []
    []
    []
    [];
(* CIM15/IEC61970/Informative/InfCustomers/ServiceGuarantee.py:23-56 *)
  Cls n_CIM15_IEC61970_Informative_InfCustomers_ServiceGuarantee_ServiceGuarantee n_ServiceGuarantee (Some n_CIM15_IEC61968_Common_Document_Document)
    [(n_automaticPay, VBool false); (n_payAmount, VFloat n_0_0); (n_serviceRequirement, VStr n_); (n_applicationPeriod, VNone)]
    [SAttr n_automaticPay; SAttr n_payAmount; SAttr n_serviceRequirement; SAttr n_applicationPeriod]
    true true
    [n_automaticPay; n_payAmount; n_serviceRequirement]
    [(n_automaticPay, VBool false); (n_payAmount, VFloat n_0_0); (n_serviceRequirement, VStr n_)]
    []
    [n_applicationPeriod]
    []
    [];
(* CIM15/IEC61970/Informative/InfCustomers/StandardIndustryCode.py:23-67 *)
  Cls n_CIM15_IEC61970_Informative_InfCustomers_StandardIndustryCode_StandardIndustryCode n_StandardIndustryCode (Some n_CIM15_IEC61968_Common_Document_Document)
    [(n_code, VStr n_); (n_CustomerAgreements, VNone)]
    [SAttr n_code; SMany n_CustomerAgreements]
    true true
    [n_code]
    [(n_code, VStr n_)]
    []
    [n_CustomerAgreements]
    [n_CustomerAgreements]
    [(n_CustomerAgreements, PManyOne n_StandardIndustryCode)];
(* CIM15/IEC61970/Informative/InfCustomers/SubscribePowerCurve.py:23-38 *)
  Cls n_CIM15_IEC61970_Informative_InfCustomers_SubscribePowerCurve_SubscribePowerCurve n_SubscribePowerCurve (Some n_CIM15_IEC61970_Core_Curve_Curve)
    []
    []
    true true
    []
    []
    []
    []
    []
    [];
(* CIM15/IEC61970/Informative/InfCustomers/WorkBillingInfo.py:23-142 *)
  Cls n_CIM15_IEC61970_Informative_InfCustomers_WorkBillingInfo_WorkBillingInfo n_WorkBillingInfo (Some n_CIM15_IEC61968_Common_Document_Document)
    [(n_issueDateTime, VStr n_); (n_deposit, VFloat n_0_0); (n_costEstimate, VFloat n_0_0); (n_discount, VFloat n_0_0); (n_dueDateTime, VStr n_); (n_receivedDateTime, VStr n_); (n_workPrice, VFloat n_0_0); (n_Works, VNone); (n_CustomerAccount, VNone); (n_ErpLineItems, VNone)]
    [SAttr n_issueDateTime; SAttr n_deposit; SAttr n_costEstimate; SAttr n_discount; SAttr n_dueDateTime; SAttr n_receivedDateTime; SAttr n_workPrice; SMany n_Works; SOne n_CustomerAccount; SMany n_ErpLineItems]
    true true
    [n_issueDateTime; n_deposit; n_costEstimate; n_discount; n_dueDateTime; n_receivedDateTime; n_workPrice]
    [(n_issueDateTime, VStr n_); (n_deposit, VFloat n_0_0); (n_costEstimate, VFloat n_0_0); (n_discount, VFloat n_0_0); (n_dueDateTime, VStr n_); (n_receivedDateTime, VStr n_); (n_workPrice, VFloat n_0_0)]
    []
    [n_Works; n_CustomerAccount; n_ErpLineItems]
    [n_Works; n_ErpLineItems]
    [(n_Works, PManyOne n_WorkBillingInfo); (n_CustomerAccount, POneMany n_WorkBillingInfos); (n_ErpLineItems, PManyMany n_WorkBillingInfos)];
(* CIM15/IEC61970/Informative/InfERPSupport/DocErpPersonRole.py:23-78 *)
  Cls n_CIM15_IEC61970_Informative_InfERPSupport_DocErpPersonRole_DocErpPersonRole n_DocErpPersonRole (Some n_CIM15_IEC61970_Informative_InfCommon_Role_Role)
    [(n_Document, VNone); (n_ErpPerson, VNone)]
    [SOne n_Document; SOne n_ErpPerson]
    true true
    []
    []
    []
    [n_Document; n_ErpPerson]
    []
    [(n_Document, POneMany n_ErpPersonRoles); (n_ErpPerson, POneMany n_DocumentRoles)];
(* CIM15/IEC61970/Informative/InfERPSupport/DocOrgRole.py:23-78 *)
  Cls n_CIM15_IEC61970_Informative_InfERPSupport_DocOrgRole_DocOrgRole n_DocOrgRole (Some n_CIM15_IEC61970_Informative_InfCommon_Role_Role)
    [(n_Document, VNone); (n_ErpOrganisation, VNone)]
    [SOne n_Document; SOne n_ErpOrganisation]
    true true
    []
    []
    []
    [n_Document; n_ErpOrganisation]
    []
    [(n_Document, POneMany n_ErpOrganisationRoles); (n_ErpOrganisation, POneMany n_DocumentRoles)];
(* CIM15/IEC61970/Informative/InfERPSupport/ErpBOM.py:23-83 *)
  Cls n_CIM15_IEC61970_Informative_InfERPSupport_ErpBOM_ErpBOM n_ErpBOM (Some n_CIM15_IEC61968_Common_Document_Document)
    [(n_Design, VNone); (n_ErpBomItemDatas, VNone)]
    [SOne n_Design; SMany n_ErpBomItemDatas]
    true true
    []
    []
    []
    [n_Design; n_ErpBomItemDatas]
    [n_ErpBomItemDatas]
    [(n_Design, POneMany n_ErpBOMs); (n_ErpBomItemDatas, PManyOne n_ErpBOM)];
(* CIM15/IEC61970/Informative/InfERPSupport/ErpBankAccount.py:23-42 *)
  Cls n_CIM15_IEC61970_Informative_InfERPSupport_ErpBankAccount_ErpBankAccount n_ErpBankAccount (Some n_CIM15_IEC61970_Informative_InfCommon_BankAccount_BankAccount)
    [(n_bankABA, VStr n_)]
    [SAttr n_bankABA]
    true true
    [n_bankABA]
    [(n_bankABA, VStr n_)]
    []
    []
    []
    [];
(* CIM15/IEC61970/Informative/InfERPSupport/ErpBomItemData.py:23-98 *)
  Cls n_CIM15_IEC61970_Informative_InfERPSupport_ErpBomItemData_ErpBomItemData n_ErpBomItemData (Some n_CIM15_IEC61970_Core_IdentifiedObject_IdentifiedObject)
    [(n_TypeAsset, VNone); (n_ErpBOM, VNone); (n_DesignLocation, VNone)]
    [SOne n_TypeAsset; SOne n_ErpBOM; SOne n_DesignLocation]
    true true
    []
    []
    []
    [n_TypeAsset; n_ErpBOM; n_DesignLocation]
    []
    [(n_TypeAsset, POneMany n_ErpBomItemDatas); (n_ErpBOM, POneMany n_ErpBomItemDatas); (n_DesignLocation, POneMany n_ErpBomItemDatas)];
(* CIM15/IEC61970/Informative/InfERPSupport/ErpChartOfAccounts.py:23-38 *)
  Cls n_CIM15_IEC61970_Informative_InfERPSupport_ErpChartOfAccounts_ErpChartOfAccounts n_ErpChartOfAccounts (Some n_CIM15_IEC61968_Common_Document_Document)
    []
    []
    true true
    []
    []
    []
    []
    []
    [];
(* CIM15/IEC61970/Informative/InfERPSupport/ErpCompetency.py:23-63 *)
  Cls n_CIM15_IEC61970_Informative_InfERPSupport_ErpCompetency_ErpCompetency n_ErpCompetency (Some n_CIM15_IEC61970_Core_IdentifiedObject_IdentifiedObject)
    [(n_ErpPersons, VNone)]
    [SMany n_ErpPersons]
    true true
    []
    []
    []
    [n_ErpPersons]
    [n_ErpPersons]
    [(n_ErpPersons, PManyOne n_ErpCompetency)];
(* CIM15/IEC61970/Informative/InfERPSupport/ErpEngChangeOrder.py:23-38 *)
  Cls n_CIM15_IEC61970_Informative_InfERPSupport_ErpEngChangeOrder_ErpEngChangeOrder n_ErpEngChangeOrder (Some n_CIM15_IEC61968_Common_Document_Document)
    []
    []
    true true
    []
    []
    []
    []
    []
    [];
(* CIM15/IEC61970/Informative/InfERPSupport/ErpInventory.py:23-62 *)
  Cls n_CIM15_IEC61970_Informative_InfERPSupport_ErpInventory_ErpInventory n_ErpInventory (Some n_CIM15_IEC61970_Core_IdentifiedObject_IdentifiedObject)
    [(n_Asset, VNone); (n_status, VNone)]
    [SOne n_Asset; SAttr n_status]
    true true
    []
    []
    []
    [n_Asset; n_status]
    []
    [(n_Asset, POneOne n_ErpInventory)];
(* CIM15/IEC61970/Informative/InfERPSupport/ErpInventoryCount.py:23-83 *)
  Cls n_CIM15_IEC61970_Informative_InfERPSupport_ErpInventoryCount_ErpInventoryCount n_ErpInventoryCount (Some n_CIM15_IEC61970_Core_IdentifiedObject_IdentifiedObject)
    [(n_status, VNone); (n_MaterialItem, VNone); (n_AssetModel, VNone)]
    [SAttr n_status; SOne n_MaterialItem; SOne n_AssetModel]
    true true
    []
    []
    []
    [n_status; n_MaterialItem; n_AssetModel]
    []
    [(n_MaterialItem, POneMany n_ErpInventoryCounts); (n_AssetModel, POneMany n_ErpInventoryCounts)];
(* CIM15/IEC61970/Informative/InfERPSupport/ErpInvoice.py:23-119 *)
  Cls n_CIM15_IEC61970_Informative_InfERPSupport_ErpInvoice_ErpInvoice n_ErpInvoice (Some n_CIM15_IEC61968_Common_Document_Document)
    [(n_mailedDate, VStr n_); (n_transactionDateTime, VStr n_); (n_amount, VFloat n_0_0); (n_dueDate, VStr n_); (n_billMediaKind, VStr n_other); (n_referenceNumber, VStr n_); (n_kind, VStr n_sales); (n_transferType, VStr n_); (n_proForma, VBool false); (n_ErpInvoiceLineItems, VNone); (n_CustomerAccount, VNone)]
    [SAttr n_mailedDate; SAttr n_transactionDateTime; SAttr n_amount; SAttr n_dueDate; SAttr n_billMediaKind; SAttr n_referenceNumber; SAttr n_kind; SAttr n_transferType; SAttr n_proForma; SMany n_ErpInvoiceLineItems; SOne n_CustomerAccount]
    true true
    [n_mailedDate; n_transactionDateTime; n_amount; n_dueDate; n_billMediaKind; n_referenceNumber; n_kind; n_transferType; n_proForma]
    [(n_mailedDate, VStr n_); (n_transactionDateTime, VStr n_); (n_amount, VFloat n_0_0); (n_dueDate, VStr n_); (n_billMediaKind, VStr n_other); (n_referenceNumber, VStr n_); (n_kind, VStr n_sales); (n_transferType, VStr n_); (n_proForma, VBool false)]
    [(n_billMediaKind, n_BillMediaKind); (n_kind, n_ErpInvoiceKind)]
    [n_ErpInvoiceLineItems; n_CustomerAccount]
    [n_ErpInvoiceLineItems]
    [(n_ErpInvoiceLineItems, PManyOne n_ErpInvoice); (n_CustomerAccount, POneMany n_ErpInvoicees)];
(* CIM15/IEC61970/Informative/InfERPSupport/ErpInvoiceLineItem.py:23-367 *)
  Cls n_CIM15_IEC61970_Informative_InfERPSupport_ErpInvoiceLineItem_ErpInvoiceLineItem n_ErpInvoiceLineItem (Some n_CIM15_IEC61968_Common_Document_Document)
    [(n_lineNumber, VStr n_); (n_glDateTime, VStr n_); (n_lineAmount, VFloat n_0_0); (n_netAmount, VFloat n_0_0); (n_kind, VStr n_other); (n_lineVersion, VStr n_); (n_glAccount, VStr n_); (n_previousAmount, VFloat n_0_0); (n_ErpPayments, VNone); (n_ContainerErpInvoiceLineItem, VNone); (n_WorkBillingInfos, VNone); (n_ErpQuoteLineItem, VNone); (n_UserAttributes, VNone); (n_ErpRecDelvLineItem, VNone); (n_ErpPayableLineItem, VNone); (n_ComponentErpInvoiceLineItems, VNone); (n_billPeriod, VNone); (n_ErpInvoice, VNone); (n_CustomerBillingInfos, VNone); (n_ErpRecLineItem, VNone); (n_ErpJournalEntries, VNone)]
    [SAttr n_lineNumber; SAttr n_glDateTime; SAttr n_lineAmount; SAttr n_netAmount; SAttr n_kind; SAttr n_lineVersion; SAttr n_glAccount; SAttr n_previousAmount; SMany n_ErpPayments; SOne n_ContainerErpInvoiceLineItem; SMany n_WorkBillingInfos; SOne n_ErpQuoteLineItem; SMany n_UserAttributes; SOne n_ErpRecDelvLineItem; SOne n_ErpPayableLineItem; SMany n_ComponentErpInvoiceLineItems; SAttr n_billPeriod; SOne n_ErpInvoice; SMany n_CustomerBillingInfos; SOne n_ErpRecLineItem; SMany n_ErpJournalEntries]
    true true
    [n_lineNumber; n_glDateTime; n_lineAmount; n_netAmount; n_kind; n_lineVersion; n_glAccount; n_previousAmount]
    [(n_lineNumber, VStr n_); (n_glDateTime, VStr n_); (n_lineAmount, VFloat n_0_0); (n_netAmount, VFloat n_0_0); (n_kind, VStr n_other); (n_lineVersion, VStr n_); (n_glAccount, VStr n_); (n_previousAmount, VFloat n_0_0)]
    [(n_kind, n_ErpInvoiceLineItemKind)]
    [n_ErpPayments; n_ContainerErpInvoiceLineItem; n_WorkBillingInfos; n_ErpQuoteLineItem; n_UserAttributes; n_ErpRecDelvLineItem; n_ErpPayableLineItem; n_ComponentErpInvoiceLineItems; n_billPeriod; n_ErpInvoice; n_CustomerBillingInfos; n_ErpRecLineItem; n_ErpJournalEntries]
    [n_ErpPayments; n_WorkBillingInfos; n_UserAttributes; n_ComponentErpInvoiceLineItems; n_CustomerBillingInfos; n_ErpJournalEntries]
    [(n_ErpPayments, PManyMany n_ErpInvoiceLineItems); (n_ContainerErpInvoiceLineItem, POneMany n_ComponentErpInvoiceLineItems); (n_WorkBillingInfos, PManyMany n_ErpLineItems); (n_ErpQuoteLineItem, POneOne n_ErpInvoiceLineItem); (n_UserAttributes, PManyMany n_ErpInvoiceLineItems); (n_ErpRecDelvLineItem, POneOne n_ErpInvoiceLineItem); (n_ErpPayableLineItem, POneOne n_ErpInvoiceLineItem); (n_ComponentErpInvoiceLineItems, PManyOne n_ContainerErpInvoiceLineItem); (n_ErpInvoice, POneMany n_ErpInvoiceLineItems); (n_CustomerBillingInfos, PManyMany n_ErpInvoiceLineItems); (n_ErpRecLineItem, POneOne n_ErpInvoiceLineItem); (n_ErpJournalEntries, PManyOne n_ErpInvoiceLineItem)];
(* CIM15/IEC61970/Informative/InfERPSupport/ErpIssueInventory.py:23-83 *)
  Cls n_CIM15_IEC61970_Informative_InfERPSupport_ErpIssueInventory_ErpIssueInventory n_ErpIssueInventory (Some n_CIM15_IEC61970_Core_IdentifiedObject_IdentifiedObject)
    [(n_TypeAsset, VNone); (n_status, VNone); (n_TypeMaterial, VNone)]
    [SOne n_TypeAsset; SAttr n_status; SOne n_TypeMaterial]
    true true
    []
    []
    []
    [n_TypeAsset; n_status; n_TypeMaterial]
    []
    [(n_TypeAsset, POneMany n_ErpInventoryIssues); (n_TypeMaterial, POneMany n_ErpIssueInventories)];
(* CIM15/IEC61970/Informative/InfERPSupport/ErpItemMaster.py:23-62 *)
  Cls n_CIM15_IEC61970_Informative_InfERPSupport_ErpItemMaster_ErpItemMaster n_ErpItemMaster (Some n_CIM15_IEC61970_Core_IdentifiedObject_IdentifiedObject)
    [(n_Asset, VNone); (n_status, VNone)]
    [SOne n_Asset; SAttr n_status]
    true true
    []
    []
    []
    [n_Asset; n_status]
    []
    [(n_Asset, POneOne n_ErpItemMaster)];
(* CIM15/IEC61970/Informative/InfERPSupport/ErpJournal.py:23-63 *)
  Cls n_CIM15_IEC61970_Informative_InfERPSupport_ErpJournal_ErpJournal n_ErpJournal (Some n_CIM15_IEC61968_Common_Document_Document)
    [(n_ErpJournalEntries, VNone)]
    [SMany n_ErpJournalEntries]
    true true
    []
    []
    []
    [n_ErpJournalEntries]
    [n_ErpJournalEntries]
    [(n_ErpJournalEntries, PManyOne n_ErpJournal)];
(* CIM15/IEC61970/Informative/InfERPSupport/ErpJournalEntry.py:23-215 *)
  Cls n_CIM15_IEC61970_Informative_InfERPSupport_ErpJournalEntry_ErpJournalEntry n_ErpJournalEntry (Some n_CIM15_IEC61970_Core_IdentifiedObject_IdentifiedObject)
    [(n_transactionDateTime, VStr n_); (n_sourceID, VStr n_); (n_postingDateTime, VStr n_); (n_amount, VFloat n_0_0); (n_accountID, VStr n_); (n_status, VNone); (n_ErpPayableLineItems, VNone); (n_ErpInvoiceLineItem, VNone); (n_ErpRecLineItems, VNone); (n_ErpLedgerEntry, VNone); (n_CostTypes, VNone); (n_ErpJournal, VNone)]
    [SAttr n_transactionDateTime; SAttr n_sourceID; SAttr n_postingDateTime; SAttr n_amount; SAttr n_accountID; SAttr n_status; SMany n_ErpPayableLineItems; SOne n_ErpInvoiceLineItem; SMany n_ErpRecLineItems; SOne n_ErpLedgerEntry; SMany n_CostTypes; SOne n_ErpJournal]
    true true
    [n_transactionDateTime; n_sourceID; n_postingDateTime; n_amount; n_accountID]
    [(n_transactionDateTime, VStr n_); (n_sourceID, VStr n_); (n_postingDateTime, VStr n_); (n_amount, VFloat n_0_0); (n_accountID, VStr n_)]
    []
    [n_status; n_ErpPayableLineItems; n_ErpInvoiceLineItem; n_ErpRecLineItems; n_ErpLedgerEntry; n_CostTypes; n_ErpJournal]
    [n_ErpPayableLineItems; n_ErpRecLineItems; n_CostTypes]
    [(n_ErpPayableLineItems, PManyMany n_ErpJournalEntries); (n_ErpInvoiceLineItem, POneMany n_ErpJournalEntries); (n_ErpRecLineItems, PManyMany n_ErpJournalEntries); (n_ErpLedgerEntry, POneOne n_ErpJounalEntry); (n_CostTypes, PManyMany n_ErpJournalEntries); (n_ErpJournal, POneMany n_ErpJournalEntries)];
(* CIM15/IEC61970/Informative/InfERPSupport/ErpLedBudLineItem.py:23-82 *)
  Cls n_CIM15_IEC61970_Informative_InfERPSupport_ErpLedBudLineItem_ErpLedBudLineItem n_ErpLedBudLineItem (Some n_CIM15_IEC61970_Core_IdentifiedObject_IdentifiedObject)
    [(n_ErpLedBudLineItem, VNone); (n_ErpLedgerBudget, VNone); (n_status, VNone)]
    [SOne n_ErpLedBudLineItem; SOne n_ErpLedgerBudget; SAttr n_status]
    true false
    []
    []
    []
    [n_ErpLedBudLineItem; n_ErpLedgerBudget; n_status]
    []
    [(n_ErpLedBudLineItem, POneOne n_ErpLedgerEntry); (n_ErpLedgerBudget, POneMany n_ErpLedBudLineItems)];
(* CIM15/IEC61970/Informative/InfERPSupport/ErpLedger.py:23-63 *)
  Cls n_CIM15_IEC61970_Informative_InfERPSupport_ErpLedger_ErpLedger n_ErpLedger (Some n_CIM15_IEC61968_Common_Document_Document)
    [(n_ErpLedgerEntries, VNone)]
    [SMany n_ErpLedgerEntries]
    true true
    []
    []
    []
    [n_ErpLedgerEntries]
    [n_ErpLedgerEntries]
    [(n_ErpLedgerEntries, PManyOne n_ErpLedger)];
(* CIM15/IEC61970/Informative/InfERPSupport/ErpLedgerBudget.py:23-63 *)
  Cls n_CIM15_IEC61970_Informative_InfERPSupport_ErpLedgerBudget_ErpLedgerBudget n_ErpLedgerBudget (Some n_CIM15_IEC61968_Common_Document_Document)
    [(n_ErpLedBudLineItems, VNone)]
    [SMany n_ErpLedBudLineItems]
    true true
    []
    []
    []
    [n_ErpLedBudLineItems]
    [n_ErpLedBudLineItems]
    [(n_ErpLedBudLineItems, PManyOne n_ErpLedgerBudget)];
(* CIM15/IEC61970/Informative/InfERPSupport/ErpLedgerEntry.py:23-152 *)
  Cls n_CIM15_IEC61970_Informative_InfERPSupport_ErpLedgerEntry_ErpLedgerEntry n_ErpLedgerEntry (Some n_CIM15_IEC61970_Core_IdentifiedObject_IdentifiedObject)
    [(n_transactionDateTime, VStr n_); (n_accountKind, VStr n_normal); (n_amount, VFloat n_0_0); (n_postedDateTime, VStr n_); (n_accountID, VStr n_); (n_ErpLedger, VNone); (n_status, VNone); (n_ErpLedgerEntry, VNone); (n_UserAttributes, VNone); (n_ErpJounalEntry, VNone)]
    [SAttr n_transactionDateTime; SAttr n_accountKind; SAttr n_amount; SAttr n_postedDateTime; SAttr n_accountID; SOne n_ErpLedger; SAttr n_status; SOne n_ErpLedgerEntry; SMany n_UserAttributes; SOne n_ErpJounalEntry]
    true false
    [n_transactionDateTime; n_accountKind; n_amount; n_postedDateTime; n_accountID]
    [(n_transactionDateTime, VStr n_); (n_accountKind, VStr n_normal); (n_amount, VFloat n_0_0); (n_postedDateTime, VStr n_); (n_accountID, VStr n_)]
    [(n_accountKind, n_ErpAccountKind)]
    [n_ErpLedger; n_status; n_ErpLedgerEntry; n_UserAttributes; n_ErpJounalEntry]
    [n_UserAttributes]
    [(n_ErpLedger, POneMany n_ErpLedgerEntries); (n_ErpLedgerEntry, POneOne n_ErpLedBudLineItem); (n_UserAttributes, PManyMany n_ErpLedgerEntries); (n_ErpJounalEntry, POneOne n_ErpLedgerEntry)];
(* CIM15/IEC61970/Informative/InfERPSupport/ErpOrganisation.py:23-388 *)
  Cls n_CIM15_IEC61970_Informative_InfERPSupport_ErpOrganisation_ErpOrganisation n_ErpOrganisation (Some n_CIM15_IEC61968_Common_Organisation_Organisation)
    [(n_category, VStr n_); (n_code, VStr n_); (n_industryID, VStr n_); (n_governmentID, VStr n_); (n_optOut, VBool false); (n_isCostCenter, VBool false); (n_isProfitCenter, VBool false); (n_mode, VStr n_); (n_AssetRoles, VNone); (n_Requests, VNone); (n_Crews, VNone); (n_ChangeItems, VNone); (n_ErpPersonRoles, VNone); (n_ActivityRecords, VNone); (n_ParentOrganisationRoles, VNone); (n_Locations, VNone); (n_ChildOrganisationRoles, VNone); (n_PowerSystemResourceRoles, VNone); (n_LandPropertyRoles, VNone); (n_DocumentRoles, VNone)]
    [SAttr n_category; SAttr n_code; SAttr n_industryID; SAttr n_governmentID; SAttr n_optOut; SAttr n_isCostCenter; SAttr n_isProfitCenter; SAttr n_mode; SMany n_AssetRoles; SMany n_Requests; SMany n_Crews; SMany n_ChangeItems; SMany n_ErpPersonRoles; SMany n_ActivityRecords; SMany n_ParentOrganisationRoles; SMany n_Locations; SMany n_ChildOrganisationRoles; SMany n_PowerSystemResourceRoles; SMany n_LandPropertyRoles; SMany n_DocumentRoles]
    true true
    [n_category; n_code; n_industryID; n_governmentID; n_optOut; n_isCostCenter; n_isProfitCenter; n_mode]
    [(n_category, VStr n_); (n_code, VStr n_); (n_industryID, VStr n_); (n_governmentID, VStr n_); (n_optOut, VBool false); (n_isCostCenter, VBool false); (n_isProfitCenter, VBool false); (n_mode, VStr n_)]
    []
    [n_AssetRoles; n_Requests; n_Crews; n_ChangeItems; n_ErpPersonRoles; n_ActivityRecords; n_ParentOrganisationRoles; n_Locations; n_ChildOrganisationRoles; n_PowerSystemResourceRoles; n_LandPropertyRoles; n_DocumentRoles]
    [n_AssetRoles; n_Requests; n_Crews; n_ChangeItems; n_ErpPersonRoles; n_ActivityRecords; n_ParentOrganisationRoles; n_Locations; n_ChildOrganisationRoles; n_PowerSystemResourceRoles; n_LandPropertyRoles; n_DocumentRoles]
    [(n_AssetRoles, PManyOne n_ErpOrganisation); (n_Requests, PManyOne n_Organisation); (n_Crews, PManyMany n_Organisations); (n_ChangeItems, PManyOne n_Organisation); (n_ErpPersonRoles, PManyOne n_ErpOrganisation); (n_ActivityRecords, PManyMany n_Organisations); (n_ParentOrganisationRoles, PManyOne n_ChildOrganisation); (n_Locations, PManyMany n_ErpOrganisations); (n_ChildOrganisationRoles, PManyOne n_ParentOrganisation); (n_PowerSystemResourceRoles, PManyOne n_ErpOrganisation); (n_LandPropertyRoles, PManyOne n_ErpOrganisation); (n_DocumentRoles, PManyOne n_ErpOrganisation)];
(* CIM15/IEC61970/Informative/InfERPSupport/ErpPOLineItem.py:23-136 *)
  Cls n_CIM15_IEC61970_Informative_InfERPSupport_ErpPOLineItem_ErpPOLineItem n_ErpPOLineItem (Some n_CIM15_IEC61968_Common_Document_Document)
    [(n_ErpPurchaseOrder, VNone); (n_ErpRecDelLineItem, VNone); (n_AssetModelCatalogueItem, VNone); (n_MaterialItem, VNone); (n_ErpReqLineItem, VNone)]
    [SOne n_ErpPurchaseOrder; SOne n_ErpRecDelLineItem; SOne n_AssetModelCatalogueItem; SOne n_MaterialItem; SOne n_ErpReqLineItem]
    true true
    []
    []
    []
    [n_ErpPurchaseOrder; n_ErpRecDelLineItem; n_AssetModelCatalogueItem; n_MaterialItem; n_ErpReqLineItem]
    []
    [(n_ErpPurchaseOrder, POneMany n_ErpPOLineItems); (n_ErpRecDelLineItem, POneOne n_ErpPOLineItem); (n_AssetModelCatalogueItem, POneMany n_ErpPOLineItems); (n_MaterialItem, POneMany n_ErpPOLineItems); (n_ErpReqLineItem, POneOne n_ErpPOLineItem)];
(* CIM15/IEC61970/Informative/InfERPSupport/ErpPayable.py:23-94 *)
  Cls n_CIM15_IEC61970_Informative_InfERPSupport_ErpPayable_ErpPayable n_ErpPayable (Some n_CIM15_IEC61968_Common_Document_Document)
    [(n_ContractorItems, VNone); (n_ErpPayableLineItems, VNone)]
    [SMany n_ContractorItems; SMany n_ErpPayableLineItems]
    true true
    []
    []
    []
    [n_ContractorItems; n_ErpPayableLineItems]
    [n_ContractorItems; n_ErpPayableLineItems]
    [(n_ContractorItems, PManyMany n_ErpPayables); (n_ErpPayableLineItems, PManyOne n_ErpPayable)];
(* CIM15/IEC61970/Informative/InfERPSupport/ErpPayableLineItem.py:23-144 *)
  Cls n_CIM15_IEC61970_Informative_InfERPSupport_ErpPayableLineItem_ErpPayableLineItem n_ErpPayableLineItem (Some n_CIM15_IEC61970_Core_IdentifiedObject_IdentifiedObject)
    [(n_ErpPayments, VNone); (n_ErpJournalEntries, VNone); (n_ErpInvoiceLineItem, VNone); (n_ErpPayable, VNone); (n_status, VNone)]
    [SMany n_ErpPayments; SMany n_ErpJournalEntries; SOne n_ErpInvoiceLineItem; SOne n_ErpPayable; SAttr n_status]
    true true
    []
    []
    []
    [n_ErpPayments; n_ErpJournalEntries; n_ErpInvoiceLineItem; n_ErpPayable; n_status]
    [n_ErpPayments; n_ErpJournalEntries]
    [(n_ErpPayments, PManyMany n_ErpPayableLineItems); (n_ErpJournalEntries, PManyMany n_ErpPayableLineItems); (n_ErpInvoiceLineItem, POneOne n_ErpPayableLineItem); (n_ErpPayable, POneMany n_ErpPayableLineItems)];
(* CIM15/IEC61970/Informative/InfERPSupport/ErpPayment.py:23-135 *)
  Cls n_CIM15_IEC61970_Informative_InfERPSupport_ErpPayment_ErpPayment n_ErpPayment (Some n_CIM15_IEC61968_Common_Document_Document)
    [(n_termsPayment, VStr n_); (n_ErpRecLineItems, VNone); (n_ErpPayableLineItems, VNone); (n_ErpInvoiceLineItems, VNone)]
    [SAttr n_termsPayment; SMany n_ErpRecLineItems; SMany n_ErpPayableLineItems; SMany n_ErpInvoiceLineItems]
    true true
    [n_termsPayment]
    [(n_termsPayment, VStr n_)]
    []
    [n_ErpRecLineItems; n_ErpPayableLineItems; n_ErpInvoiceLineItems]
    [n_ErpRecLineItems; n_ErpPayableLineItems; n_ErpInvoiceLineItems]
    [(n_ErpRecLineItems, PManyMany n_ErpPayments); (n_ErpPayableLineItems, PManyMany n_ErpPayments); (n_ErpInvoiceLineItems, PManyMany n_ErpPayments)];
(* CIM15/IEC61970/Informative/InfERPSupport/ErpPerson.py:23-535 *)
  Cls n_CIM15_IEC61970_Informative_InfERPSupport_ErpPerson_ErpPerson n_ErpPerson (Some n_CIM15_IEC61970_Core_IdentifiedObject_IdentifiedObject)
    [(n_category, VStr n_); (n_lastName, VStr n_); (n_firstName, VStr n_); (n_governmentID, VStr n_); (n_mName, VStr n_); (n_suffix, VStr n_); (n_specialNeed, VStr n_); (n_prefix, VStr n_); (n_ServiceLocation, VNone); (n_ErpOrganisationRoles, VNone); (n_Appointments, VNone); (n_Crews, VNone); (n_LaborItems, VNone); (n_LandPropertyRoles, VNone); (n_ActivityRecords, VNone); (n_MeasurementValues, VNone); (n_Skills, VNone); (n_landlinePhone, VNone); (n_mobilePhone, VNone); (n_ChangeItems, VNone); (n_status, VNone); (n_DocumentRoles, VNone); (n_ErpPersonnel, VNone); (n_Crafts, VNone); (n_CustomerData, VNone); (n_CallBacks, VNone); (n_SwitchingStepRoles, VNone); (n_electronicAddress, VNone); (n_ErpCompetency, VNone)]
    [SAttr n_category; SAttr n_lastName; SAttr n_firstName; SAttr n_governmentID; SAttr n_mName; SAttr n_suffix; SAttr n_specialNeed; SAttr n_prefix; SOne n_ServiceLocation; SMany n_ErpOrganisationRoles; SMany n_Appointments; SMany n_Crews; SMany n_LaborItems; SMany n_LandPropertyRoles; SMany n_ActivityRecords; SMany n_MeasurementValues; SMany n_Skills; SAttr n_landlinePhone; SAttr n_mobilePhone; SMany n_ChangeItems; SAttr n_status; SMany n_DocumentRoles; SOne n_ErpPersonnel; SMany n_Crafts; SOne n_CustomerData; SMany n_CallBacks; SMany n_SwitchingStepRoles; SAttr n_electronicAddress; SOne n_ErpCompetency]
    true true
    [n_category; n_lastName; n_firstName; n_governmentID; n_mName; n_suffix; n_specialNeed; n_prefix]
    [(n_category, VStr n_); (n_lastName, VStr n_); (n_firstName, VStr n_); (n_governmentID, VStr n_); (n_mName, VStr n_); (n_suffix, VStr n_); (n_specialNeed, VStr n_); (n_prefix, VStr n_)]
    []
    [n_ServiceLocation; n_ErpOrganisationRoles; n_Appointments; n_Crews; n_LaborItems; n_LandPropertyRoles; n_ActivityRecords; n_MeasurementValues; n_Skills; n_landlinePhone; n_mobilePhone; n_ChangeItems; n_status; n_DocumentRoles; n_ErpPersonnel; n_Crafts; n_CustomerData; n_CallBacks; n_SwitchingStepRoles; n_electronicAddress; n_ErpCompetency]
    [n_ErpOrganisationRoles; n_Appointments; n_Crews; n_LaborItems; n_LandPropertyRoles; n_ActivityRecords; n_MeasurementValues; n_Skills; n_ChangeItems; n_DocumentRoles; n_Crafts; n_CallBacks; n_SwitchingStepRoles]
    [(n_ServiceLocation, POneMany n_ErpPersons); (n_ErpOrganisationRoles, PManyOne n_ErpPerson); (n_Appointments, PManyMany n_ErpPersons); (n_Crews, PManyMany n_CrewMembers); (n_LaborItems, PManyMany n_ErpPersons); (n_LandPropertyRoles, PManyOne n_ErpPerson); (n_ActivityRecords, PManyMany n_ErpPersons); (n_MeasurementValues, PManyOne n_ErpPerson); (n_Skills, PManyOne n_ErpPerson); (n_ChangeItems, PManyOne n_ErpPerson); (n_DocumentRoles, PManyOne n_ErpPerson); (n_ErpPersonnel, POneMany n_ErpPersons); (n_Crafts, PManyMany n_ErpPersons); (n_CustomerData, POneMany n_ErpPersons); (n_CallBacks, PManyMany n_ErpPersons); (n_SwitchingStepRoles, PManyOne n_ErpPerson); (n_ErpCompetency, POneMany n_ErpPersons)];
(* CIM15/IEC61970/Informative/InfERPSupport/ErpPersonnel.py:23-68 *)
  Cls n_CIM15_IEC61970_Informative_InfERPSupport_ErpPersonnel_ErpPersonnel n_ErpPersonnel (Some n_CIM15_IEC61970_Core_IdentifiedObject_IdentifiedObject)
    [(n_status, VNone); (n_ErpPersons, VNone)]
    [SAttr n_status; SMany n_ErpPersons]
    true true
    []
    []
    []
    [n_status; n_ErpPersons]
    [n_ErpPersons]
    [(n_ErpPersons, PManyOne n_ErpPersonnel)];
(* CIM15/IEC61970/Informative/InfERPSupport/ErpProjectAccounting.py:23-138 *)
  Cls n_CIM15_IEC61970_Informative_InfERPSupport_ErpProjectAccounting_ErpProjectAccounting n_ErpProjectAccounting (Some n_CIM15_IEC61968_Common_Document_Document)
    [(n_Works, VNone); (n_Projects, VNone); (n_ErpTimeEntries, VNone); (n_WorkCostDetails, VNone)]
    [SMany n_Works; SMany n_Projects; SMany n_ErpTimeEntries; SMany n_WorkCostDetails]
    true true
    []
    []
    []
    [n_Works; n_Projects; n_ErpTimeEntries; n_WorkCostDetails]
    [n_Works; n_Projects; n_ErpTimeEntries; n_WorkCostDetails]
    [(n_Works, PManyOne n_ErpProjectAccounting); (n_Projects, PManyOne n_ErpProjectAccounting); (n_ErpTimeEntries, PManyOne n_ErpProjectAccounting); (n_WorkCostDetails, PManyOne n_ErpProjectAccounting)];
(* CIM15/IEC61970/Informative/InfERPSupport/ErpPurchaseOrder.py:23-63 *)
  Cls n_CIM15_IEC61970_Informative_InfERPSupport_ErpPurchaseOrder_ErpPurchaseOrder n_ErpPurchaseOrder (Some n_CIM15_IEC61968_Common_Document_Document)
    [(n_ErpPOLineItems, VNone)]
    [SMany n_ErpPOLineItems]
    true true
    []
    []
    []
    [n_ErpPOLineItems]
    [n_ErpPOLineItems]
    [(n_ErpPOLineItems, PManyOne n_ErpPurchaseOrder)];
(* CIM15/IEC61970/Informative/InfERPSupport/ErpQuote.py:23-63 *)
  Cls n_CIM15_IEC61970_Informative_InfERPSupport_ErpQuote_ErpQuote n_ErpQuote (Some n_CIM15_IEC61968_Common_Document_Document)
    [(n_ErpQuoteLineItems, VNone)]
    [SMany n_ErpQuoteLineItems]
    true true
    []
    []
    []
    [n_ErpQuoteLineItems]
    [n_ErpQuoteLineItems]
    [(n_ErpQuoteLineItems, PManyOne n_ErpQuote)];
(* CIM15/IEC61970/Informative/InfERPSupport/ErpQuoteLineItem.py:23-160 *)
  Cls n_CIM15_IEC61970_Informative_InfERPSupport_ErpQuoteLineItem_ErpQuoteLineItem n_ErpQuoteLineItem (Some n_CIM15_IEC61970_Core_IdentifiedObject_IdentifiedObject)
    [(n_ErpQuote, VNone); (n_AssetModelCatalogueItem, VNone); (n_status, VNone); (n_Design, VNone); (n_ErpInvoiceLineItem, VNone); (n_ErpReqLineItem, VNone); (n_Request, VNone)]
    [SOne n_ErpQuote; SOne n_AssetModelCatalogueItem; SAttr n_status; SOne n_Design; SOne n_ErpInvoiceLineItem; SOne n_ErpReqLineItem; SOne n_Request]
    true true
    []
    []
    []
    [n_ErpQuote; n_AssetModelCatalogueItem; n_status; n_Design; n_ErpInvoiceLineItem; n_ErpReqLineItem; n_Request]
    []
    [(n_ErpQuote, POneMany n_ErpQuoteLineItems); (n_AssetModelCatalogueItem, POneMany n_ErpQuoteLineItems); (n_Design, POneOne n_ErpQuoteLineItem); (n_ErpInvoiceLineItem, POneOne n_ErpQuoteLineItem); (n_ErpReqLineItem, POneOne n_ErpQuoteLineItem); (n_Request, POneOne n_ErpQuoteLineItem)];
(* CIM15/IEC61970/Informative/InfERPSupport/ErpRecDelvLineItem.py:23-163 *)
  Cls n_CIM15_IEC61970_Informative_InfERPSupport_ErpRecDelvLineItem_ErpRecDelvLineItem n_ErpRecDelvLineItem (Some n_CIM15_IEC61970_Core_IdentifiedObject_IdentifiedObject)
    [(n_Assets, VNone); (n_ErpInvoiceLineItem, VNone); (n_status, VNone); (n_ErpReceiveDelivery, VNone); (n_MaterialItems, VNone); (n_ErpPOLineItem, VNone)]
    [SMany n_Assets; SOne n_ErpInvoiceLineItem; SAttr n_status; SOne n_ErpReceiveDelivery; SMany n_MaterialItems; SOne n_ErpPOLineItem]
    true true
    []
    []
    []
    [n_Assets; n_ErpInvoiceLineItem; n_status; n_ErpReceiveDelivery; n_MaterialItems; n_ErpPOLineItem]
    [n_Assets; n_MaterialItems]
    [(n_Assets, PManyMany n_ErpRecDeliveryItems); (n_ErpInvoiceLineItem, POneOne n_ErpRecDelvLineItem); (n_ErpReceiveDelivery, POneMany n_ErpRecDelvLineItems); (n_MaterialItems, PManyMany n_ErpRecDelvLineItems); (n_ErpPOLineItem, POneOne n_ErpRecDelLineItem)];
(* CIM15/IEC61970/Informative/InfERPSupport/ErpRecLineItem.py:23-144 *)
  Cls n_CIM15_IEC61970_Informative_InfERPSupport_ErpRecLineItem_ErpRecLineItem n_ErpRecLineItem (Some n_CIM15_IEC61970_Core_IdentifiedObject_IdentifiedObject)
    [(n_ErpReceivable, VNone); (n_status, VNone); (n_ErpInvoiceLineItem, VNone); (n_ErpPayments, VNone); (n_ErpJournalEntries, VNone)]
    [SOne n_ErpReceivable; SAttr n_status; SOne n_ErpInvoiceLineItem; SMany n_ErpPayments; SMany n_ErpJournalEntries]
    true true
    []
    []
    []
    [n_ErpReceivable; n_status; n_ErpInvoiceLineItem; n_ErpPayments; n_ErpJournalEntries]
    [n_ErpPayments; n_ErpJournalEntries]
    [(n_ErpReceivable, POneMany n_ErpRecLineItems); (n_ErpInvoiceLineItem, POneOne n_ErpRecLineItem); (n_ErpPayments, PManyMany n_ErpRecLineItems); (n_ErpJournalEntries, PManyMany n_ErpRecLineItems)];
(* CIM15/IEC61970/Informative/InfERPSupport/ErpReceivable.py:23-63 *)
  Cls n_CIM15_IEC61970_Informative_InfERPSupport_ErpReceivable_ErpReceivable n_ErpReceivable (Some n_CIM15_IEC61968_Common_Document_Document)
    [(n_ErpRecLineItems, VNone)]
    [SMany n_ErpRecLineItems]
    true true
    []
    []
    []
    [n_ErpRecLineItems]
    [n_ErpRecLineItems]
    [(n_ErpRecLineItems, PManyOne n_ErpReceivable)];
(* CIM15/IEC61970/Informative/InfERPSupport/ErpReceiveDelivery.py:23-63 *)
  Cls n_CIM15_IEC61970_Informative_InfERPSupport_ErpReceiveDelivery_ErpReceiveDelivery n_ErpReceiveDelivery (Some n_CIM15_IEC61968_Common_Document_Document)
    [(n_ErpRecDelvLineItems, VNone)]
    [SMany n_ErpRecDelvLineItems]
    true true
    []
    []
    []
    [n_ErpRecDelvLineItems]
    [n_ErpRecDelvLineItems]
    [(n_ErpRecDelvLineItems, PManyOne n_ErpReceiveDelivery)];
(* CIM15/IEC61970/Informative/InfERPSupport/ErpReqLineItem.py:23-157 *)
  Cls n_CIM15_IEC61970_Informative_InfERPSupport_ErpReqLineItem_ErpReqLineItem n_ErpReqLineItem (Some n_CIM15_IEC61970_Core_IdentifiedObject_IdentifiedObject)
    [(n_cost, VFloat n_0_0); (n_quantity, VInt 0); (n_deliveryDate, VStr n_); (n_code, VStr n_); (n_ErpQuoteLineItem, VNone); (n_status, VNone); (n_ErpRequisition, VNone); (n_TypeMaterial, VNone); (n_ErpPOLineItem, VNone); (n_TypeAsset, VNone)]
    [SAttr n_cost; SAttr n_quantity; SAttr n_deliveryDate; SAttr n_code; SOne n_ErpQuoteLineItem; SAttr n_status; SOne n_ErpRequisition; SOne n_TypeMaterial; SOne n_ErpPOLineItem; SOne n_TypeAsset]
    true true
    [n_cost; n_quantity; n_deliveryDate; n_code]
    [(n_cost, VFloat n_0_0); (n_quantity, VInt 0); (n_deliveryDate, VStr n_); (n_code, VStr n_)]
    []
    [n_ErpQuoteLineItem; n_status; n_ErpRequisition; n_TypeMaterial; n_ErpPOLineItem; n_TypeAsset]
    []
    [(n_ErpQuoteLineItem, POneOne n_ErpReqLineItem); (n_ErpRequisition, POneMany n_ErpReqLineItems); (n_TypeMaterial, POneMany n_ErpReqLineItems); (n_ErpPOLineItem, POneOne n_ErpReqLineItem); (n_TypeAsset, POneMany n_ErpReqLineItems)];
(* CIM15/IEC61970/Informative/InfERPSupport/ErpRequisition.py:23-63 *)
  Cls n_CIM15_IEC61970_Informative_InfERPSupport_ErpRequisition_ErpRequisition n_ErpRequisition (Some n_CIM15_IEC61968_Common_Document_Document)
    [(n_ErpReqLineItems, VNone)]
    [SMany n_ErpReqLineItems]
    true true
    []
    []
    []
    [n_ErpReqLineItems]
    [n_ErpReqLineItems]
    [(n_ErpReqLineItems, PManyOne n_ErpRequisition)];
(* CIM15/IEC61970/Informative/InfERPSupport/ErpSalesOrder.py:23-38 *)
  Cls n_CIM15_IEC61970_Informative_InfERPSupport_ErpSalesOrder_ErpSalesOrder n_ErpSalesOrder (Some n_CIM15_IEC61968_Common_Document_Document)
    []
    []
    true true
    []
    []
    []
    []
    []
    [];
(* CIM15/IEC61970/Informative/InfERPSupport/ErpSiteLevelData.py:23-63 *)
  Cls n_CIM15_IEC61970_Informative_InfERPSupport_ErpSiteLevelData_ErpSiteLevelData n_ErpSiteLevelData (Some n_CIM15_IEC61970_Core_IdentifiedObject_IdentifiedObject)
    [(n_status, VNone); (n_LandProperty, VNone)]
    [SAttr n_status; SOne n_LandProperty]
    true true
    []
    []
    []
    [n_status; n_LandProperty]
    []
    [(n_LandProperty, POneMany n_ErpSiteLevelDatas)];
(* CIM15/IEC61970/Informative/InfERPSupport/ErpTimeEntry.py:23-83 *)
  Cls n_CIM15_IEC61970_Informative_InfERPSupport_ErpTimeEntry_ErpTimeEntry n_ErpTimeEntry (Some n_CIM15_IEC61970_Core_IdentifiedObject_IdentifiedObject)
    [(n_ErpProjectAccounting, VNone); (n_status, VNone); (n_ErpTimeSheet, VNone)]
    [SOne n_ErpProjectAccounting; SAttr n_status; SOne n_ErpTimeSheet]
    true true
    []
    []
    []
    [n_ErpProjectAccounting; n_status; n_ErpTimeSheet]
    []
    [(n_ErpProjectAccounting, POneMany n_ErpTimeEntries); (n_ErpTimeSheet, POneMany n_ErpTimeEntries)];
(* CIM15/IEC61970/Informative/InfERPSupport/ErpTimeSheet.py:23-63 *)
  Cls n_CIM15_IEC61970_Informative_InfERPSupport_ErpTimeSheet_ErpTimeSheet n_ErpTimeSheet (Some n_CIM15_IEC61968_Common_Document_Document)
    [(n_ErpTimeEntries, VNone)]
    [SMany n_ErpTimeEntries]
    true true
    []
    []
    []
    [n_ErpTimeEntries]
    [n_ErpTimeEntries]
    [(n_ErpTimeEntries, PManyOne n_ErpTimeSheet)];
(* CIM15/IEC61970/Informative/InfERPSupport/OrgErpPersonRole.py:23-82 *)
  Cls n_CIM15_IEC61970_Informative_InfERPSupport_OrgErpPersonRole_OrgErpPersonRole n_OrgErpPersonRole (Some n_CIM15_IEC61970_Informative_InfCommon_Role_Role)
    [(n_clientID, VStr n_); (n_ErpPerson, VNone); (n_ErpOrganisation, VNone)]
    [SAttr n_clientID; SOne n_ErpPerson; SOne n_ErpOrganisation]
    true true
    [n_clientID]
    [(n_clientID, VStr n_)]
    []
    [n_ErpPerson; n_ErpOrganisation]
    []
    [(n_ErpPerson, POneMany n_ErpOrganisationRoles); (n_ErpOrganisation, POneMany n_ErpPersonRoles)];
(* CIM15/IEC61970/Informative/InfERPSupport/OrgOrgRole.py:23-82 *)
  Cls n_CIM15_IEC61970_Informative_InfERPSupport_OrgOrgRole_OrgOrgRole n_OrgOrgRole (Some n_CIM15_IEC61970_Informative_InfCommon_Role_Role)
    [(n_clientID, VStr n_); (n_ParentOrganisation, VNone); (n_ChildOrganisation, VNone)]
    [SAttr n_clientID; SOne n_ParentOrganisation; SOne n_ChildOrganisation]
    true true
    [n_clientID]
    [(n_clientID, VStr n_)]
    []
    [n_ParentOrganisation; n_ChildOrganisation]
    []
    [(n_ParentOrganisation, POneMany n_ChildOrganisationRoles); (n_ChildOrganisation, POneMany n_ParentOrganisationRoles)];
(* CIM15/IEC61970/Informative/InfGMLSupport/Diagram.py:23-170 *)
  Cls n_CIM15_IEC61970_Informative_InfGMLSupport_Diagram_Diagram n_Diagram (Some n_CIM15_IEC61968_Common_Document_Document)
    [(n_y1InitialView, VFloat n_0_0); (n_kind, VStr n_other); (n_x2InitialView, VFloat n_0_0); (n_x1InitialView, VFloat n_0_0); (n_orientation, VStr n_negative); (n_y2InitialView, VFloat n_0_0); (n_DiagramObjects, VNone); (n_CoordinateSystem, VNone); (n_GmlDiagramObjects, VNone); (n_DesignLocations, VNone)]
    [SAttr n_y1InitialView; SAttr n_kind; SAttr n_x2InitialView; SAttr n_x1InitialView; SAttr n_orientation; SAttr n_y2InitialView; SMany n_DiagramObjects; SOne n_CoordinateSystem; SMany n_GmlDiagramObjects; SMany n_DesignLocations]
    true true
    [n_y1InitialView; n_kind; n_x2InitialView; n_x1InitialView; n_orientation; n_y2InitialView]
    [(n_y1InitialView, VFloat n_0_0); (n_kind, VStr n_other); (n_x2InitialView, VFloat n_0_0); (n_x1InitialView, VFloat n_0_0); (n_orientation, VStr n_negative); (n_y2InitialView, VFloat n_0_0)]
    [(n_kind, n_DiagramKind); (n_orientation, n_OrientationKind)]
    [n_DiagramObjects; n_CoordinateSystem; n_GmlDiagramObjects; n_DesignLocations]
    [n_DiagramObjects; n_GmlDiagramObjects; n_DesignLocations]
    [(n_DiagramObjects, PManyOne n_Diagram); (n_CoordinateSystem, POneMany n_Diagrams); (n_GmlDiagramObjects, PManyMany n_Diagrams); (n_DesignLocations, PManyMany n_Diagrams)];
(* CIM15/IEC61970/Informative/InfGMLSupport/GmlBaseSymbol.py:23-63 *)
  Cls n_CIM15_IEC61970_Informative_InfGMLSupport_GmlBaseSymbol_GmlBaseSymbol n_GmlBaseSymbol (Some n_CIM15_IEC61970_Core_IdentifiedObject_IdentifiedObject)
    [(n_GmlSymbols, VNone)]
    [SMany n_GmlSymbols]
    true true
    []
    []
    []
    [n_GmlSymbols]
    [n_GmlSymbols]
    [(n_GmlSymbols, PManyOne n_GmlBaseSymbol)];
(* CIM15/IEC61970/Informative/InfGMLSupport/GmlColour.py:23-125 *)
  Cls n_CIM15_IEC61970_Informative_InfGMLSupport_GmlColour_GmlColour n_GmlColour (Some n_CIM15_IEC61970_Core_IdentifiedObject_IdentifiedObject)
    [(n_red, VStr n_); (n_green, VStr n_); (n_blue, VStr n_); (n_GmlFills, VNone); (n_GmlFonts, VNone); (n_GmlStrokes, VNone)]
    [SAttr n_red; SAttr n_green; SAttr n_blue; SMany n_GmlFills; SMany n_GmlFonts; SMany n_GmlStrokes]
    true true
    [n_red; n_green; n_blue]
    [(n_red, VStr n_); (n_green, VStr n_); (n_blue, VStr n_)]
    []
    [n_GmlFills; n_GmlFonts; n_GmlStrokes]
    [n_GmlFills; n_GmlFonts; n_GmlStrokes]
    [(n_GmlFills, PManyOne n_GmlColour); (n_GmlFonts, PManyOne n_GmlColour); (n_GmlStrokes, PManyOne n_GmlColour)];
(* CIM15/IEC61970/Informative/InfGMLSupport/GmlDiagramObject.py:23-287 *)
  Cls n_CIM15_IEC61970_Informative_InfGMLSupport_GmlDiagramObject_GmlDiagramObject n_GmlDiagramObject (Some n_CIM15_IEC61970_Core_IdentifiedObject_IdentifiedObject)
    [(n_GmlSelectors, VNone); (n_Diagrams, VNone); (n_CoordinateSystems, VNone); (n_GmlPointSymbols, VNone); (n_GmlLineSymbols, VNone); (n_GmlRasterSymbols, VNone); (n_GmlObservatins, VNone); (n_GmlTextSymbols, VNone); (n_GmlPolygonSymbols, VNone)]
    [SMany n_GmlSelectors; SMany n_Diagrams; SMany n_CoordinateSystems; SMany n_GmlPointSymbols; SMany n_GmlLineSymbols; SMany n_GmlRasterSymbols; SMany n_GmlObservatins; SMany n_GmlTextSymbols; SMany n_GmlPolygonSymbols]
    true true
    []
    []
    []
    [n_GmlSelectors; n_Diagrams; n_CoordinateSystems; n_GmlPointSymbols; n_GmlLineSymbols; n_GmlRasterSymbols; n_GmlObservatins; n_GmlTextSymbols; n_GmlPolygonSymbols]
    [n_GmlSelectors; n_Diagrams; n_CoordinateSystems; n_GmlPointSymbols; n_GmlLineSymbols; n_GmlRasterSymbols; n_GmlObservatins; n_GmlTextSymbols; n_GmlPolygonSymbols]
    [(n_GmlSelectors, PManyMany n_GmlDiagramObjects); (n_Diagrams, PManyMany n_GmlDiagramObjects); (n_CoordinateSystems, PManyMany n_GmlDiagramObjects); (n_GmlPointSymbols, PManyOne n_GmlDiagramObject); (n_GmlLineSymbols, PManyOne n_GmlDiagramObject); (n_GmlRasterSymbols, PManyOne n_GmlDiagramObject); (n_GmlObservatins, PManyMany n_GmlDiagramObjects); (n_GmlTextSymbols, PManyOne n_GmlDiagramObject); (n_GmlPolygonSymbols, PManyOne n_GmlDiagramObject)];
(* CIM15/IEC61970/Informative/InfGMLSupport/GmlFeatureStyle.py:23-203 *)
  Cls n_CIM15_IEC61970_Informative_InfGMLSupport_GmlFeatureStyle_GmlFeatureStyle n_GmlFeatureStyle (Some n_CIM15_IEC61970_Core_IdentifiedObject_IdentifiedObject)
    [(n_semanticTypeIdentifier, VStr n_); (n_featureType, VStr n_); (n_version, VStr n_); (n_featureTypeName, VStr n_); (n_featureConstraint, VStr n_); (n_baseType, VStr n_); (n_queryGrammar, VStr n_other); (n_GmlGeometryStyles, VNone); (n_GmlSymbols, VNone); (n_GmlTobologyStyles, VNone); (n_GmlLabelStyles, VNone); (n_GmlFeatureTypes, VNone)]
    [SAttr n_semanticTypeIdentifier; SAttr n_featureType; SAttr n_version; SAttr n_featureTypeName; SAttr n_featureConstraint; SAttr n_baseType; SAttr n_queryGrammar; SMany n_GmlGeometryStyles; SMany n_GmlSymbols; SMany n_GmlTobologyStyles; SMany n_GmlLabelStyles; SMany n_GmlFeatureTypes]
    true true
    [n_semanticTypeIdentifier; n_featureType; n_version; n_featureTypeName; n_featureConstraint; n_baseType; n_queryGrammar]
    [(n_semanticTypeIdentifier, VStr n_); (n_featureType, VStr n_); (n_version, VStr n_); (n_featureTypeName, VStr n_); (n_featureConstraint, VStr n_); (n_baseType, VStr n_); (n_queryGrammar, VStr n_other)]
    [(n_queryGrammar, n_QueryGrammarKind)]
    [n_GmlGeometryStyles; n_GmlSymbols; n_GmlTobologyStyles; n_GmlLabelStyles; n_GmlFeatureTypes]
    [n_GmlGeometryStyles; n_GmlSymbols; n_GmlTobologyStyles; n_GmlLabelStyles; n_GmlFeatureTypes]
    [(n_GmlGeometryStyles, PManyOne n_GmlFeatureStyle); (n_GmlSymbols, PManyMany n_GmlFeatureStyles); (n_GmlTobologyStyles, PManyOne n_GmlFeatureStyle); (n_GmlLabelStyles, PManyOne n_GmlFeatureStyle); (n_GmlFeatureTypes, PManyMany n_GmlFeatureStyles)];
(* CIM15/IEC61970/Informative/InfGMLSupport/GmlFeatureType.py:23-69 *)
  Cls n_CIM15_IEC61970_Informative_InfGMLSupport_GmlFeatureType_GmlFeatureType n_GmlFeatureType (Some n_CIM15_IEC61970_Core_IdentifiedObject_IdentifiedObject)
    [(n_GmlFeatureStyles, VNone)]
    [SMany n_GmlFeatureStyles]
    true true
    []
    []
    []
    [n_GmlFeatureStyles]
    [n_GmlFeatureStyles]
    [(n_GmlFeatureStyles, PManyMany n_GmlFeatureTypes)];
(* CIM15/IEC61970/Informative/InfGMLSupport/GmlFill.py:23-174 *)
  Cls n_CIM15_IEC61970_Informative_InfGMLSupport_GmlFill_GmlFill n_GmlFill (Some n_CIM15_IEC61970_Core_IdentifiedObject_IdentifiedObject)
    [(n_opacity, VFloat n_0_0); (n_GmlColour, VNone); (n_GmlMarks, VNone); (n_GmlTextSymbols, VNone); (n_GmlSvgParameters, VNone); (n_GmlPolygonSymbols, VNone)]
    [SAttr n_opacity; SOne n_GmlColour; SMany n_GmlMarks; SMany n_GmlTextSymbols; SMany n_GmlSvgParameters; SMany n_GmlPolygonSymbols]
    true true
    [n_opacity]
    [(n_opacity, VFloat n_0_0)]
    []
    [n_GmlColour; n_GmlMarks; n_GmlTextSymbols; n_GmlSvgParameters; n_GmlPolygonSymbols]
    [n_GmlMarks; n_GmlTextSymbols; n_GmlSvgParameters; n_GmlPolygonSymbols]
    [(n_GmlColour, POneMany n_GmlFills); (n_GmlMarks, PManyMany n_GmlFIlls); (n_GmlTextSymbols, PManyOne n_GmlFill); (n_GmlSvgParameters, PManyMany n_GmlFills); (n_GmlPolygonSymbols, PManyOne n_GmlFill)];
(* CIM15/IEC61970/Informative/InfGMLSupport/GmlFont.py:23-134 *)
  Cls n_CIM15_IEC61970_Informative_InfGMLSupport_GmlFont_GmlFont n_GmlFont (Some n_CIM15_IEC61970_Core_IdentifiedObject_IdentifiedObject)
    [(n_absoluteSize, VBool false); (n_size, VStr n_); (n_style, VStr n_); (n_family, VStr n_); (n_weight, VStr n_); (n_GmlTextSymbols, VNone); (n_GmlSvgParameters, VNone); (n_GmlColour, VNone)]
    [SAttr n_absoluteSize; SAttr n_size; SAttr n_style; SAttr n_family; SAttr n_weight; SMany n_GmlTextSymbols; SMany n_GmlSvgParameters; SOne n_GmlColour]
    true true
    [n_absoluteSize; n_size; n_style; n_family; n_weight]
    [(n_absoluteSize, VBool false); (n_size, VStr n_); (n_style, VStr n_); (n_family, VStr n_); (n_weight, VStr n_)]
    []
    [n_GmlTextSymbols; n_GmlSvgParameters; n_GmlColour]
    [n_GmlTextSymbols; n_GmlSvgParameters]
    [(n_GmlTextSymbols, PManyOne n_GmlFont); (n_GmlSvgParameters, PManyMany n_GmlFonts); (n_GmlColour, POneMany n_GmlFonts)];
(* CIM15/IEC61970/Informative/InfGMLSupport/GmlGeometryStyle.py:23-90 *)
  Cls n_CIM15_IEC61970_Informative_InfGMLSupport_GmlGeometryStyle_GmlGeometryStyle n_GmlGeometryStyle (Some n_CIM15_IEC61970_Core_IdentifiedObject_IdentifiedObject)
    [(n_geometryProperty, VStr n_); (n_geometryType, VStr n_); (n_symbol, VStr n_); (n_GmlFeatureStyle, VNone); (n_GmlLabelStyle, VNone)]
    [SAttr n_geometryProperty; SAttr n_geometryType; SAttr n_symbol; SOne n_GmlFeatureStyle; SOne n_GmlLabelStyle]
    true true
    [n_geometryProperty; n_geometryType; n_symbol]
    [(n_geometryProperty, VStr n_); (n_geometryType, VStr n_); (n_symbol, VStr n_)]
    []
    [n_GmlFeatureStyle; n_GmlLabelStyle]
    []
    [(n_GmlFeatureStyle, POneMany n_GmlGeometryStyles); (n_GmlLabelStyle, POneMany n_GmlGeometryStyles)];
(* CIM15/IEC61970/Informative/InfGMLSupport/GmlGraphic.py:23-122 *)
  Cls n_CIM15_IEC61970_Informative_InfGMLSupport_GmlGraphic_GmlGraphic n_GmlGraphic (Some n_CIM15_IEC61970_Core_IdentifiedObject_IdentifiedObject)
    [(n_rotation, VFloat n_0_0); (n_size, VInt 0); (n_symbolID, VStr n_); (n_minSize, VInt 0); (n_opacity, VFloat n_0_0); (n_xScale, VFloat n_0_0); (n_yScale, VFloat n_0_0); (n_GmlMarks, VNone); (n_GmlPointSymbols, VNone)]
    [SAttr n_rotation; SAttr n_size; SAttr n_symbolID; SAttr n_minSize; SAttr n_opacity; SAttr n_xScale; SAttr n_yScale; SMany n_GmlMarks; SMany n_GmlPointSymbols]
    true true
    [n_rotation; n_size; n_symbolID; n_minSize; n_opacity; n_xScale; n_yScale]
    [(n_rotation, VFloat n_0_0); (n_size, VInt 0); (n_symbolID, VStr n_); (n_minSize, VInt 0); (n_opacity, VFloat n_0_0); (n_xScale, VFloat n_0_0); (n_yScale, VFloat n_0_0)]
    []
    [n_GmlMarks; n_GmlPointSymbols]
    [n_GmlMarks; n_GmlPointSymbols]
    [(n_GmlMarks, PManyMany n_GmlGraphics); (n_GmlPointSymbols, PManyOne n_GmlGraphic)];
(* CIM15/IEC61970/Informative/InfGMLSupport/GmlHalo.py:23-71 *)
  Cls n_CIM15_IEC61970_Informative_InfGMLSupport_GmlHalo_GmlHalo n_GmlHalo (Some n_CIM15_IEC61970_Core_IdentifiedObject_IdentifiedObject)
    [(n_radius, VStr n_); (n_opacity, VFloat n_0_0); (n_GmlTextSymbols, VNone)]
    [SAttr n_radius; SAttr n_opacity; SMany n_GmlTextSymbols]
    true true
    [n_radius; n_opacity]
    [(n_radius, VStr n_); (n_opacity, VFloat n_0_0)]
    []
    [n_GmlTextSymbols]
    [n_GmlTextSymbols]
    [(n_GmlTextSymbols, PManyOne n_GmlHalo)];
(* CIM15/IEC61970/Informative/InfGMLSupport/GmlLabelPlacement.py:23-91 *)
  Cls n_CIM15_IEC61970_Informative_InfGMLSupport_GmlLabelPlacement_GmlLabelPlacement n_GmlLabelPlacement (Some n_CIM15_IEC61970_Core_IdentifiedObject_IdentifiedObject)
    [(n_displacementX, VStr n_); (n_rotation, VStr n_); (n_displacementY, VStr n_); (n_type, VStr n_); (n_anchorX, VStr n_); (n_anchorY, VStr n_); (n_offset, VStr n_); (n_GmlTextSymbols, VNone)]
    [SAttr n_displacementX; SAttr n_rotation; SAttr n_displacementY; SAttr n_type; SAttr n_anchorX; SAttr n_anchorY; SAttr n_offset; SMany n_GmlTextSymbols]
    true true
    [n_displacementX; n_rotation; n_displacementY; n_type; n_anchorX; n_anchorY; n_offset]
    [(n_displacementX, VStr n_); (n_rotation, VStr n_); (n_displacementY, VStr n_); (n_type, VStr n_); (n_anchorX, VStr n_); (n_anchorY, VStr n_); (n_offset, VStr n_)]
    []
    [n_GmlTextSymbols]
    [n_GmlTextSymbols]
    [(n_GmlTextSymbols, PManyOne n_GmlLabelPlacement)];
(* CIM15/IEC61970/Informative/InfGMLSupport/GmlLabelStyle.py:23-120 *)
  Cls n_CIM15_IEC61970_Informative_InfGMLSupport_GmlLabelStyle_GmlLabelStyle n_GmlLabelStyle (Some n_CIM15_IEC61970_Core_IdentifiedObject_IdentifiedObject)
    [(n_transform, VStr n_); (n_labelExpression, VStr n_); (n_style, VStr n_); (n_GmlTopologyStyles, VNone); (n_GmlGeometryStyles, VNone); (n_GmlFeatureStyle, VNone)]
    [SAttr n_transform; SAttr n_labelExpression; SAttr n_style; SMany n_GmlTopologyStyles; SMany n_GmlGeometryStyles; SOne n_GmlFeatureStyle]
    true true
    [n_transform; n_labelExpression; n_style]
    [(n_transform, VStr n_); (n_labelExpression, VStr n_); (n_style, VStr n_)]
    []
    [n_GmlTopologyStyles; n_GmlGeometryStyles; n_GmlFeatureStyle]
    [n_GmlTopologyStyles; n_GmlGeometryStyles]
    [(n_GmlTopologyStyles, PManyOne n_GmlLableStyle); (n_GmlGeometryStyles, PManyOne n_GmlLabelStyle); (n_GmlFeatureStyle, POneMany n_GmlLabelStyles)];
(* CIM15/IEC61970/Informative/InfGMLSupport/GmlLineGeometry.py:23-42 *)
  Cls n_CIM15_IEC61970_Informative_InfGMLSupport_GmlLineGeometry_GmlLineGeometry n_GmlLineGeometry (Some n_CIM15_IEC61970_Informative_InfGMLSupport_GmlDiagramObject_GmlDiagramObject)
    [(n_sourceSide, VStr n_)]
    [SAttr n_sourceSide]
    true true
    [n_sourceSide]
    [(n_sourceSide, VStr n_)]
    []
    []
    []
    [];
(* CIM15/IEC61970/Informative/InfGMLSupport/GmlLineSymbol.py:23-82 *)
  Cls n_CIM15_IEC61970_Informative_InfGMLSupport_GmlLineSymbol_GmlLineSymbol n_GmlLineSymbol (Some n_CIM15_IEC61970_Informative_InfGMLSupport_GmlSymbol_GmlSymbol)
    [(n_sourceSide, VStr n_); (n_GmlStroke, VNone); (n_GmlDiagramObject, VNone)]
    [SAttr n_sourceSide; SOne n_GmlStroke; SOne n_GmlDiagramObject]
    true true
    [n_sourceSide]
    [(n_sourceSide, VStr n_)]
    []
    [n_GmlStroke; n_GmlDiagramObject]
    []
    [(n_GmlStroke, POneMany n_GmlLineSymbols); (n_GmlDiagramObject, POneMany n_GmlLineSymbols)];
(* CIM15/IEC61970/Informative/InfGMLSupport/GmlMark.py:23-135 *)
  Cls n_CIM15_IEC61970_Informative_InfGMLSupport_GmlMark_GmlMark n_GmlMark (Some n_CIM15_IEC61970_Core_IdentifiedObject_IdentifiedObject)
    [(n_wellKnownName, VStr n_); (n_GmlGraphics, VNone); (n_GmlStrokes, VNone); (n_GmlFIlls, VNone)]
    [SAttr n_wellKnownName; SMany n_GmlGraphics; SMany n_GmlStrokes; SMany n_GmlFIlls]
    true true
    [n_wellKnownName]
    [(n_wellKnownName, VStr n_)]
    []
    [n_GmlGraphics; n_GmlStrokes; n_GmlFIlls]
    [n_GmlGraphics; n_GmlStrokes; n_GmlFIlls]
    [(n_GmlGraphics, PManyMany n_GmlMarks); (n_GmlStrokes, PManyMany n_GmlMarks); (n_GmlFIlls, PManyMany n_GmlMarks)];
(* CIM15/IEC61970/Informative/InfGMLSupport/GmlObservation.py:23-135 *)
  Cls n_CIM15_IEC61970_Informative_InfGMLSupport_GmlObservation_GmlObservation n_GmlObservation (Some n_CIM15_Element_Element)
    [(n_resultOf, VStr n_); (n_target, VStr n_); (n_using, VStr n_); (n_dateTime, VStr n_); (n_GmlDiagramObjects, VNone); (n_ChangeItems, VNone); (n_GmlValues, VNone)]
    [SAttr n_resultOf; SAttr n_target; SAttr n_using; SAttr n_dateTime; SMany n_GmlDiagramObjects; SMany n_ChangeItems; SMany n_GmlValues]
    true true
    [n_resultOf; n_target; n_using; n_dateTime]
    [(n_resultOf, VStr n_); (n_target, VStr n_); (n_using, VStr n_); (n_dateTime, VStr n_)]
    []
    [n_GmlDiagramObjects; n_ChangeItems; n_GmlValues]
    [n_GmlDiagramObjects; n_ChangeItems; n_GmlValues]
    [(n_GmlDiagramObjects, PManyMany n_GmlObservatins); (n_ChangeItems, PManyOne n_GmlObservation); (n_GmlValues, PManyOne n_GmlObservation)];
(* CIM15/IEC61970/Informative/InfGMLSupport/GmlPointGeometry.py:23-38 *)
  Cls n_CIM15_IEC61970_Informative_InfGMLSupport_GmlPointGeometry_GmlPointGeometry n_GmlPointGeometry (Some n_CIM15_IEC61970_Informative_InfGMLSupport_GmlDiagramObject_GmlDiagramObject)
    []
    []
    true true
    []
    []
    []
    []
    []
    [];
(* CIM15/IEC61970/Informative/InfGMLSupport/GmlPointSymbol.py:23-78 *)
  Cls n_CIM15_IEC61970_Informative_InfGMLSupport_GmlPointSymbol_GmlPointSymbol n_GmlPointSymbol (Some n_CIM15_IEC61970_Informative_InfGMLSupport_GmlSymbol_GmlSymbol)
    [(n_GmlGraphic, VNone); (n_GmlDiagramObject, VNone)]
    [SOne n_GmlGraphic; SOne n_GmlDiagramObject]
    true true
    []
    []
    []
    [n_GmlGraphic; n_GmlDiagramObject]
    []
    [(n_GmlGraphic, POneMany n_GmlPointSymbols); (n_GmlDiagramObject, POneMany n_GmlPointSymbols)];
(* CIM15/IEC61970/Informative/InfGMLSupport/GmlPolygonGeometry.py:23-38 *)
  Cls n_CIM15_IEC61970_Informative_InfGMLSupport_GmlPolygonGeometry_GmlPolygonGeometry n_GmlPolygonGeometry (Some n_CIM15_IEC61970_Informative_InfGMLSupport_GmlDiagramObject_GmlDiagramObject)
    []
    []
    true true
    []
    []
    []
    []
    []
    [];
(* CIM15/IEC61970/Informative/InfGMLSupport/GmlPolygonSymbol.py:23-98 *)
  Cls n_CIM15_IEC61970_Informative_InfGMLSupport_GmlPolygonSymbol_GmlPolygonSymbol n_GmlPolygonSymbol (Some n_CIM15_IEC61970_Informative_InfGMLSupport_GmlSymbol_GmlSymbol)
    [(n_GmlDiagramObject, VNone); (n_GmlFill, VNone); (n_GmlStroke, VNone)]
    [SOne n_GmlDiagramObject; SOne n_GmlFill; SOne n_GmlStroke]
    true true
    []
    []
    []
    [n_GmlDiagramObject; n_GmlFill; n_GmlStroke]
    []
    [(n_GmlDiagramObject, POneMany n_GmlPolygonSymbols); (n_GmlFill, POneMany n_GmlPolygonSymbols); (n_GmlStroke, POneMany n_GmlPolygonSymbols)];
(* CIM15/IEC61970/Informative/InfGMLSupport/GmlPosition.py:23-38 *)
  Cls n_CIM15_IEC61970_Informative_InfGMLSupport_GmlPosition_GmlPosition n_GmlPosition (Some n_CIM15_IEC61968_Common_PositionPoint_PositionPoint)
    []
    []
    true true
    []
    []
    []
    []
    []
    [];
(* CIM15/IEC61970/Informative/InfGMLSupport/GmlRasterSymbol.py:23-90 *)
  Cls n_CIM15_IEC61970_Informative_InfGMLSupport_GmlRasterSymbol_GmlRasterSymbol n_GmlRasterSymbol (Some n_CIM15_IEC61970_Informative_InfGMLSupport_GmlSymbol_GmlSymbol)
    [(n_graySourcename, VStr n_); (n_greenSourceName, VStr n_); (n_opacity, VFloat n_0_0); (n_reliefFactor, VStr n_); (n_redSourcename, VStr n_); (n_overlapbehaviour, VStr n_); (n_brighnessOnly, VBool false); (n_blueSourcename, VStr n_); (n_GmlDiagramObject, VNone)]
    [SAttr n_graySourcename; SAttr n_greenSourceName; SAttr n_opacity; SAttr n_reliefFactor; SAttr n_redSourcename; SAttr n_overlapbehaviour; SAttr n_brighnessOnly; SAttr n_blueSourcename; SOne n_GmlDiagramObject]
    true true
    [n_graySourcename; n_greenSourceName; n_opacity; n_reliefFactor; n_redSourcename; n_overlapbehaviour; n_brighnessOnly; n_blueSourcename]
    [(n_graySourcename, VStr n_); (n_greenSourceName, VStr n_); (n_opacity, VFloat n_0_0); (n_reliefFactor, VStr n_); (n_redSourcename, VStr n_); (n_overlapbehaviour, VStr n_); (n_brighnessOnly, VBool false); (n_blueSourcename, VStr n_)]
    []
    [n_GmlDiagramObject]
    []
    [(n_GmlDiagramObject, POneMany n_GmlRasterSymbols)];
(* CIM15/IEC61970/Informative/InfGMLSupport/GmlSelector.py:23-94 *)
  Cls n_CIM15_IEC61970_Informative_InfGMLSupport_GmlSelector_GmlSelector n_GmlSelector (Some n_CIM15_IEC61970_Core_IdentifiedObject_IdentifiedObject)
    [(n_ChangeItems, VNone); (n_GmlDiagramObjects, VNone)]
    [SMany n_ChangeItems; SMany n_GmlDiagramObjects]
    true true
    []
    []
    []
    [n_ChangeItems; n_GmlDiagramObjects]
    [n_ChangeItems; n_GmlDiagramObjects]
    [(n_ChangeItems, PManyOne n_GmlSelector); (n_GmlDiagramObjects, PManyMany n_GmlSelectors)];
(* CIM15/IEC61970/Informative/InfGMLSupport/GmlStroke.py:23-198 *)
  Cls n_CIM15_IEC61970_Informative_InfGMLSupport_GmlStroke_GmlStroke n_GmlStroke (Some n_CIM15_IEC61970_Core_IdentifiedObject_IdentifiedObject)
    [(n_lineCap, VStr n_); (n_width, VFloat n_0_0); (n_linejoin, VStr n_); (n_dashArray, VStr n_); (n_lineStyle, VStr n_); (n_dashOffset, VStr n_); (n_opacity, VFloat n_0_0); (n_GmlColour, VNone); (n_GmlPolygonSymbols, VNone); (n_GmlMarks, VNone); (n_GmlSvgParameters, VNone); (n_GmlLineSymbols, VNone)]
    [SAttr n_lineCap; SAttr n_width; SAttr n_linejoin; SAttr n_dashArray; SAttr n_lineStyle; SAttr n_dashOffset; SAttr n_opacity; SOne n_GmlColour; SMany n_GmlPolygonSymbols; SMany n_GmlMarks; SMany n_GmlSvgParameters; SMany n_GmlLineSymbols]
    true true
    [n_lineCap; n_width; n_linejoin; n_dashArray; n_lineStyle; n_dashOffset; n_opacity]
    [(n_lineCap, VStr n_); (n_width, VFloat n_0_0); (n_linejoin, VStr n_); (n_dashArray, VStr n_); (n_lineStyle, VStr n_); (n_dashOffset, VStr n_); (n_opacity, VFloat n_0_0)]
    []
    [n_GmlColour; n_GmlPolygonSymbols; n_GmlMarks; n_GmlSvgParameters; n_GmlLineSymbols]
    [n_GmlPolygonSymbols; n_GmlMarks; n_GmlSvgParameters; n_GmlLineSymbols]
    [(n_GmlColour, POneMany n_GmlStrokes); (n_GmlPolygonSymbols, PManyOne n_GmlStroke); (n_GmlMarks, PManyMany n_GmlStrokes); (n_GmlSvgParameters, PManyMany n_GmlStokes); (n_GmlLineSymbols, PManyOne n_GmlStroke)];
(* CIM15/IEC61970/Informative/InfGMLSupport/GmlSvgParameter.py:23-139 *)
  Cls n_CIM15_IEC61970_Informative_InfGMLSupport_GmlSvgParameter_GmlSvgParameter n_GmlSvgParameter (Some n_CIM15_IEC61970_Core_IdentifiedObject_IdentifiedObject)
    [(n_attribute, VStr n_); (n_value, VStr n_); (n_GmlStokes, VNone); (n_GmlFonts, VNone); (n_GmlFills, VNone)]
    [SAttr n_attribute; SAttr n_value; SMany n_GmlStokes; SMany n_GmlFonts; SMany n_GmlFills]
    true true
    [n_attribute; n_value]
    [(n_attribute, VStr n_); (n_value, VStr n_)]
    []
    [n_GmlStokes; n_GmlFonts; n_GmlFills]
    [n_GmlStokes; n_GmlFonts; n_GmlFills]
    [(n_GmlStokes, PManyMany n_GmlSvgParameters); (n_GmlFonts, PManyMany n_GmlSvgParameters); (n_GmlFills, PManyMany n_GmlSvgParameters)];
(* CIM15/IEC61970/Informative/InfGMLSupport/GmlSymbol.py:23-101 *)
  Cls n_CIM15_IEC61970_Informative_InfGMLSupport_GmlSymbol_GmlSymbol n_GmlSymbol (Some n_CIM15_IEC61970_Core_IdentifiedObject_IdentifiedObject)
    [(n_version, VStr n_); (n_level, VStr n_); (n_type, VStr n_); (n_GmlFeatureStyles, VNone); (n_GmlBaseSymbol, VNone)]
    [SAttr n_version; SAttr n_level; SAttr n_type; SMany n_GmlFeatureStyles; SOne n_GmlBaseSymbol]
    true true
    [n_version; n_level; n_type]
    [(n_version, VStr n_); (n_level, VStr n_); (n_type, VStr n_)]
    []
    [n_GmlFeatureStyles; n_GmlBaseSymbol]
    [n_GmlFeatureStyles]
    [(n_GmlFeatureStyles, PManyMany n_GmlSymbols); (n_GmlBaseSymbol, POneMany n_GmlSymbols)];
(* CIM15/IEC61970/Informative/InfGMLSupport/GmlTextSymbol.py:23-158 *)
  Cls n_CIM15_IEC61970_Informative_InfGMLSupport_GmlTextSymbol_GmlTextSymbol n_GmlTextSymbol (Some n_CIM15_IEC61970_Informative_InfGMLSupport_GmlSymbol_GmlSymbol)
    [(n_label, VStr n_); (n_labelType, VStr n_); (n_fieldID, VStr n_); (n_minFontSize, VInt 0); (n_property, VStr n_); (n_GmlFill, VNone); (n_GmlLabelPlacement, VNone); (n_GmlHalo, VNone); (n_GmlFont, VNone); (n_GmlDiagramObject, VNone)]
    [SAttr n_label; SAttr n_labelType; SAttr n_fieldID; SAttr n_minFontSize; SAttr n_property; SOne n_GmlFill; SOne n_GmlLabelPlacement; SOne n_GmlHalo; SOne n_GmlFont; SOne n_GmlDiagramObject]
    true true
    [n_label; n_labelType; n_fieldID; n_minFontSize; n_property]
    [(n_label, VStr n_); (n_labelType, VStr n_); (n_fieldID, VStr n_); (n_minFontSize, VInt 0); (n_property, VStr n_)]
    []
    [n_GmlFill; n_GmlLabelPlacement; n_GmlHalo; n_GmlFont; n_GmlDiagramObject]
    []
    [(n_GmlFill, POneMany n_GmlTextSymbols); (n_GmlLabelPlacement, POneMany n_GmlTextSymbols); (n_GmlHalo, POneMany n_GmlTextSymbols); (n_GmlFont, POneMany n_GmlTextSymbols); (n_GmlDiagramObject, POneMany n_GmlTextSymbols)];
(* CIM15/IEC61970/Informative/InfGMLSupport/GmlTopologyStyle.py:23-78 *)
  Cls n_CIM15_IEC61970_Informative_InfGMLSupport_GmlTopologyStyle_GmlTopologyStyle n_GmlTopologyStyle (Some n_CIM15_IEC61970_Core_IdentifiedObject_IdentifiedObject)
    [(n_GmlLableStyle, VNone); (n_GmlFeatureStyle, VNone)]
    [SOne n_GmlLableStyle; SOne n_GmlFeatureStyle]
    true true
    []
    []
    []
    [n_GmlLableStyle; n_GmlFeatureStyle]
    []
    [(n_GmlLableStyle, POneMany n_GmlTopologyStyles); (n_GmlFeatureStyle, POneMany n_GmlTobologyStyles)];
(* CIM15/IEC61970/Informative/InfGMLSupport/GmlValue.py:23-90 *)
  Cls n_CIM15_IEC61970_Informative_InfGMLSupport_GmlValue_GmlValue n_GmlValue (Some n_CIM15_IEC61970_Core_IdentifiedObject_IdentifiedObject)
    [(n_dateTime, VStr n_); (n_timePeriod, VStr n_); (n_value, VFloat n_0_0); (n_GmlObservation, VNone); (n_MeasurementValue, VNone)]
    [SAttr n_dateTime; SAttr n_timePeriod; SAttr n_value; SOne n_GmlObservation; SOne n_MeasurementValue]
    true true
    [n_dateTime; n_timePeriod; n_value]
    [(n_dateTime, VStr n_); (n_timePeriod, VStr n_); (n_value, VFloat n_0_0)]
    []
    [n_GmlObservation; n_MeasurementValue]
    []
    [(n_GmlObservation, POneMany n_GmlValues); (n_MeasurementValue, POneMany n_GmlValues)];
(* CIM15/IEC61970/Informative/InfGMLSupport/Map.py:23-46 *)
  Cls n_CIM15_IEC61970_Informative_InfGMLSupport_Map_Map n_Map (Some n_CIM15_IEC61970_Informative_InfGMLSupport_Diagram_Diagram)
    [(n_pageNumber, VInt 0); (n_mapLocGrid, VStr n_)]
    [SAttr n_pageNumber; SAttr n_mapLocGrid]
    true true
    [n_pageNumber; n_mapLocGrid]
    [(n_pageNumber, VInt 0); (n_mapLocGrid, VStr n_)]
    []
    []
    []
    [];
(* CIM15/IEC61970/Informative/InfLoadControl/LoadLimitFunction.py:23-54 *)
  Cls n_CIM15_IEC61970_Informative_InfLoadControl_LoadLimitFunction_LoadLimitFunction n_LoadLimitFunction (Some n_CIM15_IEC61970_Informative_InfLoadControl_LoadMgmtFunction_LoadMgmtFunction)
    [(n_disconnectTimeDelay, VFloat n_0_0); (n_isAutoReconOp, VBool false); (n_reconnectTimeDelay, VFloat n_0_0); (n_maximumLoad, VFloat n_0_0)]
    [SAttr n_disconnectTimeDelay; SAttr n_isAutoReconOp; SAttr n_reconnectTimeDelay; SAttr n_maximumLoad]
    true true
    [n_disconnectTimeDelay; n_isAutoReconOp; n_reconnectTimeDelay; n_maximumLoad]
    [(n_disconnectTimeDelay, VFloat n_0_0); (n_isAutoReconOp, VBool false); (n_reconnectTimeDelay, VFloat n_0_0); (n_maximumLoad, VFloat n_0_0)]
    []
    []
    []
    [];
(* CIM15/IEC61970/Informative/InfLoadControl/LoadMgmtFunction.py:23-118 *)
  Cls n_CIM15_IEC61970_Informative_InfLoadControl_LoadMgmtFunction_LoadMgmtFunction n_LoadMgmtFunction (Some n_CIM15_IEC61968_Metering_EndDeviceFunction_EndDeviceFunction)
    [(n_schedulingBasis, VStr n_remoteControl); (n_remoteOverRide, VBool false); (n_isAutoOp, VBool false); (n_loadStatus, VStr n_limitedLoad); (n_manualOverRide, VBool false); (n_overRideTimeOut, VFloat n_0_0); (n_Switches, VNone); (n_LoadMgmtRecords, VNone)]
    [SAttr n_schedulingBasis; SAttr n_remoteOverRide; SAttr n_isAutoOp; SAttr n_loadStatus; SAttr n_manualOverRide; SAttr n_overRideTimeOut; SMany n_Switches; SMany n_LoadMgmtRecords]
    true true
    [n_schedulingBasis; n_remoteOverRide; n_isAutoOp; n_loadStatus; n_manualOverRide; n_overRideTimeOut]
    [(n_schedulingBasis, VStr n_remoteControl); (n_remoteOverRide, VBool false); (n_isAutoOp, VBool false); (n_loadStatus, VStr n_limitedLoad); (n_manualOverRide, VBool false); (n_overRideTimeOut, VFloat n_0_0)]
    [(n_schedulingBasis, n_LoadMgmtKind); (n_loadStatus, n_LoadStateKind)]
    [n_Switches; n_LoadMgmtRecords]
    [n_Switches; n_LoadMgmtRecords]
    [(n_Switches, PManyMany n_LoadMgmtFunctions); (n_LoadMgmtRecords, PManyOne n_LoadMgmtFunction)];
(* CIM15/IEC61970/Informative/InfLoadControl/LoadMgmtRecord.py:23-62 *)
  Cls n_CIM15_IEC61970_Informative_InfLoadControl_LoadMgmtRecord_LoadMgmtRecord n_LoadMgmtRecord (Some n_CIM15_IEC61968_Common_ActivityRecord_ActivityRecord)
    [(n_loadReduction, VFloat n_0_0); (n_LoadMgmtFunction, VNone)]
    [SAttr n_loadReduction; SOne n_LoadMgmtFunction]
    true true
    [n_loadReduction]
    [(n_loadReduction, VFloat n_0_0)]
    []
    [n_LoadMgmtFunction]
    []
    [(n_LoadMgmtFunction, POneMany n_LoadMgmtRecords)];
(* CIM15/IEC61970/Informative/InfLoadControl/LoadShedFunction.py:23-42 *)
  Cls n_CIM15_IEC61970_Informative_InfLoadControl_LoadShedFunction_LoadShedFunction n_LoadShedFunction (Some n_CIM15_IEC61970_Informative_InfLoadControl_LoadMgmtFunction_LoadMgmtFunction)
    [(n_switchedLoad, VFloat n_0_0)]
    [SAttr n_switchedLoad]
    true true
    [n_switchedLoad]
    [(n_switchedLoad, VFloat n_0_0)]
    []
    []
    []
    [];
(* CIM15/IEC61970/Informative/InfLocations/Direction.py:23-62 *)
  Cls n_CIM15_IEC61970_Informative_InfLocations_Direction_Direction n_Direction (Some n_CIM15_Element_Element)
    [(n_directionInfo, VStr n_); (n_Location, VNone)]
    [SAttr n_directionInfo; SOne n_Location]
    true true
    [n_directionInfo]
    [(n_directionInfo, VStr n_)]
    []
    [n_Location]
    []
    [(n_Location, POneMany n_Directions)];
(* CIM15/IEC61970/Informative/InfLocations/Hazard.py:23-79 *)
  Cls n_CIM15_IEC61970_Informative_InfLocations_Hazard_Hazard n_Hazard (Some n_CIM15_IEC61970_Core_IdentifiedObject_IdentifiedObject)
    [(n_category, VStr n_); (n_Locations, VNone); (n_status, VNone)]
    [SAttr n_category; SMany n_Locations; SAttr n_status]
    true true
    [n_category]
    [(n_category, VStr n_)]
    []
    [n_Locations; n_status]
    [n_Locations]
    [(n_Locations, PManyMany n_Hazards)];
(* CIM15/IEC61970/Informative/InfLocations/LandProperty.py:23-257 *)
  Cls n_CIM15_IEC61970_Informative_InfLocations_LandProperty_LandProperty n_LandProperty (Some n_CIM15_IEC61970_Core_IdentifiedObject_IdentifiedObject)
    [(n_kind, VStr n_store); (n_externalRecordReference, VStr n_); (n_demographicKind, VStr n_other); (n_status, VNone); (n_LocationGrants, VNone); (n_ErpSiteLevelDatas, VNone); (n_ErpPersonRoles, VNone); (n_ErpOrganisationRoles, VNone); (n_AssetContainers, VNone); (n_Locations, VNone); (n_RightOfWays, VNone)]
    [SAttr n_kind; SAttr n_externalRecordReference; SAttr n_demographicKind; SAttr n_status; SMany n_LocationGrants; SMany n_ErpSiteLevelDatas; SMany n_ErpPersonRoles; SMany n_ErpOrganisationRoles; SMany n_AssetContainers; SMany n_Locations; SMany n_RightOfWays]
    true true
    [n_kind; n_externalRecordReference; n_demographicKind]
    [(n_kind, VStr n_store); (n_externalRecordReference, VStr n_); (n_demographicKind, VStr n_other)]
    [(n_kind, n_LandPropertyKind); (n_demographicKind, n_DemographicKind)]
    [n_status; n_LocationGrants; n_ErpSiteLevelDatas; n_ErpPersonRoles; n_ErpOrganisationRoles; n_AssetContainers; n_Locations; n_RightOfWays]
    [n_LocationGrants; n_ErpSiteLevelDatas; n_ErpPersonRoles; n_ErpOrganisationRoles; n_AssetContainers; n_Locations; n_RightOfWays]
    [(n_LocationGrants, PManyOne n_LandProperty); (n_ErpSiteLevelDatas, PManyOne n_LandProperty); (n_ErpPersonRoles, PManyOne n_LandProperty); (n_ErpOrganisationRoles, PManyMany n_LandProperty); (n_AssetContainers, PManyMany n_LandProperties); (n_Locations, PManyMany n_LandProperties); (n_RightOfWays, PManyMany n_LandProperties)];
(* CIM15/IEC61970/Informative/InfLocations/LocationGrant.py:23-63 *)
  Cls n_CIM15_IEC61970_Informative_InfLocations_LocationGrant_LocationGrant n_LocationGrant (Some n_CIM15_IEC61968_Common_Agreement_Agreement)
    [(n_propertyData, VStr n_); (n_LandProperty, VNone)]
    [SAttr n_propertyData; SOne n_LandProperty]
    true true
    [n_propertyData]
    [(n_propertyData, VStr n_)]
    []
    [n_LandProperty]
    []
    [(n_LandProperty, POneMany n_LocationGrants)];
(* CIM15/IEC61970/Informative/InfLocations/OrgPropertyRole.py:23-89 *)
  Cls n_CIM15_IEC61970_Informative_InfLocations_OrgPropertyRole_OrgPropertyRole n_OrgPropertyRole (Some n_CIM15_IEC61970_Informative_InfCommon_Role_Role)
    [(n_LandProperty, VNone); (n_ErpOrganisation, VNone)]
    [SMany n_LandProperty; SOne n_ErpOrganisation]
    true true
    []
    []
    []
    [n_LandProperty; n_ErpOrganisation]
    [n_LandProperty]
    [(n_LandProperty, PManyMany n_ErpOrganisationRoles); (n_ErpOrganisation, POneMany n_LandPropertyRoles)];
(* CIM15/IEC61970/Informative/InfLocations/PersonPropertyRole.py:23-78 *)
  Cls n_CIM15_IEC61970_Informative_InfLocations_PersonPropertyRole_PersonPropertyRole n_PersonPropertyRole (Some n_CIM15_IEC61970_Informative_InfCommon_Role_Role)
    [(n_ErpPerson, VNone); (n_LandProperty, VNone)]
    [SOne n_ErpPerson; SOne n_LandProperty]
    true true
    []
    []
    []
    [n_ErpPerson; n_LandProperty]
    []
    [(n_ErpPerson, POneMany n_LandPropertyRoles); (n_LandProperty, POneMany n_ErpPersonRoles)];
(* CIM15/IEC61970/Informative/InfLocations/RedLine.py:23-74 *)
  Cls n_CIM15_IEC61970_Informative_InfLocations_RedLine_RedLine n_RedLine (Some n_CIM15_IEC61970_Core_IdentifiedObject_IdentifiedObject)
    [(n_Locations, VNone); (n_status, VNone)]
    [SMany n_Locations; SAttr n_status]
    true true
    []
    []
    []
    [n_Locations; n_status]
    [n_Locations]
    [(n_Locations, PManyMany n_RedLines)];
(* CIM15/IEC61970/Informative/InfLocations/RightOfWay.py:23-74 *)
  Cls n_CIM15_IEC61970_Informative_InfLocations_RightOfWay_RightOfWay n_RightOfWay (Some n_CIM15_IEC61968_Common_Agreement_Agreement)
    [(n_propertyData, VStr n_); (n_LandProperties, VNone)]
    [SAttr n_propertyData; SMany n_LandProperties]
    true true
    [n_propertyData]
    [(n_propertyData, VStr n_)]
    []
    [n_LandProperties]
    [n_LandProperties]
    [(n_LandProperties, PManyMany n_RightOfWays)];
(* CIM15/IEC61970/Informative/InfLocations/Route.py:23-103 *)
  Cls n_CIM15_IEC61970_Informative_InfLocations_Route_Route n_Route (Some n_CIM15_IEC61970_Core_IdentifiedObject_IdentifiedObject)
    [(n_category, VStr n_); (n_Crews, VNone); (n_status, VNone); (n_Locations, VNone)]
    [SAttr n_category; SMany n_Crews; SAttr n_status; SMany n_Locations]
    true true
    [n_category]
    [(n_category, VStr n_)]
    []
    [n_Crews; n_status; n_Locations]
    [n_Crews; n_Locations]
    [(n_Crews, PManyOne n_Route); (n_Locations, PManyMany n_Routes)];
(* CIM15/IEC61970/Informative/InfLocations/Zone.py:23-42 *)
  Cls n_CIM15_IEC61970_Informative_InfLocations_Zone_Zone n_Zone (Some n_CIM15_IEC61968_Common_Location_Location)
    [(n_kind, VStr n_weatherZone)]
    [SAttr n_kind]
    true true
    [n_kind]
    [(n_kind, VStr n_weatherZone)]
    [(n_kind, n_ZoneKind)]
    []
    []
    [];
(* CIM15/IEC61970/Informative/InfMetering/GasMeteringFunction.py:23-38 *)
  Cls n_CIM15_IEC61970_Informative_InfMetering_GasMeteringFunction_GasMeteringFunction n_GasMeteringFunction (Some n_CIM15_IEC61968_Metering_EndDeviceFunction_EndDeviceFunction)
    []
    []
    true true
    []
    []
    []
    []
    []
    [];
(* CIM15/IEC61970/Informative/InfMetering/WaterMeteringFunction.py:23-38 *)
  Cls n_CIM15_IEC61970_Informative_InfMetering_WaterMeteringFunction_WaterMeteringFunction n_WaterMeteringFunction (Some n_CIM15_IEC61968_Metering_EndDeviceFunction_EndDeviceFunction)
    []
    []
    true true
    []
    []
    []
    []
    []
    [];
(* CIM15/IEC61970/Informative/InfOperations/CallBack.py:23-150 *)
  Cls n_CIM15_IEC61970_Informative_InfOperations_CallBack_CallBack n_CallBack (Some n_CIM15_IEC61970_Core_IdentifiedObject_IdentifiedObject)
    [(n_dateTime, VStr n_); (n_comment, VStr n_); (n_advice, VStr n_); (n_contactDetail, VStr n_); (n_problemInfo, VStr n_); (n_Appointments, VNone); (n_ErpPersons, VNone); (n_TroubleTickets, VNone); (n_status, VNone)]
    [SAttr n_dateTime; SAttr n_comment; SAttr n_advice; SAttr n_contactDetail; SAttr n_problemInfo; SMany n_Appointments; SMany n_ErpPersons; SMany n_TroubleTickets; SAttr n_status]
    true true
    [n_dateTime; n_comment; n_advice; n_contactDetail; n_problemInfo]
    [(n_dateTime, VStr n_); (n_comment, VStr n_); (n_advice, VStr n_); (n_contactDetail, VStr n_); (n_problemInfo, VStr n_)]
    []
    [n_Appointments; n_ErpPersons; n_TroubleTickets; n_status]
    [n_Appointments; n_ErpPersons; n_TroubleTickets]
    [(n_Appointments, PManyOne n_CallBack); (n_ErpPersons, PManyMany n_CallBacks); (n_TroubleTickets, PManyMany n_CallBacks)];
(* CIM15/IEC61970/Informative/InfOperations/ChangeItem.py:23-251 *)
  Cls n_CIM15_IEC61970_Informative_InfOperations_ChangeItem_ChangeItem n_ChangeItem (Some n_CIM15_IEC61970_Core_IdentifiedObject_IdentifiedObject)
    [(n_sequenceNumber, VInt 0); (n_kind, VStr n_add); (n_GmlSelector, VNone); (n_Organisation, VNone); (n_Document, VNone); (n_Asset, VNone); (n_status, VNone); (n_GmlObservation, VNone); (n_ErpPerson, VNone); (n_PowerSystemResource, VNone); (n_ChangeSet, VNone); (n_Location, VNone); (n_NetworkDataSet, VNone)]
    [SAttr n_sequenceNumber; SAttr n_kind; SOne n_GmlSelector; SOne n_Organisation; SOne n_Document; SOne n_Asset; SAttr n_status; SOne n_GmlObservation; SOne n_ErpPerson; SOne n_PowerSystemResource; SOne n_ChangeSet; SOne n_Location; SOne n_NetworkDataSet]
    true true
    [n_sequenceNumber; n_kind]
    [(n_sequenceNumber, VInt 0); (n_kind, VStr n_add)]
    [(n_kind, n_ChangeItemKind)]
    [n_GmlSelector; n_Organisation; n_Document; n_Asset; n_status; n_GmlObservation; n_ErpPerson; n_PowerSystemResource; n_ChangeSet; n_Location; n_NetworkDataSet]
    []
    [(n_GmlSelector, POneMany n_ChangeItems); (n_Organisation, POneMany n_ChangeItems); (n_Document, POneMany n_ChangeItems); (n_Asset, POneMany n_ChangeItems); (n_GmlObservation, POneMany n_ChangeItems); (n_ErpPerson, POneMany n_ChangeItems); (n_PowerSystemResource, POneMany n_ChangeItems); (n_ChangeSet, POneMany n_ChangeItems); (n_Location, POneMany n_ChangeItems); (n_NetworkDataSet, POneMany n_ChangeItems)];
(* CIM15/IEC61970/Informative/InfOperations/ChangeSet.py:23-130 *)
  Cls n_CIM15_IEC61970_Informative_InfOperations_ChangeSet_ChangeSet n_ChangeSet (Some n_CIM15_IEC61970_Core_IdentifiedObject_IdentifiedObject)
    [(n_NetworkDataSets, VNone); (n_ChangeItems, VNone); (n_status, VNone); (n_Documents, VNone)]
    [SMany n_NetworkDataSets; SMany n_ChangeItems; SAttr n_status; SMany n_Documents]
    true true
    []
    []
    []
    [n_NetworkDataSets; n_ChangeItems; n_status; n_Documents]
    [n_NetworkDataSets; n_ChangeItems; n_Documents]
    [(n_NetworkDataSets, PManyMany n_ChangeSets); (n_ChangeItems, PManyOne n_ChangeSet); (n_Documents, PManyMany n_ChangeSets)];
(* CIM15/IEC61970/Informative/InfOperations/Circuit.py:23-69 *)
  Cls n_CIM15_IEC61970_Informative_InfOperations_Circuit_Circuit n_Circuit (Some n_CIM15_IEC61970_Core_EquipmentContainer_EquipmentContainer)
    [(n_CircuitSections, VNone)]
    [SMany n_CircuitSections]
    true true
    []
    []
    []
    [n_CircuitSections]
    [n_CircuitSections]
    [(n_CircuitSections, PManyMany n_Circuits)];
(* CIM15/IEC61970/Informative/InfOperations/CircuitSection.py:23-98 *)
  Cls n_CIM15_IEC61970_Informative_InfOperations_CircuitSection_CircuitSection n_CircuitSection (Some n_CIM15_IEC61970_Core_IdentifiedObject_IdentifiedObject)
    [(n_connectionKind, VStr n_electricallyConnected); (n_ConductorAssets, VNone); (n_Circuits, VNone)]
    [SAttr n_connectionKind; SMany n_ConductorAssets; SMany n_Circuits]
    true true
    [n_connectionKind]
    [(n_connectionKind, VStr n_electricallyConnected)]
    [(n_connectionKind, n_CircuitConnectionKind)]
    [n_ConductorAssets; n_Circuits]
    [n_ConductorAssets; n_Circuits]
    [(n_ConductorAssets, PManyOne n_CircuitSection); (n_Circuits, PManyMany n_CircuitSections)];
(* CIM15/IEC61970/Informative/InfOperations/ErpPersonScheduleStepRole.py:23-77 *)
  Cls n_CIM15_IEC61970_Informative_InfOperations_ErpPersonScheduleStepRole_ErpPersonScheduleStepRole n_ErpPersonScheduleStepRole (Some n_CIM15_IEC61970_Informative_InfCommon_Role_Role)
    [(n_ErpPerson, VNone); (n_SwitchingStep, VNone)]
    [SOne n_ErpPerson; SOne n_SwitchingStep]
    true true
    []
    []
    []
    [n_ErpPerson; n_SwitchingStep]
    []
    [(n_ErpPerson, POneMany n_SwitchingStepRoles); (n_SwitchingStep, POneOne n_ErpPersonRole)];
(* CIM15/IEC61970/Informative/InfOperations/IncidentCode.py:23-73 *)
  Cls n_CIM15_IEC61970_Informative_InfOperations_IncidentCode_IncidentCode n_IncidentCode (Some n_CIM15_IEC61970_Core_IdentifiedObject_IdentifiedObject)
    [(n_subCode, VStr n_); (n_IncidentRecords, VNone)]
    [SAttr n_subCode; SMany n_IncidentRecords]
    true true
    [n_subCode]
    [(n_subCode, VStr n_)]
    []
    [n_IncidentRecords]
    [n_IncidentRecords]
    [(n_IncidentRecords, PManyMany n_IncidentCodes)];
(* CIM15/IEC61970/Informative/InfOperations/IncidentRecord.py:23-100 *)
  Cls n_CIM15_IEC61970_Informative_InfOperations_IncidentRecord_IncidentRecord n_IncidentRecord (Some n_CIM15_IEC61968_Common_Document_Document)
    [(n_TroubleTickets, VNone); (n_period, VNone); (n_IncidentCodes, VNone)]
    [SMany n_TroubleTickets; SAttr n_period; SMany n_IncidentCodes]
    true true
    []
    []
    []
    [n_TroubleTickets; n_period; n_IncidentCodes]
    [n_TroubleTickets; n_IncidentCodes]
    [(n_TroubleTickets, PManyOne n_IncidentRecord); (n_IncidentCodes, PManyMany n_IncidentRecords)];
(* CIM15/IEC61970/Informative/InfOperations/LandBase.py:23-38 *)
  Cls n_CIM15_IEC61970_Informative_InfOperations_LandBase_LandBase n_LandBase (Some n_CIM15_IEC61968_Common_Document_Document)
    []
    []
    true true
    []
    []
    []
    []
    []
    [];
(* CIM15/IEC61970/Informative/InfOperations/NetworkDataSet.py:23-165 *)
  Cls n_CIM15_IEC61970_Informative_InfOperations_NetworkDataSet_NetworkDataSet n_NetworkDataSet (Some n_CIM15_IEC61970_Core_IdentifiedObject_IdentifiedObject)
    [(n_category, VStr n_); (n_status, VNone); (n_Documents, VNone); (n_ChangeItems, VNone); (n_ChangeSets, VNone); (n_PowerSystemResources, VNone)]
    [SAttr n_category; SAttr n_status; SMany n_Documents; SMany n_ChangeItems; SMany n_ChangeSets; SMany n_PowerSystemResources]
    true true
    [n_category]
    [(n_category, VStr n_)]
    []
    [n_status; n_Documents; n_ChangeItems; n_ChangeSets; n_PowerSystemResources]
    [n_Documents; n_ChangeItems; n_ChangeSets; n_PowerSystemResources]
    [(n_Documents, PManyMany n_NetworkDataSets); (n_ChangeItems, PManyOne n_NetworkDataSet); (n_ChangeSets, PManyMany n_NetworkDataSets); (n_PowerSystemResources, PManyMany n_NetworkDataSets)];
(* CIM15/IEC61970/Informative/InfOperations/OperationalRestriction.py:23-44 *)
  Cls n_CIM15_IEC61970_Informative_InfOperations_OperationalRestriction_OperationalRestriction n_OperationalRestriction (Some n_CIM15_IEC61968_Common_Document_Document)
    [(n_activePeriod, VNone)]
    [SAttr n_activePeriod]
    true true
    []
    []
    []
    [n_activePeriod]
    []
    [];
(* CIM15/IEC61970/Informative/InfOperations/OrgPsrRole.py:23-78 *)
  Cls n_CIM15_IEC61970_Informative_InfOperations_OrgPsrRole_OrgPsrRole n_OrgPsrRole (Some n_CIM15_IEC61970_Informative_InfCommon_Role_Role)
    [(n_ErpOrganisation, VNone); (n_PowerSystemResource, VNone)]
    [SOne n_ErpOrganisation; SOne n_PowerSystemResource]
    true true
    []
    []
    []
    [n_ErpOrganisation; n_PowerSystemResource]
    []
    [(n_ErpOrganisation, POneMany n_PowerSystemResourceRoles); (n_PowerSystemResource, POneMany n_ErpOrganisationRoles)];
(* CIM15/IEC61970/Informative/InfOperations/OutageCode.py:23-104 *)
  Cls n_CIM15_IEC61970_Informative_InfOperations_OutageCode_OutageCode n_OutageCode (Some n_CIM15_IEC61970_Core_IdentifiedObject_IdentifiedObject)
    [(n_subCode, VStr n_); (n_OutageRecords, VNone); (n_OutageSteps, VNone)]
    [SAttr n_subCode; SMany n_OutageRecords; SMany n_OutageSteps]
    true true
    [n_subCode]
    [(n_subCode, VStr n_)]
    []
    [n_OutageRecords; n_OutageSteps]
    [n_OutageRecords; n_OutageSteps]
    [(n_OutageRecords, PManyMany n_OutageCodes); (n_OutageSteps, PManyMany n_OutageCodes)];
(* CIM15/IEC61970/Informative/InfOperations/OutageNotification.py:23-81 *)
  Cls n_CIM15_IEC61970_Informative_InfOperations_OutageNotification_OutageNotification n_OutageNotification (Some n_CIM15_IEC61968_Common_Document_Document)
    [(n_expectedInterruptionCount, VInt 0); (n_duration, VFloat n_0_0); (n_reason, VStr n_); (n_CustomerDatas, VNone)]
    [SAttr n_expectedInterruptionCount; SAttr n_duration; SAttr n_reason; SMany n_CustomerDatas]
    true true
    [n_expectedInterruptionCount; n_duration; n_reason]
    [(n_expectedInterruptionCount, VInt 0); (n_duration, VFloat n_0_0); (n_reason, VStr n_)]
    []
    [n_CustomerDatas]
    [n_CustomerDatas]
    [(n_CustomerDatas, PManyMany n_OutageNotifications)];
(* CIM15/IEC61970/Informative/InfOperations/OutageRecord.py:23-134 *)
  Cls n_CIM15_IEC61970_Informative_InfOperations_OutageRecord_OutageRecord n_OutageRecord (Some n_CIM15_IEC61968_Common_Document_Document)
    [(n_endDateTime, VStr n_); (n_isPlanned, VBool false); (n_damageCode, VStr n_); (n_actionTaken, VStr n_); (n_mode, VStr n_); (n_OutageCodes, VNone); (n_OutageReport, VNone); (n_OutageSteps, VNone)]
    [SAttr n_endDateTime; SAttr n_isPlanned; SAttr n_damageCode; SAttr n_actionTaken; SAttr n_mode; SMany n_OutageCodes; SOne n_OutageReport; SMany n_OutageSteps]
    true true
    [n_endDateTime; n_isPlanned; n_damageCode; n_actionTaken; n_mode]
    [(n_endDateTime, VStr n_); (n_isPlanned, VBool false); (n_damageCode, VStr n_); (n_actionTaken, VStr n_); (n_mode, VStr n_)]
    []
    [n_OutageCodes; n_OutageReport; n_OutageSteps]
    [n_OutageCodes; n_OutageSteps]
    [(n_OutageCodes, PManyMany n_OutageRecords); (n_OutageReport, POneOne n_OutageRecord); (n_OutageSteps, PManyOne n_OutageRecord)];
(* CIM15/IEC61970/Informative/InfOperations/OutageReport.py:23-95 *)
  Cls n_CIM15_IEC61970_Informative_InfOperations_OutageReport_OutageReport n_OutageReport (Some n_CIM15_IEC61968_Common_Document_Document)
    [(n_customerCount, VInt 0); (n_averageCml, VFloat n_0_0); (n_outageDuration, VFloat n_0_0); (n_totalCml, VFloat n_0_0); (n_OutageRecord, VNone); (n_OutageHistory, VNone)]
    [SAttr n_customerCount; SAttr n_averageCml; SAttr n_outageDuration; SAttr n_totalCml; SOne n_OutageRecord; SOne n_OutageHistory]
    true true
    [n_customerCount; n_averageCml; n_outageDuration; n_totalCml]
    [(n_customerCount, VInt 0); (n_averageCml, VFloat n_0_0); (n_outageDuration, VFloat n_0_0); (n_totalCml, VFloat n_0_0)]
    []
    [n_OutageRecord; n_OutageHistory]
    []
    [(n_OutageRecord, POneOne n_OutageReport); (n_OutageHistory, POneMany n_OutageReports)];
(* CIM15/IEC61970/Informative/InfOperations/OutageStep.py:23-205 *)
  Cls n_CIM15_IEC61970_Informative_InfOperations_OutageStep_OutageStep n_OutageStep (Some n_CIM15_IEC61970_Core_IdentifiedObject_IdentifiedObject)
    [(n_averageCml, VFloat n_0_0); (n_damage, VBool false); (n_specialCustomerCount, VInt 0); (n_criticalCustomerCount, VInt 0); (n_estimatedRestoreDateTime, VStr n_); (n_shockReported, VBool false); (n_callerCount, VInt 0); (n_fatality, VBool false); (n_jobPriority, VStr n_); (n_totalCustomerCount, VInt 0); (n_injury, VBool false); (n_totalCml, VFloat n_0_0); (n_Crews, VNone); (n_noPowerInterval, VNone); (n_ConductingEquipmentRoles, VNone); (n_status, VNone); (n_OutageRecord, VNone); (n_OutageCodes, VNone)]
    [SAttr n_averageCml; SAttr n_damage; SAttr n_specialCustomerCount; SAttr n_criticalCustomerCount; SAttr n_estimatedRestoreDateTime; SAttr n_shockReported; SAttr n_callerCount; SAttr n_fatality; SAttr n_jobPriority; SAttr n_totalCustomerCount; SAttr n_injury; SAttr n_totalCml; SMany n_Crews; SAttr n_noPowerInterval; SMany n_ConductingEquipmentRoles; SAttr n_status; SOne n_OutageRecord; SMany n_OutageCodes]
    true true
    [n_averageCml; n_damage; n_specialCustomerCount; n_criticalCustomerCount; n_estimatedRestoreDateTime; n_shockReported; n_callerCount; n_fatality; n_jobPriority; n_totalCustomerCount; n_injury; n_totalCml]
    [(n_averageCml, VFloat n_0_0); (n_damage, VBool false); (n_specialCustomerCount, VInt 0); (n_criticalCustomerCount, VInt 0); (n_estimatedRestoreDateTime, VStr n_); (n_shockReported, VBool false); (n_callerCount, VInt 0); (n_fatality, VBool false); (n_jobPriority, VStr n_); (n_totalCustomerCount, VInt 0); (n_injury, VBool false); (n_totalCml, VFloat n_0_0)]
    []
    [n_Crews; n_noPowerInterval; n_ConductingEquipmentRoles; n_status; n_OutageRecord; n_OutageCodes]
    [n_Crews; n_ConductingEquipmentRoles; n_OutageCodes]
    [(n_Crews, PManyMany n_OutageSteps); (n_ConductingEquipmentRoles, PManyOne n_OutageStep); (n_OutageRecord, POneMany n_OutageSteps); (n_OutageCodes, PManyMany n_OutageSteps)];
(* CIM15/IEC61970/Informative/InfOperations/OutageStepPsrRole.py:23-78 *)
  Cls n_CIM15_IEC61970_Informative_InfOperations_OutageStepPsrRole_OutageStepPsrRole n_OutageStepPsrRole (Some n_CIM15_IEC61970_Informative_InfCommon_Role_Role)
    [(n_OutageStep, VNone); (n_ConductingEquipment, VNone)]
    [SOne n_OutageStep; SOne n_ConductingEquipment]
    true true
    []
    []
    []
    [n_OutageStep; n_ConductingEquipment]
    []
    [(n_OutageStep, POneMany n_ConductingEquipmentRoles); (n_ConductingEquipment, POneMany n_OutageStepRoles)];
(* CIM15/IEC61970/Informative/InfOperations/PSREvent.py:23-63 *)
  Cls n_CIM15_IEC61970_Informative_InfOperations_PSREvent_PSREvent n_PSREvent (Some n_CIM15_IEC61968_Common_ActivityRecord_ActivityRecord)
    [(n_kind, VStr n_pendingRemove); (n_PowerSystemResource, VNone)]
    [SAttr n_kind; SOne n_PowerSystemResource]
    true true
    [n_kind]
    [(n_kind, VStr n_pendingRemove)]
    [(n_kind, n_PSREventKind)]
    [n_PowerSystemResource]
    []
    [(n_PowerSystemResource, POneMany n_PSREvent)];
(* CIM15/IEC61970/Informative/InfOperations/PlannedOutage.py:23-93 *)
  Cls n_CIM15_IEC61970_Informative_InfOperations_PlannedOutage_PlannedOutage n_PlannedOutage (Some n_CIM15_IEC61968_Common_Document_Document)
    [(n_kind, VStr n_fixed); (n_CustomerDatas, VNone); (n_OutageSchedules, VNone)]
    [SAttr n_kind; SMany n_CustomerDatas; SMany n_OutageSchedules]
    true true
    [n_kind]
    [(n_kind, VStr n_fixed)]
    [(n_kind, n_OutageKind)]
    [n_CustomerDatas; n_OutageSchedules]
    [n_CustomerDatas; n_OutageSchedules]
    [(n_CustomerDatas, PManyOne n_PlannedOutage); (n_OutageSchedules, PManyOne n_PlannedOutage)];
(* CIM15/IEC61970/Informative/InfOperations/SafetyDocument.py:23-108 *)
  Cls n_CIM15_IEC61970_Informative_InfOperations_SafetyDocument_SafetyDocument n_SafetyDocument (Some n_CIM15_IEC61968_Common_Document_Document)
    [(n_ClearanceTags, VNone); (n_ScheduleSteps, VNone); (n_PowerSystemResource, VNone)]
    [SMany n_ClearanceTags; SMany n_ScheduleSteps; SOne n_PowerSystemResource]
    true true
    []
    []
    []
    [n_ClearanceTags; n_ScheduleSteps; n_PowerSystemResource]
    [n_ClearanceTags; n_ScheduleSteps]
    [(n_ClearanceTags, PManyOne n_SafetyDocument); (n_ScheduleSteps, PManyOne n_SafetyDocument); (n_PowerSystemResource, POneMany n_SafetyDocuments)];
(* CIM15/IEC61970/Informative/InfOperations/SwitchingSchedule.py:23-125 *)
  Cls n_CIM15_IEC61970_Informative_InfOperations_SwitchingSchedule_SwitchingSchedule n_SwitchingSchedule (Some n_CIM15_IEC61968_Common_Document_Document)
    [(n_reason, VStr n_); (n_ScheduleSteps, VNone); (n_WorkTask, VNone); (n_Crews, VNone); (n_interval, VNone)]
    [SAttr n_reason; SMany n_ScheduleSteps; SOne n_WorkTask; SMany n_Crews; SAttr n_interval]
    true true
    [n_reason]
    [(n_reason, VStr n_)]
    []
    [n_ScheduleSteps; n_WorkTask; n_Crews; n_interval]
    [n_ScheduleSteps; n_Crews]
    [(n_ScheduleSteps, PManyOne n_SwitchingSchedule); (n_WorkTask, POneMany n_SwitchingSchedules); (n_Crews, PManyMany n_SwitchingSchedules)];
(* CIM15/IEC61970/Informative/InfOperations/SwitchingStep.py:23-150 *)
  Cls n_CIM15_IEC61970_Informative_InfOperations_SwitchingStep_SwitchingStep n_SwitchingStep (Some n_CIM15_IEC61970_Core_IdentifiedObject_IdentifiedObject)
    [(n_statusKind, VStr n_instructed); (n_text, VStr n_); (n_requiredControlAction, VStr n_); (n_desiredEndState, VStr n_); (n_SafetyDocument, VNone); (n_requiredControlActionInterval, VNone); (n_SwitchingSchedule, VNone); (n_PowerSystemResources, VNone); (n_ErpPersonRole, VNone)]
    [SAttr n_statusKind; SAttr n_text; SAttr n_requiredControlAction; SAttr n_desiredEndState; SOne n_SafetyDocument; SAttr n_requiredControlActionInterval; SOne n_SwitchingSchedule; SMany n_PowerSystemResources; SOne n_ErpPersonRole]
    true true
    [n_statusKind; n_text; n_requiredControlAction; n_desiredEndState]
    [(n_statusKind, VStr n_instructed); (n_text, VStr n_); (n_requiredControlAction, VStr n_); (n_desiredEndState, VStr n_)]
    [(n_statusKind, n_SwitchingStepStatusKind)]
    [n_SafetyDocument; n_requiredControlActionInterval; n_SwitchingSchedule; n_PowerSystemResources; n_ErpPersonRole]
    [n_PowerSystemResources]
    [(n_SafetyDocument, POneMany n_ScheduleSteps); (n_SwitchingSchedule, POneMany n_ScheduleSteps); (n_PowerSystemResources, PManyMany n_ScheduleSteps); (n_ErpPersonRole, POneOne n_SwitchingStep)];
(* CIM15/IEC61970/Informative/InfOperations/TroubleTicket.py:23-151 *)
  Cls n_CIM15_IEC61970_Informative_InfOperations_TroubleTicket_TroubleTicket n_TroubleTicket (Some n_CIM15_IEC61968_Common_Document_Document)
    [(n_firstCallDateTime, VStr n_); (n_estimatedRestoreDateTime, VStr n_); (n_informBeforeRestored, VBool false); (n_reportingKind, VStr n_email); (n_priority, VStr n_); (n_informAfterRestored, VBool false); (n_advice, VStr n_); (n_hazardCode, VStr n_); (n_callBack, VBool false); (n_CallBacks, VNone); (n_troublePeriod, VNone); (n_CustomerData, VNone); (n_IncidentRecord, VNone)]
    [SAttr n_firstCallDateTime; SAttr n_estimatedRestoreDateTime; SAttr n_informBeforeRestored; SAttr n_reportingKind; SAttr n_priority; SAttr n_informAfterRestored; SAttr n_advice; SAttr n_hazardCode; SAttr n_callBack; SMany n_CallBacks; SAttr n_troublePeriod; SOne n_CustomerData; SOne n_IncidentRecord]
    true true
    [n_firstCallDateTime; n_estimatedRestoreDateTime; n_informBeforeRestored; n_reportingKind; n_priority; n_informAfterRestored; n_advice; n_hazardCode; n_callBack]
    [(n_firstCallDateTime, VStr n_); (n_estimatedRestoreDateTime, VStr n_); (n_informBeforeRestored, VBool false); (n_reportingKind, VStr n_email); (n_priority, VStr n_); (n_informAfterRestored, VBool false); (n_advice, VStr n_); (n_hazardCode, VStr n_); (n_callBack, VBool false)]
    [(n_reportingKind, n_TroubleReportingKind)]
    [n_CallBacks; n_troublePeriod; n_CustomerData; n_IncidentRecord]
    [n_CallBacks]
    [(n_CallBacks, PManyMany n_TroubleTickets); (n_CustomerData, POneMany n_TroubleTickets); (n_IncidentRecord, POneMany n_TroubleTickets)];
(* CIM15/IEC61970/Informative/InfTypeAsset/GeneratorTypeAsset.py:23-102 *)
  Cls n_CIM15_IEC61970_Informative_InfTypeAsset_GeneratorTypeAsset_GeneratorTypeAsset n_GeneratorTypeAsset (Some n_CIM15_IEC61970_Informative_InfAssets_GenericAssetModelOrMaterial_GenericAssetModelOrMaterial)
    [(n_xDirectSync, VFloat n_0_0); (n_rQuadSubtrans, VFloat n_0_0); (n_rDirectSync, VFloat n_0_0); (n_rDirectSubtrans, VFloat n_0_0); (n_maxQ, VFloat n_0_0); (n_xQuadSync, VFloat n_0_0); (n_minQ, VFloat n_0_0); (n_minP, VFloat n_0_0); (n_maxP, VFloat n_0_0); (n_rQuadSync, VFloat n_0_0); (n_xQuadSubtrans, VFloat n_0_0); (n_rDirectTrans, VFloat n_0_0); (n_rQuadTrans, VFloat n_0_0); (n_xDirectSubtrans, VFloat n_0_0); (n_xDirectTrans, VFloat n_0_0); (n_xQuadTrans, VFloat n_0_0)]
    [SAttr n_xDirectSync; SAttr n_rQuadSubtrans; SAttr n_rDirectSync; SAttr n_rDirectSubtrans; SAttr n_maxQ; SAttr n_xQuadSync; SAttr n_minQ; SAttr n_minP; SAttr n_maxP; SAttr n_rQuadSync; SAttr n_xQuadSubtrans; SAttr n_rDirectTrans; SAttr n_rQuadTrans; SAttr n_xDirectSubtrans; SAttr n_xDirectTrans; SAttr n_xQuadTrans]
    true true
    [n_xDirectSync; n_rQuadSubtrans; n_rDirectSync; n_rDirectSubtrans; n_maxQ; n_xQuadSync; n_minQ; n_minP; n_maxP; n_rQuadSync; n_xQuadSubtrans; n_rDirectTrans; n_rQuadTrans; n_xDirectSubtrans; n_xDirectTrans; n_xQuadTrans]
    [(n_xDirectSync, VFloat n_0_0); (n_rQuadSubtrans, VFloat n_0_0); (n_rDirectSync, VFloat n_0_0); (n_rDirectSubtrans, VFloat n_0_0); (n_maxQ, VFloat n_0_0); (n_xQuadSync, VFloat n_0_0); (n_minQ, VFloat n_0_0); (n_minP, VFloat n_0_0); (n_maxP, VFloat n_0_0); (n_rQuadSync, VFloat n_0_0); (n_xQuadSubtrans, VFloat n_0_0); (n_rDirectTrans, VFloat n_0_0); (n_rQuadTrans, VFloat n_0_0); (n_xDirectSubtrans, VFloat n_0_0); (n_xDirectTrans, VFloat n_0_0); (n_xQuadTrans, VFloat n_0_0)]
    []
    []
    []
    [];
(* CIM15/IEC61970/Informative/InfTypeAsset/TypeAssetCatalogue.py:23-68 *)
  Cls n_CIM15_IEC61970_Informative_InfTypeAsset_TypeAssetCatalogue_TypeAssetCatalogue n_TypeAssetCatalogue (Some n_CIM15_IEC61970_Core_IdentifiedObject_IdentifiedObject)
    [(n_TypeAssets, VNone); (n_status, VNone)]
    [SMany n_TypeAssets; SAttr n_status]
    true true
    []
    []
    []
    [n_TypeAssets; n_status]
    [n_TypeAssets]
    [(n_TypeAssets, PManyOne n_TypeAssetCatalogue)];
(* CIM15/IEC61970/Informative/InfWork/AccessPermit.py:23-58 *)
  Cls n_CIM15_IEC61970_Informative_InfWork_AccessPermit_AccessPermit n_AccessPermit (Some n_CIM15_IEC61968_Common_Document_Document)
    [(n_applicationNumber, VStr n_); (n_payment, VFloat n_0_0); (n_effectiveDate, VStr n_); (n_expirationDate, VStr n_); (n_permitID, VStr n_)]
    [SAttr n_applicationNumber; SAttr n_payment; SAttr n_effectiveDate; SAttr n_expirationDate; SAttr n_permitID]
    true true
    [n_applicationNumber; n_payment; n_effectiveDate; n_expirationDate; n_permitID]
    [(n_applicationNumber, VStr n_); (n_payment, VFloat n_0_0); (n_effectiveDate, VStr n_); (n_expirationDate, VStr n_); (n_permitID, VStr n_)]
    []
    []
    []
    [];
(* CIM15/IEC61970/Informative/InfWork/Appointment.py:23-109 *)
  Cls n_CIM15_IEC61970_Informative_InfWork_Appointment_Appointment n_Appointment (Some n_CIM15_IEC61970_Informative_InfCommon_ScheduledEvent_ScheduledEvent)
    [(n_callAhead, VBool false); (n_remark, VStr n_); (n_address, VNone); (n_ErpPersons, VNone); (n_meetingInterval, VNone); (n_CallBack, VNone)]
    [SAttr n_callAhead; SAttr n_remark; SAttr n_address; SMany n_ErpPersons; SAttr n_meetingInterval; SOne n_CallBack]
    true true
    [n_callAhead; n_remark]
    [(n_callAhead, VBool false); (n_remark, VStr n_)]
    []
    [n_address; n_ErpPersons; n_meetingInterval; n_CallBack]
    [n_ErpPersons]
    [(n_ErpPersons, PManyMany n_Appointments); (n_CallBack, POneMany n_Appointments)];
(* CIM15/IEC61970/Informative/InfWork/Assignment.py:23-76 *)
  Cls n_CIM15_IEC61970_Informative_InfWork_Assignment_Assignment n_Assignment (Some n_CIM15_IEC61968_Common_Document_Document)
    [(n_Crews, VNone); (n_effectivePeriod, VNone)]
    [SMany n_Crews; SAttr n_effectivePeriod]
    true true
    []
    []
    []
    [n_Crews; n_effectivePeriod]
    [n_Crews]
    [(n_Crews, PManyMany n_Assignments)];
(* CIM15/IEC61970/Informative/InfWork/BusinessCase.py:23-92 *)
  Cls n_CIM15_IEC61970_Informative_InfWork_BusinessCase_BusinessCase n_BusinessCase (Some n_CIM15_IEC61968_Common_Document_Document)
    [(n_corporateCode, VStr n_); (n_Projects, VNone); (n_Works, VNone)]
    [SAttr n_corporateCode; SMany n_Projects; SMany n_Works]
    true true
    [n_corporateCode]
    [(n_corporateCode, VStr n_)]
    []
    [n_Projects; n_Works]
    [n_Projects; n_Works]
    [(n_Projects, PManyOne n_BusinessCase); (n_Works, PManyOne n_BusinessCase)];
(* CIM15/IEC61970/Informative/InfWork/CUAllowableAction.py:23-68 *)
  Cls n_CIM15_IEC61970_Informative_InfWork_CUAllowableAction_CUAllowableAction n_CUAllowableAction (Some n_CIM15_IEC61970_Core_IdentifiedObject_IdentifiedObject)
    [(n_CompatibleUnits, VNone); (n_status, VNone)]
    [SMany n_CompatibleUnits; SAttr n_status]
    true true
    []
    []
    []
    [n_CompatibleUnits; n_status]
    [n_CompatibleUnits]
    [(n_CompatibleUnits, PManyOne n_CUAllowableAction)];
(* CIM15/IEC61970/Informative/InfWork/CUAsset.py:23-101 *)
  Cls n_CIM15_IEC61970_Informative_InfWork_CUAsset_CUAsset n_CUAsset (Some n_CIM15_IEC61970_Core_IdentifiedObject_IdentifiedObject)
    [(n_quantity, VStr n_); (n_typeAssetCode, VStr n_); (n_CompatibleUnits, VNone); (n_TypeAsset, VNone); (n_status, VNone)]
    [SAttr n_quantity; SAttr n_typeAssetCode; SMany n_CompatibleUnits; SOne n_TypeAsset; SAttr n_status]
    true true
    [n_quantity; n_typeAssetCode]
    [(n_quantity, VStr n_); (n_typeAssetCode, VStr n_)]
    []
    [n_CompatibleUnits; n_TypeAsset; n_status]
    [n_CompatibleUnits]
    [(n_CompatibleUnits, PManyMany n_CUAssets); (n_TypeAsset, POneOne n_CUAsset)];
(* CIM15/IEC61970/Informative/InfWork/CUContractorItem.py:23-82 *)
  Cls n_CIM15_IEC61970_Informative_InfWork_CUContractorItem_CUContractorItem n_CUContractorItem (Some n_CIM15_IEC61970_Core_IdentifiedObject_IdentifiedObject)
    [(n_bidAmount, VFloat n_0_0); (n_activityCode, VStr n_); (n_CompatibleUnits, VNone); (n_status, VNone)]
    [SAttr n_bidAmount; SAttr n_activityCode; SMany n_CompatibleUnits; SAttr n_status]
    true true
    [n_bidAmount; n_activityCode]
    [(n_bidAmount, VFloat n_0_0); (n_activityCode, VStr n_)]
    []
    [n_CompatibleUnits; n_status]
    [n_CompatibleUnits]
    [(n_CompatibleUnits, PManyMany n_CUContractorItems)];
(* CIM15/IEC61970/Informative/InfWork/CUGroup.py:23-161 *)
  Cls n_CIM15_IEC61970_Informative_InfWork_CUGroup_CUGroup n_CUGroup (Some n_CIM15_IEC61970_Core_IdentifiedObject_IdentifiedObject)
    [(n_CompatibleUnits, VNone); (n_ParentCUGroups, VNone); (n_ChildCUGroups, VNone); (n_status, VNone); (n_DesignLocationCUs, VNone)]
    [SMany n_CompatibleUnits; SMany n_ParentCUGroups; SMany n_ChildCUGroups; SAttr n_status; SMany n_DesignLocationCUs]
    true true
    []
    []
    []
    [n_CompatibleUnits; n_ParentCUGroups; n_ChildCUGroups; n_status; n_DesignLocationCUs]
    [n_CompatibleUnits; n_ParentCUGroups; n_ChildCUGroups; n_DesignLocationCUs]
    [(n_CompatibleUnits, PManyOne n_CUGroup); (n_ParentCUGroups, PManyMany n_ChildCUGroups); (n_ChildCUGroups, PManyMany n_ParentCUGroups); (n_DesignLocationCUs, PManyMany n_CUGroups)];
(* CIM15/IEC61970/Informative/InfWork/CULaborCode.py:23-72 *)
  Cls n_CIM15_IEC61970_Informative_InfWork_CULaborCode_CULaborCode n_CULaborCode (Some n_CIM15_IEC61970_Core_IdentifiedObject_IdentifiedObject)
    [(n_code, VStr n_); (n_CULaborItems, VNone); (n_status, VNone)]
    [SAttr n_code; SMany n_CULaborItems; SAttr n_status]
    true true
    [n_code]
    [(n_code, VStr n_)]
    []
    [n_CULaborItems; n_status]
    [n_CULaborItems]
    [(n_CULaborItems, PManyOne n_CULaborCode)];
(* CIM15/IEC61970/Informative/InfWork/CULaborItem.py:23-137 *)
  Cls n_CIM15_IEC61970_Informative_InfWork_CULaborItem_CULaborItem n_CULaborItem (Some n_CIM15_IEC61970_Core_IdentifiedObject_IdentifiedObject)
    [(n_laborDuration, VFloat n_0_0); (n_laborRate, VFloat n_0_0); (n_activityCode, VStr n_); (n_CompatibleUnits, VNone); (n_CULaborCode, VNone); (n_status, VNone); (n_QualificationRequirements, VNone)]
    [SAttr n_laborDuration; SAttr n_laborRate; SAttr n_activityCode; SMany n_CompatibleUnits; SOne n_CULaborCode; SAttr n_status; SMany n_QualificationRequirements]
    true true
    [n_laborDuration; n_laborRate; n_activityCode]
    [(n_laborDuration, VFloat n_0_0); (n_laborRate, VFloat n_0_0); (n_activityCode, VStr n_)]
    []
    [n_CompatibleUnits; n_CULaborCode; n_status; n_QualificationRequirements]
    [n_CompatibleUnits; n_QualificationRequirements]
    [(n_CompatibleUnits, PManyMany n_CULaborItems); (n_CULaborCode, POneMany n_CULaborItems); (n_QualificationRequirements, PManyMany n_CULaborItems)];
(* CIM15/IEC61970/Informative/InfWork/CUMaterialItem.py:23-133 *)
  Cls n_CIM15_IEC61970_Informative_InfWork_CUMaterialItem_CUMaterialItem n_CUMaterialItem (Some n_CIM15_IEC61970_Core_IdentifiedObject_IdentifiedObject)
    [(n_quantity, VStr n_); (n_corporateCode, VStr n_); (n_status, VNone); (n_PropertyUnits, VNone); (n_CompatibleUnits, VNone); (n_TypeMaterial, VNone)]
    [SAttr n_quantity; SAttr n_corporateCode; SAttr n_status; SMany n_PropertyUnits; SMany n_CompatibleUnits; SOne n_TypeMaterial]
    true true
    [n_quantity; n_corporateCode]
    [(n_quantity, VStr n_); (n_corporateCode, VStr n_)]
    []
    [n_status; n_PropertyUnits; n_CompatibleUnits; n_TypeMaterial]
    [n_PropertyUnits; n_CompatibleUnits]
    [(n_PropertyUnits, PManyMany n_CUMaterialItems); (n_CompatibleUnits, PManyMany n_CUMaterialItems); (n_TypeMaterial, POneMany n_CUMaterialItems)];
(* CIM15/IEC61970/Informative/InfWork/CUWorkEquipmentItem.py:23-101 *)
  Cls n_CIM15_IEC61970_Informative_InfWork_CUWorkEquipmentItem_CUWorkEquipmentItem n_CUWorkEquipmentItem (Some n_CIM15_IEC61970_Core_IdentifiedObject_IdentifiedObject)
    [(n_rate, VFloat n_0_0); (n_equipCode, VStr n_); (n_TypeAsset, VNone); (n_status, VNone); (n_CompatibleUnits, VNone)]
    [SAttr n_rate; SAttr n_equipCode; SOne n_TypeAsset; SAttr n_status; SMany n_CompatibleUnits]
    true true
    [n_rate; n_equipCode]
    [(n_rate, VFloat n_0_0); (n_equipCode, VStr n_)]
    []
    [n_TypeAsset; n_status; n_CompatibleUnits]
    [n_CompatibleUnits]
    [(n_TypeAsset, POneOne n_CUWorkEquipmentAsset); (n_CompatibleUnits, PManyMany n_CUWorkEquipmentItems)];
(* CIM15/IEC61970/Informative/InfWork/Capability.py:23-139 *)
  Cls n_CIM15_IEC61970_Informative_InfWork_Capability_Capability n_Capability (Some n_CIM15_IEC61970_Core_IdentifiedObject_IdentifiedObject)
    [(n_category, VStr n_); (n_performanceFactor, VStr n_); (n_Crew, VNone); (n_WorkTasks, VNone); (n_status, VNone); (n_Crafts, VNone); (n_validityInterval, VNone)]
    [SAttr n_category; SAttr n_performanceFactor; SOne n_Crew; SMany n_WorkTasks; SAttr n_status; SMany n_Crafts; SAttr n_validityInterval]
    true true
    [n_category; n_performanceFactor]
    [(n_category, VStr n_); (n_performanceFactor, VStr n_)]
    []
    [n_Crew; n_WorkTasks; n_status; n_Crafts; n_validityInterval]
    [n_WorkTasks; n_Crafts]
    [(n_Crew, POneMany n_Capabilities); (n_WorkTasks, PManyMany n_Capabilities); (n_Crafts, PManyMany n_Capabilities)];
(* CIM15/IEC61970/Informative/InfWork/CompatibleUnit.py:23-343 *)
  Cls n_CIM15_IEC61970_Informative_InfWork_CompatibleUnit_CompatibleUnit n_CompatibleUnit (Some n_CIM15_IEC61968_Common_Document_Document)
    [(n_quantity, VStr n_); (n_estCost, VFloat n_0_0); (n_CUWorkEquipmentItems, VNone); (n_DesignLocationCUs, VNone); (n_CUGroup, VNone); (n_CUAssets, VNone); (n_PropertyUnit, VNone); (n_CostType, VNone); (n_CUAllowableAction, VNone); (n_Procedures, VNone); (n_CUContractorItems, VNone); (n_CUMaterialItems, VNone); (n_CULaborItems, VNone)]
    [SAttr n_quantity; SAttr n_estCost; SMany n_CUWorkEquipmentItems; SMany n_DesignLocationCUs; SOne n_CUGroup; SMany n_CUAssets; SOne n_PropertyUnit; SOne n_CostType; SOne n_CUAllowableAction; SMany n_Procedures; SMany n_CUContractorItems; SMany n_CUMaterialItems; SMany n_CULaborItems]
    true true
    [n_quantity; n_estCost]
    [(n_quantity, VStr n_); (n_estCost, VFloat n_0_0)]
    []
    [n_CUWorkEquipmentItems; n_DesignLocationCUs; n_CUGroup; n_CUAssets; n_PropertyUnit; n_CostType; n_CUAllowableAction; n_Procedures; n_CUContractorItems; n_CUMaterialItems; n_CULaborItems]
    [n_CUWorkEquipmentItems; n_DesignLocationCUs; n_CUAssets; n_Procedures; n_CUContractorItems; n_CUMaterialItems; n_CULaborItems]
    [(n_CUWorkEquipmentItems, PManyMany n_CompatibleUnits); (n_DesignLocationCUs, PManyMany n_CompatibleUnits); (n_CUGroup, POneMany n_CompatibleUnits); (n_CUAssets, PManyMany n_CompatibleUnits); (n_PropertyUnit, POneMany n_CompatibleUnits); (n_CostType, POneMany n_CompatibleUnits); (n_CUAllowableAction, POneMany n_CompatibleUnits); (n_Procedures, PManyMany n_CompatibleUnits); (n_CUContractorItems, PManyMany n_CompatibleUnits); (n_CUMaterialItems, PManyMany n_CompatibleUnits); (n_CULaborItems, PManyMany n_CompatibleUnits)];
(* CIM15/IEC61970/Informative/InfWork/ConditionFactor.py:23-144 *)
  Cls n_CIM15_IEC61970_Informative_InfWork_ConditionFactor_ConditionFactor n_ConditionFactor (Some n_CIM15_IEC61970_Core_IdentifiedObject_IdentifiedObject)
    [(n_kind, VStr n_material); (n_cfValue, VStr n_); (n_Designs, VNone); (n_DesignLocations, VNone); (n_status, VNone); (n_DesignLocationCUs, VNone)]
    [SAttr n_kind; SAttr n_cfValue; SMany n_Designs; SMany n_DesignLocations; SAttr n_status; SMany n_DesignLocationCUs]
    true true
    [n_kind; n_cfValue]
    [(n_kind, VStr n_material); (n_cfValue, VStr n_)]
    [(n_kind, n_ConditionFactorKind)]
    [n_Designs; n_DesignLocations; n_status; n_DesignLocationCUs]
    [n_Designs; n_DesignLocations; n_DesignLocationCUs]
    [(n_Designs, PManyMany n_ConditionFactors); (n_DesignLocations, PManyMany n_ConditionFactors); (n_DesignLocationCUs, PManyMany n_ConditionFactors)];
(* CIM15/IEC61970/Informative/InfWork/ContractorItem.py:23-126 *)
  Cls n_CIM15_IEC61970_Informative_InfWork_ContractorItem_ContractorItem n_ContractorItem (Some n_CIM15_IEC61970_Core_IdentifiedObject_IdentifiedObject)
    [(n_bidAmount, VFloat n_0_0); (n_activityCode, VStr n_); (n_cost, VFloat n_0_0); (n_WorkTask, VNone); (n_ErpPayables, VNone); (n_status, VNone); (n_WorkCostDetail, VNone)]
    [SAttr n_bidAmount; SAttr n_activityCode; SAttr n_cost; SOne n_WorkTask; SMany n_ErpPayables; SAttr n_status; SOne n_WorkCostDetail]
    true true
    [n_bidAmount; n_activityCode; n_cost]
    [(n_bidAmount, VFloat n_0_0); (n_activityCode, VStr n_); (n_cost, VFloat n_0_0)]
    []
    [n_WorkTask; n_ErpPayables; n_status; n_WorkCostDetail]
    [n_ErpPayables]
    [(n_WorkTask, POneMany n_ContractorItems); (n_ErpPayables, PManyMany n_ContractorItems); (n_WorkCostDetail, POneMany n_ContractorItems)];
(* CIM15/IEC61970/Informative/InfWork/CostType.py:23-185 *)
  Cls n_CIM15_IEC61970_Informative_InfWork_CostType_CostType n_CostType (Some n_CIM15_IEC61970_Core_IdentifiedObject_IdentifiedObject)
    [(n_stage, VStr n_); (n_code, VStr n_); (n_level, VStr n_); (n_amountAssignable, VBool false); (n_ErpJournalEntries, VNone); (n_ParentCostType, VNone); (n_ChildCostTypes, VNone); (n_WorkCostDetails, VNone); (n_CompatibleUnits, VNone); (n_status, VNone)]
    [SAttr n_stage; SAttr n_code; SAttr n_level; SAttr n_amountAssignable; SMany n_ErpJournalEntries; SOne n_ParentCostType; SMany n_ChildCostTypes; SMany n_WorkCostDetails; SMany n_CompatibleUnits; SAttr n_status]
    true true
    [n_stage; n_code; n_level; n_amountAssignable]
    [(n_stage, VStr n_); (n_code, VStr n_); (n_level, VStr n_); (n_amountAssignable, VBool false)]
    []
    [n_ErpJournalEntries; n_ParentCostType; n_ChildCostTypes; n_WorkCostDetails; n_CompatibleUnits; n_status]
    [n_ErpJournalEntries; n_ChildCostTypes; n_WorkCostDetails; n_CompatibleUnits]
    [(n_ErpJournalEntries, PManyMany n_CostTypes); (n_ParentCostType, POneMany n_ChildCostTypes); (n_ChildCostTypes, PManyOne n_ParentCostType); (n_WorkCostDetails, PManyOne n_CostType); (n_CompatibleUnits, PManyOne n_CostType)];
(* CIM15/IEC61970/Informative/InfWork/Crew.py:23-414 *)
  Cls n_CIM15_IEC61970_Informative_InfWork_Crew_Crew n_Crew (Some n_CIM15_IEC61970_Core_IdentifiedObject_IdentifiedObject)
    [(n_category, VStr n_); (n_Tools, VNone); (n_SwitchingSchedules, VNone); (n_Route, VNone); (n_Capabilities, VNone); (n_CrewMembers, VNone); (n_OutageSteps, VNone); (n_WorkEquipmentAssets, VNone); (n_Assignments, VNone); (n_Locations, VNone); (n_WorkTasks, VNone); (n_Organisations, VNone); (n_ShiftPatterns, VNone); (n_Vehicles, VNone)]
    [SAttr n_category; SMany n_Tools; SMany n_SwitchingSchedules; SOne n_Route; SMany n_Capabilities; SMany n_CrewMembers; SMany n_OutageSteps; SMany n_WorkEquipmentAssets; SMany n_Assignments; SMany n_Locations; SMany n_WorkTasks; SMany n_Organisations; SMany n_ShiftPatterns; SMany n_Vehicles]
    true true
    [n_category]
    [(n_category, VStr n_)]
    []
    [n_Tools; n_SwitchingSchedules; n_Route; n_Capabilities; n_CrewMembers; n_OutageSteps; n_WorkEquipmentAssets; n_Assignments; n_Locations; n_WorkTasks; n_Organisations; n_ShiftPatterns; n_Vehicles]
    [n_Tools; n_SwitchingSchedules; n_Capabilities; n_CrewMembers; n_OutageSteps; n_WorkEquipmentAssets; n_Assignments; n_Locations; n_WorkTasks; n_Organisations; n_ShiftPatterns; n_Vehicles]
    [(n_Tools, PManyOne n_Crew); (n_SwitchingSchedules, PManyMany n_Crews); (n_Route, POneMany n_Crews); (n_Capabilities, PManyOne n_Crew); (n_CrewMembers, PManyMany n_Crews); (n_OutageSteps, PManyMany n_Crews); (n_WorkEquipmentAssets, PManyOne n_Crew); (n_Assignments, PManyMany n_Crews); (n_Locations, PManyMany n_Crews); (n_WorkTasks, PManyMany n_Crews); (n_Organisations, PManyMany n_Crews); (n_ShiftPatterns, PManyMany n_Crews); (n_Vehicles, PManyOne n_Crew)];
(* CIM15/IEC61970/Informative/InfWork/Design.py:23-257 *)
  Cls n_CIM15_IEC61970_Informative_InfWork_Design_Design n_Design (Some n_CIM15_IEC61968_Common_Document_Document)
    [(n_costEstimate, VFloat n_0_0); (n_kind, VStr n_asBuilt); (n_price, VFloat n_0_0); (n_DesignLocations, VNone); (n_WorkCostDetails, VNone); (n_ConditionFactors, VNone); (n_WorkTasks, VNone); (n_ErpBOMs, VNone); (n_Work, VNone); (n_DesignLocationsCUs, VNone); (n_ErpQuoteLineItem, VNone)]
    [SAttr n_costEstimate; SAttr n_kind; SAttr n_price; SMany n_DesignLocations; SMany n_WorkCostDetails; SMany n_ConditionFactors; SMany n_WorkTasks; SMany n_ErpBOMs; SOne n_Work; SMany n_DesignLocationsCUs; SOne n_ErpQuoteLineItem]
    true true
    [n_costEstimate; n_kind; n_price]
    [(n_costEstimate, VFloat n_0_0); (n_kind, VStr n_asBuilt); (n_price, VFloat n_0_0)]
    [(n_kind, n_DesignKind)]
    [n_DesignLocations; n_WorkCostDetails; n_ConditionFactors; n_WorkTasks; n_ErpBOMs; n_Work; n_DesignLocationsCUs; n_ErpQuoteLineItem]
    [n_DesignLocations; n_WorkCostDetails; n_ConditionFactors; n_WorkTasks; n_ErpBOMs; n_DesignLocationsCUs]
    [(n_DesignLocations, PManyMany n_Designs); (n_WorkCostDetails, PManyOne n_Design); (n_ConditionFactors, PManyMany n_Designs); (n_WorkTasks, PManyOne n_Design); (n_ErpBOMs, PManyOne n_Design); (n_Work, POneMany n_Designs); (n_DesignLocationsCUs, PManyMany n_Designs); (n_ErpQuoteLineItem, POneOne n_Design)];
(* CIM15/IEC61970/Informative/InfWork/DesignLocation.py:23-271 *)
  Cls n_CIM15_IEC61970_Informative_InfWork_DesignLocation_DesignLocation n_DesignLocation (Some n_CIM15_IEC61970_Core_IdentifiedObject_IdentifiedObject)
    [(n_spanLength, VFloat n_0_0); (n_status, VNone); (n_MaterialItems, VNone); (n_Designs, VNone); (n_DesignLocationCUs, VNone); (n_WorkLocations, VNone); (n_Diagrams, VNone); (n_MiscCostItems, VNone); (n_ErpBomItemDatas, VNone); (n_ConditionFactors, VNone)]
    [SAttr n_spanLength; SAttr n_status; SMany n_MaterialItems; SMany n_Designs; SMany n_DesignLocationCUs; SMany n_WorkLocations; SMany n_Diagrams; SMany n_MiscCostItems; SMany n_ErpBomItemDatas; SMany n_ConditionFactors]
    true true
    [n_spanLength]
    [(n_spanLength, VFloat n_0_0)]
    []
    [n_status; n_MaterialItems; n_Designs; n_DesignLocationCUs; n_WorkLocations; n_Diagrams; n_MiscCostItems; n_ErpBomItemDatas; n_ConditionFactors]
    [n_MaterialItems; n_Designs; n_DesignLocationCUs; n_WorkLocations; n_Diagrams; n_MiscCostItems; n_ErpBomItemDatas; n_ConditionFactors]
    [(n_MaterialItems, PManyOne n_DesignLocation); (n_Designs, PManyMany n_DesignLocations); (n_DesignLocationCUs, PManyOne n_DesignLocation); (n_WorkLocations, PManyMany n_DesignLocations); (n_Diagrams, PManyMany n_DesignLocations); (n_MiscCostItems, PManyOne n_DesignLocation); (n_ErpBomItemDatas, PManyOne n_DesignLocation); (n_ConditionFactors, PManyMany n_DesignLocations)];
(* CIM15/IEC61970/Informative/InfWork/DesignLocationCU.py:23-242 *)
  Cls n_CIM15_IEC61970_Informative_InfWork_DesignLocationCU_DesignLocationCU n_DesignLocationCU (Some n_CIM15_IEC61970_Core_IdentifiedObject_IdentifiedObject)
    [(n_energizationFlag, VBool false); (n_cuUsage, VStr n_); (n_removalDate, VStr n_); (n_cuAction, VStr n_install); (n_cuAccount, VStr n_); (n_cuQuantity, VStr n_); (n_ConditionFactors, VNone); (n_CompatibleUnits, VNone); (n_WorkTasks, VNone); (n_Designs, VNone); (n_CUGroups, VNone); (n_DesignLocation, VNone); (n_status, VNone)]
    [SAttr n_energizationFlag; SAttr n_cuUsage; SAttr n_removalDate; SAttr n_cuAction; SAttr n_cuAccount; SAttr n_cuQuantity; SMany n_ConditionFactors; SMany n_CompatibleUnits; SMany n_WorkTasks; SMany n_Designs; SMany n_CUGroups; SOne n_DesignLocation; SAttr n_status]
    true true
    [n_energizationFlag; n_cuUsage; n_removalDate; n_cuAction; n_cuAccount; n_cuQuantity]
    [(n_energizationFlag, VBool false); (n_cuUsage, VStr n_); (n_removalDate, VStr n_); (n_cuAction, VStr n_install); (n_cuAccount, VStr n_); (n_cuQuantity, VStr n_)]
    [(n_cuAction, n_WorkActionKind)]
    [n_ConditionFactors; n_CompatibleUnits; n_WorkTasks; n_Designs; n_CUGroups; n_DesignLocation; n_status]
    [n_ConditionFactors; n_CompatibleUnits; n_WorkTasks; n_Designs; n_CUGroups]
    [(n_ConditionFactors, PManyMany n_DesignLocationCUs); (n_CompatibleUnits, PManyMany n_DesignLocationCUs); (n_WorkTasks, PManyMany n_DesignLocationCUs); (n_Designs, PManyMany n_DesignLocationsCUs); (n_CUGroups, PManyMany n_DesignLocationCUs); (n_DesignLocation, POneMany n_DesignLocationCUs)];
(* CIM15/IEC61970/Informative/InfWork/DiagnosisDataSet.py:23-90 *)
  Cls n_CIM15_IEC61970_Informative_InfWork_DiagnosisDataSet_DiagnosisDataSet n_DiagnosisDataSet (Some n_CIM15_IEC61970_Informative_InfAssets_ProcedureDataSet_ProcedureDataSet)
    [(n_finalCause, VStr n_); (n_finalRemark, VStr n_); (n_phaseCode, VStr n_s12N); (n_preliminaryDateTime, VStr n_); (n_preliminaryCode, VStr n_); (n_rootRemark, VStr n_); (n_rootCause, VStr n_); (n_preliminaryRemark, VStr n_); (n_effect, VStr n_); (n_finalOrigin, VStr n_); (n_finalCode, VStr n_); (n_rootOrigin, VStr n_); (n_failureMode, VStr n_)]
    [SAttr n_finalCause; SAttr n_finalRemark; SAttr n_phaseCode; SAttr n_preliminaryDateTime; SAttr n_preliminaryCode; SAttr n_rootRemark; SAttr n_rootCause; SAttr n_preliminaryRemark; SAttr n_effect; SAttr n_finalOrigin; SAttr n_finalCode; SAttr n_rootOrigin; SAttr n_failureMode]
    true true
    [n_finalCause; n_finalRemark; n_phaseCode; n_preliminaryDateTime; n_preliminaryCode; n_rootRemark; n_rootCause; n_preliminaryRemark; n_effect; n_finalOrigin; n_finalCode; n_rootOrigin; n_failureMode]
    [(n_finalCause, VStr n_); (n_finalRemark, VStr n_); (n_phaseCode, VStr n_s12N); (n_preliminaryDateTime, VStr n_); (n_preliminaryCode, VStr n_); (n_rootRemark, VStr n_); (n_rootCause, VStr n_); (n_preliminaryRemark, VStr n_); (n_effect, VStr n_); (n_finalOrigin, VStr n_); (n_finalCode, VStr n_); (n_rootOrigin, VStr n_); (n_failureMode, VStr n_)]
    [(n_phaseCode, n_PhaseCode)]
    []
    []
    [];
(* CIM15/IEC61970/Informative/InfWork/EquipmentItem.py:23-91 *)
  Cls n_CIM15_IEC61970_Informative_InfWork_EquipmentItem_EquipmentItem n_EquipmentItem (Some n_CIM15_IEC61970_Core_IdentifiedObject_IdentifiedObject)
    [(n_code, VStr n_); (n_cost, VFloat n_0_0); (n_WorkTask, VNone); (n_WorkCostDetail, VNone); (n_status, VNone)]
    [SAttr n_code; SAttr n_cost; SOne n_WorkTask; SOne n_WorkCostDetail; SAttr n_status]
    true true
    [n_code; n_cost]
    [(n_code, VStr n_); (n_cost, VFloat n_0_0)]
    []
    [n_WorkTask; n_WorkCostDetail; n_status]
    []
    [(n_WorkTask, POneMany n_EquipmentItems); (n_WorkCostDetail, POneMany n_EquipmentItems)];
(* CIM15/IEC61970/Informative/InfWork/InfoQuestion.py:23-66 *)
  Cls n_CIM15_IEC61970_Informative_InfWork_InfoQuestion_InfoQuestion n_InfoQuestion (Some n_CIM15_IEC61968_Common_Document_Document)
    [(n_answer, VStr n_); (n_answerRemark, VStr n_); (n_questionText, VStr n_); (n_answerDateTime, VStr n_); (n_questionCode, VStr n_); (n_questionRemark, VStr n_); (n_questionCategory, VStr n_)]
    [SAttr n_answer; SAttr n_answerRemark; SAttr n_questionText; SAttr n_answerDateTime; SAttr n_questionCode; SAttr n_questionRemark; SAttr n_questionCategory]
    true true
    [n_answer; n_answerRemark; n_questionText; n_answerDateTime; n_questionCode; n_questionRemark; n_questionCategory]
    [(n_answer, VStr n_); (n_answerRemark, VStr n_); (n_questionText, VStr n_); (n_answerDateTime, VStr n_); (n_questionCode, VStr n_); (n_questionRemark, VStr n_); (n_questionCategory, VStr n_)]
    []
    []
    []
    [];
(* CIM15/IEC61970/Informative/InfWork/InspectionDataSet.py:23-67 *)
  Cls n_CIM15_IEC61970_Informative_InfWork_InspectionDataSet_InspectionDataSet n_InspectionDataSet (Some n_CIM15_IEC61970_Informative_InfAssets_ProcedureDataSet_ProcedureDataSet)
    [(n_locationCondition, VStr n_); (n_AccordingToSchedules, VNone)]
    [SAttr n_locationCondition; SMany n_AccordingToSchedules]
    true true
    [n_locationCondition]
    [(n_locationCondition, VStr n_)]
    []
    [n_AccordingToSchedules]
    [n_AccordingToSchedules]
    [(n_AccordingToSchedules, PManyOne n_ForInspectionDataSet)];
(* CIM15/IEC61970/Informative/InfWork/LaborItem.py:23-130 *)
  Cls n_CIM15_IEC61970_Informative_InfWork_LaborItem_LaborItem n_LaborItem (Some n_CIM15_IEC61970_Core_IdentifiedObject_IdentifiedObject)
    [(n_cost, VFloat n_0_0); (n_laborRate, VFloat n_0_0); (n_laborDuration, VFloat n_0_0); (n_activityCode, VStr n_); (n_ErpPersons, VNone); (n_WorkTask, VNone); (n_status, VNone); (n_WorkCostDetail, VNone)]
    [SAttr n_cost; SAttr n_laborRate; SAttr n_laborDuration; SAttr n_activityCode; SMany n_ErpPersons; SOne n_WorkTask; SAttr n_status; SOne n_WorkCostDetail]
    true true
    [n_cost; n_laborRate; n_laborDuration; n_activityCode]
    [(n_cost, VFloat n_0_0); (n_laborRate, VFloat n_0_0); (n_laborDuration, VFloat n_0_0); (n_activityCode, VStr n_)]
    []
    [n_ErpPersons; n_WorkTask; n_status; n_WorkCostDetail]
    [n_ErpPersons]
    [(n_ErpPersons, PManyMany n_LaborItems); (n_WorkTask, POneMany n_LaborItems); (n_WorkCostDetail, POneMany n_LaborItems)];
(* CIM15/IEC61970/Informative/InfWork/MaintenanceDataSet.py:23-50 *)
  Cls n_CIM15_IEC61970_Informative_InfWork_MaintenanceDataSet_MaintenanceDataSet n_MaintenanceDataSet (Some n_CIM15_IEC61970_Informative_InfAssets_ProcedureDataSet_ProcedureDataSet)
    [(n_conditionAfter, VStr n_); (n_conditionBefore, VStr n_); (n_maintCode, VStr n_)]
    [SAttr n_conditionAfter; SAttr n_conditionBefore; SAttr n_maintCode]
    true true
    [n_conditionAfter; n_conditionBefore; n_maintCode]
    [(n_conditionAfter, VStr n_); (n_conditionBefore, VStr n_); (n_maintCode, VStr n_)]
    []
    []
    []
    [];
(* CIM15/IEC61970/Informative/InfWork/MaterialItem.py:23-257 *)
  Cls n_CIM15_IEC61970_Informative_InfWork_MaterialItem_MaterialItem n_MaterialItem (Some n_CIM15_IEC61970_Core_IdentifiedObject_IdentifiedObject)
    [(n_costDescription, VStr n_); (n_quantity, VStr n_); (n_materialCode, VStr n_); (n_externalRefID, VStr n_); (n_costType, VStr n_); (n_account, VStr n_); (n_actualCost, VFloat n_0_0); (n_ErpInventoryCounts, VNone); (n_Usages, VNone); (n_ErpPOLineItems, VNone); (n_ErpRecDelvLineItems, VNone); (n_DesignLocation, VNone); (n_status, VNone); (n_TypeMaterial, VNone); (n_WorkCostDetail, VNone); (n_WorkTask, VNone)]
    [SAttr n_costDescription; SAttr n_quantity; SAttr n_materialCode; SAttr n_externalRefID; SAttr n_costType; SAttr n_account; SAttr n_actualCost; SMany n_ErpInventoryCounts; SMany n_Usages; SMany n_ErpPOLineItems; SMany n_ErpRecDelvLineItems; SOne n_DesignLocation; SAttr n_status; SOne n_TypeMaterial; SOne n_WorkCostDetail; SOne n_WorkTask]
    true true
    [n_costDescription; n_quantity; n_materialCode; n_externalRefID; n_costType; n_account; n_actualCost]
    [(n_costDescription, VStr n_); (n_quantity, VStr n_); (n_materialCode, VStr n_); (n_externalRefID, VStr n_); (n_costType, VStr n_); (n_account, VStr n_); (n_actualCost, VFloat n_0_0)]
    []
    [n_ErpInventoryCounts; n_Usages; n_ErpPOLineItems; n_ErpRecDelvLineItems; n_DesignLocation; n_status; n_TypeMaterial; n_WorkCostDetail; n_WorkTask]
    [n_ErpInventoryCounts; n_Usages; n_ErpPOLineItems; n_ErpRecDelvLineItems]
    [(n_ErpInventoryCounts, PManyOne n_MaterialItem); (n_Usages, PManyOne n_MaterialItem); (n_ErpPOLineItems, PManyOne n_MaterialItem); (n_ErpRecDelvLineItems, PManyMany n_MaterialItems); (n_DesignLocation, POneMany n_MaterialItems); (n_TypeMaterial, POneMany n_MaterialItems); (n_WorkCostDetail, POneMany n_MaterialItems); (n_WorkTask, POneMany n_MaterialItems)];
(* CIM15/IEC61970/Informative/InfWork/MiscCostItem.py:23-123 *)
  Cls n_CIM15_IEC61970_Informative_InfWork_MiscCostItem_MiscCostItem n_MiscCostItem (Some n_CIM15_IEC61970_Core_IdentifiedObject_IdentifiedObject)
    [(n_quantity, VStr n_); (n_costPerUnit, VFloat n_0_0); (n_externalRefID, VStr n_); (n_account, VStr n_); (n_costType, VStr n_); (n_DesignLocation, VNone); (n_status, VNone); (n_WorkTask, VNone); (n_WorkCostDetail, VNone)]
    [SAttr n_quantity; SAttr n_costPerUnit; SAttr n_externalRefID; SAttr n_account; SAttr n_costType; SOne n_DesignLocation; SAttr n_status; SOne n_WorkTask; SOne n_WorkCostDetail]
    true true
    [n_quantity; n_costPerUnit; n_externalRefID; n_account; n_costType]
    [(n_quantity, VStr n_); (n_costPerUnit, VFloat n_0_0); (n_externalRefID, VStr n_); (n_account, VStr n_); (n_costType, VStr n_)]
    []
    [n_DesignLocation; n_status; n_WorkTask; n_WorkCostDetail]
    []
    [(n_DesignLocation, POneMany n_MiscCostItems); (n_WorkTask, POneMany n_MiscCostItems); (n_WorkCostDetail, POneMany n_MiscCostItems)];
(* CIM15/IEC61970/Informative/InfWork/NonStandardItem.py:23-46 *)
  Cls n_CIM15_IEC61970_Informative_InfWork_NonStandardItem_NonStandardItem n_NonStandardItem (Some n_CIM15_IEC61968_Common_Document_Document)
    [(n_code, VStr n_); (n_amount, VFloat n_0_0)]
    [SAttr n_code; SAttr n_amount]
    true true
    [n_code; n_amount]
    [(n_code, VStr n_); (n_amount, VFloat n_0_0)]
    []
    []
    []
    [];
(* CIM15/IEC61970/Informative/InfWork/OneCallRequest.py:23-75 *)
  Cls n_CIM15_IEC61970_Informative_InfWork_OneCallRequest_OneCallRequest n_OneCallRequest (Some n_CIM15_IEC61968_Common_Document_Document)
    [(n_markedIndicator, VBool false); (n_explosivesUsed, VBool false); (n_markingInstruction, VStr n_); (n_WorkLocations, VNone)]
    [SAttr n_markedIndicator; SAttr n_explosivesUsed; SAttr n_markingInstruction; SMany n_WorkLocations]
    true true
    [n_markedIndicator; n_explosivesUsed; n_markingInstruction]
    [(n_markedIndicator, VBool false); (n_explosivesUsed, VBool false); (n_markingInstruction, VStr n_)]
    []
    [n_WorkLocations]
    [n_WorkLocations]
    [(n_WorkLocations, PManyOne n_OneCallRequest)];
(* CIM15/IEC61970/Informative/InfWork/OverheadCost.py:23-101 *)
  Cls n_CIM15_IEC61970_Informative_InfWork_OverheadCost_OverheadCost n_OverheadCost (Some n_CIM15_IEC61970_Core_IdentifiedObject_IdentifiedObject)
    [(n_code, VStr n_); (n_cost, VFloat n_0_0); (n_status, VNone); (n_WorkCostDetails, VNone); (n_WorkTasks, VNone)]
    [SAttr n_code; SAttr n_cost; SAttr n_status; SMany n_WorkCostDetails; SMany n_WorkTasks]
    true true
    [n_code; n_cost]
    [(n_code, VStr n_); (n_cost, VFloat n_0_0)]
    []
    [n_status; n_WorkCostDetails; n_WorkTasks]
    [n_WorkCostDetails; n_WorkTasks]
    [(n_WorkCostDetails, PManyOne n_OverheadCost); (n_WorkTasks, PManyOne n_OverheadCost)];
(* CIM15/IEC61970/Informative/InfWork/Project.py:23-183 *)
  Cls n_CIM15_IEC61970_Informative_InfWork_Project_Project n_Project (Some n_CIM15_IEC61968_Common_Document_Document)
    [(n_budget, VFloat n_0_0); (n_BusinessCase, VNone); (n_SubProjects, VNone); (n_ErpProjectAccounting, VNone); (n_Requests, VNone); (n_Works, VNone); (n_ParentProject, VNone)]
    [SAttr n_budget; SOne n_BusinessCase; SMany n_SubProjects; SOne n_ErpProjectAccounting; SMany n_Requests; SMany n_Works; SOne n_ParentProject]
    true true
    [n_budget]
    [(n_budget, VFloat n_0_0)]
    []
    [n_BusinessCase; n_SubProjects; n_ErpProjectAccounting; n_Requests; n_Works; n_ParentProject]
    [n_SubProjects; n_Requests; n_Works]
    [(n_BusinessCase, POneMany n_Projects); (n_SubProjects, PManyOne n_ParentProject); (n_ErpProjectAccounting, POneMany n_Projects); (n_Requests, PManyMany n_Projects); (n_Works, PManyOne n_Project); (n_ParentProject, POneMany n_SubProjects)];
(* CIM15/IEC61970/Informative/InfWork/PropertyUnit.py:23-142 *)
  Cls n_CIM15_IEC61970_Informative_InfWork_PropertyUnit_PropertyUnit n_PropertyUnit (Some n_CIM15_IEC61970_Core_IdentifiedObject_IdentifiedObject)
    [(n_accountingUsage, VStr n_); (n_propertyAccount, VStr n_); (n_activityCode, VStr n_install); (n_status, VNone); (n_CompatibleUnits, VNone); (n_CUMaterialItems, VNone); (n_WorkCostDetails, VNone)]
    [SAttr n_accountingUsage; SAttr n_propertyAccount; SAttr n_activityCode; SAttr n_status; SMany n_CompatibleUnits; SMany n_CUMaterialItems; SMany n_WorkCostDetails]
    true true
    [n_accountingUsage; n_propertyAccount; n_activityCode]
    [(n_accountingUsage, VStr n_); (n_propertyAccount, VStr n_); (n_activityCode, VStr n_install)]
    [(n_activityCode, n_WorkActionKind)]
    [n_status; n_CompatibleUnits; n_CUMaterialItems; n_WorkCostDetails]
    [n_CompatibleUnits; n_CUMaterialItems; n_WorkCostDetails]
    [(n_CompatibleUnits, PManyOne n_PropertyUnit); (n_CUMaterialItems, PManyMany n_PropertyUnits); (n_WorkCostDetails, PManyMany n_PropertyUnits)];
(* CIM15/IEC61970/Informative/InfWork/QualificationRequirement.py:23-166 *)
  Cls n_CIM15_IEC61970_Informative_InfWork_QualificationRequirement_QualificationRequirement n_QualificationRequirement (Some n_CIM15_IEC61970_Core_IdentifiedObject_IdentifiedObject)
    [(n_qualificationID, VStr n_); (n_WorkTasks, VNone); (n_Skills, VNone); (n_CULaborItems, VNone); (n_Specifications, VNone)]
    [SAttr n_qualificationID; SMany n_WorkTasks; SMany n_Skills; SMany n_CULaborItems; SMany n_Specifications]
    true true
    [n_qualificationID]
    [(n_qualificationID, VStr n_)]
    []
    [n_WorkTasks; n_Skills; n_CULaborItems; n_Specifications]
    [n_WorkTasks; n_Skills; n_CULaborItems; n_Specifications]
    [(n_WorkTasks, PManyMany n_QualificationRequirements); (n_Skills, PManyMany n_QualificationRequirements); (n_CULaborItems, PManyMany n_QualificationRequirements); (n_Specifications, PManyMany n_QualificationRequirements)];
(* CIM15/IEC61970/Informative/InfWork/Regulation.py:23-42 *)
  Cls n_CIM15_IEC61970_Informative_InfWork_Regulation_Regulation n_Regulation (Some n_CIM15_IEC61968_Common_Document_Document)
    [(n_referenceNumber, VStr n_)]
    [SAttr n_referenceNumber]
    true true
    [n_referenceNumber]
    [(n_referenceNumber, VStr n_)]
    []
    []
    []
    [];
(* CIM15/IEC61970/Informative/InfWork/Request.py:23-145 *)
  Cls n_CIM15_IEC61970_Informative_InfWork_Request_Request n_Request (Some n_CIM15_IEC61968_Common_Document_Document)
    [(n_actionNeeded, VStr n_); (n_priority, VStr n_); (n_corporateCode, VStr n_); (n_ErpQuoteLineItem, VNone); (n_Projects, VNone); (n_Organisation, VNone); (n_Works, VNone)]
    [SAttr n_actionNeeded; SAttr n_priority; SAttr n_corporateCode; SOne n_ErpQuoteLineItem; SMany n_Projects; SOne n_Organisation; SMany n_Works]
    true true
    [n_actionNeeded; n_priority; n_corporateCode]
    [(n_actionNeeded, VStr n_); (n_priority, VStr n_); (n_corporateCode, VStr n_)]
    []
    [n_ErpQuoteLineItem; n_Projects; n_Organisation; n_Works]
    [n_Projects; n_Works]
    [(n_ErpQuoteLineItem, POneOne n_Request); (n_Projects, PManyMany n_Requests); (n_Organisation, POneMany n_Requests); (n_Works, PManyOne n_Request)];
(* CIM15/IEC61970/Informative/InfWork/ShiftPattern.py:23-88 *)
  Cls n_CIM15_IEC61970_Informative_InfWork_ShiftPattern_ShiftPattern n_ShiftPattern (Some n_CIM15_IEC61970_Core_IdentifiedObject_IdentifiedObject)
    [(n_cycleCount, VInt 0); (n_assignmentType, VStr n_); (n_Crews, VNone); (n_status, VNone); (n_validityInterval, VNone)]
    [SAttr n_cycleCount; SAttr n_assignmentType; SMany n_Crews; SAttr n_status; SAttr n_validityInterval]
    true true
    [n_cycleCount; n_assignmentType]
    [(n_cycleCount, VInt 0); (n_assignmentType, VStr n_)]
    []
    [n_Crews; n_status; n_validityInterval]
    [n_Crews]
    [(n_Crews, PManyMany n_ShiftPatterns)];
(* CIM15/IEC61970/Informative/InfWork/TypeMaterial.py:23-154 *)
  Cls n_CIM15_IEC61970_Informative_InfWork_TypeMaterial_TypeMaterial n_TypeMaterial (Some n_CIM15_IEC61968_Common_Document_Document)
    [(n_stockItem, VBool false); (n_costType, VStr n_); (n_quantity, VStr n_); (n_estUnitCost, VFloat n_0_0); (n_ErpIssueInventories, VNone); (n_MaterialItems, VNone); (n_CUMaterialItems, VNone); (n_ErpReqLineItems, VNone)]
    [SAttr n_stockItem; SAttr n_costType; SAttr n_quantity; SAttr n_estUnitCost; SMany n_ErpIssueInventories; SMany n_MaterialItems; SMany n_CUMaterialItems; SMany n_ErpReqLineItems]
    true true
    [n_stockItem; n_costType; n_quantity; n_estUnitCost]
    [(n_stockItem, VBool false); (n_costType, VStr n_); (n_quantity, VStr n_); (n_estUnitCost, VFloat n_0_0)]
    []
    [n_ErpIssueInventories; n_MaterialItems; n_CUMaterialItems; n_ErpReqLineItems]
    [n_ErpIssueInventories; n_MaterialItems; n_CUMaterialItems; n_ErpReqLineItems]
    [(n_ErpIssueInventories, PManyOne n_TypeMaterial); (n_MaterialItems, PManyOne n_TypeMaterial); (n_CUMaterialItems, PManyOne n_TypeMaterial); (n_ErpReqLineItems, PManyOne n_TypeMaterial)];
(* CIM15/IEC61970/Informative/InfWork/Usage.py:23-103 *)
  Cls n_CIM15_IEC61970_Informative_InfWork_Usage_Usage n_Usage (Some n_CIM15_IEC61970_Core_IdentifiedObject_IdentifiedObject)
    [(n_WorkTask, VNone); (n_WorkEquipmentAsset, VNone); (n_status, VNone); (n_MaterialItem, VNone)]
    [SOne n_WorkTask; SOne n_WorkEquipmentAsset; SAttr n_status; SOne n_MaterialItem]
    true true
    []
    []
    []
    [n_WorkTask; n_WorkEquipmentAsset; n_status; n_MaterialItem]
    []
    [(n_WorkTask, POneMany n_Usages); (n_WorkEquipmentAsset, POneMany n_Usages); (n_MaterialItem, POneMany n_Usages)];
(* CIM15/IEC61970/Informative/InfWork/WorkCostDetail.py:23-360 *)
  Cls n_CIM15_IEC61970_Informative_InfWork_WorkCostDetail_WorkCostDetail n_WorkCostDetail (Some n_CIM15_IEC61968_Common_Document_Document)
    [(n_type, VStr n_); (n_isDebit, VBool false); (n_transactionDateTime, VStr n_); (n_amount, VFloat n_0_0); (n_WorkTask, VNone); (n_Works, VNone); (n_Design, VNone); (n_MiscCostItems, VNone); (n_WorkCostSummary, VNone); (n_PropertyUnits, VNone); (n_ErpProjectAccounting, VNone); (n_LaborItems, VNone); (n_MaterialItems, VNone); (n_EquipmentItems, VNone); (n_ContractorItems, VNone); (n_OverheadCost, VNone); (n_CostType, VNone)]
    [SAttr n_type; SAttr n_isDebit; SAttr n_transactionDateTime; SAttr n_amount; SOne n_WorkTask; SMany n_Works; SOne n_Design; SMany n_MiscCostItems; SOne n_WorkCostSummary; SMany n_PropertyUnits; SOne n_ErpProjectAccounting; SMany n_LaborItems; SMany n_MaterialItems; SMany n_EquipmentItems; SMany n_ContractorItems; SOne n_OverheadCost; SOne n_CostType]
    true true
    [n_type; n_isDebit; n_transactionDateTime; n_amount]
    [(n_type, VStr n_); (n_isDebit, VBool false); (n_transactionDateTime, VStr n_); (n_amount, VFloat n_0_0)]
    []
    [n_WorkTask; n_Works; n_Design; n_MiscCostItems; n_WorkCostSummary; n_PropertyUnits; n_ErpProjectAccounting; n_LaborItems; n_MaterialItems; n_EquipmentItems; n_ContractorItems; n_OverheadCost; n_CostType]
    [n_Works; n_MiscCostItems; n_PropertyUnits; n_LaborItems; n_MaterialItems; n_EquipmentItems; n_ContractorItems]
    [(n_WorkTask, POneMany n_WorkCostDetails); (n_Works, PManyMany n_WorkCostDetails); (n_Design, POneMany n_WorkCostDetails); (n_MiscCostItems, PManyOne n_WorkCostDetail); (n_WorkCostSummary, POneOne n_WorkCostDetail); (n_PropertyUnits, PManyMany n_WorkCostDetails); (n_ErpProjectAccounting, POneMany n_WorkCostDetails); (n_LaborItems, PManyOne n_WorkCostDetail); (n_MaterialItems, PManyOne n_WorkCostDetail); (n_EquipmentItems, PManyOne n_WorkCostDetail); (n_ContractorItems, PManyOne n_WorkCostDetail); (n_OverheadCost, POneMany n_WorkCostDetails); (n_CostType, POneMany n_WorkCostDetails)];
(* CIM15/IEC61970/Informative/InfWork/WorkCostSummary.py:23-57 *)
  Cls n_CIM15_IEC61970_Informative_InfWork_WorkCostSummary_WorkCostSummary n_WorkCostSummary (Some n_CIM15_IEC61968_Common_Document_Document)
    [(n_WorkCostDetail, VNone)]
    [SOne n_WorkCostDetail]
    true true
    []
    []
    []
    [n_WorkCostDetail]
    []
    [(n_WorkCostDetail, POneOne n_WorkCostSummary)];
(* CIM15/IEC61970/Informative/InfWork/WorkFlowStep.py:23-92 *)
  Cls n_CIM15_IEC61970_Informative_InfWork_WorkFlowStep_WorkFlowStep n_WorkFlowStep (Some n_CIM15_IEC61970_Core_IdentifiedObject_IdentifiedObject)
    [(n_sequenceNumber, VInt 0); (n_WorkTasks, VNone); (n_status, VNone); (n_Work, VNone)]
    [SAttr n_sequenceNumber; SMany n_WorkTasks; SAttr n_status; SOne n_Work]
    true true
    [n_sequenceNumber]
    [(n_sequenceNumber, VInt 0)]
    []
    [n_WorkTasks; n_status; n_Work]
    [n_WorkTasks]
    [(n_WorkTasks, PManyOne n_WorkFlowStep); (n_Work, POneMany n_WorkFlowSteps)];
(* CIM15/IEC61970/Informative/InfWork/WorkLocation.py:23-105 *)
  Cls n_CIM15_IEC61970_Informative_InfWork_WorkLocation_WorkLocation n_WorkLocation (Some n_CIM15_IEC61968_Common_Location_Location)
    [(n_subdivision, VStr n_); (n_nearestIntersection, VStr n_); (n_block, VStr n_); (n_lot, VStr n_); (n_OneCallRequest, VNone); (n_DesignLocations, VNone)]
    [SAttr n_subdivision; SAttr n_nearestIntersection; SAttr n_block; SAttr n_lot; SOne n_OneCallRequest; SMany n_DesignLocations]
    true true
    [n_subdivision; n_nearestIntersection; n_block; n_lot]
    [(n_subdivision, VStr n_); (n_nearestIntersection, VStr n_); (n_block, VStr n_); (n_lot, VStr n_)]
    []
    [n_OneCallRequest; n_DesignLocations]
    [n_DesignLocations]
    [(n_OneCallRequest, POneMany n_WorkLocations); (n_DesignLocations, PManyMany n_WorkLocations)];
(* CIM15/IEC61970/Informative/InfWork/WorkStatusEntry.py:23-42 *)
  Cls n_CIM15_IEC61970_Informative_InfWork_WorkStatusEntry_WorkStatusEntry n_WorkStatusEntry (Some n_CIM15_IEC61968_Common_ActivityRecord_ActivityRecord)
    [(n_percentComplete, VFloat n_0_0)]
    [SAttr n_percentComplete]
    true true
    [n_percentComplete]
    [(n_percentComplete, VFloat n_0_0)]
    []
    []
    []
    [];
(* CIM15/IEC61970/Informative/InfWork/WorkTask.py:23-476 *)
  Cls n_CIM15_IEC61970_Informative_InfWork_WorkTask_WorkTask n_WorkTask (Some n_CIM15_IEC61968_Common_Document_Document)
    [(n_priority, VStr n_); (n_schedOverride, VStr n_); (n_EquipmentItems, VNone); (n_Usages, VNone); (n_MiscCostItems, VNone); (n_Crews, VNone); (n_Work, VNone); (n_OverheadCost, VNone); (n_DesignLocationCUs, VNone); (n_ContractorItems, VNone); (n_SwitchingSchedules, VNone); (n_WorkFlowStep, VNone); (n_Design, VNone); (n_QualificationRequirements, VNone); (n_Capabilities, VNone); (n_WorkCostDetails, VNone); (n_Assets, VNone); (n_LaborItems, VNone); (n_MaterialItems, VNone)]
    [SAttr n_priority; SAttr n_schedOverride; SMany n_EquipmentItems; SMany n_Usages; SMany n_MiscCostItems; SMany n_Crews; SOne n_Work; SOne n_OverheadCost; SMany n_DesignLocationCUs; SMany n_ContractorItems; SMany n_SwitchingSchedules; SOne n_WorkFlowStep; SOne n_Design; SMany n_QualificationRequirements; SMany n_Capabilities; SMany n_WorkCostDetails; SMany n_Assets; SMany n_LaborItems; SMany n_MaterialItems]
    true true
    [n_priority; n_schedOverride]
    [(n_priority, VStr n_); (n_schedOverride, VStr n_)]
    []
    [n_EquipmentItems; n_Usages; n_MiscCostItems; n_Crews; n_Work; n_OverheadCost; n_DesignLocationCUs; n_ContractorItems; n_SwitchingSchedules; n_WorkFlowStep; n_Design; n_QualificationRequirements; n_Capabilities; n_WorkCostDetails; n_Assets; n_LaborItems; n_MaterialItems]
    [n_EquipmentItems; n_Usages; n_MiscCostItems; n_Crews; n_DesignLocationCUs; n_ContractorItems; n_SwitchingSchedules; n_QualificationRequirements; n_Capabilities; n_WorkCostDetails; n_Assets; n_LaborItems; n_MaterialItems]
    [(n_EquipmentItems, PManyOne n_WorkTask); (n_Usages, PManyOne n_WorkTask); (n_MiscCostItems, PManyOne n_WorkTask); (n_Crews, PManyMany n_WorkTasks); (n_Work, POneMany n_WorkTasks); (n_OverheadCost, POneMany n_WorkTasks); (n_DesignLocationCUs, PManyMany n_WorkTasks); (n_ContractorItems, PManyOne n_WorkTask); (n_SwitchingSchedules, PManyOne n_WorkTask); (n_WorkFlowStep, POneMany n_WorkTasks); (n_Design, POneMany n_WorkTasks); (n_QualificationRequirements, PManyMany n_WorkTasks); (n_Capabilities, PManyMany n_WorkTasks); (n_WorkCostDetails, PManyOne n_WorkTask); (n_Assets, PManyOne n_WorkTask); (n_LaborItems, PManyOne n_WorkTask); (n_MaterialItems, PManyOne n_WorkTask)];
(* CIM15/IEC61970/LoadModel/ConformLoad.py:23-59 *)
  Cls n_CIM15_IEC61970_LoadModel_ConformLoad_ConformLoad n_ConformLoad (Some n_CIM15_IEC61970_Wires_EnergyConsumer_EnergyConsumer)
    [(n_LoadGroup, VNone)]
    [SOne n_LoadGroup]
    true true
    []
    []
    []
    [n_LoadGroup]
    []
    [(n_LoadGroup, POneMany n_EnergyConsumers)];
(* CIM15/IEC61970/LoadModel/ConformLoadGroup.py:23-90 *)
  Cls n_CIM15_IEC61970_LoadModel_ConformLoadGroup_ConformLoadGroup n_ConformLoadGroup (Some n_CIM15_IEC61970_LoadModel_LoadGroup_LoadGroup)
    [(n_ConformLoadSchedules, VNone); (n_EnergyConsumers, VNone)]
    [SMany n_ConformLoadSchedules; SMany n_EnergyConsumers]
    true true
    []
    []
    []
    [n_ConformLoadSchedules; n_EnergyConsumers]
    [n_ConformLoadSchedules; n_EnergyConsumers]
    [(n_ConformLoadSchedules, PManyOne n_ConformLoadGroup); (n_EnergyConsumers, PManyOne n_LoadGroup)];
(* CIM15/IEC61970/LoadModel/ConformLoadSchedule.py:23-59 *)
  Cls n_CIM15_IEC61970_LoadModel_ConformLoadSchedule_ConformLoadSchedule n_ConformLoadSchedule (Some n_CIM15_IEC61970_LoadModel_SeasonDayTypeSchedule_SeasonDayTypeSchedule)
    [(n_ConformLoadGroup, VNone)]
    [SOne n_ConformLoadGroup]
    true true
    []
    []
    []
    [n_ConformLoadGroup]
    []
    [(n_ConformLoadGroup, POneMany n_ConformLoadSchedules)];
(* CIM15/IEC61970/LoadModel/DayType.py:23-64 *)
  Cls n_CIM15_IEC61970_LoadModel_DayType_DayType n_DayType (Some n_CIM15_IEC61970_Core_IdentifiedObject_IdentifiedObject)
    [(n_SeasonDayTypeSchedules, VNone)]
    [SMany n_SeasonDayTypeSchedules]
    true true
    []
    []
    []
    [n_SeasonDayTypeSchedules]
    [n_SeasonDayTypeSchedules]
    [(n_SeasonDayTypeSchedules, PManyOne n_DayType)];
(* CIM15/IEC61970/LoadModel/EnergyArea.py:23-58 *)
  Cls n_CIM15_IEC61970_LoadModel_EnergyArea_EnergyArea n_EnergyArea (Some n_CIM15_IEC61970_Core_IdentifiedObject_IdentifiedObject)
    [(n_ControlArea, VNone)]
    [SOne n_ControlArea]
    true true
    []
    []
    []
    [n_ControlArea]
    []
    [(n_ControlArea, POneOne n_EnergyArea)];
(* CIM15/IEC61970/LoadModel/LoadArea.py:23-64 *)
  Cls n_CIM15_IEC61970_LoadModel_LoadArea_LoadArea n_LoadArea (Some n_CIM15_IEC61970_LoadModel_EnergyArea_EnergyArea)
    [(n_SubLoadAreas, VNone)]
    [SMany n_SubLoadAreas]
    true true
    []
    []
    []
    [n_SubLoadAreas]
    [n_SubLoadAreas]
    [(n_SubLoadAreas, PManyOne n_LoadArea)];
(* CIM15/IEC61970/LoadModel/LoadGroup.py:23-59 *)
  Cls n_CIM15_IEC61970_LoadModel_LoadGroup_LoadGroup n_LoadGroup (Some n_CIM15_IEC61970_Core_IdentifiedObject_IdentifiedObject)
    [(n_SubLoadArea, VNone)]
    [SOne n_SubLoadArea]
    true true
    []
    []
    []
    [n_SubLoadArea]
    []
    [(n_SubLoadArea, POneMany n_LoadGroups)];
(* CIM15/IEC61970/LoadModel/LoadResponseCharacteristic.py:23-108 *)
  Cls n_CIM15_IEC61970_LoadModel_LoadResponseCharacteristic_LoadResponseCharacteristic n_LoadResponseCharacteristic (Some n_CIM15_IEC61970_Core_IdentifiedObject_IdentifiedObject)
    [(n_pFrequencyExponent, VFloat n_0_0); (n_pConstantPower, VFloat n_0_0); (n_exponentModel, VBool false); (n_qFrequencyExponent, VFloat n_0_0); (n_pVoltageExponent, VFloat n_0_0); (n_qConstantImpedance, VFloat n_0_0); (n_qConstantPower, VFloat n_0_0); (n_pConstantImpedance, VFloat n_0_0); (n_pConstantCurrent, VFloat n_0_0); (n_qVoltageExponent, VFloat n_0_0); (n_qConstantCurrent, VFloat n_0_0); (n_EnergyConsumer, VNone)]
    [SAttr n_pFrequencyExponent; SAttr n_pConstantPower; SAttr n_exponentModel; SAttr n_qFrequencyExponent; SAttr n_pVoltageExponent; SAttr n_qConstantImpedance; SAttr n_qConstantPower; SAttr n_pConstantImpedance; SAttr n_pConstantCurrent; SAttr n_qVoltageExponent; SAttr n_qConstantCurrent; SMany n_EnergyConsumer]
    true true
    [n_pFrequencyExponent; n_pConstantPower; n_exponentModel; n_qFrequencyExponent; n_pVoltageExponent; n_qConstantImpedance; n_qConstantPower; n_pConstantImpedance; n_pConstantCurrent; n_qVoltageExponent; n_qConstantCurrent]
    [(n_pFrequencyExponent, VFloat n_0_0); (n_pConstantPower, VFloat n_0_0); (n_exponentModel, VBool false); (n_qFrequencyExponent, VFloat n_0_0); (n_pVoltageExponent, VFloat n_0_0); (n_qConstantImpedance, VFloat n_0_0); (n_qConstantPower, VFloat n_0_0); (n_pConstantImpedance, VFloat n_0_0); (n_pConstantCurrent, VFloat n_0_0); (n_qVoltageExponent, VFloat n_0_0); (n_qConstantCurrent, VFloat n_0_0)]
    []
    [n_EnergyConsumer]
    [n_EnergyConsumer]
    [(n_EnergyConsumer, PManyOne n_LoadResponse)];
(* CIM15/IEC61970/LoadModel/NonConformLoad.py:23-59 *)
  Cls n_CIM15_IEC61970_LoadModel_NonConformLoad_NonConformLoad n_NonConformLoad (Some n_CIM15_IEC61970_Wires_EnergyConsumer_EnergyConsumer)
    [(n_LoadGroup, VNone)]
    [SOne n_LoadGroup]
    true true
    []
    []
    []
    [n_LoadGroup]
    []
    [(n_LoadGroup, POneMany n_EnergyConsumers)];
(* CIM15/IEC61970/LoadModel/NonConformLoadGroup.py:23-90 *)
  Cls n_CIM15_IEC61970_LoadModel_NonConformLoadGroup_NonConformLoadGroup n_NonConformLoadGroup (Some n_CIM15_IEC61970_LoadModel_LoadGroup_LoadGroup)
    [(n_NonConformLoadSchedules, VNone); (n_EnergyConsumers, VNone)]
    [SMany n_NonConformLoadSchedules; SMany n_EnergyConsumers]
    true true
    []
    []
    []
    [n_NonConformLoadSchedules; n_EnergyConsumers]
    [n_NonConformLoadSchedules; n_EnergyConsumers]
    [(n_NonConformLoadSchedules, PManyOne n_NonConformLoadGroup); (n_EnergyConsumers, PManyOne n_LoadGroup)];
(* CIM15/IEC61970/LoadModel/NonConformLoadSchedule.py:23-59 *)
  Cls n_CIM15_IEC61970_LoadModel_NonConformLoadSchedule_NonConformLoadSchedule n_NonConformLoadSchedule (Some n_CIM15_IEC61970_LoadModel_SeasonDayTypeSchedule_SeasonDayTypeSchedule)
    [(n_NonConformLoadGroup, VNone)]
    [SOne n_NonConformLoadGroup]
    true true
    []
    []
    []
    [n_NonConformLoadGroup]
    []
    [(n_NonConformLoadGroup, POneMany n_NonConformLoadSchedules)];
(* CIM15/IEC61970/LoadModel/PowerCutZone.py:23-72 *)
  Cls n_CIM15_IEC61970_LoadModel_PowerCutZone_PowerCutZone n_PowerCutZone (Some n_CIM15_IEC61970_Core_PowerSystemResource_PowerSystemResource)
    [(n_cutLevel2, VFloat n_0_0); (n_cutLevel1, VFloat n_0_0); (n_EnergyConsumers, VNone)]
    [SAttr n_cutLevel2; SAttr n_cutLevel1; SMany n_EnergyConsumers]
    true true
    [n_cutLevel2; n_cutLevel1]
    [(n_cutLevel2, VFloat n_0_0); (n_cutLevel1, VFloat n_0_0)]
    []
    [n_EnergyConsumers]
    [n_EnergyConsumers]
    [(n_EnergyConsumers, PManyOne n_PowerCutZone)];
(* CIM15/IEC61970/LoadModel/Season.py:23-76 *)
  Cls n_CIM15_IEC61970_LoadModel_Season_Season n_Season (Some n_CIM15_Element_Element)
    [(n_name, VStr n_winter); (n_startDate, VStr n_); (n_endDate, VStr n_); (n_SeasonDayTypeSchedules, VNone)]
    [SAttr n_name; SAttr n_startDate; SAttr n_endDate; SMany n_SeasonDayTypeSchedules]
    true true
    [n_name; n_startDate; n_endDate]
    [(n_name, VStr n_winter); (n_startDate, VStr n_); (n_endDate, VStr n_)]
    [(n_name, n_SeasonName)]
    [n_SeasonDayTypeSchedules]
    [n_SeasonDayTypeSchedules]
    [(n_SeasonDayTypeSchedules, PManyOne n_Season)];
(* CIM15/IEC61970/LoadModel/SeasonDayTypeSchedule.py:23-80 *)
  Cls n_CIM15_IEC61970_LoadModel_SeasonDayTypeSchedule_SeasonDayTypeSchedule n_SeasonDayTypeSchedule (Some n_CIM15_IEC61970_Core_RegularIntervalSchedule_RegularIntervalSchedule)
    [(n_Season, VNone); (n_DayType, VNone)]
    [SOne n_Season; SOne n_DayType]
    true true
    []
    []
    []
    [n_Season; n_DayType]
    []
    [(n_Season, POneMany n_SeasonDayTypeSchedules); (n_DayType, POneMany n_SeasonDayTypeSchedules)];
(* CIM15/IEC61970/LoadModel/StationSupply.py:23-38 *)
  Cls n_CIM15_IEC61970_LoadModel_StationSupply_StationSupply n_StationSupply (Some n_CIM15_IEC61970_Wires_EnergyConsumer_EnergyConsumer)
    []
    []
    true true
    []
    []
    []
    []
    []
    [];
(* CIM15/IEC61970/LoadModel/SubLoadArea.py:23-85 *)
  Cls n_CIM15_IEC61970_LoadModel_SubLoadArea_SubLoadArea n_SubLoadArea (Some n_CIM15_IEC61970_LoadModel_EnergyArea_EnergyArea)
    [(n_LoadGroups, VNone); (n_LoadArea, VNone)]
    [SMany n_LoadGroups; SOne n_LoadArea]
    true true
    []
    []
    []
    [n_LoadGroups; n_LoadArea]
    [n_LoadGroups]
    [(n_LoadGroups, PManyOne n_SubLoadArea); (n_LoadArea, POneMany n_SubLoadAreas)];
(* CIM15/IEC61970/Meas/Accumulator.py:23-100 *)
  Cls n_CIM15_IEC61970_Meas_Accumulator_Accumulator n_Accumulator (Some n_CIM15_IEC61970_Meas_Measurement_Measurement)
    [(n_maxValue, VInt 0); (n_LimitSets, VNone); (n_AccumulatorValues, VNone)]
    [SAttr n_maxValue; SMany n_LimitSets; SMany n_AccumulatorValues]
    true true
    [n_maxValue]
    [(n_maxValue, VInt 0)]
    []
    [n_LimitSets; n_AccumulatorValues]
    [n_LimitSets; n_AccumulatorValues]
    [(n_LimitSets, PManyMany n_Measurements); (n_AccumulatorValues, PManyOne n_Accumulator)];
(* CIM15/IEC61970/Meas/AccumulatorLimit.py:23-63 *)
  Cls n_CIM15_IEC61970_Meas_AccumulatorLimit_AccumulatorLimit n_AccumulatorLimit (Some n_CIM15_IEC61970_Meas_Limit_Limit)
    [(n_value, VInt 0); (n_LimitSet, VNone)]
    [SAttr n_value; SOne n_LimitSet]
    true true
    [n_value]
    [(n_value, VInt 0)]
    []
    [n_LimitSet]
    []
    [(n_LimitSet, POneMany n_Limits)];
(* CIM15/IEC61970/Meas/AccumulatorLimitSet.py:23-96 *)
  Cls n_CIM15_IEC61970_Meas_AccumulatorLimitSet_AccumulatorLimitSet n_AccumulatorLimitSet (Some n_CIM15_IEC61970_Meas_LimitSet_LimitSet)
    [(n_Limits, VNone); (n_Measurements, VNone)]
    [SMany n_Limits; SMany n_Measurements]
    true true
    []
    []
    []
    [n_Limits; n_Measurements]
    [n_Limits; n_Measurements]
    [(n_Limits, PManyOne n_LimitSet); (n_Measurements, PManyMany n_LimitSets)];
(* CIM15/IEC61970/Meas/AccumulatorValue.py:23-63 *)
  Cls n_CIM15_IEC61970_Meas_AccumulatorValue_AccumulatorValue n_AccumulatorValue (Some n_CIM15_IEC61970_Meas_MeasurementValue_MeasurementValue)
    [(n_value, VInt 0); (n_Accumulator, VNone)]
    [SAttr n_value; SOne n_Accumulator]
    true true
    [n_value]
    [(n_value, VInt 0)]
    []
    [n_Accumulator]
    []
    [(n_Accumulator, POneMany n_AccumulatorValues)];
(* CIM15/IEC61970/Meas/Analog.py:23-132 *)
  Cls n_CIM15_IEC61970_Meas_Analog_Analog n_Analog (Some n_CIM15_IEC61970_Meas_Measurement_Measurement)
    [(n_maxValue, VFloat n_0_0); (n_normalValue, VFloat n_0_0); (n_positiveFlowIn, VBool false); (n_minValue, VFloat n_0_0); (n_LimitSets, VNone); (n_AnalogValues, VNone); (n_SetPoint, VNone)]
    [SAttr n_maxValue; SAttr n_normalValue; SAttr n_positiveFlowIn; SAttr n_minValue; SMany n_LimitSets; SMany n_AnalogValues; SOne n_SetPoint]
    true true
    [n_maxValue; n_normalValue; n_positiveFlowIn; n_minValue]
    [(n_maxValue, VFloat n_0_0); (n_normalValue, VFloat n_0_0); (n_positiveFlowIn, VBool false); (n_minValue, VFloat n_0_0)]
    []
    [n_LimitSets; n_AnalogValues; n_SetPoint]
    [n_LimitSets; n_AnalogValues]
    [(n_LimitSets, PManyMany n_Measurements); (n_AnalogValues, PManyOne n_Analog); (n_SetPoint, POneOne n_Analog)];
(* CIM15/IEC61970/Meas/AnalogLimit.py:23-63 *)
  Cls n_CIM15_IEC61970_Meas_AnalogLimit_AnalogLimit n_AnalogLimit (Some n_CIM15_IEC61970_Meas_Limit_Limit)
    [(n_value, VFloat n_0_0); (n_LimitSet, VNone)]
    [SAttr n_value; SOne n_LimitSet]
    true true
    [n_value]
    [(n_value, VFloat n_0_0)]
    []
    [n_LimitSet]
    []
    [(n_LimitSet, POneMany n_Limits)];
(* CIM15/IEC61970/Meas/AnalogLimitSet.py:23-96 *)
  Cls n_CIM15_IEC61970_Meas_AnalogLimitSet_AnalogLimitSet n_AnalogLimitSet (Some n_CIM15_IEC61970_Meas_LimitSet_LimitSet)
    [(n_Limits, VNone); (n_Measurements, VNone)]
    [SMany n_Limits; SMany n_Measurements]
    true true
    []
    []
    []
    [n_Limits; n_Measurements]
    [n_Limits; n_Measurements]
    [(n_Limits, PManyOne n_LimitSet); (n_Measurements, PManyMany n_LimitSets)];
(* CIM15/IEC61970/Meas/AnalogValue.py:23-115 *)
  Cls n_CIM15_IEC61970_Meas_AnalogValue_AnalogValue n_AnalogValue (Some n_CIM15_IEC61970_Meas_MeasurementValue_MeasurementValue)
    [(n_value, VFloat n_0_0); (n_AltTieMeas, VNone); (n_Analog, VNone); (n_AltGeneratingUnit, VNone)]
    [SAttr n_value; SMany n_AltTieMeas; SOne n_Analog; SMany n_AltGeneratingUnit]
    true true
    [n_value]
    [(n_value, VFloat n_0_0)]
    []
    [n_AltTieMeas; n_Analog; n_AltGeneratingUnit]
    [n_AltTieMeas; n_AltGeneratingUnit]
    [(n_AltTieMeas, PManyOne n_AnalogValue); (n_Analog, POneMany n_AnalogValues); (n_AltGeneratingUnit, PManyOne n_AnalogValue)];
(* CIM15/IEC61970/Meas/Command.py:23-87 *)
  Cls n_CIM15_IEC61970_Meas_Command_Command n_Command (Some n_CIM15_IEC61970_Meas_Control_Control)
    [(n_value, VInt 0); (n_normalValue, VInt 0); (n_Discrete, VNone); (n_ValueAliasSet, VNone)]
    [SAttr n_value; SAttr n_normalValue; SOne n_Discrete; SOne n_ValueAliasSet]
    true true
    [n_value; n_normalValue]
    [(n_value, VInt 0); (n_normalValue, VInt 0)]
    []
    [n_Discrete; n_ValueAliasSet]
    []
    [(n_Discrete, POneOne n_Command); (n_ValueAliasSet, POneMany n_Commands)];
(* CIM15/IEC61970/Meas/Control.py:23-116 *)
  Cls n_CIM15_IEC61970_Meas_Control_Control n_Control (Some n_CIM15_IEC61970_Core_IdentifiedObject_IdentifiedObject)
    [(n_unitSymbol, VStr n_N); (n_unitMultiplier, VStr n_M); (n_operationInProgress, VBool false); (n_timeStamp, VStr n_); (n_RemoteControl, VNone); (n_RegulatingCondEq, VNone); (n_ControlType, VNone)]
    [SAttr n_unitSymbol; SAttr n_unitMultiplier; SAttr n_operationInProgress; SAttr n_timeStamp; SOne n_RemoteControl; SOne n_RegulatingCondEq; SOne n_ControlType]
    true true
    [n_unitSymbol; n_unitMultiplier; n_operationInProgress; n_timeStamp]
    [(n_unitSymbol, VStr n_N); (n_unitMultiplier, VStr n_M); (n_operationInProgress, VBool false); (n_timeStamp, VStr n_)]
    [(n_unitSymbol, n_UnitSymbol); (n_unitMultiplier, n_UnitMultiplier)]
    [n_RemoteControl; n_RegulatingCondEq; n_ControlType]
    []
    [(n_RemoteControl, POneOne n_Control); (n_RegulatingCondEq, POneMany n_Controls); (n_ControlType, POneMany n_Controls)];
(* CIM15/IEC61970/Meas/ControlType.py:23-64 *)
  Cls n_CIM15_IEC61970_Meas_ControlType_ControlType n_ControlType (Some n_CIM15_IEC61970_Core_IdentifiedObject_IdentifiedObject)
    [(n_Controls, VNone)]
    [SMany n_Controls]
    true true
    []
    []
    []
    [n_Controls]
    [n_Controls]
    [(n_Controls, PManyOne n_ControlType)];
(* CIM15/IEC61970/Meas/Discrete.py:23-117 *)
  Cls n_CIM15_IEC61970_Meas_Discrete_Discrete n_Discrete (Some n_CIM15_IEC61970_Meas_Measurement_Measurement)
    [(n_normalValue, VInt 0); (n_minValue, VInt 0); (n_maxValue, VInt 0); (n_Command, VNone); (n_DiscreteValues, VNone); (n_ValueAliasSet, VNone)]
    [SAttr n_normalValue; SAttr n_minValue; SAttr n_maxValue; SOne n_Command; SMany n_DiscreteValues; SOne n_ValueAliasSet]
    true true
    [n_normalValue; n_minValue; n_maxValue]
    [(n_normalValue, VInt 0); (n_minValue, VInt 0); (n_maxValue, VInt 0)]
    []
    [n_Command; n_DiscreteValues; n_ValueAliasSet]
    [n_DiscreteValues]
    [(n_Command, POneOne n_Discrete); (n_DiscreteValues, PManyOne n_Discrete); (n_ValueAliasSet, POneMany n_Discretes)];
(* CIM15/IEC61970/Meas/DiscreteValue.py:23-63 *)
  Cls n_CIM15_IEC61970_Meas_DiscreteValue_DiscreteValue n_DiscreteValue (Some n_CIM15_IEC61970_Meas_MeasurementValue_MeasurementValue)
    [(n_value, VInt 0); (n_Discrete, VNone)]
    [SAttr n_value; SOne n_Discrete]
    true true
    [n_value]
    [(n_value, VInt 0)]
    []
    [n_Discrete]
    []
    [(n_Discrete, POneMany n_DiscreteValues)];
(* CIM15/IEC61970/Meas/Limit.py:23-69 *)
  Cls n_CIM15_IEC61970_Meas_Limit_Limit n_Limit (Some n_CIM15_IEC61970_Core_IdentifiedObject_IdentifiedObject)
    [(n_Procedures, VNone)]
    [SMany n_Procedures]
    true true
    []
    []
    []
    [n_Procedures]
    [n_Procedures]
    [(n_Procedures, PManyMany n_Limits)];
(* CIM15/IEC61970/Meas/LimitSet.py:23-42 *)
  Cls n_CIM15_IEC61970_Meas_LimitSet_LimitSet n_LimitSet (Some n_CIM15_IEC61970_Core_IdentifiedObject_IdentifiedObject)
    [(n_isPercentageLimits, VBool false)]
    [SAttr n_isPercentageLimits]
    true true
    [n_isPercentageLimits]
    [(n_isPercentageLimits, VBool false)]
    []
    []
    []
    [];
(* CIM15/IEC61970/Meas/Measurement.py:23-179 *)
  Cls n_CIM15_IEC61970_Meas_Measurement_Measurement n_Measurement (Some n_CIM15_IEC61970_Core_IdentifiedObject_IdentifiedObject)
    [(n_phases, VStr n_s12N); (n_measurementType, VStr n_); (n_unitMultiplier, VStr n_M); (n_unitSymbol, VStr n_N); (n_Terminal, VNone); (n_PowerSystemResource, VNone); (n_Locations, VNone); (n_Asset, VNone); (n_Documents, VNone)]
    [SAttr n_phases; SAttr n_measurementType; SAttr n_unitMultiplier; SAttr n_unitSymbol; SOne n_Terminal; SOne n_PowerSystemResource; SMany n_Locations; SOne n_Asset; SMany n_Documents]
    true true
    [n_phases; n_measurementType; n_unitMultiplier; n_unitSymbol]
    [(n_phases, VStr n_s12N); (n_measurementType, VStr n_); (n_unitMultiplier, VStr n_M); (n_unitSymbol, VStr n_N)]
    [(n_phases, n_PhaseCode); (n_unitMultiplier, n_UnitMultiplier); (n_unitSymbol, n_UnitSymbol)]
    [n_Terminal; n_PowerSystemResource; n_Locations; n_Asset; n_Documents]
    [n_Locations; n_Documents]
    [(n_Terminal, POneMany n_Measurements); (n_PowerSystemResource, POneMany n_Measurements); (n_Locations, PManyMany n_Measurements); (n_Asset, POneMany n_Measurements); (n_Documents, PManyMany n_Measurements)];
(* CIM15/IEC61970/Meas/MeasurementValue.py:23-183 *)
  Cls n_CIM15_IEC61970_Meas_MeasurementValue_MeasurementValue n_MeasurementValue (Some n_CIM15_IEC61970_Core_IdentifiedObject_IdentifiedObject)
    [(n_sensorAccuracy, VFloat n_0_0); (n_timeStamp, VStr n_); (n_GmlValues, VNone); (n_MeasurementValueQuality, VNone); (n_ProcedureDataSets, VNone); (n_MeasurementValueSource, VNone); (n_ErpPerson, VNone); (n_RemoteSource, VNone)]
    [SAttr n_sensorAccuracy; SAttr n_timeStamp; SMany n_GmlValues; SOne n_MeasurementValueQuality; SMany n_ProcedureDataSets; SOne n_MeasurementValueSource; SOne n_ErpPerson; SOne n_RemoteSource]
    true true
    [n_sensorAccuracy; n_timeStamp]
    [(n_sensorAccuracy, VFloat n_0_0); (n_timeStamp, VStr n_)]
    []
    [n_GmlValues; n_MeasurementValueQuality; n_ProcedureDataSets; n_MeasurementValueSource; n_ErpPerson; n_RemoteSource]
    [n_GmlValues; n_ProcedureDataSets]
    [(n_GmlValues, PManyOne n_MeasurementValue); (n_MeasurementValueQuality, POneOne n_MeasurementValue); (n_ProcedureDataSets, PManyMany n_MeasurementValues); (n_MeasurementValueSource, POneMany n_MeasurementValues); (n_ErpPerson, POneMany n_MeasurementValues); (n_RemoteSource, POneOne n_MeasurementValue)];
(* CIM15/IEC61970/Meas/MeasurementValueQuality.py:23-58 *)
  Cls n_CIM15_IEC61970_Meas_MeasurementValueQuality_MeasurementValueQuality n_MeasurementValueQuality (Some n_CIM15_IEC61970_Meas_Quality61850_Quality61850)
    [(n_MeasurementValue, VNone)]
    [SOne n_MeasurementValue]
    true true
    []
    []
    []
    [n_MeasurementValue]
    []
    [(n_MeasurementValue, POneOne n_MeasurementValueQuality)];
(* CIM15/IEC61970/Meas/MeasurementValueSource.py:23-64 *)
  Cls n_CIM15_IEC61970_Meas_MeasurementValueSource_MeasurementValueSource n_MeasurementValueSource (Some n_CIM15_IEC61970_Core_IdentifiedObject_IdentifiedObject)
    [(n_MeasurementValues, VNone)]
    [SMany n_MeasurementValues]
    true true
    []
    []
    []
    [n_MeasurementValues]
    [n_MeasurementValues]
    [(n_MeasurementValues, PManyOne n_MeasurementValueSource)];
(* CIM15/IEC61970/Meas/Quality61850.py:23-86 *)
  Cls n_CIM15_IEC61970_Meas_Quality61850_Quality61850 n_Quality61850 (Some n_CIM15_Element_Element)
    [(n_overFlow, VBool false); (n_estimatorReplaced, VBool false); (n_validity, VStr n_QUESTIONABLE); (n_operatorBlocked, VBool false); (n_oldData, VBool false); (n_failure, VBool false); (n_source, VStr n_SUBSTITUTED); (n_outOfRange, VBool false); (n_badReference, VBool false); (n_suspect, VBool false); (n_test, VBool false); (n_oscillatory, VBool false)]
    [SAttr n_overFlow; SAttr n_estimatorReplaced; SAttr n_validity; SAttr n_operatorBlocked; SAttr n_oldData; SAttr n_failure; SAttr n_source; SAttr n_outOfRange; SAttr n_badReference; SAttr n_suspect; SAttr n_test; SAttr n_oscillatory]
    true true
    [n_overFlow; n_estimatorReplaced; n_validity; n_operatorBlocked; n_oldData; n_failure; n_source; n_outOfRange; n_badReference; n_suspect; n_test; n_oscillatory]
    [(n_overFlow, VBool false); (n_estimatorReplaced, VBool false); (n_validity, VStr n_QUESTIONABLE); (n_operatorBlocked, VBool false); (n_oldData, VBool false); (n_failure, VBool false); (n_source, VStr n_SUBSTITUTED); (n_outOfRange, VBool false); (n_badReference, VBool false); (n_suspect, VBool false); (n_test, VBool false); (n_oscillatory, VBool false)]
    [(n_validity, n_Validity); (n_source, n_Source)]
    []
    []
    [];
(* CIM15/IEC61970/Meas/SetPoint.py:23-74 *)
  Cls n_CIM15_IEC61970_Meas_SetPoint_SetPoint n_SetPoint (Some n_CIM15_IEC61970_Meas_Control_Control)
    [(n_maxValue, VFloat n_0_0); (n_minValue, VFloat n_0_0); (n_normalValue, VFloat n_0_0); (n_value, VFloat n_0_0); (n_Analog, VNone)]
    [SAttr n_maxValue; SAttr n_minValue; SAttr n_normalValue; SAttr n_value; SOne n_Analog]
    true true
    [n_maxValue; n_minValue; n_normalValue; n_value]
    [(n_maxValue, VFloat n_0_0); (n_minValue, VFloat n_0_0); (n_normalValue, VFloat n_0_0); (n_value, VFloat n_0_0)]
    []
    [n_Analog]
    []
    [(n_Analog, POneOne n_SetPoint)];
(* CIM15/IEC61970/Meas/StringMeasurement.py:23-64 *)
  Cls n_CIM15_IEC61970_Meas_StringMeasurement_StringMeasurement n_StringMeasurement (Some n_CIM15_IEC61970_Meas_Measurement_Measurement)
    [(n_StringMeasurementValues, VNone)]
    [SMany n_StringMeasurementValues]
    true true
    []
    []
    []
    [n_StringMeasurementValues]
    [n_StringMeasurementValues]
    [(n_StringMeasurementValues, PManyOne n_StringMeasurement)];
(* CIM15/IEC61970/Meas/StringMeasurementValue.py:23-63 *)
  Cls n_CIM15_IEC61970_Meas_StringMeasurementValue_StringMeasurementValue n_StringMeasurementValue (Some n_CIM15_IEC61970_Meas_MeasurementValue_MeasurementValue)
    [(n_value, VStr n_); (n_StringMeasurement, VNone)]
    [SAttr n_value; SOne n_StringMeasurement]
    true true
    [n_value]
    [(n_value, VStr n_)]
    []
    [n_StringMeasurement]
    []
    [(n_StringMeasurement, POneMany n_StringMeasurementValues)];
(* CIM15/IEC61970/Meas/ValueAliasSet.py:23-116 *)
  Cls n_CIM15_IEC61970_Meas_ValueAliasSet_ValueAliasSet n_ValueAliasSet (Some n_CIM15_IEC61970_Core_IdentifiedObject_IdentifiedObject)
    [(n_Discretes, VNone); (n_Commands, VNone); (n_Values, VNone)]
    [SMany n_Discretes; SMany n_Commands; SMany n_Values]
    true true
    []
    []
    []
    [n_Discretes; n_Commands; n_Values]
    [n_Discretes; n_Commands; n_Values]
    [(n_Discretes, PManyOne n_ValueAliasSet); (n_Commands, PManyOne n_ValueAliasSet); (n_Values, PManyOne n_ValueAliasSet)];
(* CIM15/IEC61970/Meas/ValueToAlias.py:23-63 *)
  Cls n_CIM15_IEC61970_Meas_ValueToAlias_ValueToAlias n_ValueToAlias (Some n_CIM15_IEC61970_Core_IdentifiedObject_IdentifiedObject)
    [(n_value, VInt 0); (n_ValueAliasSet, VNone)]
    [SAttr n_value; SOne n_ValueAliasSet]
    true true
    [n_value]
    [(n_value, VInt 0)]
    []
    [n_ValueAliasSet]
    []
    [(n_ValueAliasSet, POneMany n_Values)];
(* CIM15/IEC61970/OperationalLimits/ActivePowerLimit.py:23-62 *)
  Cls n_CIM15_IEC61970_OperationalLimits_ActivePowerLimit_ActivePowerLimit n_ActivePowerLimit (Some n_CIM15_IEC61970_OperationalLimits_OperationalLimit_OperationalLimit)
    [(n_value, VFloat n_0_0); (n_ActivePowerLimitSet, VNone)]
    [SAttr n_value; SOne n_ActivePowerLimitSet]
    true true
    [n_value]
    [(n_value, VFloat n_0_0)]
    []
    [n_ActivePowerLimitSet]
    []
    [(n_ActivePowerLimitSet, POneMany n_ActivePowerLimits)];
(* CIM15/IEC61970/OperationalLimits/ActivePowerLimitSet.py:23-61 *)
  Cls n_CIM15_IEC61970_OperationalLimits_ActivePowerLimitSet_ActivePowerLimitSet n_ActivePowerLimitSet (Some n_CIM15_IEC61970_OperationalLimits_OperationalLimitSet_OperationalLimitSet)
    [(n_ActivePowerLimits, VNone)]
    [SMany n_ActivePowerLimits]
    true true
    []
    []
    []
    [n_ActivePowerLimits]
    [n_ActivePowerLimits]
    [(n_ActivePowerLimits, PManyOne n_ActivePowerLimitSet)];
(* CIM15/IEC61970/OperationalLimits/ApparentPowerLimit.py:23-62 *)
  Cls n_CIM15_IEC61970_OperationalLimits_ApparentPowerLimit_ApparentPowerLimit n_ApparentPowerLimit (Some n_CIM15_IEC61970_OperationalLimits_OperationalLimit_OperationalLimit)
    [(n_value, VFloat n_0_0); (n_ApparentPowerLimitSet, VNone)]
    [SAttr n_value; SOne n_ApparentPowerLimitSet]
    true true
    [n_value]
    [(n_value, VFloat n_0_0)]
    []
    [n_ApparentPowerLimitSet]
    []
    [(n_ApparentPowerLimitSet, POneMany n_ApparentPowerLimits)];
(* CIM15/IEC61970/OperationalLimits/ApparentPowerLimitSet.py:23-61 *)
  Cls n_CIM15_IEC61970_OperationalLimits_ApparentPowerLimitSet_ApparentPowerLimitSet n_ApparentPowerLimitSet (Some n_CIM15_IEC61970_OperationalLimits_OperationalLimitSet_OperationalLimitSet)
    [(n_ApparentPowerLimits, VNone)]
    [SMany n_ApparentPowerLimits]
    true true
    []
    []
    []
    [n_ApparentPowerLimits]
    [n_ApparentPowerLimits]
    [(n_ApparentPowerLimits, PManyOne n_ApparentPowerLimitSet)];
(* CIM15/IEC61970/OperationalLimits/BranchGroup.py:23-88 *)
  Cls n_CIM15_IEC61970_OperationalLimits_BranchGroup_BranchGroup n_BranchGroup (Some n_CIM15_IEC61970_Core_IdentifiedObject_IdentifiedObject)
    [(n_minimumReactivePower, VFloat n_0_0); (n_maximumReactivePower, VFloat n_0_0); (n_maximumActivePower, VFloat n_0_0); (n_minimumActivePower, VFloat n_0_0); (n_monitorActivePower, VBool false); (n_monitorReactivePower, VBool false); (n_BranchGroupTerminal, VNone)]
    [SAttr n_minimumReactivePower; SAttr n_maximumReactivePower; SAttr n_maximumActivePower; SAttr n_minimumActivePower; SAttr n_monitorActivePower; SAttr n_monitorReactivePower; SMany n_BranchGroupTerminal]
    true true
    [n_minimumReactivePower; n_maximumReactivePower; n_maximumActivePower; n_minimumActivePower; n_monitorActivePower; n_monitorReactivePower]
    [(n_minimumReactivePower, VFloat n_0_0); (n_maximumReactivePower, VFloat n_0_0); (n_maximumActivePower, VFloat n_0_0); (n_minimumActivePower, VFloat n_0_0); (n_monitorActivePower, VBool false); (n_monitorReactivePower, VBool false)]
    []
    [n_BranchGroupTerminal]
    [n_BranchGroupTerminal]
    [(n_BranchGroupTerminal, PManyOne n_BranchGroup)];
(* CIM15/IEC61970/OperationalLimits/BranchGroupTerminal.py:23-84 *)
  Cls n_CIM15_IEC61970_OperationalLimits_BranchGroupTerminal_BranchGroupTerminal n_BranchGroupTerminal (Some n_CIM15_Element_Element)
    [(n_positiveFlowIn, VBool false); (n_BranchGroup, VNone); (n_Terminal, VNone)]
    [SAttr n_positiveFlowIn; SOne n_BranchGroup; SOne n_Terminal]
    true true
    [n_positiveFlowIn]
    [(n_positiveFlowIn, VBool false)]
    []
    [n_BranchGroup; n_Terminal]
    []
    [(n_BranchGroup, POneMany n_BranchGroupTerminal); (n_Terminal, POneMany n_BranchGroupTerminal)];
(* CIM15/IEC61970/OperationalLimits/CheckPoint.py:24-49 *)
  Cls n_CIM15_IEC61970_OperationalLimits_CheckPoint_CheckPoint n_CheckPoint (Some n_CIM15_IEC61970_Core_IdentifiedObject_IdentifiedObject)
    [(n_Equipment, VNone)]
    [SPriv n_Equipment]
    true true
    []
    []
    []
    [n_Equipment]
    []
    [(n_Equipment, PPrivate)];
(* CIM15/IEC61970/OperationalLimits/CurrentLimit.py:23-62 *)
  Cls n_CIM15_IEC61970_OperationalLimits_CurrentLimit_CurrentLimit n_CurrentLimit (Some n_CIM15_IEC61970_OperationalLimits_OperationalLimit_OperationalLimit)
    [(n_value, VFloat n_0_0); (n_CurrentLimitSet, VNone)]
    [SAttr n_value; SOne n_CurrentLimitSet]
    true true
    [n_value]
    [(n_value, VFloat n_0_0)]
    []
    [n_CurrentLimitSet]
    []
    [(n_CurrentLimitSet, POneMany n_CurrentLimits)];
(* CIM15/IEC61970/OperationalLimits/CurrentLimitSet.py:23-61 *)
  Cls n_CIM15_IEC61970_OperationalLimits_CurrentLimitSet_CurrentLimitSet n_CurrentLimitSet (Some n_CIM15_IEC61970_OperationalLimits_OperationalLimitSet_OperationalLimitSet)
    [(n_CurrentLimits, VNone)]
    [SMany n_CurrentLimits]
    true true
    []
    []
    []
    [n_CurrentLimits]
    [n_CurrentLimits]
    [(n_CurrentLimits, PManyOne n_CurrentLimitSet)];
(* CIM15/IEC61970/OperationalLimits/OperationalLimit.py:23-80 *)
  Cls n_CIM15_IEC61970_OperationalLimits_OperationalLimit_OperationalLimit n_OperationalLimit (Some n_CIM15_IEC61970_Core_IdentifiedObject_IdentifiedObject)
    [(n_OperationalLimitType, VNone); (n_OperationalLimitSet, VNone)]
    [SOne n_OperationalLimitType; SOne n_OperationalLimitSet]
    true true
    []
    []
    []
    [n_OperationalLimitType; n_OperationalLimitSet]
    []
    [(n_OperationalLimitType, POneMany n_OperationalLimit); (n_OperationalLimitSet, POneMany n_OperationalLimitValue)];
(* CIM15/IEC61970/OperationalLimits/OperationalLimitSet.py:23-85 *)
  Cls n_CIM15_IEC61970_OperationalLimits_OperationalLimitSet_OperationalLimitSet n_OperationalLimitSet (Some n_CIM15_IEC61970_Core_IdentifiedObject_IdentifiedObject)
    [(n_Terminal, VNone); (n_OperationalLimitValue, VNone)]
    [SOne n_Terminal; SMany n_OperationalLimitValue]
    true true
    []
    []
    []
    [n_Terminal; n_OperationalLimitValue]
    [n_OperationalLimitValue]
    [(n_Terminal, POneMany n_OperationalLimitSet); (n_OperationalLimitValue, PManyOne n_OperationalLimitSet)];
(* CIM15/IEC61970/OperationalLimits/OperationalLimitType.py:23-72 *)
  Cls n_CIM15_IEC61970_OperationalLimits_OperationalLimitType_OperationalLimitType n_OperationalLimitType (Some n_CIM15_IEC61970_Core_IdentifiedObject_IdentifiedObject)
    [(n_direction, VStr n_low); (n_acceptableDuration, VFloat n_0_0); (n_OperationalLimit, VNone)]
    [SAttr n_direction; SAttr n_acceptableDuration; SMany n_OperationalLimit]
    true true
    [n_direction; n_acceptableDuration]
    [(n_direction, VStr n_low); (n_acceptableDuration, VFloat n_0_0)]
    [(n_direction, n_OperationalLimitDirectionKind)]
    [n_OperationalLimit]
    [n_OperationalLimit]
    [(n_OperationalLimit, PManyOne n_OperationalLimitType)];
(* CIM15/IEC61970/OperationalLimits/VoltageCheckPoint.py:24-69 *)
  Cls n_CIM15_IEC61970_OperationalLimits_VoltageCheckPoint_VoltageCheckPoint n_VoltageCheckPoint (Some n_CIM15_IEC61970_OperationalLimits_CheckPoint_CheckPoint)
    [(n_LowerLimitsCurve, VNone); (n_UpperLimitsCurve, VNone); (n_VoltageLimitSet, VNone)]
    [SPriv n_LowerLimitsCurve; SPriv n_UpperLimitsCurve; SPriv n_VoltageLimitSet]
    true true
    []
    []
    []
    [n_LowerLimitsCurve; n_UpperLimitsCurve; n_VoltageLimitSet]
    []
    [(n_LowerLimitsCurve, PPrivate); (n_UpperLimitsCurve, PPrivate); (n_VoltageLimitSet, PPrivate)];
(* CIM15/IEC61970/OperationalLimits/VoltageLimit.py:23-62 *)
  Cls n_CIM15_IEC61970_OperationalLimits_VoltageLimit_VoltageLimit n_VoltageLimit (Some n_CIM15_IEC61970_OperationalLimits_OperationalLimit_OperationalLimit)
    [(n_value, VFloat n_0_0); (n_VoltageLimitSet, VNone)]
    [SAttr n_value; SOne n_VoltageLimitSet]
    true true
    [n_value]
    [(n_value, VFloat n_0_0)]
    []
    [n_VoltageLimitSet]
    []
    [(n_VoltageLimitSet, POneMany n_VoltageLimits)];
(* CIM15/IEC61970/OperationalLimits/VoltageLimitSet.py:23-61 *)
  Cls n_CIM15_IEC61970_OperationalLimits_VoltageLimitSet_VoltageLimitSet n_VoltageLimitSet (Some n_CIM15_IEC61970_OperationalLimits_OperationalLimitSet_OperationalLimitSet)
    [(n_VoltageLimits, VNone)]
    [SMany n_VoltageLimits]
    true true
    []
    []
    []
    [n_VoltageLimits]
    [n_VoltageLimits]
    [(n_VoltageLimits, PManyOne n_VoltageLimitSet)];
(* CIM15/IEC61970/OperationalLimits/VoltageTimeCurve.py:24-37 *)
  Cls n_CIM15_IEC61970_OperationalLimits_VoltageTimeCurve_VoltageTimeCurve n_VoltageTimeCurve (Some n_CIM15_IEC61970_Core_Curve_Curve)
    []
    []
    true true
    []
    []
    []
    []
    []
    [];
(* CIM15/IEC61970/Outage/ClearanceTag.py:23-132 *)
  Cls n_CIM15_IEC61970_Outage_ClearanceTag_ClearanceTag n_ClearanceTag (Some n_CIM15_IEC61970_Core_IdentifiedObject_IdentifiedObject)
    [(n_workStartTime, VStr n_); (n_phaseCheckReqFlag, VBool false); (n_deenergizeReqFlag, VBool false); (n_authorityName, VStr n_); (n_tagIssueTime, VStr n_); (n_groundReqFlag, VBool false); (n_workDescription, VStr n_); (n_workEndTime, VStr n_); (n_ConductingEquipment, VNone); (n_SafetyDocument, VNone); (n_ClearanceTagType, VNone)]
    [SAttr n_workStartTime; SAttr n_phaseCheckReqFlag; SAttr n_deenergizeReqFlag; SAttr n_authorityName; SAttr n_tagIssueTime; SAttr n_groundReqFlag; SAttr n_workDescription; SAttr n_workEndTime; SOne n_ConductingEquipment; SOne n_SafetyDocument; SOne n_ClearanceTagType]
    true true
    [n_workStartTime; n_phaseCheckReqFlag; n_deenergizeReqFlag; n_authorityName; n_tagIssueTime; n_groundReqFlag; n_workDescription; n_workEndTime]
    [(n_workStartTime, VStr n_); (n_phaseCheckReqFlag, VBool false); (n_deenergizeReqFlag, VBool false); (n_authorityName, VStr n_); (n_tagIssueTime, VStr n_); (n_groundReqFlag, VBool false); (n_workDescription, VStr n_); (n_workEndTime, VStr n_)]
    []
    [n_ConductingEquipment; n_SafetyDocument; n_ClearanceTagType]
    []
    [(n_ConductingEquipment, POneMany n_ClearanceTags); (n_SafetyDocument, POneMany n_ClearanceTags); (n_ClearanceTagType, POneMany n_ClearanceTags)];
(* CIM15/IEC61970/Outage/ClearanceTagType.py:23-64 *)
  Cls n_CIM15_IEC61970_Outage_ClearanceTagType_ClearanceTagType n_ClearanceTagType (Some n_CIM15_IEC61970_Core_IdentifiedObject_IdentifiedObject)
    [(n_ClearanceTags, VNone)]
    [SMany n_ClearanceTags]
    true true
    []
    []
    []
    [n_ClearanceTags]
    [n_ClearanceTags]
    [(n_ClearanceTags, PManyOne n_ClearanceTagType)];
(* CIM15/IEC61970/Outage/OutageSchedule.py:23-104 *)
  Cls n_CIM15_IEC61970_Outage_OutageSchedule_OutageSchedule n_OutageSchedule (Some n_CIM15_IEC61970_Core_IrregularIntervalSchedule_IrregularIntervalSchedule)
    [(n_PlannedOutage, VNone); (n_SwitchingOperations, VNone); (n_PowerSystemResource, VNone)]
    [SOne n_PlannedOutage; SMany n_SwitchingOperations; SOne n_PowerSystemResource]
    true true
    []
    []
    []
    [n_PlannedOutage; n_SwitchingOperations; n_PowerSystemResource]
    [n_SwitchingOperations]
    [(n_PlannedOutage, POneMany n_OutageSchedules); (n_SwitchingOperations, PManyOne n_OutageSchedule); (n_PowerSystemResource, POneOne n_OutageSchedule)];
(* CIM15/IEC61970/Outage/SwitchingOperation.py:23-99 *)
  Cls n_CIM15_IEC61970_Outage_SwitchingOperation_SwitchingOperation n_SwitchingOperation (Some n_CIM15_IEC61970_Core_IdentifiedObject_IdentifiedObject)
    [(n_operationTime, VStr n_); (n_newState, VStr n_open); (n_OutageSchedule, VNone); (n_Switches, VNone)]
    [SAttr n_operationTime; SAttr n_newState; SOne n_OutageSchedule; SMany n_Switches]
    true true
    [n_operationTime; n_newState]
    [(n_operationTime, VStr n_); (n_newState, VStr n_open)]
    [(n_newState, n_SwitchState)]
    [n_OutageSchedule; n_Switches]
    [n_Switches]
    [(n_OutageSchedule, POneMany n_SwitchingOperations); (n_Switches, PManyMany n_SwitchingOperations)];
(* CIM15/IEC61970/Protection/CurrentRelay.py:23-66 *)
  Cls n_CIM15_IEC61970_Protection_CurrentRelay_CurrentRelay n_CurrentRelay (Some n_CIM15_IEC61970_Protection_ProtectionEquipment_ProtectionEquipment)
    [(n_currentLimit3, VFloat n_0_0); (n_currentLimit2, VFloat n_0_0); (n_currentLimit1, VFloat n_0_0); (n_inverseTimeFlag, VBool false); (n_timeDelay3, VFloat n_0_0); (n_timeDelay2, VFloat n_0_0); (n_timeDelay1, VFloat n_0_0)]
    [SAttr n_currentLimit3; SAttr n_currentLimit2; SAttr n_currentLimit1; SAttr n_inverseTimeFlag; SAttr n_timeDelay3; SAttr n_timeDelay2; SAttr n_timeDelay1]
    true true
    [n_currentLimit3; n_currentLimit2; n_currentLimit1; n_inverseTimeFlag; n_timeDelay3; n_timeDelay2; n_timeDelay1]
    [(n_currentLimit3, VFloat n_0_0); (n_currentLimit2, VFloat n_0_0); (n_currentLimit1, VFloat n_0_0); (n_inverseTimeFlag, VBool false); (n_timeDelay3, VFloat n_0_0); (n_timeDelay2, VFloat n_0_0); (n_timeDelay1, VFloat n_0_0)]
    []
    []
    []
    [];
(* CIM15/IEC61970/Protection/ProtectionEquipment.py:23-126 *)
  Cls n_CIM15_IEC61970_Protection_ProtectionEquipment_ProtectionEquipment n_ProtectionEquipment (Some n_CIM15_IEC61970_Core_Equipment_Equipment)
    [(n_highLimit, VFloat n_0_0); (n_powerDirectionFlag, VBool false); (n_lowLimit, VFloat n_0_0); (n_unitSymbol, VStr n_N); (n_relayDelayTime, VFloat n_0_0); (n_unitMultiplier, VStr n_M); (n_ConductingEquipments, VNone); (n_ProtectedSwitches, VNone)]
    [SAttr n_highLimit; SAttr n_powerDirectionFlag; SAttr n_lowLimit; SAttr n_unitSymbol; SAttr n_relayDelayTime; SAttr n_unitMultiplier; SMany n_ConductingEquipments; SMany n_ProtectedSwitches]
    true true
    [n_highLimit; n_powerDirectionFlag; n_lowLimit; n_unitSymbol; n_relayDelayTime; n_unitMultiplier]
    [(n_highLimit, VFloat n_0_0); (n_powerDirectionFlag, VBool false); (n_lowLimit, VFloat n_0_0); (n_unitSymbol, VStr n_N); (n_relayDelayTime, VFloat n_0_0); (n_unitMultiplier, VStr n_M)]
    [(n_unitSymbol, n_UnitSymbol); (n_unitMultiplier, n_UnitMultiplier)]
    [n_ConductingEquipments; n_ProtectedSwitches]
    [n_ConductingEquipments; n_ProtectedSwitches]
    [(n_ConductingEquipments, PManyMany n_ProtectionEquipments); (n_ProtectedSwitches, PManyMany n_ProtectionEquipments)];
(* CIM15/IEC61970/Protection/RecloseSequence.py:23-67 *)
  Cls n_CIM15_IEC61970_Protection_RecloseSequence_RecloseSequence n_RecloseSequence (Some n_CIM15_IEC61970_Core_IdentifiedObject_IdentifiedObject)
    [(n_recloseStep, VInt 0); (n_recloseDelay, VFloat n_0_0); (n_ProtectedSwitch, VNone)]
    [SAttr n_recloseStep; SAttr n_recloseDelay; SOne n_ProtectedSwitch]
    true true
    [n_recloseStep; n_recloseDelay]
    [(n_recloseStep, VInt 0); (n_recloseDelay, VFloat n_0_0)]
    []
    [n_ProtectedSwitch]
    []
    [(n_ProtectedSwitch, POneMany n_RecloseSequences)];
(* CIM15/IEC61970/Protection/SynchrocheckRelay.py:23-50 *)
  Cls n_CIM15_IEC61970_Protection_SynchrocheckRelay_SynchrocheckRelay n_SynchrocheckRelay (Some n_CIM15_IEC61970_Protection_ProtectionEquipment_ProtectionEquipment)
    [(n_maxFreqDiff, VFloat n_0_0); (n_maxAngleDiff, VFloat n_0_0); (n_maxVoltDiff, VFloat n_0_0)]
    [SAttr n_maxFreqDiff; SAttr n_maxAngleDiff; SAttr n_maxVoltDiff]
    true true
    [n_maxFreqDiff; n_maxAngleDiff; n_maxVoltDiff]
    [(n_maxFreqDiff, VFloat n_0_0); (n_maxAngleDiff, VFloat n_0_0); (n_maxVoltDiff, VFloat n_0_0)]
    []
    []
    []
    [];
(* CIM15/IEC61970/SCADA/CommunicationLink.py:23-70 *)
  Cls n_CIM15_IEC61970_SCADA_CommunicationLink_CommunicationLink n_CommunicationLink (Some n_CIM15_IEC61970_Core_PowerSystemResource_PowerSystemResource)
    [(n_RemoteUnits, VNone)]
    [SMany n_RemoteUnits]
    true true
    []
    []
    []
    [n_RemoteUnits]
    [n_RemoteUnits]
    [(n_RemoteUnits, PManyMany n_CommunicationLinks)];
(* CIM15/IEC61970/SCADA/RemoteControl.py:23-70 *)
  Cls n_CIM15_IEC61970_SCADA_RemoteControl_RemoteControl n_RemoteControl (Some n_CIM15_IEC61970_SCADA_RemotePoint_RemotePoint)
    [(n_actuatorMaximum, VFloat n_0_0); (n_actuatorMinimum, VFloat n_0_0); (n_remoteControlled, VBool false); (n_Control, VNone)]
    [SAttr n_actuatorMaximum; SAttr n_actuatorMinimum; SAttr n_remoteControlled; SOne n_Control]
    true true
    [n_actuatorMaximum; n_actuatorMinimum; n_remoteControlled]
    [(n_actuatorMaximum, VFloat n_0_0); (n_actuatorMinimum, VFloat n_0_0); (n_remoteControlled, VBool false)]
    []
    [n_Control]
    []
    [(n_Control, POneOne n_RemoteControl)];
(* CIM15/IEC61970/SCADA/RemotePoint.py:23-59 *)
  Cls n_CIM15_IEC61970_SCADA_RemotePoint_RemotePoint n_RemotePoint (Some n_CIM15_IEC61970_Core_IdentifiedObject_IdentifiedObject)
    [(n_RemoteUnit, VNone)]
    [SOne n_RemoteUnit]
    true true
    []
    []
    []
    [n_RemoteUnit]
    []
    [(n_RemoteUnit, POneMany n_RemotePoints)];
(* CIM15/IEC61970/SCADA/RemoteSource.py:23-74 *)
  Cls n_CIM15_IEC61970_SCADA_RemoteSource_RemoteSource n_RemoteSource (Some n_CIM15_IEC61970_SCADA_RemotePoint_RemotePoint)
    [(n_sensorMinimum, VFloat n_0_0); (n_deadband, VFloat n_0_0); (n_sensorMaximum, VFloat n_0_0); (n_scanInterval, VFloat n_0_0); (n_MeasurementValue, VNone)]
    [SAttr n_sensorMinimum; SAttr n_deadband; SAttr n_sensorMaximum; SAttr n_scanInterval; SOne n_MeasurementValue]
    true true
    [n_sensorMinimum; n_deadband; n_sensorMaximum; n_scanInterval]
    [(n_sensorMinimum, VFloat n_0_0); (n_deadband, VFloat n_0_0); (n_sensorMaximum, VFloat n_0_0); (n_scanInterval, VFloat n_0_0)]
    []
    [n_MeasurementValue]
    []
    [(n_MeasurementValue, POneOne n_RemoteSource)];
(* CIM15/IEC61970/SCADA/RemoteUnit.py:23-100 *)
  Cls n_CIM15_IEC61970_SCADA_RemoteUnit_RemoteUnit n_RemoteUnit (Some n_CIM15_IEC61970_Core_PowerSystemResource_PowerSystemResource)
    [(n_remoteUnitType, VStr n_SubstationControlSystem); (n_RemotePoints, VNone); (n_CommunicationLinks, VNone)]
    [SAttr n_remoteUnitType; SMany n_RemotePoints; SMany n_CommunicationLinks]
    true true
    [n_remoteUnitType]
    [(n_remoteUnitType, VStr n_SubstationControlSystem)]
    [(n_remoteUnitType, n_RemoteUnitType)]
    [n_RemotePoints; n_CommunicationLinks]
    [n_RemotePoints; n_CommunicationLinks]
    [(n_RemotePoints, PManyOne n_RemoteUnit); (n_CommunicationLinks, PManyMany n_RemoteUnits)];
(* CIM15/IEC61970/StateVariables/StateVariable.py:23-38 *)
  Cls n_CIM15_IEC61970_StateVariables_StateVariable_StateVariable n_StateVariable (Some n_CIM15_Element_Element)
    []
    []
    true true
    []
    []
    []
    []
    []
    [];
(* CIM15/IEC61970/StateVariables/SvInjection.py:23-66 *)
  Cls n_CIM15_IEC61970_StateVariables_SvInjection_SvInjection n_SvInjection (Some n_CIM15_IEC61970_StateVariables_StateVariable_StateVariable)
    [(n_pNetInjection, VFloat n_0_0); (n_qNetInjection, VFloat n_0_0); (n_TopologicalNode, VNone)]
    [SAttr n_pNetInjection; SAttr n_qNetInjection; SOne n_TopologicalNode]
    true true
    [n_pNetInjection; n_qNetInjection]
    [(n_pNetInjection, VFloat n_0_0); (n_qNetInjection, VFloat n_0_0)]
    []
    [n_TopologicalNode]
    []
    [(n_TopologicalNode, POneOne n_SvInjection)];
(* CIM15/IEC61970/StateVariables/SvPowerFlow.py:23-66 *)
  Cls n_CIM15_IEC61970_StateVariables_SvPowerFlow_SvPowerFlow n_SvPowerFlow (Some n_CIM15_IEC61970_StateVariables_StateVariable_StateVariable)
    [(n_p, VFloat n_0_0); (n_q, VFloat n_0_0); (n_Terminal, VNone)]
    [SAttr n_p; SAttr n_q; SOne n_Terminal]
    true true
    [n_p; n_q]
    [(n_p, VFloat n_0_0); (n_q, VFloat n_0_0)]
    []
    [n_Terminal]
    []
    [(n_Terminal, POneOne n_SvPowerFlow)];
(* CIM15/IEC61970/StateVariables/SvShortCircuit.py:23-74 *)
  Cls n_CIM15_IEC61970_StateVariables_SvShortCircuit_SvShortCircuit n_SvShortCircuit (Some n_CIM15_IEC61970_StateVariables_StateVariable_StateVariable)
    [(n_sShortCircuit, VFloat n_0_0); (n_r0PerR, VFloat n_0_0); (n_x0PerX, VFloat n_0_0); (n_xPerR, VFloat n_0_0); (n_TopologicalNode, VNone)]
    [SAttr n_sShortCircuit; SAttr n_r0PerR; SAttr n_x0PerX; SAttr n_xPerR; SOne n_TopologicalNode]
    true true
    [n_sShortCircuit; n_r0PerR; n_x0PerX; n_xPerR]
    [(n_sShortCircuit, VFloat n_0_0); (n_r0PerR, VFloat n_0_0); (n_x0PerX, VFloat n_0_0); (n_xPerR, VFloat n_0_0)]
    []
    [n_TopologicalNode]
    []
    [(n_TopologicalNode, POneOne n_SvShortCircuit)];
(* CIM15/IEC61970/StateVariables/SvShuntCompensatorSections.py:23-62 *)
  Cls n_CIM15_IEC61970_StateVariables_SvShuntCompensatorSections_SvShuntCompensatorSections n_SvShuntCompensatorSections (Some n_CIM15_IEC61970_StateVariables_StateVariable_StateVariable)
    [(n_sections, VFloat n_0_0); (n_ShuntCompensator, VNone)]
    [SAttr n_sections; SOne n_ShuntCompensator]
    true true
    [n_sections]
    [(n_sections, VFloat n_0_0)]
    []
    [n_ShuntCompensator]
    []
    [(n_ShuntCompensator, POneOne n_SvShuntCompensatorSections)];
(* CIM15/IEC61970/StateVariables/SvStatus.py:23-62 *)
  Cls n_CIM15_IEC61970_StateVariables_SvStatus_SvStatus n_SvStatus (Some n_CIM15_IEC61970_StateVariables_StateVariable_StateVariable)
    [(n_inService, VBool false); (n_ConductingEquipment, VNone)]
    [SAttr n_inService; SOne n_ConductingEquipment]
    true true
    [n_inService]
    [(n_inService, VBool false)]
    []
    [n_ConductingEquipment]
    []
    [(n_ConductingEquipment, POneOne n_SvStatus)];
(* CIM15/IEC61970/StateVariables/SvTapStep.py:23-62 *)
  Cls n_CIM15_IEC61970_StateVariables_SvTapStep_SvTapStep n_SvTapStep (Some n_CIM15_IEC61970_StateVariables_StateVariable_StateVariable)
    [(n_position, VFloat n_0_0); (n_TapChanger, VNone)]
    [SAttr n_position; SOne n_TapChanger]
    true true
    [n_position]
    [(n_position, VFloat n_0_0)]
    []
    [n_TapChanger]
    []
    [(n_TapChanger, POneOne n_SvTapStep)];
(* CIM15/IEC61970/StateVariables/SvVoltage.py:23-66 *)
  Cls n_CIM15_IEC61970_StateVariables_SvVoltage_SvVoltage n_SvVoltage (Some n_CIM15_IEC61970_StateVariables_StateVariable_StateVariable)
    [(n_angle, VFloat n_0_0); (n_v, VFloat n_0_0); (n_TopologicalNode, VNone)]
    [SAttr n_angle; SAttr n_v; SOne n_TopologicalNode]
    true true
    [n_angle; n_v]
    [(n_angle, VFloat n_0_0); (n_v, VFloat n_0_0)]
    []
    [n_TopologicalNode]
    []
    [(n_TopologicalNode, POneOne n_SvVoltage)];
(* CIM15/IEC61970/StateVariables/TopologicalIsland.py:23-84 *)
  Cls n_CIM15_IEC61970_StateVariables_TopologicalIsland_TopologicalIsland n_TopologicalIsland (Some n_CIM15_IEC61970_Core_IdentifiedObject_IdentifiedObject)
    [(n_AngleRef_TopologicalNode, VNone); (n_TopologicalNodes, VNone)]
    [SOne n_AngleRef_TopologicalNode; SMany n_TopologicalNodes]
    true true
    []
    []
    []
    [n_AngleRef_TopologicalNode; n_TopologicalNodes]
    [n_TopologicalNodes]
    [(n_AngleRef_TopologicalNode, POneOne n_AngleRef_TopologicalIsland); (n_TopologicalNodes, PManyOne n_TopologicalIsland)];
(* CIM15/IEC61970/Topology/BusNameMarker.py:23-85 *)
  Cls n_CIM15_IEC61970_Topology_BusNameMarker_BusNameMarker n_BusNameMarker (Some n_CIM15_IEC61970_Core_IdentifiedObject_IdentifiedObject)
    [(n_Terminal, VNone); (n_ReportingGroup, VNone)]
    [SMany n_Terminal; SOne n_ReportingGroup]
    true true
    []
    []
    []
    [n_Terminal; n_ReportingGroup]
    [n_Terminal]
    [(n_Terminal, PManyOne n_BusNameMarker); (n_ReportingGroup, POneMany n_BusNameMarker)];
(* CIM15/IEC61970/Topology/TopologicalNode.py:23-254 *)
  Cls n_CIM15_IEC61970_Topology_TopologicalNode_TopologicalNode n_TopologicalNode (Some n_CIM15_IEC61970_Core_IdentifiedObject_IdentifiedObject)
    [(n_SvShortCircuit, VNone); (n_ConnectivityNodeContainer, VNone); (n_SvInjection, VNone); (n_ConnectivityNodes, VNone); (n_SvVoltage, VNone); (n_BaseVoltage, VNone); (n_TopologicalIsland, VNone); (n_ReportingGroup, VNone); (n_Terminal, VNone); (n_AngleRef_TopologicalIsland, VNone)]
    [SOne n_SvShortCircuit; SOne n_ConnectivityNodeContainer; SOne n_SvInjection; SMany n_ConnectivityNodes; SOne n_SvVoltage; SOne n_BaseVoltage; SOne n_TopologicalIsland; SOne n_ReportingGroup; SMany n_Terminal; SOne n_AngleRef_TopologicalIsland]
    true true
    []
    []
    []
    [n_SvShortCircuit; n_ConnectivityNodeContainer; n_SvInjection; n_ConnectivityNodes; n_SvVoltage; n_BaseVoltage; n_TopologicalIsland; n_ReportingGroup; n_Terminal; n_AngleRef_TopologicalIsland]
    [n_ConnectivityNodes; n_Terminal]
    [(n_SvShortCircuit, POneOne n_TopologicalNode); (n_ConnectivityNodeContainer, POneMany n_TopologicalNode); (n_SvInjection, POneOne n_TopologicalNode); (n_ConnectivityNodes, PManyOne n_TopologicalNode); (n_SvVoltage, POneOne n_TopologicalNode); (n_BaseVoltage, POneMany n_TopologicalNode); (n_TopologicalIsland, POneMany n_TopologicalNodes); (n_ReportingGroup, POneMany n_TopologicalNode); (n_Terminal, PManyOne n_TopologicalNode); (n_AngleRef_TopologicalIsland, POneOne n_AngleRef_TopologicalNode)];
(* CIM15/IEC61970/Wires/ACLineSegment.py:25-282 *)
  Cls n_CIM15_IEC61970_Wires_ACLineSegment_ACLineSegment n_ACLineSegment (Some n_CIM15_IEC61970_Wires_Conductor_Conductor)
    [(n_g0ch, VFloat n_0_0); (n_r, VFloat n_0_0); (n_x, VFloat n_0_0); (n_gch, VFloat n_0_0); (n_r0, VFloat n_0_0); (n_bch, VFloat n_0_0); (n_b0ch, VFloat n_0_0); (n_x0, VFloat n_0_0); (n_SequenceImpedance, VNone); (n_ConductorAssets, VNone); (n_ConductorInfo, VNone); (n_Cut, VNone); (n_PhaseImpedance, VNone); (n_Clamp, VNone); (n_ACLineSegmentPhases, VNone); (n_PerLengthImpedance, VNone); (n_CurrentTemperatureCurves, VNone)]
    [SAttr n_g0ch; SAttr n_r; SAttr n_x; SAttr n_gch; SAttr n_r0; SAttr n_bch; SAttr n_b0ch; SAttr n_x0; SImpedance; SMany n_ConductorAssets; SOne n_ConductorInfo; SMany n_Cut; SMany n_Clamp; SMany n_ACLineSegmentPhases; SMany n_CurrentTemperatureCurves]
    true true
    [n_g0ch; n_r; n_x; n_gch; n_r0; n_bch; n_b0ch; n_x0]
    [(n_g0ch, VFloat n_0_0); (n_r, VFloat n_0_0); (n_x, VFloat n_0_0); (n_gch, VFloat n_0_0); (n_r0, VFloat n_0_0); (n_bch, VFloat n_0_0); (n_b0ch, VFloat n_0_0); (n_x0, VFloat n_0_0)]
    []
    [n_SequenceImpedance; n_ConductorAssets; n_ConductorInfo; n_Cut; n_PhaseImpedance; n_Clamp; n_ACLineSegmentPhases; n_PerLengthImpedance; n_CurrentTemperatureCurves]
    [n_ConductorAssets; n_Cut; n_Clamp; n_ACLineSegmentPhases; n_CurrentTemperatureCurves]
    [(n_SequenceImpedance, PAlias n_PerLengthImpedance n_CIM15_IEC61970_Wires_PerLengthSequenceImpedance_PerLengthSequenceImpedance); (n_ConductorAssets, PManyOne n_ConductorSegment); (n_ConductorInfo, POneMany n_LineSegments); (n_Cut, PManyOne n_ACLineSegment); (n_PhaseImpedance, PAlias n_PerLengthImpedance n_CIM15_IEC61970_Wires_PerLengthPhaseImpedance_PerLengthPhaseImpedance); (n_Clamp, PManyOne n_ACLineSegment); (n_ACLineSegmentPhases, PManyOne n_ACLineSegment); (n_PerLengthImpedance, POneMany n_LineSegments); (n_CurrentTemperatureCurves, PManyMany n_ACLineSegments)];
(* CIM15/IEC61970/Wires/Breaker.py:23-42 *)
  Cls n_CIM15_IEC61970_Wires_Breaker_Breaker n_Breaker (Some n_CIM15_IEC61970_Wires_ProtectedSwitch_ProtectedSwitch)
    [(n_inTransitTime, VFloat n_0_0)]
    [SAttr n_inTransitTime]
    true true
    [n_inTransitTime]
    [(n_inTransitTime, VFloat n_0_0)]
    []
    []
    []
    [];
(* CIM15/IEC61970/Wires/BusbarSection.py:23-58 *)
  Cls n_CIM15_IEC61970_Wires_BusbarSection_BusbarSection n_BusbarSection (Some n_CIM15_IEC61970_Wires_Connector_Connector)
    [(n_VoltageControlZone, VNone)]
    [SOne n_VoltageControlZone]
    true true
    []
    []
    []
    [n_VoltageControlZone]
    []
    [(n_VoltageControlZone, POneOne n_BusbarSection)];
(* CIM15/IEC61970/Wires/CompositeSwitch.py:23-68 *)
  Cls n_CIM15_IEC61970_Wires_CompositeSwitch_CompositeSwitch n_CompositeSwitch (Some n_CIM15_IEC61970_Core_Equipment_Equipment)
    [(n_compositeSwitchType, VStr n_); (n_Switches, VNone)]
    [SAttr n_compositeSwitchType; SMany n_Switches]
    true true
    [n_compositeSwitchType]
    [(n_compositeSwitchType, VStr n_)]
    []
    [n_Switches]
    [n_Switches]
    [(n_Switches, PManyOne n_CompositeSwitch)];
(* CIM15/IEC61970/Wires/Conductor.py:23-42 *)
  Cls n_CIM15_IEC61970_Wires_Conductor_Conductor n_Conductor (Some n_CIM15_IEC61970_Core_ConductingEquipment_ConductingEquipment)
    [(n_length, VFloat n_0_0)]
    [SAttr n_length]
    true true
    [n_length]
    [(n_length, VFloat n_0_0)]
    []
    []
    []
    [];
(* CIM15/IEC61970/Wires/Connector.py:23-38 *)
  Cls n_CIM15_IEC61970_Wires_Connector_Connector n_Connector (Some n_CIM15_IEC61970_Core_ConductingEquipment_ConductingEquipment)
    []
    []
    true true
    []
    []
    []
    []
    []
    [];
(* CIM15/IEC61970/Wires/CurrentTemperatureCurve.py:24-67 *)
  Cls n_CIM15_IEC61970_Wires_CurrentTemperatureCurve_CurrentTemperatureCurve n_CurrentTemperatureCurve (Some n_CIM15_IEC61970_Core_Curve_Curve)
    [(n_ACLineSegments, VNone)]
    [SMany n_ACLineSegments]
    true true
    []
    []
    []
    [n_ACLineSegments]
    [n_ACLineSegments]
    [(n_ACLineSegments, PManyMany n_CurrentTemperatureCurves)];
(* CIM15/IEC61970/Wires/DCLineSegment.py:23-46 *)
  Cls n_CIM15_IEC61970_Wires_DCLineSegment_DCLineSegment n_DCLineSegment (Some n_CIM15_IEC61970_Wires_Conductor_Conductor)
    [(n_dcSegmentInductance, VFloat n_0_0); (n_dcSegmentResistance, VFloat n_0_0)]
    [SAttr n_dcSegmentInductance; SAttr n_dcSegmentResistance]
    true true
    [n_dcSegmentInductance; n_dcSegmentResistance]
    [(n_dcSegmentInductance, VFloat n_0_0); (n_dcSegmentResistance, VFloat n_0_0)]
    []
    []
    []
    [];
(* CIM15/IEC61970/Wires/Disconnector.py:23-38 *)
  Cls n_CIM15_IEC61970_Wires_Disconnector_Disconnector n_Disconnector (Some n_CIM15_IEC61970_Wires_Switch_Switch)
    []
    []
    true true
    []
    []
    []
    []
    []
    [];
(* CIM15/IEC61970/Wires/EnergyConsumer.py:23-150 *)
  Cls n_CIM15_IEC61970_Wires_EnergyConsumer_EnergyConsumer n_EnergyConsumer (Some n_CIM15_IEC61970_Core_ConductingEquipment_ConductingEquipment)
    [(n_qfixedPct, VFloat n_0_0); (n_customerCount, VInt 0); (n_pfixedPct, VFloat n_0_0); (n_pfixed, VFloat n_0_0); (n_qfixed, VFloat n_0_0); (n_ServiceDeliveryPoints, VNone); (n_LoadResponse, VNone); (n_PowerCutZone, VNone); (n_EnergyConsumerPhases, VNone)]
    [SAttr n_qfixedPct; SAttr n_customerCount; SAttr n_pfixedPct; SAttr n_pfixed; SAttr n_qfixed; SMany n_ServiceDeliveryPoints; SOne n_LoadResponse; SOne n_PowerCutZone; SMany n_EnergyConsumerPhases]
    true true
    [n_qfixedPct; n_customerCount; n_pfixedPct; n_pfixed; n_qfixed]
    [(n_qfixedPct, VFloat n_0_0); (n_customerCount, VInt 0); (n_pfixedPct, VFloat n_0_0); (n_pfixed, VFloat n_0_0); (n_qfixed, VFloat n_0_0)]
    []
    [n_ServiceDeliveryPoints; n_LoadResponse; n_PowerCutZone; n_EnergyConsumerPhases]
    [n_ServiceDeliveryPoints; n_EnergyConsumerPhases]
    [(n_ServiceDeliveryPoints, PManyOne n_EnergyConsumer); (n_LoadResponse, POneMany n_EnergyConsumer); (n_PowerCutZone, POneMany n_EnergyConsumers); (n_EnergyConsumerPhases, PManyOne n_EnergyConsumer)];
(* CIM15/IEC61970/Wires/EnergySource.py:23-78 *)
  Cls n_CIM15_IEC61970_Wires_EnergySource_EnergySource n_EnergySource (Some n_CIM15_IEC61970_Core_ConductingEquipment_ConductingEquipment)
    [(n_r0, VFloat n_0_0); (n_voltageMagnitude, VFloat n_0_0); (n_xn, VFloat n_0_0); (n_nominalVoltage, VFloat n_0_0); (n_x, VFloat n_0_0); (n_r, VFloat n_0_0); (n_voltageAngle, VFloat n_0_0); (n_rn, VFloat n_0_0); (n_x0, VFloat n_0_0); (n_activePower, VFloat n_0_0)]
    [SAttr n_r0; SAttr n_voltageMagnitude; SAttr n_xn; SAttr n_nominalVoltage; SAttr n_x; SAttr n_r; SAttr n_voltageAngle; SAttr n_rn; SAttr n_x0; SAttr n_activePower]
    true true
    [n_r0; n_voltageMagnitude; n_xn; n_nominalVoltage; n_x; n_r; n_voltageAngle; n_rn; n_x0; n_activePower]
    [(n_r0, VFloat n_0_0); (n_voltageMagnitude, VFloat n_0_0); (n_xn, VFloat n_0_0); (n_nominalVoltage, VFloat n_0_0); (n_x, VFloat n_0_0); (n_r, VFloat n_0_0); (n_voltageAngle, VFloat n_0_0); (n_rn, VFloat n_0_0); (n_x0, VFloat n_0_0); (n_activePower, VFloat n_0_0)]
    []
    []
    []
    [];
(* CIM15/IEC61970/Wires/FrequencyConverter.py:23-62 *)
  Cls n_CIM15_IEC61970_Wires_FrequencyConverter_FrequencyConverter n_FrequencyConverter (Some n_CIM15_IEC61970_Wires_RegulatingCondEq_RegulatingCondEq)
    [(n_maxU, VFloat n_0_0); (n_maxP, VFloat n_0_0); (n_frequency, VFloat n_0_0); (n_minP, VFloat n_0_0); (n_minU, VFloat n_0_0); (n_operatingMode, VStr n_)]
    [SAttr n_maxU; SAttr n_maxP; SAttr n_frequency; SAttr n_minP; SAttr n_minU; SAttr n_operatingMode]
    true true
    [n_maxU; n_maxP; n_frequency; n_minP; n_minU; n_operatingMode]
    [(n_maxU, VFloat n_0_0); (n_maxP, VFloat n_0_0); (n_frequency, VFloat n_0_0); (n_minP, VFloat n_0_0); (n_minU, VFloat n_0_0); (n_operatingMode, VStr n_)]
    []
    []
    []
    [];
(* CIM15/IEC61970/Wires/Fuse.py:23-38 *)
  Cls n_CIM15_IEC61970_Wires_Fuse_Fuse n_Fuse (Some n_CIM15_IEC61970_Wires_Switch_Switch)
    []
    []
    true true
    []
    []
    []
    []
    []
    [];
(* CIM15/IEC61970/Wires/Ground.py:23-63 *)
  Cls n_CIM15_IEC61970_Wires_Ground_Ground n_Ground (Some n_CIM15_IEC61970_Core_ConductingEquipment_ConductingEquipment)
    [(n_WindingInsulations, VNone)]
    [SMany n_WindingInsulations]
    true true
    []
    []
    []
    [n_WindingInsulations]
    [n_WindingInsulations]
    [(n_WindingInsulations, PManyOne n_Ground)];
(* CIM15/IEC61970/Wires/GroundDisconnector.py:23-38 *)
  Cls n_CIM15_IEC61970_Wires_GroundDisconnector_GroundDisconnector n_GroundDisconnector (Some n_CIM15_IEC61970_Wires_Switch_Switch)
    []
    []
    true true
    []
    []
    []
    []
    []
    [];
(* CIM15/IEC61970/Wires/Jumper.py:23-38 *)
  Cls n_CIM15_IEC61970_Wires_Jumper_Jumper n_Jumper (Some n_CIM15_IEC61970_Wires_Switch_Switch)
    []
    []
    true true
    []
    []
    []
    []
    []
    [];
(* CIM15/IEC61970/Wires/Junction.py:23-38 *)
  Cls n_CIM15_IEC61970_Wires_Junction_Junction n_Junction (Some n_CIM15_IEC61970_Wires_Connector_Connector)
    []
    []
    true true
    []
    []
    []
    []
    []
    [];
(* CIM15/IEC61970/Wires/Line.py:23-59 *)
  Cls n_CIM15_IEC61970_Wires_Line_Line n_Line (Some n_CIM15_IEC61970_Core_EquipmentContainer_EquipmentContainer)
    [(n_Region, VNone)]
    [SOne n_Region]
    true true
    []
    []
    []
    [n_Region]
    []
    [(n_Region, POneMany n_Lines)];
(* CIM15/IEC61970/Wires/LoadBreakSwitch.py:23-38 *)
  Cls n_CIM15_IEC61970_Wires_LoadBreakSwitch_LoadBreakSwitch n_LoadBreakSwitch (Some n_CIM15_IEC61970_Wires_ProtectedSwitch_ProtectedSwitch)
    []
    []
    true true
    []
    []
    []
    []
    []
    [];
(* CIM15/IEC61970/Wires/MutualCoupling.py:23-112 *)
  Cls n_CIM15_IEC61970_Wires_MutualCoupling_MutualCoupling n_MutualCoupling (Some n_CIM15_IEC61970_Core_IdentifiedObject_IdentifiedObject)
    [(n_distance12, VFloat n_0_0); (n_distance11, VFloat n_0_0); (n_r0, VFloat n_0_0); (n_distance22, VFloat n_0_0); (n_distance21, VFloat n_0_0); (n_b0ch, VFloat n_0_0); (n_x0, VFloat n_0_0); (n_g0ch, VFloat n_0_0); (n_First_Terminal, VNone); (n_Second_Terminal, VNone)]
    [SAttr n_distance12; SAttr n_distance11; SAttr n_r0; SAttr n_distance22; SAttr n_distance21; SAttr n_b0ch; SAttr n_x0; SAttr n_g0ch; SOne n_First_Terminal; SOne n_Second_Terminal]
    true true
    [n_distance12; n_distance11; n_r0; n_distance22; n_distance21; n_b0ch; n_x0; n_g0ch]
    [(n_distance12, VFloat n_0_0); (n_distance11, VFloat n_0_0); (n_r0, VFloat n_0_0); (n_distance22, VFloat n_0_0); (n_distance21, VFloat n_0_0); (n_b0ch, VFloat n_0_0); (n_x0, VFloat n_0_0); (n_g0ch, VFloat n_0_0)]
    []
    [n_First_Terminal; n_Second_Terminal]
    []
    [(n_First_Terminal, POneMany n_HasFirst_MutualCoupling); (n_Second_Terminal, POneMany n_HasSecond_MutualCoupling)];
(* CIM15/IEC61970/Wires/PerLengthPhaseImpedance.py:23-94 *)
  Cls n_CIM15_IEC61970_Wires_PerLengthPhaseImpedance_PerLengthPhaseImpedance n_PerLengthPhaseImpedance (Some n_CIM15_IEC61970_Core_IdentifiedObject_IdentifiedObject)
    [(n_conductorCount, VInt 0); (n_LineSegments, VNone); (n_PhaseImpedanceData, VNone)]
    [SAttr n_conductorCount; SMany n_LineSegments; SMany n_PhaseImpedanceData]
    true true
    [n_conductorCount]
    [(n_conductorCount, VInt 0)]
    []
    [n_LineSegments; n_PhaseImpedanceData]
    [n_LineSegments; n_PhaseImpedanceData]
    [(n_LineSegments, PManyOne n_PhaseImpedance); (n_PhaseImpedanceData, PManyOne n_PhaseImpedance)];
(* CIM15/IEC61970/Wires/PerLengthSequenceImpedance.py:23-96 *)
  Cls n_CIM15_IEC61970_Wires_PerLengthSequenceImpedance_PerLengthSequenceImpedance n_PerLengthSequenceImpedance (Some n_CIM15_IEC61970_Core_IdentifiedObject_IdentifiedObject)
    [(n_x, VFloat n_0_0); (n_r, VFloat n_0_0); (n_bch, VFloat n_0_0); (n_r0, VFloat n_0_0); (n_g0ch, VFloat n_0_0); (n_b0ch, VFloat n_0_0); (n_gch, VFloat n_0_0); (n_x0, VFloat n_0_0); (n_LineSegments, VNone)]
    [SAttr n_x; SAttr n_r; SAttr n_bch; SAttr n_r0; SAttr n_g0ch; SAttr n_b0ch; SAttr n_gch; SAttr n_x0; SMany n_LineSegments]
    true true
    [n_x; n_r; n_bch; n_r0; n_g0ch; n_b0ch; n_gch; n_x0]
    [(n_x, VFloat n_0_0); (n_r, VFloat n_0_0); (n_bch, VFloat n_0_0); (n_r0, VFloat n_0_0); (n_g0ch, VFloat n_0_0); (n_b0ch, VFloat n_0_0); (n_gch, VFloat n_0_0); (n_x0, VFloat n_0_0)]
    []
    [n_LineSegments]
    [n_LineSegments]
    [(n_LineSegments, PManyOne n_SequenceImpedance)];
(* CIM15/IEC61970/Wires/PhaseImpedanceData.py:23-75 *)
  Cls n_CIM15_IEC61970_Wires_PhaseImpedanceData_PhaseImpedanceData n_PhaseImpedanceData (Some n_CIM15_Element_Element)
    [(n_r, VFloat n_0_0); (n_x, VFloat n_0_0); (n_b, VFloat n_0_0); (n_sequenceNumber, VInt 0); (n_PhaseImpedance, VNone)]
    [SAttr n_r; SAttr n_x; SAttr n_b; SAttr n_sequenceNumber; SOne n_PhaseImpedance]
    true true
    [n_r; n_x; n_b; n_sequenceNumber]
    [(n_r, VFloat n_0_0); (n_x, VFloat n_0_0); (n_b, VFloat n_0_0); (n_sequenceNumber, VInt 0)]
    []
    [n_PhaseImpedance]
    []
    [(n_PhaseImpedance, POneMany n_PhaseImpedanceData)];
(* CIM15/IEC61970/Wires/PhaseTapChanger.py:23-78 *)
  Cls n_CIM15_IEC61970_Wires_PhaseTapChanger_PhaseTapChanger n_PhaseTapChanger (Some n_CIM15_IEC61970_Wires_TapChanger_TapChanger)
    [(n_PhaseTapChangerTabular, VNone); (n_TransformerEnd, VNone)]
    [SOne n_PhaseTapChangerTabular; SOne n_TransformerEnd]
    true true
    []
    []
    []
    [n_PhaseTapChangerTabular; n_TransformerEnd]
    []
    [(n_PhaseTapChangerTabular, POneMany n_PhaseTapChanger); (n_TransformerEnd, POneOne n_PhaseTapChanger)];
(* CIM15/IEC61970/Wires/PhaseTapChangerAsymetrical.py:23-42 *)
  Cls n_CIM15_IEC61970_Wires_PhaseTapChangerAsymetrical_PhaseTapChangerAsymetrical n_PhaseTapChangerAsymetrical (Some n_CIM15_IEC61970_Wires_PhaseTapChangerNonLinear_PhaseTapChangerNonLinear)
    [(n_windingConnectionAngle, VFloat n_0_0)]
    [SAttr n_windingConnectionAngle]
    true true
    [n_windingConnectionAngle]
    [(n_windingConnectionAngle, VFloat n_0_0)]
    []
    []
    []
    [];
(* CIM15/IEC61970/Wires/PhaseTapChangerLinear.py:23-42 *)
  Cls n_CIM15_IEC61970_Wires_PhaseTapChangerLinear_PhaseTapChangerLinear n_PhaseTapChangerLinear (Some n_CIM15_IEC61970_Wires_PhaseTapChanger_PhaseTapChanger)
    [(n_stepPhaseShiftIncrement, VFloat n_0_0)]
    [SAttr n_stepPhaseShiftIncrement]
    true true
    [n_stepPhaseShiftIncrement]
    [(n_stepPhaseShiftIncrement, VFloat n_0_0)]
    []
    []
    []
    [];
(* CIM15/IEC61970/Wires/PhaseTapChangerNonLinear.py:23-50 *)
  Cls n_CIM15_IEC61970_Wires_PhaseTapChangerNonLinear_PhaseTapChangerNonLinear n_PhaseTapChangerNonLinear (Some n_CIM15_IEC61970_Wires_PhaseTapChanger_PhaseTapChanger)
    [(n_xMedian, VFloat n_0_0); (n_voltageStepIncrement, VFloat n_0_0); (n_xMax, VFloat n_0_0)]
    [SAttr n_xMedian; SAttr n_voltageStepIncrement; SAttr n_xMax]
    true true
    [n_xMedian; n_voltageStepIncrement; n_xMax]
    [(n_xMedian, VFloat n_0_0); (n_voltageStepIncrement, VFloat n_0_0); (n_xMax, VFloat n_0_0)]
    []
    []
    []
    [];
(* CIM15/IEC61970/Wires/PhaseTapChangerSymetrical.py:23-38 *)
  Cls n_CIM15_IEC61970_Wires_PhaseTapChangerSymetrical_PhaseTapChangerSymetrical n_PhaseTapChangerSymetrical (Some n_CIM15_IEC61970_Wires_PhaseTapChangerNonLinear_PhaseTapChangerNonLinear)
    []
    []
    true true
    []
    []
    []
    []
    []
    [];
(* CIM15/IEC61970/Wires/PhaseTapChangerTabular.py:23-88 *)
  Cls n_CIM15_IEC61970_Wires_PhaseTapChangerTabular_PhaseTapChangerTabular n_PhaseTapChangerTabular (Some n_CIM15_Element_Element)
    [(n_PhaseTapChangerTabularPoint, VNone); (n_PhaseTapChanger, VNone)]
    [SMany n_PhaseTapChangerTabularPoint; SMany n_PhaseTapChanger]
    true true
    []
    []
    []
    [n_PhaseTapChangerTabularPoint; n_PhaseTapChanger]
    [n_PhaseTapChangerTabularPoint; n_PhaseTapChanger]
    [(n_PhaseTapChangerTabularPoint, PManyOne n_PhaseTapChangerTabular); (n_PhaseTapChanger, PManyOne n_PhaseTapChangerTabular)];
(* CIM15/IEC61970/Wires/PhaseTapChangerTabularPoint.py:23-70 *)
  Cls n_CIM15_IEC61970_Wires_PhaseTapChangerTabularPoint_PhaseTapChangerTabularPoint n_PhaseTapChangerTabularPoint (Some n_CIM15_Element_Element)
    [(n_x, VFloat n_0_0); (n_step, VInt 0); (n_angle, VFloat n_0_0); (n_PhaseTapChangerTabular, VNone)]
    [SAttr n_x; SAttr n_step; SAttr n_angle; SOne n_PhaseTapChangerTabular]
    true true
    [n_x; n_step; n_angle]
    [(n_x, VFloat n_0_0); (n_step, VInt 0); (n_angle, VFloat n_0_0)]
    []
    [n_PhaseTapChangerTabular]
    []
    [(n_PhaseTapChangerTabular, POneMany n_PhaseTapChangerTabularPoint)];
(* CIM15/IEC61970/Wires/Plant.py:23-38 *)
  Cls n_CIM15_IEC61970_Wires_Plant_Plant n_Plant (Some n_CIM15_IEC61970_Core_EquipmentContainer_EquipmentContainer)
    []
    []
    true true
    []
    []
    []
    []
    []
    [];
(* CIM15/IEC61970/Wires/PowerTransformer.py:23-114 *)
  Cls n_CIM15_IEC61970_Wires_PowerTransformer_PowerTransformer n_PowerTransformer (Some n_CIM15_IEC61970_Core_ConductingEquipment_ConductingEquipment)
    [(n_vectorGroup, VStr n_); (n_TransformerTanks, VNone); (n_PowerTransformerInfo, VNone); (n_PowerTransformerEnd, VNone)]
    [SAttr n_vectorGroup; SMany n_TransformerTanks; SOne n_PowerTransformerInfo; SMany n_PowerTransformerEnd]
    true true
    [n_vectorGroup]
    [(n_vectorGroup, VStr n_)]
    []
    [n_TransformerTanks; n_PowerTransformerInfo; n_PowerTransformerEnd]
    [n_TransformerTanks; n_PowerTransformerEnd]
    [(n_TransformerTanks, PManyOne n_PowerTransformer); (n_PowerTransformerInfo, POneMany n_PowerTransformers); (n_PowerTransformerEnd, PManyOne n_PowerTransformer)];
(* CIM15/IEC61970/Wires/PowerTransformerEnd.py:23-102 *)
  Cls n_CIM15_IEC61970_Wires_PowerTransformerEnd_PowerTransformerEnd n_PowerTransformerEnd (Some n_CIM15_IEC61970_Wires_TransformerEnd_TransformerEnd)
    [(n_x0, VFloat n_0_0); (n_b0, VFloat n_0_0); (n_g0, VFloat n_0_0); (n_ratedS, VFloat n_0_0); (n_b, VFloat n_0_0); (n_ratedU, VFloat n_0_0); (n_g, VFloat n_0_0); (n_r, VFloat n_0_0); (n_x, VFloat n_0_0); (n_r0, VFloat n_0_0); (n_connectionKind, VStr n_Z); (n_PowerTransformer, VNone)]
    [SAttr n_x0; SAttr n_b0; SAttr n_g0; SAttr n_ratedS; SAttr n_b; SAttr n_ratedU; SAttr n_g; SAttr n_r; SAttr n_x; SAttr n_r0; SAttr n_connectionKind; SOne n_PowerTransformer]
    true true
    [n_x0; n_b0; n_g0; n_ratedS; n_b; n_ratedU; n_g; n_r; n_x; n_r0; n_connectionKind]
    [(n_x0, VFloat n_0_0); (n_b0, VFloat n_0_0); (n_g0, VFloat n_0_0); (n_ratedS, VFloat n_0_0); (n_b, VFloat n_0_0); (n_ratedU, VFloat n_0_0); (n_g, VFloat n_0_0); (n_r, VFloat n_0_0); (n_x, VFloat n_0_0); (n_r0, VFloat n_0_0); (n_connectionKind, VStr n_Z)]
    [(n_connectionKind, n_WindingConnection)]
    [n_PowerTransformer]
    []
    [(n_PowerTransformer, POneMany n_PowerTransformerEnd)];
(* CIM15/IEC61970/Wires/ProtectedSwitch.py:23-100 *)
  Cls n_CIM15_IEC61970_Wires_ProtectedSwitch_ProtectedSwitch n_ProtectedSwitch (Some n_CIM15_IEC61970_Wires_Switch_Switch)
    [(n_breakingCapacity, VFloat n_0_0); (n_ProtectionEquipments, VNone); (n_RecloseSequences, VNone)]
    [SAttr n_breakingCapacity; SMany n_ProtectionEquipments; SMany n_RecloseSequences]
    true true
    [n_breakingCapacity]
    [(n_breakingCapacity, VFloat n_0_0)]
    []
    [n_ProtectionEquipments; n_RecloseSequences]
    [n_ProtectionEquipments; n_RecloseSequences]
    [(n_ProtectionEquipments, PManyMany n_ProtectedSwitches); (n_RecloseSequences, PManyOne n_ProtectedSwitch)];
(* CIM15/IEC61970/Wires/RatioTapChanger.py:23-86 *)
  Cls n_CIM15_IEC61970_Wires_RatioTapChanger_RatioTapChanger n_RatioTapChanger (Some n_CIM15_IEC61970_Wires_TapChanger_TapChanger)
    [(n_stepVoltageIncrement, VFloat n_0_0); (n_tculControlMode, VStr n_reactive); (n_RatioTapChangerTabular, VNone); (n_TransformerEnd, VNone)]
    [SAttr n_stepVoltageIncrement; SAttr n_tculControlMode; SOne n_RatioTapChangerTabular; SOne n_TransformerEnd]
    true true
    [n_stepVoltageIncrement; n_tculControlMode]
    [(n_stepVoltageIncrement, VFloat n_0_0); (n_tculControlMode, VStr n_reactive)]
    [(n_tculControlMode, n_TransformerControlMode)]
    [n_RatioTapChangerTabular; n_TransformerEnd]
    []
    [(n_RatioTapChangerTabular, POneMany n_RatioTapChanger); (n_TransformerEnd, POneOne n_RatioTapChanger)];
(* CIM15/IEC61970/Wires/RatioTapChangerTabular.py:23-88 *)
  Cls n_CIM15_IEC61970_Wires_RatioTapChangerTabular_RatioTapChangerTabular n_RatioTapChangerTabular (Some n_CIM15_Element_Element)
    [(n_RatioTapChangerTabularPoint, VNone); (n_RatioTapChanger, VNone)]
    [SMany n_RatioTapChangerTabularPoint; SMany n_RatioTapChanger]
    true true
    []
    []
    []
    [n_RatioTapChangerTabularPoint; n_RatioTapChanger]
    [n_RatioTapChangerTabularPoint; n_RatioTapChanger]
    [(n_RatioTapChangerTabularPoint, PManyOne n_RatioTapChangerTabular); (n_RatioTapChanger, PManyOne n_RatioTapChangerTabular)];
(* CIM15/IEC61970/Wires/RatioTapChangerTabularPoint.py:23-70 *)
  Cls n_CIM15_IEC61970_Wires_RatioTapChangerTabularPoint_RatioTapChangerTabularPoint n_RatioTapChangerTabularPoint (Some n_CIM15_Element_Element)
    [(n_x, VFloat n_0_0); (n_ratio, VFloat n_0_0); (n_step, VInt 0); (n_RatioTapChangerTabular, VNone)]
    [SAttr n_x; SAttr n_ratio; SAttr n_step; SOne n_RatioTapChangerTabular]
    true true
    [n_x; n_ratio; n_step]
    [(n_x, VFloat n_0_0); (n_ratio, VFloat n_0_0); (n_step, VInt 0)]
    []
    [n_RatioTapChangerTabular]
    []
    [(n_RatioTapChangerTabular, POneMany n_RatioTapChangerTabularPoint)];
(* CIM15/IEC61970/Wires/ReactiveCapabilityCurve.py:23-104 *)
  Cls n_CIM15_IEC61970_Wires_ReactiveCapabilityCurve_ReactiveCapabilityCurve n_ReactiveCapabilityCurve (Some n_CIM15_IEC61970_Core_Curve_Curve)
    [(n_hydrogenPressure, VFloat n_0_0); (n_coolantTemperature, VFloat n_0_0); (n_InitiallyUsedBySynchronousMachines, VNone); (n_SynchronousMachines, VNone)]
    [SAttr n_hydrogenPressure; SAttr n_coolantTemperature; SMany n_InitiallyUsedBySynchronousMachines; SMany n_SynchronousMachines]
    true true
    [n_hydrogenPressure; n_coolantTemperature]
    [(n_hydrogenPressure, VFloat n_0_0); (n_coolantTemperature, VFloat n_0_0)]
    []
    [n_InitiallyUsedBySynchronousMachines; n_SynchronousMachines]
    [n_InitiallyUsedBySynchronousMachines; n_SynchronousMachines]
    [(n_InitiallyUsedBySynchronousMachines, PManyOne n_InitialReactiveCapabilityCurve); (n_SynchronousMachines, PManyMany n_ReactiveCapabilityCurves)];
(* CIM15/IEC61970/Wires/Recloser.py:23-38 *)
  Cls n_CIM15_IEC61970_Wires_Recloser_Recloser n_Recloser (Some n_CIM15_IEC61970_Wires_ProtectedSwitch_ProtectedSwitch)
    []
    []
    true true
    []
    []
    []
    []
    []
    [];
(* CIM15/IEC61970/Wires/RectifierInverter.py:23-86 *)
  Cls n_CIM15_IEC61970_Wires_RectifierInverter_RectifierInverter n_RectifierInverter (Some n_CIM15_IEC61970_Core_ConductingEquipment_ConductingEquipment)
    [(n_ratedU, VFloat n_0_0); (n_maxU, VFloat n_0_0); (n_bridges, VInt 0); (n_compoundResistance, VFloat n_0_0); (n_commutatingResistance, VFloat n_0_0); (n_minP, VFloat n_0_0); (n_operatingMode, VStr n_); (n_minU, VFloat n_0_0); (n_commutatingReactance, VFloat n_0_0); (n_maxP, VFloat n_0_0); (n_frequency, VFloat n_0_0); (n_minCompoundVoltage, VFloat n_0_0)]
    [SAttr n_ratedU; SAttr n_maxU; SAttr n_bridges; SAttr n_compoundResistance; SAttr n_commutatingResistance; SAttr n_minP; SAttr n_operatingMode; SAttr n_minU; SAttr n_commutatingReactance; SAttr n_maxP; SAttr n_frequency; SAttr n_minCompoundVoltage]
    true true
    [n_ratedU; n_maxU; n_bridges; n_compoundResistance; n_commutatingResistance; n_minP; n_operatingMode; n_minU; n_commutatingReactance; n_maxP; n_frequency; n_minCompoundVoltage]
    [(n_ratedU, VFloat n_0_0); (n_maxU, VFloat n_0_0); (n_bridges, VInt 0); (n_compoundResistance, VFloat n_0_0); (n_commutatingResistance, VFloat n_0_0); (n_minP, VFloat n_0_0); (n_operatingMode, VStr n_); (n_minU, VFloat n_0_0); (n_commutatingReactance, VFloat n_0_0); (n_maxP, VFloat n_0_0); (n_frequency, VFloat n_0_0); (n_minCompoundVoltage, VFloat n_0_0)]
    []
    []
    []
    [];
(* CIM15/IEC61970/Wires/RegulatingCondEq.py:23-85 *)
  Cls n_CIM15_IEC61970_Wires_RegulatingCondEq_RegulatingCondEq n_RegulatingCondEq (Some n_CIM15_IEC61970_Core_ConductingEquipment_ConductingEquipment)
    [(n_Controls, VNone); (n_RegulatingControl, VNone)]
    [SMany n_Controls; SOne n_RegulatingControl]
    true true
    []
    []
    []
    [n_Controls; n_RegulatingControl]
    [n_Controls]
    [(n_Controls, PManyOne n_RegulatingCondEq); (n_RegulatingControl, POneMany n_RegulatingCondEq)];
(* CIM15/IEC61970/Wires/RegulatingControl.py:23-131 *)
  Cls n_CIM15_IEC61970_Wires_RegulatingControl_RegulatingControl n_RegulatingControl (Some n_CIM15_IEC61970_Core_PowerSystemResource_PowerSystemResource)
    [(n_mode, VStr n_fixed); (n_targetRange, VFloat n_0_0); (n_discrete, VBool false); (n_targetValue, VFloat n_0_0); (n_monitoredPhase, VStr n_s12N); (n_RegulatingCondEq, VNone); (n_Terminal, VNone); (n_RegulationSchedule, VNone)]
    [SAttr n_mode; SAttr n_targetRange; SAttr n_discrete; SAttr n_targetValue; SAttr n_monitoredPhase; SMany n_RegulatingCondEq; SOne n_Terminal; SMany n_RegulationSchedule]
    true true
    [n_mode; n_targetRange; n_discrete; n_targetValue; n_monitoredPhase]
    [(n_mode, VStr n_fixed); (n_targetRange, VFloat n_0_0); (n_discrete, VBool false); (n_targetValue, VFloat n_0_0); (n_monitoredPhase, VStr n_s12N)]
    [(n_mode, n_RegulatingControlModeKind); (n_monitoredPhase, n_PhaseCode)]
    [n_RegulatingCondEq; n_Terminal; n_RegulationSchedule]
    [n_RegulatingCondEq; n_RegulationSchedule]
    [(n_RegulatingCondEq, PManyOne n_RegulatingControl); (n_Terminal, POneMany n_RegulatingControl); (n_RegulationSchedule, PManyOne n_RegulatingControl)];
(* CIM15/IEC61970/Wires/RegulationSchedule.py:23-85 *)
  Cls n_CIM15_IEC61970_Wires_RegulationSchedule_RegulationSchedule n_RegulationSchedule (Some n_CIM15_IEC61970_LoadModel_SeasonDayTypeSchedule_SeasonDayTypeSchedule)
    [(n_RegulatingControl, VNone); (n_VoltageControlZones, VNone)]
    [SOne n_RegulatingControl; SMany n_VoltageControlZones]
    true true
    []
    []
    []
    [n_RegulatingControl; n_VoltageControlZones]
    [n_VoltageControlZones]
    [(n_RegulatingControl, POneMany n_RegulationSchedule); (n_VoltageControlZones, PManyOne n_RegulationSchedule)];
(* CIM15/IEC61970/Wires/Resistor.py:23-38 *)
  Cls n_CIM15_IEC61970_Wires_Resistor_Resistor n_Resistor (Some n_CIM15_IEC61970_Core_ConductingEquipment_ConductingEquipment)
    []
    []
    true true
    []
    []
    []
    []
    []
    [];
(* CIM15/IEC61970/Wires/Sectionaliser.py:23-38 *)
  Cls n_CIM15_IEC61970_Wires_Sectionaliser_Sectionaliser n_Sectionaliser (Some n_CIM15_IEC61970_Wires_Switch_Switch)
    []
    []
    true true
    []
    []
    []
    []
    []
    [];
(* CIM15/IEC61970/Wires/SeriesCompensator.py:23-46 *)
  Cls n_CIM15_IEC61970_Wires_SeriesCompensator_SeriesCompensator n_SeriesCompensator (Some n_CIM15_IEC61970_Core_ConductingEquipment_ConductingEquipment)
    [(n_x, VFloat n_0_0); (n_r, VFloat n_0_0)]
    [SAttr n_x; SAttr n_r]
    true true
    [n_x; n_r]
    [(n_x, VFloat n_0_0); (n_r, VFloat n_0_0)]
    []
    []
    []
    [];
(* CIM15/IEC61970/Wires/ShuntCompensator.py:23-143 *)
  Cls n_CIM15_IEC61970_Wires_ShuntCompensator_ShuntCompensator n_ShuntCompensator (Some n_CIM15_IEC61970_Wires_RegulatingCondEq_RegulatingCondEq)
    [(n_nomQ, VFloat n_0_0); (n_maxU, VFloat n_0_0); (n_gPerSection, VFloat n_0_0); (n_voltageSensitivity, VFloat n_0_0); (n_nomU, VFloat n_0_0); (n_b0PerSection, VFloat n_0_0); (n_maximumSections, VInt 0); (n_bPerSection, VFloat n_0_0); (n_aVRDelay, VFloat n_0_0); (n_minU, VFloat n_0_0); (n_normalSections, VInt 0); (n_reactivePerSection, VFloat n_0_0); (n_switchOnCount, VInt 0); (n_switchOnDate, VStr n_); (n_g0PerSection, VFloat n_0_0); (n_SvShuntCompensatorSections, VNone); (n_ShuntCompensatorPhases, VNone)]
    [SAttr n_nomQ; SAttr n_maxU; SAttr n_gPerSection; SAttr n_voltageSensitivity; SAttr n_nomU; SAttr n_b0PerSection; SAttr n_maximumSections; SAttr n_bPerSection; SAttr n_aVRDelay; SAttr n_minU; SAttr n_normalSections; SAttr n_reactivePerSection; SAttr n_switchOnCount; SAttr n_switchOnDate; SAttr n_g0PerSection; SOne n_SvShuntCompensatorSections; SMany n_ShuntCompensatorPhases]
    true true
    [n_nomQ; n_maxU; n_gPerSection; n_voltageSensitivity; n_nomU; n_b0PerSection; n_maximumSections; n_bPerSection; n_aVRDelay; n_minU; n_normalSections; n_reactivePerSection; n_switchOnCount; n_switchOnDate; n_g0PerSection]
    [(n_nomQ, VFloat n_0_0); (n_maxU, VFloat n_0_0); (n_gPerSection, VFloat n_0_0); (n_voltageSensitivity, VFloat n_0_0); (n_nomU, VFloat n_0_0); (n_b0PerSection, VFloat n_0_0); (n_maximumSections, VInt 0); (n_bPerSection, VFloat n_0_0); (n_aVRDelay, VFloat n_0_0); (n_minU, VFloat n_0_0); (n_normalSections, VInt 0); (n_reactivePerSection, VFloat n_0_0); (n_switchOnCount, VInt 0); (n_switchOnDate, VStr n_); (n_g0PerSection, VFloat n_0_0)]
    []
    [n_SvShuntCompensatorSections; n_ShuntCompensatorPhases]
    [n_ShuntCompensatorPhases]
    [(n_SvShuntCompensatorSections, POneOne n_ShuntCompensator); (n_ShuntCompensatorPhases, PManyOne n_ShuntCompensator)];
(* CIM15/IEC61970/Wires/StaticVarCompensator.py:23-58 *)
  Cls n_CIM15_IEC61970_Wires_StaticVarCompensator_StaticVarCompensator n_StaticVarCompensator (Some n_CIM15_IEC61970_Wires_RegulatingCondEq_RegulatingCondEq)
    [(n_slope, VFloat n_0_0); (n_sVCControlMode, VStr n_off); (n_capacitiveRating, VFloat n_0_0); (n_voltageSetPoint, VFloat n_0_0); (n_inductiveRating, VFloat n_0_0)]
    [SAttr n_slope; SAttr n_sVCControlMode; SAttr n_capacitiveRating; SAttr n_voltageSetPoint; SAttr n_inductiveRating]
    true true
    [n_slope; n_sVCControlMode; n_capacitiveRating; n_voltageSetPoint; n_inductiveRating]
    [(n_slope, VFloat n_0_0); (n_sVCControlMode, VStr n_off); (n_capacitiveRating, VFloat n_0_0); (n_voltageSetPoint, VFloat n_0_0); (n_inductiveRating, VFloat n_0_0)]
    [(n_sVCControlMode, n_SVCControlMode)]
    []
    []
    [];
(* CIM15/IEC61970/Wires/Switch.py:23-224 *)
  Cls n_CIM15_IEC61970_Wires_Switch_Switch n_Switch (Some n_CIM15_IEC61970_Core_ConductingEquipment_ConductingEquipment)
    [(n_switchOnDate, VStr n_); (n_normalOpen, VBool false); (n_ratedCurrent, VFloat n_0_0); (n_retained, VBool false); (n_switchOnCount, VInt 0); (n_SwitchingOperations, VNone); (n_LoadMgmtFunctions, VNone); (n_ConnectDisconnectFunctions, VNone); (n_SwitchSchedules, VNone); (n_SwitchPhases, VNone); (n_CompositeSwitch, VNone)]
    [SAttr n_switchOnDate; SAttr n_normalOpen; SAttr n_ratedCurrent; SAttr n_retained; SAttr n_switchOnCount; SMany n_SwitchingOperations; SMany n_LoadMgmtFunctions; SMany n_ConnectDisconnectFunctions; SMany n_SwitchSchedules; SMany n_SwitchPhases; SOne n_CompositeSwitch]
    true true
    [n_switchOnDate; n_normalOpen; n_ratedCurrent; n_retained; n_switchOnCount]
    [(n_switchOnDate, VStr n_); (n_normalOpen, VBool false); (n_ratedCurrent, VFloat n_0_0); (n_retained, VBool false); (n_switchOnCount, VInt 0)]
    []
    [n_SwitchingOperations; n_LoadMgmtFunctions; n_ConnectDisconnectFunctions; n_SwitchSchedules; n_SwitchPhases; n_CompositeSwitch]
    [n_SwitchingOperations; n_LoadMgmtFunctions; n_ConnectDisconnectFunctions; n_SwitchSchedules; n_SwitchPhases]
    [(n_SwitchingOperations, PManyMany n_Switches); (n_LoadMgmtFunctions, PManyMany n_Switches); (n_ConnectDisconnectFunctions, PManyMany n_Switches); (n_SwitchSchedules, PManyOne n_Switch); (n_SwitchPhases, PManyOne n_Switch); (n_CompositeSwitch, POneMany n_Switches)];
(* CIM15/IEC61970/Wires/SwitchSchedule.py:23-59 *)
  Cls n_CIM15_IEC61970_Wires_SwitchSchedule_SwitchSchedule n_SwitchSchedule (Some n_CIM15_IEC61970_LoadModel_SeasonDayTypeSchedule_SeasonDayTypeSchedule)
    [(n_Switch, VNone)]
    [SOne n_Switch]
    true true
    []
    []
    []
    [n_Switch]
    []
    [(n_Switch, POneMany n_SwitchSchedules)];
(* CIM15/IEC61970/Wires/SynchronousMachine.py:23-284 *)
  Cls n_CIM15_IEC61970_Wires_SynchronousMachine_SynchronousMachine n_SynchronousMachine (Some n_CIM15_IEC61970_Wires_RegulatingCondEq_RegulatingCondEq)
    [(n_ratedS, VFloat n_0_0); (n_r2, VFloat n_0_0); (n_r0, VFloat n_0_0); (n_manualToAVR, VFloat n_0_0); (n_qPercent, VFloat n_0_0); (n_coolantCondition, VFloat n_0_0); (n_condenserP, VFloat n_0_0); (n_xQuadTrans, VFloat n_0_0); (n_xQuadSubtrans, VFloat n_0_0); (n_xQuadSync, VFloat n_0_0); (n_xDirectSync, VFloat n_0_0); (n_minQ, VFloat n_0_0); (n_aVRToManualLag, VFloat n_0_0); (n_damping, VFloat n_0_0); (n_operatingMode, VStr n_condenser); (n_xDirectSubtrans, VFloat n_0_0); (n_coolantType, VStr n_air); (n_aVRToManualLead, VFloat n_0_0); (n_minU, VFloat n_0_0); (n_maxQ, VFloat n_0_0); (n_referencePriority, VInt 0); (n_maxU, VFloat n_0_0); (n_xDirectTrans, VFloat n_0_0); (n_inertia, VFloat n_0_0); (n_baseQ, VFloat n_0_0); (n_type, VStr n_condenser); (n_r, VFloat n_0_0); (n_x0, VFloat n_0_0); (n_x2, VFloat n_0_0); (n_x, VFloat n_0_0); (n_PrimeMovers, VNone); (n_GeneratingUnit, VNone); (n_ReactiveCapabilityCurves, VNone); (n_HydroPump, VNone); (n_InitialReactiveCapabilityCurve, VNone)]
    [SAttr n_ratedS; SAttr n_r2; SAttr n_r0; SAttr n_manualToAVR; SAttr n_qPercent; SAttr n_coolantCondition; SAttr n_condenserP; SAttr n_xQuadTrans; SAttr n_xQuadSubtrans; SAttr n_xQuadSync; SAttr n_xDirectSync; SAttr n_minQ; SAttr n_aVRToManualLag; SAttr n_damping; SAttr n_operatingMode; SAttr n_xDirectSubtrans; SAttr n_coolantType; SAttr n_aVRToManualLead; SAttr n_minU; SAttr n_maxQ; SAttr n_referencePriority; SAttr n_maxU; SAttr n_xDirectTrans; SAttr n_inertia; SAttr n_baseQ; SAttr n_type; SAttr n_r; SAttr n_x0; SAttr n_x2; SAttr n_x; SMany n_PrimeMovers; SOne n_GeneratingUnit; SMany n_ReactiveCapabilityCurves; SOne n_HydroPump; SOne n_InitialReactiveCapabilityCurve]
    true true
    [n_ratedS; n_r2; n_r0; n_manualToAVR; n_qPercent; n_coolantCondition; n_condenserP; n_xQuadTrans; n_xQuadSubtrans; n_xQuadSync; n_xDirectSync; n_minQ; n_aVRToManualLag; n_damping; n_operatingMode; n_xDirectSubtrans; n_coolantType; n_aVRToManualLead; n_minU; n_maxQ; n_referencePriority; n_maxU; n_xDirectTrans; n_inertia; n_baseQ; n_type; n_r; n_x0; n_x2; n_x]
    [(n_ratedS, VFloat n_0_0); (n_r2, VFloat n_0_0); (n_r0, VFloat n_0_0); (n_manualToAVR, VFloat n_0_0); (n_qPercent, VFloat n_0_0); (n_coolantCondition, VFloat n_0_0); (n_condenserP, VFloat n_0_0); (n_xQuadTrans, VFloat n_0_0); (n_xQuadSubtrans, VFloat n_0_0); (n_xQuadSync, VFloat n_0_0); (n_xDirectSync, VFloat n_0_0); (n_minQ, VFloat n_0_0); (n_aVRToManualLag, VFloat n_0_0); (n_damping, VFloat n_0_0); (n_operatingMode, VStr n_condenser); (n_xDirectSubtrans, VFloat n_0_0); (n_coolantType, VStr n_air); (n_aVRToManualLead, VFloat n_0_0); (n_minU, VFloat n_0_0); (n_maxQ, VFloat n_0_0); (n_referencePriority, VInt 0); (n_maxU, VFloat n_0_0); (n_xDirectTrans, VFloat n_0_0); (n_inertia, VFloat n_0_0); (n_baseQ, VFloat n_0_0); (n_type, VStr n_condenser); (n_r, VFloat n_0_0); (n_x0, VFloat n_0_0); (n_x2, VFloat n_0_0); (n_x, VFloat n_0_0)]
    [(n_operatingMode, n_SynchronousMachineOperatingMode); (n_coolantType, n_CoolantType); (n_type, n_SynchronousMachineType)]
    [n_PrimeMovers; n_GeneratingUnit; n_ReactiveCapabilityCurves; n_HydroPump; n_InitialReactiveCapabilityCurve]
    [n_PrimeMovers; n_ReactiveCapabilityCurves]
    [(n_PrimeMovers, PManyMany n_SynchronousMachines); (n_GeneratingUnit, POneMany n_SynchronousMachines); (n_ReactiveCapabilityCurves, PManyMany n_SynchronousMachines); (n_HydroPump, POneOne n_SynchronousMachine); (n_InitialReactiveCapabilityCurve, POneMany n_InitiallyUsedBySynchronousMachines)];
(* CIM15/IEC61970/Wires/TapChanger.py:23-161 *)
  Cls n_CIM15_IEC61970_Wires_TapChanger_TapChanger n_TapChanger (Some n_CIM15_IEC61970_Core_PowerSystemResource_PowerSystemResource)
    [(n_neutralU, VFloat n_0_0); (n_regulationStatus, VBool false); (n_subsequentDelay, VFloat n_0_0); (n_normalStep, VInt 0); (n_ltcFlag, VBool false); (n_lowStep, VInt 0); (n_neutralStep, VInt 0); (n_initialDelay, VFloat n_0_0); (n_highStep, VInt 0); (n_TapChangerInfo, VNone); (n_TapSchedules, VNone); (n_TapChangerControl, VNone); (n_SvTapStep, VNone)]
    [SAttr n_neutralU; SAttr n_regulationStatus; SAttr n_subsequentDelay; SAttr n_normalStep; SAttr n_ltcFlag; SAttr n_lowStep; SAttr n_neutralStep; SAttr n_initialDelay; SAttr n_highStep; SOne n_TapChangerInfo; SMany n_TapSchedules; SOne n_TapChangerControl; SOne n_SvTapStep]
    true true
    [n_neutralU; n_regulationStatus; n_subsequentDelay; n_normalStep; n_ltcFlag; n_lowStep; n_neutralStep; n_initialDelay; n_highStep]
    [(n_neutralU, VFloat n_0_0); (n_regulationStatus, VBool false); (n_subsequentDelay, VFloat n_0_0); (n_normalStep, VInt 0); (n_ltcFlag, VBool false); (n_lowStep, VInt 0); (n_neutralStep, VInt 0); (n_initialDelay, VFloat n_0_0); (n_highStep, VInt 0)]
    []
    [n_TapChangerInfo; n_TapSchedules; n_TapChangerControl; n_SvTapStep]
    [n_TapSchedules]
    [(n_TapChangerInfo, POneMany n_TapChangers); (n_TapSchedules, PManyOne n_TapChanger); (n_TapChangerControl, POneMany n_TapChanger); (n_SvTapStep, POneOne n_TapChanger)];
(* CIM15/IEC61970/Wires/TapChangerControl.py:23-88 *)
  Cls n_CIM15_IEC61970_Wires_TapChangerControl_TapChangerControl n_TapChangerControl (Some n_CIM15_IEC61970_Wires_RegulatingControl_RegulatingControl)
    [(n_lineDropR, VFloat n_0_0); (n_lineDropX, VFloat n_0_0); (n_reverseLineDropX, VFloat n_0_0); (n_reverseLineDropR, VFloat n_0_0); (n_lineDropCompensation, VBool false); (n_limitVoltage, VFloat n_0_0); (n_TapChanger, VNone)]
    [SAttr n_lineDropR; SAttr n_lineDropX; SAttr n_reverseLineDropX; SAttr n_reverseLineDropR; SAttr n_lineDropCompensation; SAttr n_limitVoltage; SMany n_TapChanger]
    true true
    [n_lineDropR; n_lineDropX; n_reverseLineDropX; n_reverseLineDropR; n_lineDropCompensation; n_limitVoltage]
    [(n_lineDropR, VFloat n_0_0); (n_lineDropX, VFloat n_0_0); (n_reverseLineDropX, VFloat n_0_0); (n_reverseLineDropR, VFloat n_0_0); (n_lineDropCompensation, VBool false); (n_limitVoltage, VFloat n_0_0)]
    []
    [n_TapChanger]
    [n_TapChanger]
    [(n_TapChanger, PManyOne n_TapChangerControl)];
(* CIM15/IEC61970/Wires/TapSchedule.py:23-59 *)
  Cls n_CIM15_IEC61970_Wires_TapSchedule_TapSchedule n_TapSchedule (Some n_CIM15_IEC61970_LoadModel_SeasonDayTypeSchedule_SeasonDayTypeSchedule)
    [(n_TapChanger, VNone)]
    [SOne n_TapChanger]
    true true
    []
    []
    []
    [n_TapChanger]
    []
    [(n_TapChanger, POneMany n_TapSchedules)];
(* CIM15/IEC61970/Wires/TransformerCoreAdmittance.py:23-98 *)
  Cls n_CIM15_IEC61970_Wires_TransformerCoreAdmittance_TransformerCoreAdmittance n_TransformerCoreAdmittance (Some n_CIM15_IEC61970_Core_IdentifiedObject_IdentifiedObject)
    [(n_g0, VFloat n_0_0); (n_b0, VFloat n_0_0); (n_g, VFloat n_0_0); (n_b, VFloat n_0_0); (n_TransformerEndInfo, VNone); (n_TransformerEnd, VNone)]
    [SAttr n_g0; SAttr n_b0; SAttr n_g; SAttr n_b; SOne n_TransformerEndInfo; SMany n_TransformerEnd]
    true true
    [n_g0; n_b0; n_g; n_b]
    [(n_g0, VFloat n_0_0); (n_b0, VFloat n_0_0); (n_g, VFloat n_0_0); (n_b, VFloat n_0_0)]
    []
    [n_TransformerEndInfo; n_TransformerEnd]
    [n_TransformerEnd]
    [(n_TransformerEndInfo, POneOne n_CoreAdmittance); (n_TransformerEnd, PManyOne n_CoreAdmittance)];
(* CIM15/IEC61970/Wires/TransformerEnd.py:23-316 *)
  Cls n_CIM15_IEC61970_Wires_TransformerEnd_TransformerEnd n_TransformerEnd (Some n_CIM15_IEC61970_Core_IdentifiedObject_IdentifiedObject)
    [(n_endNumber, VInt 0); (n_rground, VFloat n_0_0); (n_grounded, VBool false); (n_magBaseU, VFloat n_0_0); (n_magSatFlux, VFloat n_0_0); (n_bmagSat, VFloat n_0_0); (n_xground, VFloat n_0_0); (n_Terminal, VNone); (n_FromWindingInsulations, VNone); (n_CoreAdmittance, VNone); (n_TransformerEndInfo, VNone); (n_PhaseTapChanger, VNone); (n_RatioTapChanger, VNone); (n_FromMeshImpedance, VNone); (n_ToWindingInsulations, VNone); (n_ToMeshImpedance, VNone); (n_StarImpedance, VNone); (n_BaseVoltage, VNone)]
    [SAttr n_endNumber; SAttr n_rground; SAttr n_grounded; SAttr n_magBaseU; SAttr n_magSatFlux; SAttr n_bmagSat; SAttr n_xground; SOne n_Terminal; SMany n_FromWindingInsulations; SOne n_CoreAdmittance; SOne n_TransformerEndInfo; SOne n_PhaseTapChanger; SOne n_RatioTapChanger; SMany n_FromMeshImpedance; SMany n_ToWindingInsulations; SMany n_ToMeshImpedance; SOne n_StarImpedance; SOne n_BaseVoltage]
    true true
    [n_endNumber; n_rground; n_grounded; n_magBaseU; n_magSatFlux; n_bmagSat; n_xground]
    [(n_endNumber, VInt 0); (n_rground, VFloat n_0_0); (n_grounded, VBool false); (n_magBaseU, VFloat n_0_0); (n_magSatFlux, VFloat n_0_0); (n_bmagSat, VFloat n_0_0); (n_xground, VFloat n_0_0)]
    []
    [n_Terminal; n_FromWindingInsulations; n_CoreAdmittance; n_TransformerEndInfo; n_PhaseTapChanger; n_RatioTapChanger; n_FromMeshImpedance; n_ToWindingInsulations; n_ToMeshImpedance; n_StarImpedance; n_BaseVoltage]
    [n_FromWindingInsulations; n_FromMeshImpedance; n_ToWindingInsulations; n_ToMeshImpedance]
    [(n_Terminal, POneMany n_TransformerEnd); (n_FromWindingInsulations, PManyOne n_FromWinding); (n_CoreAdmittance, POneMany n_TransformerEnd); (n_TransformerEndInfo, POneMany n_TransformerEnd); (n_PhaseTapChanger, POneOne n_TransformerEnd); (n_RatioTapChanger, POneOne n_TransformerEnd); (n_FromMeshImpedance, PManyOne n_FromTransformerEnd); (n_ToWindingInsulations, PManyOne n_ToWinding); (n_ToMeshImpedance, PManyMany n_ToTransformerEnd); (n_StarImpedance, POneMany n_TransformerEnd); (n_BaseVoltage, POneMany n_TransformerEnd)];
(* CIM15/IEC61970/Wires/TransformerMeshImpedance.py:23-160 *)
  Cls n_CIM15_IEC61970_Wires_TransformerMeshImpedance_TransformerMeshImpedance n_TransformerMeshImpedance (Some n_CIM15_IEC61970_Core_IdentifiedObject_IdentifiedObject)
    [(n_r, VFloat n_0_0); (n_x, VFloat n_0_0); (n_x0, VFloat n_0_0); (n_r0, VFloat n_0_0); (n_FromTransformerEndInfo, VNone); (n_ToTransformerEnd, VNone); (n_ToTransformerEndInfo, VNone); (n_FromTransformerEnd, VNone)]
    [SAttr n_r; SAttr n_x; SAttr n_x0; SAttr n_r0; SOne n_FromTransformerEndInfo; SMany n_ToTransformerEnd; SMany n_ToTransformerEndInfo; SOne n_FromTransformerEnd]
    true true
    [n_r; n_x; n_x0; n_r0]
    [(n_r, VFloat n_0_0); (n_x, VFloat n_0_0); (n_x0, VFloat n_0_0); (n_r0, VFloat n_0_0)]
    []
    [n_FromTransformerEndInfo; n_ToTransformerEnd; n_ToTransformerEndInfo; n_FromTransformerEnd]
    [n_ToTransformerEnd; n_ToTransformerEndInfo]
    [(n_FromTransformerEndInfo, POneMany n_FromMeshImpedance); (n_ToTransformerEnd, PManyMany n_ToMeshImpedance); (n_ToTransformerEndInfo, PManyMany n_ToMeshImpedance); (n_FromTransformerEnd, POneMany n_FromMeshImpedance)];
(* CIM15/IEC61970/Wires/TransformerStarImpedance.py:23-80 *)
  Cls n_CIM15_IEC61970_Wires_TransformerStarImpedance_TransformerStarImpedance n_TransformerStarImpedance (Some n_CIM15_IEC61970_Core_IdentifiedObject_IdentifiedObject)
    [(n_x0, VFloat n_0_0); (n_x, VFloat n_0_0); (n_r, VFloat n_0_0); (n_r0, VFloat n_0_0); (n_TransformerEnd, VNone)]
    [SAttr n_x0; SAttr n_x; SAttr n_r; SAttr n_r0; SMany n_TransformerEnd]
    true true
    [n_x0; n_x; n_r; n_r0]
    [(n_x0, VFloat n_0_0); (n_x, VFloat n_0_0); (n_r, VFloat n_0_0); (n_r0, VFloat n_0_0)]
    []
    [n_TransformerEnd]
    [n_TransformerEnd]
    [(n_TransformerEnd, PManyOne n_StarImpedance)];
(* CIM15/IEC61970/Wires/TransformerTank.py:23-157 *)
  Cls n_CIM15_IEC61970_Wires_TransformerTank_TransformerTank n_TransformerTank (Some n_CIM15_IEC61970_Core_Equipment_Equipment)
    [(n_ServiceDeliveryPoints, VNone); (n_TransformerTankEnds, VNone); (n_PowerTransformer, VNone); (n_TransformerTankInfo, VNone); (n_TransformerObservations, VNone)]
    [SMany n_ServiceDeliveryPoints; SMany n_TransformerTankEnds; SOne n_PowerTransformer; SOne n_TransformerTankInfo; SMany n_TransformerObservations]
    true true
    []
    []
    []
    [n_ServiceDeliveryPoints; n_TransformerTankEnds; n_PowerTransformer; n_TransformerTankInfo; n_TransformerObservations]
    [n_ServiceDeliveryPoints; n_TransformerTankEnds; n_TransformerObservations]
    [(n_ServiceDeliveryPoints, PManyOne n_TransformerTanks); (n_TransformerTankEnds, PManyOne n_TransformerTank); (n_PowerTransformer, POneMany n_TransformerTanks); (n_TransformerTankInfo, POneMany n_TransformerTanks); (n_TransformerObservations, PManyOne n_Transformer)];
(* CIM15/IEC61970/Wires/TransformerTankEnd.py:23-63 *)
  Cls n_CIM15_IEC61970_Wires_TransformerTankEnd_TransformerTankEnd n_TransformerTankEnd (Some n_CIM15_IEC61970_Wires_TransformerEnd_TransformerEnd)
    [(n_phases, VStr n_s12N); (n_TransformerTank, VNone)]
    [SAttr n_phases; SOne n_TransformerTank]
    true true
    [n_phases]
    [(n_phases, VStr n_s12N)]
    [(n_phases, n_PhaseCode)]
    [n_TransformerTank]
    []
    [(n_TransformerTank, POneMany n_TransformerTankEnds)];
(* CIM15/IEC61970/Wires/VoltageControlZone.py:23-79 *)
  Cls n_CIM15_IEC61970_Wires_VoltageControlZone_VoltageControlZone n_VoltageControlZone (Some n_CIM15_IEC61970_Core_PowerSystemResource_PowerSystemResource)
    [(n_RegulationSchedule, VNone); (n_BusbarSection, VNone)]
    [SOne n_RegulationSchedule; SOne n_BusbarSection]
    true true
    []
    []
    []
    [n_RegulationSchedule; n_BusbarSection]
    []
    [(n_RegulationSchedule, POneMany n_VoltageControlZones); (n_BusbarSection, POneOne n_VoltageControlZone)];
(* CIM15/IEC61970/WiresPhaseModel/ACLineSegmentPhase.py:24-59 *)
  Cls n_CIM15_IEC61970_WiresPhaseModel_ACLineSegmentPhase_ACLineSegmentPhase n_ACLineSegmentPhase (Some n_CIM15_IEC61970_Core_PowerSystemResource_PowerSystemResource)
    [(n_phase, VNone); (n_ACLineSegment, VNone)]
    [SAttr n_phase; SOne n_ACLineSegment]
    true true
    [n_phase]
    [(n_phase, VStr n_C)]
    [(n_phase, n_SinglePhaseKind)]
    [n_ACLineSegment]
    []
    [(n_ACLineSegment, POneMany n_ACLineSegmentPhases)];
(* CIM15/IEC61970/WiresPhaseModel/EnergyConsumerPhase.py:23-61 *)
  Cls n_CIM15_IEC61970_WiresPhaseModel_EnergyConsumerPhase_EnergyConsumerPhase n_EnergyConsumerPhase (Some n_CIM15_IEC61970_Core_PowerSystemResource_PowerSystemResource)
    [(n_phase, VNone); (n_EnergyConsumer, VNone); (n_pfixed, VFloat n_0_0); (n_qfixed, VFloat n_0_0)]
    [SAttr n_phase; SOne n_EnergyConsumer; SAttr n_pfixed; SAttr n_qfixed]
    true true
    [n_pfixed; n_qfixed]
    [(n_pfixed, VFloat n_0_0); (n_qfixed, VFloat n_0_0)]
    []
    [n_EnergyConsumer]
    []
    [(n_EnergyConsumer, POneMany n_EnergyConsumerPhases)];
(* CIM15/IEC61970/WiresPhaseModel/ShuntCompensatorPhase.py:23-58 *)
  Cls n_CIM15_IEC61970_WiresPhaseModel_ShuntCompensatorPhase_ShuntCompensatorPhase n_ShuntCompensatorPhase (Some n_CIM15_IEC61970_Core_PowerSystemResource_PowerSystemResource)
    [(n_ShuntCompensator, VNone)]
    [SOne n_ShuntCompensator]
    true true
    []
    []
    []
    [n_ShuntCompensator]
    []
    [(n_ShuntCompensator, POneMany n_ShuntCompensatorPhases)];
(* CIM15/IEC61970/WiresPhaseModel/SwitchPhase.py:23-70 *)
  Cls n_CIM15_IEC61970_WiresPhaseModel_SwitchPhase_SwitchPhase n_SwitchPhase (Some n_CIM15_IEC61970_Core_PowerSystemResource_PowerSystemResource)
    [(n_phaseSide1, VStr n_C); (n_phaseSide2, VStr n_C); (n_normalOpen, VBool false); (n_Switch, VNone)]
    [SAttr n_phaseSide1; SAttr n_phaseSide2; SAttr n_normalOpen; SOne n_Switch]
    true true
    [n_phaseSide1; n_phaseSide2; n_normalOpen]
    [(n_phaseSide1, VStr n_C); (n_phaseSide2, VStr n_C); (n_normalOpen, VBool false)]
    [(n_phaseSide1, n_SinglePhaseKind); (n_phaseSide2, n_SinglePhaseKind)]
    [n_Switch]
    []
    [(n_Switch, POneMany n_SwitchPhases)];
(* CIM15/IEC62325/IEC62325CIMVersion.py:23-46 *)
  Cls n_CIM15_IEC62325_IEC62325CIMVersion_IEC62325CIMVersion n_IEC62325CIMVersion (Some n_CIM15_Element_Element)
    [(n_date, VStr n_); (n_version, VStr n_)]
    [SAttr n_date; SAttr n_version]
    true true
    [n_date; n_version]
    [(n_date, VStr n_); (n_version, VStr n_)]
    []
    []
    []
    [];
(* CIM15/IEC62325/MarketParticipant.py:23-68 *)
  Cls n_CIM15_IEC62325_MarketParticipant_MarketParticipant n_MarketParticipant (Some n_CIM15_IEC61968_Common_Organisation_Organisation)
    [(n_MarketRoles, VNone)]
    [SMany n_MarketRoles]
    true true
    []
    []
    []
    [n_MarketRoles]
    [n_MarketRoles]
    [(n_MarketRoles, PManyMany n_MarketParticipants)];
(* CIM15/IEC62325/MarketRole.py:23-79 *)
  Cls n_CIM15_IEC62325_MarketRole_MarketRole n_MarketRole (Some n_CIM15_IEC61970_Core_IdentifiedObject_IdentifiedObject)
    [(n_kind, VStr n_transmissionOperator); (n_status, VNone); (n_MarketParticipants, VNone)]
    [SAttr n_kind; SAttr n_status; SMany n_MarketParticipants]
    true true
    [n_kind]
    [(n_kind, VStr n_transmissionOperator)]
    [(n_kind, n_MarketRoleKind)]
    [n_status; n_MarketParticipants]
    [n_MarketParticipants]
    [(n_MarketParticipants, PManyMany n_MarketRoles)];
(* CIM15/Package.py:23-36 *)
  Cls n_CIM15_Package_Package n_Package (Some n_CIM15_Element_Element)
    []
    []
    true true
    []
    []
    []
    []
    []
    [];
(* CIM15/PackageDependencies/PackageDependenciesCIMVeresion.py:23-46 *)
  Cls n_CIM15_PackageDependencies_PackageDependenciesCIMVeresion_PackageDependenciesCIMVeresion n_PackageDependenciesCIMVeresion (Some n_CIM15_Element_Element)
    [(n_vesion, VStr n_); (n_date, VStr n_)]
    [SAttr n_vesion; SAttr n_date]
    true true
    [n_vesion; n_date]
    [(n_vesion, VStr n_); (n_date, VStr n_)]
    []
    []
    []
    [];
(* CIM15/Stereotype.py:23-36 *)
  Cls n_CIM15_Stereotype_Stereotype n_Stereotype (Some n_CIM15_Element_Element)
    []
    []
    true true
    []
    []
    []
    []
    []
    []
].

(** packageMap, CIM15/__init__.py:32-638: tag to the class that the package exports under that name. *)
Definition cim15_map : list (name * name) := [
  (n_CombinedVersion, n_CIM15_CombinedVersion_CombinedVersion);
  (n_Element, n_CIM15_Element_Element);
  (n_Stereotype, n_CIM15_Stereotype_Stereotype);
  (n_Package, n_CIM15_Package_Package);
  (n_IEC61970CIMVersion, n_CIM15_IEC61970_IEC61970CIMVersion_IEC61970CIMVersion);
  (n_RemoteSource, n_CIM15_IEC61970_SCADA_RemoteSource_RemoteSource);
  (n_RemotePoint, n_CIM15_IEC61970_SCADA_RemotePoint_RemotePoint);
  (n_RemoteUnit, n_CIM15_IEC61970_SCADA_RemoteUnit_RemoteUnit);
  (n_RemoteControl, n_CIM15_IEC61970_SCADA_RemoteControl_RemoteControl);
  (n_CommunicationLink, n_CIM15_IEC61970_SCADA_CommunicationLink_CommunicationLink);
  (n_Reservoir, n_CIM15_IEC61970_Generation_Production_Reservoir_Reservoir);
  (n_CogenerationPlant, n_CIM15_IEC61970_Generation_Production_CogenerationPlant_CogenerationPlant);
  (n_GenUnitOpSchedule, n_CIM15_IEC61970_Generation_Production_GenUnitOpSchedule_GenUnitOpSchedule);
  (n_FuelAllocationSchedule, n_CIM15_IEC61970_Generation_Production_FuelAllocationSchedule_FuelAllocationSchedule);
  (n_GrossToNetActivePowerCurve, n_CIM15_IEC61970_Generation_Production_GrossToNetActivePowerCurve_GrossToNetActivePowerCurve);
  (n_LevelVsVolumeCurve, n_CIM15_IEC61970_Generation_Production_LevelVsVolumeCurve_LevelVsVolumeCurve);
  (n_StartRampCurve, n_CIM15_IEC61970_Generation_Production_StartRampCurve_StartRampCurve);
  (n_NuclearGeneratingUnit, n_CIM15_IEC61970_Generation_Production_NuclearGeneratingUnit_NuclearGeneratingUnit);
  (n_EmissionCurve, n_CIM15_IEC61970_Generation_Production_EmissionCurve_EmissionCurve);
  (n_HydroPumpOpSchedule, n_CIM15_IEC61970_Generation_Production_HydroPumpOpSchedule_HydroPumpOpSchedule);
  (n_SteamSendoutSchedule, n_CIM15_IEC61970_Generation_Production_SteamSendoutSchedule_SteamSendoutSchedule);
  (n_TargetLevelSchedule, n_CIM15_IEC61970_Generation_Production_TargetLevelSchedule_TargetLevelSchedule);
  (n_CombinedCyclePlant, n_CIM15_IEC61970_Generation_Production_CombinedCyclePlant_CombinedCyclePlant);
  (n_HeatRateCurve, n_CIM15_IEC61970_Generation_Production_HeatRateCurve_HeatRateCurve);
  (n_ThermalGeneratingUnit, n_CIM15_IEC61970_Generation_Production_ThermalGeneratingUnit_ThermalGeneratingUnit);
  (n_EmissionAccount, n_CIM15_IEC61970_Generation_Production_EmissionAccount_EmissionAccount);
  (n_PenstockLossCurve, n_CIM15_IEC61970_Generation_Production_PenstockLossCurve_PenstockLossCurve);
  (n_StartupModel, n_CIM15_IEC61970_Generation_Production_StartupModel_StartupModel);
  (n_HydroGeneratingUnit, n_CIM15_IEC61970_Generation_Production_HydroGeneratingUnit_HydroGeneratingUnit);
  (n_GenUnitOpCostCurve, n_CIM15_IEC61970_Generation_Production_GenUnitOpCostCurve_GenUnitOpCostCurve);
  (n_IncrementalHeatRateCurve, n_CIM15_IEC61970_Generation_Production_IncrementalHeatRateCurve_IncrementalHeatRateCurve);
  (n_FossilFuel, n_CIM15_IEC61970_Generation_Production_FossilFuel_FossilFuel);
  (n_GeneratingUnit, n_CIM15_IEC61970_Generation_Production_GeneratingUnit_GeneratingUnit);
  (n_StartIgnFuelCurve, n_CIM15_IEC61970_Generation_Production_StartIgnFuelCurve_StartIgnFuelCurve);
  (n_StartMainFuelCurve, n_CIM15_IEC61970_Generation_Production_StartMainFuelCurve_StartMainFuelCurve);
  (n_TailbayLossCurve, n_CIM15_IEC61970_Generation_Production_TailbayLossCurve_TailbayLossCurve);
  (n_HydroPump, n_CIM15_IEC61970_Generation_Production_HydroPump_HydroPump);
  (n_InflowForecast, n_CIM15_IEC61970_Generation_Production_InflowForecast_InflowForecast);
  (n_HydroGeneratingEfficiencyCurve, n_CIM15_IEC61970_Generation_Production_HydroGeneratingEfficiencyCurve_HydroGeneratingEfficiencyCurve);
  (n_ShutdownCurve, n_CIM15_IEC61970_Generation_Production_ShutdownCurve_ShutdownCurve);
  (n_HydroPowerPlant, n_CIM15_IEC61970_Generation_Production_HydroPowerPlant_HydroPowerPlant);
  (n_CAESPlant, n_CIM15_IEC61970_Generation_Production_CAESPlant_CAESPlant);
  (n_AirCompressor, n_CIM15_IEC61970_Generation_Production_AirCompressor_AirCompressor);
  (n_HeatInputCurve, n_CIM15_IEC61970_Generation_Production_HeatInputCurve_HeatInputCurve);
  (n_WindGeneratingUnit, n_CIM15_IEC61970_Generation_Production_WindGeneratingUnit_WindGeneratingUnit);
  (n_BWRSteamSupply, n_CIM15_IEC61970_Generation_GenerationDynamics_BWRSteamSupply_BWRSteamSupply);
  (n_HydroTurbine, n_CIM15_IEC61970_Generation_GenerationDynamics_HydroTurbine_HydroTurbine);
  (n_SteamTurbine, n_CIM15_IEC61970_Generation_GenerationDynamics_SteamTurbine_SteamTurbine);
  (n_SteamSupply, n_CIM15_IEC61970_Generation_GenerationDynamics_SteamSupply_SteamSupply);
  (n_FossilSteamSupply, n_CIM15_IEC61970_Generation_GenerationDynamics_FossilSteamSupply_FossilSteamSupply);
  (n_Subcritical, n_CIM15_IEC61970_Generation_GenerationDynamics_Subcritical_Subcritical);
  (n_PWRSteamSupply, n_CIM15_IEC61970_Generation_GenerationDynamics_PWRSteamSupply_PWRSteamSupply);
  (n_PrimeMover, n_CIM15_IEC61970_Generation_GenerationDynamics_PrimeMover_PrimeMover);
  (n_CombustionTurbine, n_CIM15_IEC61970_Generation_GenerationDynamics_CombustionTurbine_CombustionTurbine);
  (n_HeatRecoveryBoiler, n_CIM15_IEC61970_Generation_GenerationDynamics_HeatRecoveryBoiler_HeatRecoveryBoiler);
  (n_Supercritical, n_CIM15_IEC61970_Generation_GenerationDynamics_Supercritical_Supercritical);
  (n_DrumBoiler, n_CIM15_IEC61970_Generation_GenerationDynamics_DrumBoiler_DrumBoiler);
  (n_CTTempActivePowerCurve, n_CIM15_IEC61970_Generation_GenerationDynamics_CTTempActivePowerCurve_CTTempActivePowerCurve);
  (n_EquipmentItem, n_CIM15_IEC61970_Informative_InfWork_EquipmentItem_EquipmentItem);
  (n_Appointment, n_CIM15_IEC61970_Informative_InfWork_Appointment_Appointment);
  (n_WorkStatusEntry, n_CIM15_IEC61970_Informative_InfWork_WorkStatusEntry_WorkStatusEntry);
  (n_BusinessCase, n_CIM15_IEC61970_Informative_InfWork_BusinessCase_BusinessCase);
  (n_TypeMaterial, n_CIM15_IEC61970_Informative_InfWork_TypeMaterial_TypeMaterial);
  (n_DesignLocation, n_CIM15_IEC61970_Informative_InfWork_DesignLocation_DesignLocation);
  (n_OverheadCost, n_CIM15_IEC61970_Informative_InfWork_OverheadCost_OverheadCost);
  (n_Crew, n_CIM15_IEC61970_Informative_InfWork_Crew_Crew);
  (n_DiagnosisDataSet, n_CIM15_IEC61970_Informative_InfWork_DiagnosisDataSet_DiagnosisDataSet);
  (n_CUAsset, n_CIM15_IEC61970_Informative_InfWork_CUAsset_CUAsset);
  (n_Request, n_CIM15_IEC61970_Informative_InfWork_Request_Request);
  (n_Design, n_CIM15_IEC61970_Informative_InfWork_Design_Design);
  (n_WorkTask, n_CIM15_IEC61970_Informative_InfWork_WorkTask_WorkTask);
  (n_ConditionFactor, n_CIM15_IEC61970_Informative_InfWork_ConditionFactor_ConditionFactor);
  (n_QualificationRequirement, n_CIM15_IEC61970_Informative_InfWork_QualificationRequirement_QualificationRequirement);
  (n_WorkLocation, n_CIM15_IEC61970_Informative_InfWork_WorkLocation_WorkLocation);
  (n_CostType, n_CIM15_IEC61970_Informative_InfWork_CostType_CostType);
  (n_CUMaterialItem, n_CIM15_IEC61970_Informative_InfWork_CUMaterialItem_CUMaterialItem);
  (n_PropertyUnit, n_CIM15_IEC61970_Informative_InfWork_PropertyUnit_PropertyUnit);
  (n_Project, n_CIM15_IEC61970_Informative_InfWork_Project_Project);
  (n_CULaborItem, n_CIM15_IEC61970_Informative_InfWork_CULaborItem_CULaborItem);
  (n_LaborItem, n_CIM15_IEC61970_Informative_InfWork_LaborItem_LaborItem);
  (n_WorkFlowStep, n_CIM15_IEC61970_Informative_InfWork_WorkFlowStep_WorkFlowStep);
  (n_InspectionDataSet, n_CIM15_IEC61970_Informative_InfWork_InspectionDataSet_InspectionDataSet);
  (n_WorkCostDetail, n_CIM15_IEC61970_Informative_InfWork_WorkCostDetail_WorkCostDetail);
  (n_CompatibleUnit, n_CIM15_IEC61970_Informative_InfWork_CompatibleUnit_CompatibleUnit);
  (n_WorkCostSummary, n_CIM15_IEC61970_Informative_InfWork_WorkCostSummary_WorkCostSummary);
  (n_NonStandardItem, n_CIM15_IEC61970_Informative_InfWork_NonStandardItem_NonStandardItem);
  (n_InfoQuestion, n_CIM15_IEC61970_Informative_InfWork_InfoQuestion_InfoQuestion);
  (n_Regulation, n_CIM15_IEC61970_Informative_InfWork_Regulation_Regulation);
  (n_ContractorItem, n_CIM15_IEC61970_Informative_InfWork_ContractorItem_ContractorItem);
  (n_CUAllowableAction, n_CIM15_IEC61970_Informative_InfWork_CUAllowableAction_CUAllowableAction);
  (n_CULaborCode, n_CIM15_IEC61970_Informative_InfWork_CULaborCode_CULaborCode);
  (n_AccessPermit, n_CIM15_IEC61970_Informative_InfWork_AccessPermit_AccessPermit);
  (n_CUWorkEquipmentItem, n_CIM15_IEC61970_Informative_InfWork_CUWorkEquipmentItem_CUWorkEquipmentItem);
  (n_DesignLocationCU, n_CIM15_IEC61970_Informative_InfWork_DesignLocationCU_DesignLocationCU);
  (n_MaintenanceDataSet, n_CIM15_IEC61970_Informative_InfWork_MaintenanceDataSet_MaintenanceDataSet);
  (n_MiscCostItem, n_CIM15_IEC61970_Informative_InfWork_MiscCostItem_MiscCostItem);
  (n_MaterialItem, n_CIM15_IEC61970_Informative_InfWork_MaterialItem_MaterialItem);
  (n_ShiftPattern, n_CIM15_IEC61970_Informative_InfWork_ShiftPattern_ShiftPattern);
  (n_Capability, n_CIM15_IEC61970_Informative_InfWork_Capability_Capability);
  (n_Usage, n_CIM15_IEC61970_Informative_InfWork_Usage_Usage);
  (n_OneCallRequest, n_CIM15_IEC61970_Informative_InfWork_OneCallRequest_OneCallRequest);
  (n_Assignment, n_CIM15_IEC61970_Informative_InfWork_Assignment_Assignment);
  (n_CUContractorItem, n_CIM15_IEC61970_Informative_InfWork_CUContractorItem_CUContractorItem);
  (n_CUGroup, n_CIM15_IEC61970_Informative_InfWork_CUGroup_CUGroup);
  (n_ErpRecDelvLineItem, n_CIM15_IEC61970_Informative_InfERPSupport_ErpRecDelvLineItem_ErpRecDelvLineItem);
  (n_ErpLedgerBudget, n_CIM15_IEC61970_Informative_InfERPSupport_ErpLedgerBudget_ErpLedgerBudget);
  (n_ErpTimeEntry, n_CIM15_IEC61970_Informative_InfERPSupport_ErpTimeEntry_ErpTimeEntry);
  (n_ErpCompetency, n_CIM15_IEC61970_Informative_InfERPSupport_ErpCompetency_ErpCompetency);
  (n_ErpPurchaseOrder, n_CIM15_IEC61970_Informative_InfERPSupport_ErpPurchaseOrder_ErpPurchaseOrder);
  (n_ErpEngChangeOrder, n_CIM15_IEC61970_Informative_InfERPSupport_ErpEngChangeOrder_ErpEngChangeOrder);
  (n_ErpProjectAccounting, n_CIM15_IEC61970_Informative_InfERPSupport_ErpProjectAccounting_ErpProjectAccounting);
  (n_ErpRecLineItem, n_CIM15_IEC61970_Informative_InfERPSupport_ErpRecLineItem_ErpRecLineItem);
  (n_ErpPayableLineItem, n_CIM15_IEC61970_Informative_InfERPSupport_ErpPayableLineItem_ErpPayableLineItem);
  (n_ErpLedBudLineItem, n_CIM15_IEC61970_Informative_InfERPSupport_ErpLedBudLineItem_ErpLedBudLineItem);
  (n_ErpRequisition, n_CIM15_IEC61970_Informative_InfERPSupport_ErpRequisition_ErpRequisition);
  (n_ErpOrganisation, n_CIM15_IEC61970_Informative_InfERPSupport_ErpOrganisation_ErpOrganisation);
  (n_ErpInvoice, n_CIM15_IEC61970_Informative_InfERPSupport_ErpInvoice_ErpInvoice);
  (n_DocErpPersonRole, n_CIM15_IEC61970_Informative_InfERPSupport_DocErpPersonRole_DocErpPersonRole);
  (n_ErpBankAccount, n_CIM15_IEC61970_Informative_InfERPSupport_ErpBankAccount_ErpBankAccount);
  (n_ErpQuote, n_CIM15_IEC61970_Informative_InfERPSupport_ErpQuote_ErpQuote);
  (n_ErpPerson, n_CIM15_IEC61970_Informative_InfERPSupport_ErpPerson_ErpPerson);
  (n_ErpItemMaster, n_CIM15_IEC61970_Informative_InfERPSupport_ErpItemMaster_ErpItemMaster);
  (n_ErpBOM, n_CIM15_IEC61970_Informative_InfERPSupport_ErpBOM_ErpBOM);
  (n_ErpInventoryCount, n_CIM15_IEC61970_Informative_InfERPSupport_ErpInventoryCount_ErpInventoryCount);
  (n_ErpIssueInventory, n_CIM15_IEC61970_Informative_InfERPSupport_ErpIssueInventory_ErpIssueInventory);
  (n_ErpPayable, n_CIM15_IEC61970_Informative_InfERPSupport_ErpPayable_ErpPayable);
  (n_ErpLedger, n_CIM15_IEC61970_Informative_InfERPSupport_ErpLedger_ErpLedger);
  (n_ErpPOLineItem, n_CIM15_IEC61970_Informative_InfERPSupport_ErpPOLineItem_ErpPOLineItem);
  (n_ErpLedgerEntry, n_CIM15_IEC61970_Informative_InfERPSupport_ErpLedgerEntry_ErpLedgerEntry);
  (n_ErpPayment, n_CIM15_IEC61970_Informative_InfERPSupport_ErpPayment_ErpPayment);
  (n_ErpReceivable, n_CIM15_IEC61970_Informative_InfERPSupport_ErpReceivable_ErpReceivable);
  (n_DocOrgRole, n_CIM15_IEC61970_Informative_InfERPSupport_DocOrgRole_DocOrgRole);
  (n_ErpReqLineItem, n_CIM15_IEC61970_Informative_InfERPSupport_ErpReqLineItem_ErpReqLineItem);
  (n_ErpTimeSheet, n_CIM15_IEC61970_Informative_InfERPSupport_ErpTimeSheet_ErpTimeSheet);
  (n_ErpInventory, n_CIM15_IEC61970_Informative_InfERPSupport_ErpInventory_ErpInventory);
  (n_ErpChartOfAccounts, n_CIM15_IEC61970_Informative_InfERPSupport_ErpChartOfAccounts_ErpChartOfAccounts);
  (n_ErpSiteLevelData, n_CIM15_IEC61970_Informative_InfERPSupport_ErpSiteLevelData_ErpSiteLevelData);
  (n_OrgErpPersonRole, n_CIM15_IEC61970_Informative_InfERPSupport_OrgErpPersonRole_OrgErpPersonRole);
  (n_ErpReceiveDelivery, n_CIM15_IEC61970_Informative_InfERPSupport_ErpReceiveDelivery_ErpReceiveDelivery);
  (n_ErpSalesOrder, n_CIM15_IEC61970_Informative_InfERPSupport_ErpSalesOrder_ErpSalesOrder);
  (n_ErpJournalEntry, n_CIM15_IEC61970_Informative_InfERPSupport_ErpJournalEntry_ErpJournalEntry);
  (n_ErpInvoiceLineItem, n_CIM15_IEC61970_Informative_InfERPSupport_ErpInvoiceLineItem_ErpInvoiceLineItem);
  (n_OrgOrgRole, n_CIM15_IEC61970_Informative_InfERPSupport_OrgOrgRole_OrgOrgRole);
  (n_ErpJournal, n_CIM15_IEC61970_Informative_InfERPSupport_ErpJournal_ErpJournal);
  (n_ErpPersonnel, n_CIM15_IEC61970_Informative_InfERPSupport_ErpPersonnel_ErpPersonnel);
  (n_ErpQuoteLineItem, n_CIM15_IEC61970_Informative_InfERPSupport_ErpQuoteLineItem_ErpQuoteLineItem);
  (n_ErpBomItemData, n_CIM15_IEC61970_Informative_InfERPSupport_ErpBomItemData_ErpBomItemData);
  (n_Role, n_CIM15_IEC61970_Informative_InfCommon_Role_Role);
  (n_Bank, n_CIM15_IEC61970_Informative_InfCommon_Bank_Bank);
  (n_Skill, n_CIM15_IEC61970_Informative_InfCommon_Skill_Skill);
  (n_BusinessRole, n_CIM15_IEC61970_Informative_InfCommon_BusinessRole_BusinessRole);
  (n_ScheduledEvent, n_CIM15_IEC61970_Informative_InfCommon_ScheduledEvent_ScheduledEvent);
  (n_ScheduleParameterInfo, n_CIM15_IEC61970_Informative_InfCommon_ScheduleParameterInfo_ScheduleParameterInfo);
  (n_DocPsrRole, n_CIM15_IEC61970_Informative_InfCommon_DocPsrRole_DocPsrRole);
  (n_Ratio, n_CIM15_IEC61970_Informative_InfCommon_Ratio_Ratio);
  (n_BankAccount, n_CIM15_IEC61970_Informative_InfCommon_BankAccount_BankAccount);
  (n_Craft, n_CIM15_IEC61970_Informative_InfCommon_Craft_Craft);
  (n_DocDocRole, n_CIM15_IEC61970_Informative_InfCommon_DocDocRole_DocDocRole);
  (n_BusinessPlan, n_CIM15_IEC61970_Informative_InfCommon_BusinessPlan_BusinessPlan);
  (n_FACTSDevice, n_CIM15_IEC61970_Informative_InfAssets_FACTSDevice_FACTSDevice);
  (n_DocAssetRole, n_CIM15_IEC61970_Informative_InfAssets_DocAssetRole_DocAssetRole);
  (n_DuctBank, n_CIM15_IEC61970_Informative_InfAssets_DuctBank_DuctBank);
  (n_ConductorAsset, n_CIM15_IEC61970_Informative_InfAssets_ConductorAsset_ConductorAsset);
  (n_FinancialInfo, n_CIM15_IEC61970_Informative_InfAssets_FinancialInfo_FinancialInfo);
  (n_ProtectionEquipmentInfo, n_CIM15_IEC61970_Informative_InfAssets_ProtectionEquipmentInfo_ProtectionEquipmentInfo);
  (n_ProcedureDataSet, n_CIM15_IEC61970_Informative_InfAssets_ProcedureDataSet_ProcedureDataSet);
  (n_WindingInsulation, n_CIM15_IEC61970_Informative_InfAssets_WindingInsulation_WindingInsulation);
  (n_Specification, n_CIM15_IEC61970_Informative_InfAssets_Specification_Specification);
  (n_UndergroundStructure, n_CIM15_IEC61970_Informative_InfAssets_UndergroundStructure_UndergroundStructure);
  (n_PotentialTransformerInfo, n_CIM15_IEC61970_Informative_InfAssets_PotentialTransformerInfo_PotentialTransformerInfo);
  (n_Structure, n_CIM15_IEC61970_Informative_InfAssets_Structure_Structure);
  (n_CurrentTransformerInfo, n_CIM15_IEC61970_Informative_InfAssets_CurrentTransformerInfo_CurrentTransformerInfo);
  (n_BushingInsulationPF, n_CIM15_IEC61970_Informative_InfAssets_BushingInsulationPF_BushingInsulationPF);
  (n_Joint, n_CIM15_IEC61970_Informative_InfAssets_Joint_Joint);
  (n_ElectricalInfo, n_CIM15_IEC61970_Informative_InfAssets_ElectricalInfo_ElectricalInfo);
  (n_WorkEquipment, n_CIM15_IEC61970_Informative_InfAssets_WorkEquipment_WorkEquipment);
  (n_FaultIndicatorInfo, n_CIM15_IEC61970_Informative_InfAssets_FaultIndicatorInfo_FaultIndicatorInfo);
  (n_Duct, n_CIM15_IEC61970_Informative_InfAssets_Duct_Duct);
  (n_PowerRating, n_CIM15_IEC61970_Informative_InfAssets_PowerRating_PowerRating);
  (n_AssetAssetRole, n_CIM15_IEC61970_Informative_InfAssets_AssetAssetRole_AssetAssetRole);
  (n_TransformerAsset, n_CIM15_IEC61970_Informative_InfAssets_TransformerAsset_TransformerAsset);
  (n_Procedure, n_CIM15_IEC61970_Informative_InfAssets_Procedure_Procedure);
  (n_BreakerInfo, n_CIM15_IEC61970_Informative_InfAssets_BreakerInfo_BreakerInfo);
  (n_CompositeSwitchInfo, n_CIM15_IEC61970_Informative_InfAssets_CompositeSwitchInfo_CompositeSwitchInfo);
  (n_Cabinet, n_CIM15_IEC61970_Informative_InfAssets_Cabinet_Cabinet);
  (n_Bushing, n_CIM15_IEC61970_Informative_InfAssets_Bushing_Bushing);
  (n_Vehicle, n_CIM15_IEC61970_Informative_InfAssets_Vehicle_Vehicle);
  (n_SurgeProtectorInfo, n_CIM15_IEC61970_Informative_InfAssets_SurgeProtectorInfo_SurgeProtectorInfo);
  (n_StructureSupport, n_CIM15_IEC61970_Informative_InfAssets_StructureSupport_StructureSupport);
  (n_ComEquipment, n_CIM15_IEC61970_Informative_InfAssets_ComEquipment_ComEquipment);
  (n_AssetPropertyCurve, n_CIM15_IEC61970_Informative_InfAssets_AssetPropertyCurve_AssetPropertyCurve);
  (n_FailureEvent, n_CIM15_IEC61970_Informative_InfAssets_FailureEvent_FailureEvent);
  (n_DimensionsInfo, n_CIM15_IEC61970_Informative_InfAssets_DimensionsInfo_DimensionsInfo);
  (n_Tower, n_CIM15_IEC61970_Informative_InfAssets_Tower_Tower);
  (n_MountingConnection, n_CIM15_IEC61970_Informative_InfAssets_MountingConnection_MountingConnection);
  (n_Medium, n_CIM15_IEC61970_Informative_InfAssets_Medium_Medium);
  (n_RecloserInfo, n_CIM15_IEC61970_Informative_InfAssets_RecloserInfo_RecloserInfo);
  (n_Facility, n_CIM15_IEC61970_Informative_InfAssets_Facility_Facility);
  (n_ShuntImpedanceInfo, n_CIM15_IEC61970_Informative_InfAssets_ShuntImpedanceInfo_ShuntImpedanceInfo);
  (n_ShuntCompensatorInfo, n_CIM15_IEC61970_Informative_InfAssets_ShuntCompensatorInfo_ShuntCompensatorInfo);
  (n_MountingPoint, n_CIM15_IEC61970_Informative_InfAssets_MountingPoint_MountingPoint);
  (n_SubstationAsset, n_CIM15_IEC61970_Informative_InfAssets_SubstationAsset_SubstationAsset);
  (n_Streetlight, n_CIM15_IEC61970_Informative_InfAssets_Streetlight_Streetlight);
  (n_Tool, n_CIM15_IEC61970_Informative_InfAssets_Tool_Tool);
  (n_SVC, n_CIM15_IEC61970_Informative_InfAssets_SVC_SVC);
  (n_OrgAssetRole, n_CIM15_IEC61970_Informative_InfAssets_OrgAssetRole_OrgAssetRole);
  (n_TestDataSet, n_CIM15_IEC61970_Informative_InfAssets_TestDataSet_TestDataSet);
  (n_GenericAssetModelOrMaterial, n_CIM15_IEC61970_Informative_InfAssets_GenericAssetModelOrMaterial_GenericAssetModelOrMaterial);
  (n_ReliabilityInfo, n_CIM15_IEC61970_Informative_InfAssets_ReliabilityInfo_ReliabilityInfo);
  (n_TransformerObservation, n_CIM15_IEC61970_Informative_InfAssets_TransformerObservation_TransformerObservation);
  (n_Pole, n_CIM15_IEC61970_Informative_InfAssets_Pole_Pole);
  (n_SwitchInfo, n_CIM15_IEC61970_Informative_InfAssets_SwitchInfo_SwitchInfo);
  (n_StandardIndustryCode, n_CIM15_IEC61970_Informative_InfCustomers_StandardIndustryCode_StandardIndustryCode);
  (n_OutageHistory, n_CIM15_IEC61970_Informative_InfCustomers_OutageHistory_OutageHistory);
  (n_ComplianceEvent, n_CIM15_IEC61970_Informative_InfCustomers_ComplianceEvent_ComplianceEvent);
  (n_CustomerBillingInfo, n_CIM15_IEC61970_Informative_InfCustomers_CustomerBillingInfo_CustomerBillingInfo);
  (n_ServiceGuarantee, n_CIM15_IEC61970_Informative_InfCustomers_ServiceGuarantee_ServiceGuarantee);
  (n_SubscribePowerCurve, n_CIM15_IEC61970_Informative_InfCustomers_SubscribePowerCurve_SubscribePowerCurve);
  (n_ExternalCustomerAgreement, n_CIM15_IEC61970_Informative_InfCustomers_ExternalCustomerAgreement_ExternalCustomerAgreement);
  (n_PowerQualityPricing, n_CIM15_IEC61970_Informative_InfCustomers_PowerQualityPricing_PowerQualityPricing);
  (n_WorkBillingInfo, n_CIM15_IEC61970_Informative_InfCustomers_WorkBillingInfo_WorkBillingInfo);
  (n_OutageRecord, n_CIM15_IEC61970_Informative_InfOperations_OutageRecord_OutageRecord);
  (n_OutageReport, n_CIM15_IEC61970_Informative_InfOperations_OutageReport_OutageReport);
  (n_ChangeItem, n_CIM15_IEC61970_Informative_InfOperations_ChangeItem_ChangeItem);
  (n_PSREvent, n_CIM15_IEC61970_Informative_InfOperations_PSREvent_PSREvent);
  (n_PlannedOutage, n_CIM15_IEC61970_Informative_InfOperations_PlannedOutage_PlannedOutage);
  (n_CircuitSection, n_CIM15_IEC61970_Informative_InfOperations_CircuitSection_CircuitSection);
  (n_SafetyDocument, n_CIM15_IEC61970_Informative_InfOperations_SafetyDocument_SafetyDocument);
  (n_OperationalRestriction, n_CIM15_IEC61970_Informative_InfOperations_OperationalRestriction_OperationalRestriction);
  (n_ChangeSet, n_CIM15_IEC61970_Informative_InfOperations_ChangeSet_ChangeSet);
  (n_SwitchingSchedule, n_CIM15_IEC61970_Informative_InfOperations_SwitchingSchedule_SwitchingSchedule);
  (n_Circuit, n_CIM15_IEC61970_Informative_InfOperations_Circuit_Circuit);
  (n_NetworkDataSet, n_CIM15_IEC61970_Informative_InfOperations_NetworkDataSet_NetworkDataSet);
  (n_OutageStep, n_CIM15_IEC61970_Informative_InfOperations_OutageStep_OutageStep);
  (n_OrgPsrRole, n_CIM15_IEC61970_Informative_InfOperations_OrgPsrRole_OrgPsrRole);
  (n_OutageCode, n_CIM15_IEC61970_Informative_InfOperations_OutageCode_OutageCode);
  (n_IncidentCode, n_CIM15_IEC61970_Informative_InfOperations_IncidentCode_IncidentCode);
  (n_LandBase, n_CIM15_IEC61970_Informative_InfOperations_LandBase_LandBase);
  (n_ErpPersonScheduleStepRole, n_CIM15_IEC61970_Informative_InfOperations_ErpPersonScheduleStepRole_ErpPersonScheduleStepRole);
  (n_SwitchingStep, n_CIM15_IEC61970_Informative_InfOperations_SwitchingStep_SwitchingStep);
  (n_CallBack, n_CIM15_IEC61970_Informative_InfOperations_CallBack_CallBack);
  (n_TroubleTicket, n_CIM15_IEC61970_Informative_InfOperations_TroubleTicket_TroubleTicket);
  (n_IncidentRecord, n_CIM15_IEC61970_Informative_InfOperations_IncidentRecord_IncidentRecord);
  (n_OutageNotification, n_CIM15_IEC61970_Informative_InfOperations_OutageNotification_OutageNotification);
  (n_OutageStepPsrRole, n_CIM15_IEC61970_Informative_InfOperations_OutageStepPsrRole_OutageStepPsrRole);
  (n_LocationGrant, n_CIM15_IEC61970_Informative_InfLocations_LocationGrant_LocationGrant);
  (n_RightOfWay, n_CIM15_IEC61970_Informative_InfLocations_RightOfWay_RightOfWay);
  (n_PersonPropertyRole, n_CIM15_IEC61970_Informative_InfLocations_PersonPropertyRole_PersonPropertyRole);
  (n_Zone, n_CIM15_IEC61970_Informative_InfLocations_Zone_Zone);
  (n_RedLine, n_CIM15_IEC61970_Informative_InfLocations_RedLine_RedLine);
  (n_Route, n_CIM15_IEC61970_Informative_InfLocations_Route_Route);
  (n_OrgPropertyRole, n_CIM15_IEC61970_Informative_InfLocations_OrgPropertyRole_OrgPropertyRole);
  (n_Direction, n_CIM15_IEC61970_Informative_InfLocations_Direction_Direction);
  (n_LandProperty, n_CIM15_IEC61970_Informative_InfLocations_LandProperty_LandProperty);
  (n_Hazard, n_CIM15_IEC61970_Informative_InfLocations_Hazard_Hazard);
  (n_GmlFeatureType, n_CIM15_IEC61970_Informative_InfGMLSupport_GmlFeatureType_GmlFeatureType);
  (n_Map, n_CIM15_IEC61970_Informative_InfGMLSupport_Map_Map);
  (n_GmlPointGeometry, n_CIM15_IEC61970_Informative_InfGMLSupport_GmlPointGeometry_GmlPointGeometry);
  (n_GmlHalo, n_CIM15_IEC61970_Informative_InfGMLSupport_GmlHalo_GmlHalo);
  (n_GmlColour, n_CIM15_IEC61970_Informative_InfGMLSupport_GmlColour_GmlColour);
  (n_GmlFont, n_CIM15_IEC61970_Informative_InfGMLSupport_GmlFont_GmlFont);
  (n_GmlPolygonSymbol, n_CIM15_IEC61970_Informative_InfGMLSupport_GmlPolygonSymbol_GmlPolygonSymbol);
  (n_GmlStroke, n_CIM15_IEC61970_Informative_InfGMLSupport_GmlStroke_GmlStroke);
  (n_GmlBaseSymbol, n_CIM15_IEC61970_Informative_InfGMLSupport_GmlBaseSymbol_GmlBaseSymbol);
  (n_GmlPosition, n_CIM15_IEC61970_Informative_InfGMLSupport_GmlPosition_GmlPosition);
  (n_GmlTextSymbol, n_CIM15_IEC61970_Informative_InfGMLSupport_GmlTextSymbol_GmlTextSymbol);
  (n_GmlPolygonGeometry, n_CIM15_IEC61970_Informative_InfGMLSupport_GmlPolygonGeometry_GmlPolygonGeometry);
  (n_GmlObservation, n_CIM15_IEC61970_Informative_InfGMLSupport_GmlObservation_GmlObservation);
  (n_GmlMark, n_CIM15_IEC61970_Informative_InfGMLSupport_GmlMark_GmlMark);
  (n_GmlGraphic, n_CIM15_IEC61970_Informative_InfGMLSupport_GmlGraphic_GmlGraphic);
  (n_GmlLabelPlacement, n_CIM15_IEC61970_Informative_InfGMLSupport_GmlLabelPlacement_GmlLabelPlacement);
  (n_GmlGeometryStyle, n_CIM15_IEC61970_Informative_InfGMLSupport_GmlGeometryStyle_GmlGeometryStyle);
  (n_GmlLineGeometry, n_CIM15_IEC61970_Informative_InfGMLSupport_GmlLineGeometry_GmlLineGeometry);
  (n_GmlValue, n_CIM15_IEC61970_Informative_InfGMLSupport_GmlValue_GmlValue);
  (n_GmlLineSymbol, n_CIM15_IEC61970_Informative_InfGMLSupport_GmlLineSymbol_GmlLineSymbol);
  (n_GmlDiagramObject, n_CIM15_IEC61970_Informative_InfGMLSupport_GmlDiagramObject_GmlDiagramObject);
  (n_GmlPointSymbol, n_CIM15_IEC61970_Informative_InfGMLSupport_GmlPointSymbol_GmlPointSymbol);
  (n_GmlTopologyStyle, n_CIM15_IEC61970_Informative_InfGMLSupport_GmlTopologyStyle_GmlTopologyStyle);
  (n_GmlSelector, n_CIM15_IEC61970_Informative_InfGMLSupport_GmlSelector_GmlSelector);
  (n_GmlSvgParameter, n_CIM15_IEC61970_Informative_InfGMLSupport_GmlSvgParameter_GmlSvgParameter);
  (n_GmlLabelStyle, n_CIM15_IEC61970_Informative_InfGMLSupport_GmlLabelStyle_GmlLabelStyle);
  (n_GmlFill, n_CIM15_IEC61970_Informative_InfGMLSupport_GmlFill_GmlFill);
  (n_Diagram, n_CIM15_IEC61970_Informative_InfGMLSupport_Diagram_Diagram);
  (n_GmlSymbol, n_CIM15_IEC61970_Informative_InfGMLSupport_GmlSymbol_GmlSymbol);
  (n_GmlFeatureStyle, n_CIM15_IEC61970_Informative_InfGMLSupport_GmlFeatureStyle_GmlFeatureStyle);
  (n_GmlRasterSymbol, n_CIM15_IEC61970_Informative_InfGMLSupport_GmlRasterSymbol_GmlRasterSymbol);
  (n_ModelingAuthority, n_CIM15_IEC61970_Informative_InfCore_ModelingAuthority_ModelingAuthority);
  (n_ModelingAuthoritySet, n_CIM15_IEC61970_Informative_InfCore_ModelingAuthoritySet_ModelingAuthoritySet);
  (n_LoadMgmtRecord, n_CIM15_IEC61970_Informative_InfLoadControl_LoadMgmtRecord_LoadMgmtRecord);
  (n_LoadShedFunction, n_CIM15_IEC61970_Informative_InfLoadControl_LoadShedFunction_LoadShedFunction);
  (n_LoadMgmtFunction, n_CIM15_IEC61970_Informative_InfLoadControl_LoadMgmtFunction_LoadMgmtFunction);
  (n_LoadLimitFunction, n_CIM15_IEC61970_Informative_InfLoadControl_LoadLimitFunction_LoadLimitFunction);
  (n_GasMeteringFunction, n_CIM15_IEC61970_Informative_InfMetering_GasMeteringFunction_GasMeteringFunction);
  (n_WaterMeteringFunction, n_CIM15_IEC61970_Informative_InfMetering_WaterMeteringFunction_WaterMeteringFunction);
  (n_AssetModelCatalogue, n_CIM15_IEC61970_Informative_InfAssetModels_AssetModelCatalogue_AssetModelCatalogue);
  (n_TransformerAssetModel, n_CIM15_IEC61970_Informative_InfAssetModels_TransformerAssetModel_TransformerAssetModel);
  (n_AssetModelCatalogueItem, n_CIM15_IEC61970_Informative_InfAssetModels_AssetModelCatalogueItem_AssetModelCatalogueItem);
  (n_TypeAssetCatalogue, n_CIM15_IEC61970_Informative_InfTypeAsset_TypeAssetCatalogue_TypeAssetCatalogue);
  (n_GeneratorTypeAsset, n_CIM15_IEC61970_Informative_InfTypeAsset_GeneratorTypeAsset_GeneratorTypeAsset);
  (n_SvVoltage, n_CIM15_IEC61970_StateVariables_SvVoltage_SvVoltage);
  (n_SvShortCircuit, n_CIM15_IEC61970_StateVariables_SvShortCircuit_SvShortCircuit);
  (n_SvShuntCompensatorSections, n_CIM15_IEC61970_StateVariables_SvShuntCompensatorSections_SvShuntCompensatorSections);
  (n_StateVariable, n_CIM15_IEC61970_StateVariables_StateVariable_StateVariable);
  (n_SvTapStep, n_CIM15_IEC61970_StateVariables_SvTapStep_SvTapStep);
  (n_SvStatus, n_CIM15_IEC61970_StateVariables_SvStatus_SvStatus);
  (n_SvInjection, n_CIM15_IEC61970_StateVariables_SvInjection_SvInjection);
  (n_SvPowerFlow, n_CIM15_IEC61970_StateVariables_SvPowerFlow_SvPowerFlow);
  (n_TopologicalIsland, n_CIM15_IEC61970_StateVariables_TopologicalIsland_TopologicalIsland);
  (n_PhaseImpedanceData, n_CIM15_IEC61970_Wires_PhaseImpedanceData_PhaseImpedanceData);
  (n_TapSchedule, n_CIM15_IEC61970_Wires_TapSchedule_TapSchedule);
  (n_TransformerStarImpedance, n_CIM15_IEC61970_Wires_TransformerStarImpedance_TransformerStarImpedance);
  (n_Recloser, n_CIM15_IEC61970_Wires_Recloser_Recloser);
  (n_RatioTapChangerTabularPoint, n_CIM15_IEC61970_Wires_RatioTapChangerTabularPoint_RatioTapChangerTabularPoint);
  (n_PhaseTapChangerTabular, n_CIM15_IEC61970_Wires_PhaseTapChangerTabular_PhaseTapChangerTabular);
  (n_RatioTapChanger, n_CIM15_IEC61970_Wires_RatioTapChanger_RatioTapChanger);
  (n_PhaseTapChangerLinear, n_CIM15_IEC61970_Wires_PhaseTapChangerLinear_PhaseTapChangerLinear);
  (n_ACLineSegment, n_CIM15_IEC61970_Wires_ACLineSegment_ACLineSegment);
  (n_ACLineSegmentPhase, n_CIM15_IEC61970_WiresPhaseModel_ACLineSegmentPhase_ACLineSegmentPhase);
  (n_PowerTransformerEnd, n_CIM15_IEC61970_Wires_PowerTransformerEnd_PowerTransformerEnd);
  (n_Junction, n_CIM15_IEC61970_Wires_Junction_Junction);
  (n_RegulatingCondEq, n_CIM15_IEC61970_Wires_RegulatingCondEq_RegulatingCondEq);
  (n_Sectionaliser, n_CIM15_IEC61970_Wires_Sectionaliser_Sectionaliser);
  (n_RatioTapChangerTabular, n_CIM15_IEC61970_Wires_RatioTapChangerTabular_RatioTapChangerTabular);
  (n_PowerTransformer, n_CIM15_IEC61970_Wires_PowerTransformer_PowerTransformer);
  (n_Fuse, n_CIM15_IEC61970_Wires_Fuse_Fuse);
  (n_EnergyConsumer, n_CIM15_IEC61970_Wires_EnergyConsumer_EnergyConsumer);
  (n_Disconnector, n_CIM15_IEC61970_Wires_Disconnector_Disconnector);
  (n_Connector, n_CIM15_IEC61970_Wires_Connector_Connector);
  (n_ReactiveCapabilityCurve, n_CIM15_IEC61970_Wires_ReactiveCapabilityCurve_ReactiveCapabilityCurve);
  (n_Plant, n_CIM15_IEC61970_Wires_Plant_Plant);
  (n_GroundDisconnector, n_CIM15_IEC61970_Wires_GroundDisconnector_GroundDisconnector);
  (n_Resistor, n_CIM15_IEC61970_Wires_Resistor_Resistor);
  (n_SynchronousMachine, n_CIM15_IEC61970_Wires_SynchronousMachine_SynchronousMachine);
  (n_PhaseTapChangerAsymetrical, n_CIM15_IEC61970_Wires_PhaseTapChangerAsymetrical_PhaseTapChangerAsymetrical);
  (n_RectifierInverter, n_CIM15_IEC61970_Wires_RectifierInverter_RectifierInverter);
  (n_SeriesCompensator, n_CIM15_IEC61970_Wires_SeriesCompensator_SeriesCompensator);
  (n_TapChangerControl, n_CIM15_IEC61970_Wires_TapChangerControl_TapChangerControl);
  (n_RegulatingControl, n_CIM15_IEC61970_Wires_RegulatingControl_RegulatingControl);
  (n_ProtectedSwitch, n_CIM15_IEC61970_Wires_ProtectedSwitch_ProtectedSwitch);
  (n_PhaseTapChanger, n_CIM15_IEC61970_Wires_PhaseTapChanger_PhaseTapChanger);
  (n_Ground, n_CIM15_IEC61970_Wires_Ground_Ground);
  (n_CompositeSwitch, n_CIM15_IEC61970_Wires_CompositeSwitch_CompositeSwitch);
  (n_RegulationSchedule, n_CIM15_IEC61970_Wires_RegulationSchedule_RegulationSchedule);
  (n_TransformerTankEnd, n_CIM15_IEC61970_Wires_TransformerTankEnd_TransformerTankEnd);
  (n_Breaker, n_CIM15_IEC61970_Wires_Breaker_Breaker);
  (n_MutualCoupling, n_CIM15_IEC61970_Wires_MutualCoupling_MutualCoupling);
  (n_Line, n_CIM15_IEC61970_Wires_Line_Line);
  (n_PerLengthPhaseImpedance, n_CIM15_IEC61970_Wires_PerLengthPhaseImpedance_PerLengthPhaseImpedance);
  (n_FrequencyConverter, n_CIM15_IEC61970_Wires_FrequencyConverter_FrequencyConverter);
  (n_ShuntCompensator, n_CIM15_IEC61970_Wires_ShuntCompensator_ShuntCompensator);
  (n_VoltageControlZone, n_CIM15_IEC61970_Wires_VoltageControlZone_VoltageControlZone);
  (n_LoadBreakSwitch, n_CIM15_IEC61970_Wires_LoadBreakSwitch_LoadBreakSwitch);
  (n_BusbarSection, n_CIM15_IEC61970_Wires_BusbarSection_BusbarSection);
  (n_TransformerEnd, n_CIM15_IEC61970_Wires_TransformerEnd_TransformerEnd);
  (n_TransformerCoreAdmittance, n_CIM15_IEC61970_Wires_TransformerCoreAdmittance_TransformerCoreAdmittance);
  (n_StaticVarCompensator, n_CIM15_IEC61970_Wires_StaticVarCompensator_StaticVarCompensator);
  (n_Switch, n_CIM15_IEC61970_Wires_Switch_Switch);
  (n_PerLengthSequenceImpedance, n_CIM15_IEC61970_Wires_PerLengthSequenceImpedance_PerLengthSequenceImpedance);
  (n_TransformerMeshImpedance, n_CIM15_IEC61970_Wires_TransformerMeshImpedance_TransformerMeshImpedance);
  (n_SwitchSchedule, n_CIM15_IEC61970_Wires_SwitchSchedule_SwitchSchedule);
  (n_EnergySource, n_CIM15_IEC61970_Wires_EnergySource_EnergySource);
  (n_TransformerTank, n_CIM15_IEC61970_Wires_TransformerTank_TransformerTank);
  (n_PhaseTapChangerTabularPoint, n_CIM15_IEC61970_Wires_PhaseTapChangerTabularPoint_PhaseTapChangerTabularPoint);
  (n_DCLineSegment, n_CIM15_IEC61970_Wires_DCLineSegment_DCLineSegment);
  (n_TapChanger, n_CIM15_IEC61970_Wires_TapChanger_TapChanger);
  (n_Conductor, n_CIM15_IEC61970_Wires_Conductor_Conductor);
  (n_PhaseTapChangerNonLinear, n_CIM15_IEC61970_Wires_PhaseTapChangerNonLinear_PhaseTapChangerNonLinear);
  (n_PhaseTapChangerSymetrical, n_CIM15_IEC61970_Wires_PhaseTapChangerSymetrical_PhaseTapChangerSymetrical);
  (n_Jumper, n_CIM15_IEC61970_Wires_Jumper_Jumper);
  (n_AccumulatorLimit, n_CIM15_IEC61970_Meas_AccumulatorLimit_AccumulatorLimit);
  (n_ValueToAlias, n_CIM15_IEC61970_Meas_ValueToAlias_ValueToAlias);
  (n_MeasurementValueSource, n_CIM15_IEC61970_Meas_MeasurementValueSource_MeasurementValueSource);
  (n_Analog, n_CIM15_IEC61970_Meas_Analog_Analog);
  (n_AnalogValue, n_CIM15_IEC61970_Meas_AnalogValue_AnalogValue);
  (n_Measurement, n_CIM15_IEC61970_Meas_Measurement_Measurement);
  (n_ControlType, n_CIM15_IEC61970_Meas_ControlType_ControlType);
  (n_StringMeasurementValue, n_CIM15_IEC61970_Meas_StringMeasurementValue_StringMeasurementValue);
  (n_StringMeasurement, n_CIM15_IEC61970_Meas_StringMeasurement_StringMeasurement);
  (n_AnalogLimit, n_CIM15_IEC61970_Meas_AnalogLimit_AnalogLimit);
  (n_SetPoint, n_CIM15_IEC61970_Meas_SetPoint_SetPoint);
  (n_Limit, n_CIM15_IEC61970_Meas_Limit_Limit);
  (n_Discrete, n_CIM15_IEC61970_Meas_Discrete_Discrete);
  (n_ValueAliasSet, n_CIM15_IEC61970_Meas_ValueAliasSet_ValueAliasSet);
  (n_Quality61850, n_CIM15_IEC61970_Meas_Quality61850_Quality61850);
  (n_AccumulatorValue, n_CIM15_IEC61970_Meas_AccumulatorValue_AccumulatorValue);
  (n_Command, n_CIM15_IEC61970_Meas_Command_Command);
  (n_Accumulator, n_CIM15_IEC61970_Meas_Accumulator_Accumulator);
  (n_MeasurementValueQuality, n_CIM15_IEC61970_Meas_MeasurementValueQuality_MeasurementValueQuality);
  (n_MeasurementValue, n_CIM15_IEC61970_Meas_MeasurementValue_MeasurementValue);
  (n_DiscreteValue, n_CIM15_IEC61970_Meas_DiscreteValue_DiscreteValue);
  (n_AnalogLimitSet, n_CIM15_IEC61970_Meas_AnalogLimitSet_AnalogLimitSet);
  (n_LimitSet, n_CIM15_IEC61970_Meas_LimitSet_LimitSet);
  (n_AccumulatorLimitSet, n_CIM15_IEC61970_Meas_AccumulatorLimitSet_AccumulatorLimitSet);
  (n_Control, n_CIM15_IEC61970_Meas_Control_Control);
  (n_ConformLoad, n_CIM15_IEC61970_LoadModel_ConformLoad_ConformLoad);
  (n_ConformLoadGroup, n_CIM15_IEC61970_LoadModel_ConformLoadGroup_ConformLoadGroup);
  (n_SeasonDayTypeSchedule, n_CIM15_IEC61970_LoadModel_SeasonDayTypeSchedule_SeasonDayTypeSchedule);
  (n_LoadGroup, n_CIM15_IEC61970_LoadModel_LoadGroup_LoadGroup);
  (n_ConformLoadSchedule, n_CIM15_IEC61970_LoadModel_ConformLoadSchedule_ConformLoadSchedule);
  (n_LoadArea, n_CIM15_IEC61970_LoadModel_LoadArea_LoadArea);
  (n_PowerCutZone, n_CIM15_IEC61970_LoadModel_PowerCutZone_PowerCutZone);
  (n_LoadResponseCharacteristic, n_CIM15_IEC61970_LoadModel_LoadResponseCharacteristic_LoadResponseCharacteristic);
  (n_NonConformLoad, n_CIM15_IEC61970_LoadModel_NonConformLoad_NonConformLoad);
  (n_StationSupply, n_CIM15_IEC61970_LoadModel_StationSupply_StationSupply);
  (n_EnergyArea, n_CIM15_IEC61970_LoadModel_EnergyArea_EnergyArea);
  (n_NonConformLoadSchedule, n_CIM15_IEC61970_LoadModel_NonConformLoadSchedule_NonConformLoadSchedule);
  (n_NonConformLoadGroup, n_CIM15_IEC61970_LoadModel_NonConformLoadGroup_NonConformLoadGroup);
  (n_DayType, n_CIM15_IEC61970_LoadModel_DayType_DayType);
  (n_SubLoadArea, n_CIM15_IEC61970_LoadModel_SubLoadArea_SubLoadArea);
  (n_Season, n_CIM15_IEC61970_LoadModel_Season_Season);
  (n_SwitchPhase, n_CIM15_IEC61970_WiresPhaseModel_SwitchPhase_SwitchPhase);
  (n_ShuntCompensatorPhase, n_CIM15_IEC61970_WiresPhaseModel_ShuntCompensatorPhase_ShuntCompensatorPhase);
  (n_EnergyConsumerPhase, n_CIM15_IEC61970_WiresPhaseModel_EnergyConsumerPhase_EnergyConsumerPhase);
  (n_AltTieMeas, n_CIM15_IEC61970_ControlArea_AltTieMeas_AltTieMeas);
  (n_AltGeneratingUnitMeas, n_CIM15_IEC61970_ControlArea_AltGeneratingUnitMeas_AltGeneratingUnitMeas);
  (n_TieFlow, n_CIM15_IEC61970_ControlArea_TieFlow_TieFlow);
  (n_ControlArea, n_CIM15_IEC61970_ControlArea_ControlArea_ControlArea);
  (n_ControlAreaGeneratingUnit, n_CIM15_IEC61970_ControlArea_ControlAreaGeneratingUnit_ControlAreaGeneratingUnit);
  (n_PotentialTransformer, n_CIM15_IEC61970_AuxiliaryEquipment_PotentialTransformer_PotentialTransformer);
  (n_Sensor, n_CIM15_IEC61970_AuxiliaryEquipment_Sensor_Sensor);
  (n_AuxiliaryEquipment, n_CIM15_IEC61970_AuxiliaryEquipment_AuxiliaryEquipment_AuxiliaryEquipment);
  (n_CurrentTransformer, n_CIM15_IEC61970_AuxiliaryEquipment_CurrentTransformer_CurrentTransformer);
  (n_SurgeProtector, n_CIM15_IEC61970_AuxiliaryEquipment_SurgeProtector_SurgeProtector);
  (n_FaultIndicator, n_CIM15_IEC61970_AuxiliaryEquipment_FaultIndicator_FaultIndicator);
  (n_DateTimeInterval, n_CIM15_IEC61970_Domain_DateTimeInterval_DateTimeInterval);
  (n_PowerSystemResource, n_CIM15_IEC61970_Core_PowerSystemResource_PowerSystemResource);
  (n_NameTypeAuthority, n_CIM15_IEC61970_Core_NameTypeAuthority_NameTypeAuthority);
  (n_Equipment, n_CIM15_IEC61970_Core_Equipment_Equipment);
  (n_ConductingEquipment, n_CIM15_IEC61970_Core_ConductingEquipment_ConductingEquipment);
  (n_RegularTimePoint, n_CIM15_IEC61970_Core_RegularTimePoint_RegularTimePoint);
  (n_ConnectivityNode, n_CIM15_IEC61970_Core_ConnectivityNode_ConnectivityNode);
  (n_PSRType, n_CIM15_IEC61970_Core_PSRType_PSRType);
  (n_ConnectivityNodeContainer, n_CIM15_IEC61970_Core_ConnectivityNodeContainer_ConnectivityNodeContainer);
  (n_Bay, n_CIM15_IEC61970_Core_Bay_Bay);
  (n_EquipmentContainer, n_CIM15_IEC61970_Core_EquipmentContainer_EquipmentContainer);
  (n_ReportingGroup, n_CIM15_IEC61970_Core_ReportingGroup_ReportingGroup);
  (n_BasePower, n_CIM15_IEC61970_Core_BasePower_BasePower);
  (n_PsrList, n_CIM15_IEC61970_Core_PsrList_PsrList);
  (n_IdentifiedObject, n_CIM15_IEC61970_Core_IdentifiedObject_IdentifiedObject);
  (n_BasicIntervalSchedule, n_CIM15_IEC61970_Core_BasicIntervalSchedule_BasicIntervalSchedule);
  (n_Curve, n_CIM15_IEC61970_Core_Curve_Curve);
  (n_GeographicalRegion, n_CIM15_IEC61970_Core_GeographicalRegion_GeographicalRegion);
  (n_CurveData, n_CIM15_IEC61970_Core_CurveData_CurveData);
  (n_SubGeographicalRegion, n_CIM15_IEC61970_Core_SubGeographicalRegion_SubGeographicalRegion);
  (n_NameType, n_CIM15_IEC61970_Core_NameType_NameType);
  (n_Substation, n_CIM15_IEC61970_Core_Substation_Substation);
  (n_Name, n_CIM15_IEC61970_Core_Name_Name);
  (n_BaseVoltage, n_CIM15_IEC61970_Core_BaseVoltage_BaseVoltage);
  (n_Terminal, n_CIM15_IEC61970_Core_Terminal_Terminal);
  (n_IrregularIntervalSchedule, n_CIM15_IEC61970_Core_IrregularIntervalSchedule_IrregularIntervalSchedule);
  (n_RegularIntervalSchedule, n_CIM15_IEC61970_Core_RegularIntervalSchedule_RegularIntervalSchedule);
  (n_OperatingParticipant, n_CIM15_IEC61970_Core_OperatingParticipant_OperatingParticipant);
  (n_OperatingShare, n_CIM15_IEC61970_Core_OperatingShare_OperatingShare);
  (n_VoltageLevel, n_CIM15_IEC61970_Core_VoltageLevel_VoltageLevel);
  (n_ReportingSuperGroup, n_CIM15_IEC61970_Core_ReportingSuperGroup_ReportingSuperGroup);
  (n_IrregularTimePoint, n_CIM15_IEC61970_Core_IrregularTimePoint_IrregularTimePoint);
  (n_TextDiagramObject, n_CIM15_IEC61970_Graphics_TextDiagramObject_TextDiagramObject);
  (n_DiagramObjectGluePoint, n_CIM15_IEC61970_Graphics_DiagramObjectGluePoint_DiagramObjectGluePoint);
  (n_DiagramObject, n_CIM15_IEC61970_Graphics_DiagramObject_DiagramObject);
  (n_DiagramObjectStyle, n_CIM15_IEC61970_Graphics_DiagramObjectStyle_DiagramObjectStyle);
  (n_DiagramObjectPoint, n_CIM15_IEC61970_Graphics_DiagramObjectPoint_DiagramObjectPoint);
  (n_VisibilityLayer, n_CIM15_IEC61970_Graphics_VisibilityLayer_VisibilityLayer);
  (n_ApparentPowerLimit, n_CIM15_IEC61970_OperationalLimits_ApparentPowerLimit_ApparentPowerLimit);
  (n_ActivePowerLimit, n_CIM15_IEC61970_OperationalLimits_ActivePowerLimit_ActivePowerLimit);
  (n_OperationalLimitType, n_CIM15_IEC61970_OperationalLimits_OperationalLimitType_OperationalLimitType);
  (n_BranchGroup, n_CIM15_IEC61970_OperationalLimits_BranchGroup_BranchGroup);
  (n_OperationalLimitSet, n_CIM15_IEC61970_OperationalLimits_OperationalLimitSet_OperationalLimitSet);
  (n_ActivePowerLimitSet, n_CIM15_IEC61970_OperationalLimits_ActivePowerLimitSet_ActivePowerLimitSet);
  (n_CurrentLimit, n_CIM15_IEC61970_OperationalLimits_CurrentLimit_CurrentLimit);
  (n_CurrentLimitSet, n_CIM15_IEC61970_OperationalLimits_CurrentLimitSet_CurrentLimitSet);
  (n_ApparentPowerLimitSet, n_CIM15_IEC61970_OperationalLimits_ApparentPowerLimitSet_ApparentPowerLimitSet);
  (n_BranchGroupTerminal, n_CIM15_IEC61970_OperationalLimits_BranchGroupTerminal_BranchGroupTerminal);
  (n_VoltageLimitSet, n_CIM15_IEC61970_OperationalLimits_VoltageLimitSet_VoltageLimitSet);
  (n_VoltageLimit, n_CIM15_IEC61970_OperationalLimits_VoltageLimit_VoltageLimit);
  (n_OperationalLimit, n_CIM15_IEC61970_OperationalLimits_OperationalLimit_OperationalLimit);
  (n_SwitchingOperation, n_CIM15_IEC61970_Outage_SwitchingOperation_SwitchingOperation);
  (n_OutageSchedule, n_CIM15_IEC61970_Outage_OutageSchedule_OutageSchedule);
  (n_ClearanceTagType, n_CIM15_IEC61970_Outage_ClearanceTagType_ClearanceTagType);
  (n_ClearanceTag, n_CIM15_IEC61970_Outage_ClearanceTag_ClearanceTag);
  (n_Cut, n_CIM15_IEC61970_CutsJumpers_Cut_Cut);
  (n_Clamp, n_CIM15_IEC61970_CutsJumpers_Clamp_Clamp);
  (n_RecloseSequence, n_CIM15_IEC61970_Protection_RecloseSequence_RecloseSequence);
  (n_SynchrocheckRelay, n_CIM15_IEC61970_Protection_SynchrocheckRelay_SynchrocheckRelay);
  (n_CurrentRelay, n_CIM15_IEC61970_Protection_CurrentRelay_CurrentRelay);
  (n_ProtectionEquipment, n_CIM15_IEC61970_Protection_ProtectionEquipment_ProtectionEquipment);
  (n_EquivalentShunt, n_CIM15_IEC61970_Equivalents_EquivalentShunt_EquivalentShunt);
  (n_EquivalentEquipment, n_CIM15_IEC61970_Equivalents_EquivalentEquipment_EquivalentEquipment);
  (n_EquivalentNetwork, n_CIM15_IEC61970_Equivalents_EquivalentNetwork_EquivalentNetwork);
  (n_EquivalentInjection, n_CIM15_IEC61970_Equivalents_EquivalentInjection_EquivalentInjection);
  (n_EquivalentBranch, n_CIM15_IEC61970_Equivalents_EquivalentBranch_EquivalentBranch);
  (n_ContingencyEquipment, n_CIM15_IEC61970_Contingency_ContingencyEquipment_ContingencyEquipment);
  (n_Contingency, n_CIM15_IEC61970_Contingency_Contingency_Contingency);
  (n_ContingencyElement, n_CIM15_IEC61970_Contingency_ContingencyElement_ContingencyElement);
  (n_BusNameMarker, n_CIM15_IEC61970_Topology_BusNameMarker_BusNameMarker);
  (n_TopologicalNode, n_CIM15_IEC61970_Topology_TopologicalNode_TopologicalNode);
  (n_IEC61968CIMVersion, n_CIM15_IEC61968_IEC61968CIMVersion_IEC61968CIMVersion);
  (n_PostalAddress, n_CIM15_IEC61968_Common_PostalAddress_PostalAddress);
  (n_Status, n_CIM15_IEC61968_Common_Status_Status);
  (n_ElectronicAddress, n_CIM15_IEC61968_Common_ElectronicAddress_ElectronicAddress);
  (n_Location, n_CIM15_IEC61968_Common_Location_Location);
  (n_TownDetail, n_CIM15_IEC61968_Common_TownDetail_TownDetail);
  (n_CoordinateSystem, n_CIM15_IEC61968_Common_CoordinateSystem_CoordinateSystem);
  (n_Document, n_CIM15_IEC61968_Common_Document_Document);
  (n_PositionPoint, n_CIM15_IEC61968_Common_PositionPoint_PositionPoint);
  (n_UserAttribute, n_CIM15_IEC61968_Common_UserAttribute_UserAttribute);
  (n_StreetAddress, n_CIM15_IEC61968_Common_StreetAddress_StreetAddress);
  (n_StreetDetail, n_CIM15_IEC61968_Common_StreetDetail_StreetDetail);
  (n_TimeSchedule, n_CIM15_IEC61968_Common_TimeSchedule_TimeSchedule);
  (n_ActivityRecord, n_CIM15_IEC61968_Common_ActivityRecord_ActivityRecord);
  (n_TimePoint, n_CIM15_IEC61968_Common_TimePoint_TimePoint);
  (n_Organisation, n_CIM15_IEC61968_Common_Organisation_Organisation);
  (n_TelephoneNumber, n_CIM15_IEC61968_Common_TelephoneNumber_TelephoneNumber);
  (n_Agreement, n_CIM15_IEC61968_Common_Agreement_Agreement);
  (n_ShortCircuitTest, n_CIM15_IEC61968_AssetModels_ShortCircuitTest_ShortCircuitTest);
  (n_EndDeviceInfo, n_CIM15_IEC61968_AssetModels_EndDeviceInfo_EndDeviceInfo);
  (n_WireType, n_CIM15_IEC61968_AssetModels_WireType_WireType);
  (n_TapeShieldCableInfo, n_CIM15_IEC61968_AssetModels_TapeShieldCableInfo_TapeShieldCableInfo);
  (n_ConductorInfo, n_CIM15_IEC61968_AssetModels_ConductorInfo_ConductorInfo);
  (n_TapChangerInfo, n_CIM15_IEC61968_AssetModels_TapChangerInfo_TapChangerInfo);
  (n_TransformerTankInfo, n_CIM15_IEC61968_AssetModels_TransformerTankInfo_TransformerTankInfo);
  (n_PowerTransformerInfo, n_CIM15_IEC61968_AssetModels_PowerTransformerInfo_PowerTransformerInfo);
  (n_OpenCircuitTest, n_CIM15_IEC61968_AssetModels_OpenCircuitTest_OpenCircuitTest);
  (n_CableInfo, n_CIM15_IEC61968_AssetModels_CableInfo_CableInfo);
  (n_TransformerEndInfo, n_CIM15_IEC61968_AssetModels_TransformerEndInfo_TransformerEndInfo);
  (n_NoLoadTest, n_CIM15_IEC61968_AssetModels_NoLoadTest_NoLoadTest);
  (n_OverheadConductorInfo, n_CIM15_IEC61968_AssetModels_OverheadConductorInfo_OverheadConductorInfo);
  (n_ConcentricNeutralCableInfo, n_CIM15_IEC61968_AssetModels_ConcentricNeutralCableInfo_ConcentricNeutralCableInfo);
  (n_WireArrangement, n_CIM15_IEC61968_AssetModels_WireArrangement_WireArrangement);
  (n_TransformerTest, n_CIM15_IEC61968_AssetModels_TransformerTest_TransformerTest);
  (n_SDPLocation, n_CIM15_IEC61968_Metering_SDPLocation_SDPLocation);
  (n_Reading, n_CIM15_IEC61968_Metering_Reading_Reading);
  (n_ServiceDeliveryPoint, n_CIM15_IEC61968_Metering_ServiceDeliveryPoint_ServiceDeliveryPoint);
  (n_ElectricMeteringFunction, n_CIM15_IEC61968_Metering_ElectricMeteringFunction_ElectricMeteringFunction);
  (n_DemandResponseProgram, n_CIM15_IEC61968_Metering_DemandResponseProgram_DemandResponseProgram);
  (n_ReadingMultiplier, n_CIM15_IEC61968_Metering_ReadingMultiplier_ReadingMultiplier);
  (n_MeterReading, n_CIM15_IEC61968_Metering_MeterReading_MeterReading);
  (n_ReadingQuality, n_CIM15_IEC61968_Metering_ReadingQuality_ReadingQuality);
  (n_EndDeviceEvent, n_CIM15_IEC61968_Metering_EndDeviceEvent_EndDeviceEvent);
  (n_IntervalReading, n_CIM15_IEC61968_Metering_IntervalReading_IntervalReading);
  (n_Meter, n_CIM15_IEC61968_Metering_Meter_Meter);
  (n_MeterServiceWork, n_CIM15_IEC61968_Metering_MeterServiceWork_MeterServiceWork);
  (n_PendingCalculation, n_CIM15_IEC61968_Metering_PendingCalculation_PendingCalculation);
  (n_IntervalBlock, n_CIM15_IEC61968_Metering_IntervalBlock_IntervalBlock);
  (n_EndDeviceFunction, n_CIM15_IEC61968_Metering_EndDeviceFunction_EndDeviceFunction);
  (n_ComFunction, n_CIM15_IEC61968_Metering_ComFunction_ComFunction);
  (n_EndDevice, n_CIM15_IEC61968_Metering_EndDevice_EndDevice);
  (n_SimpleEndDeviceFunction, n_CIM15_IEC61968_Metering_SimpleEndDeviceFunction_SimpleEndDeviceFunction);
  (n_EndDeviceGroup, n_CIM15_IEC61968_Metering_EndDeviceGroup_EndDeviceGroup);
  (n_Register, n_CIM15_IEC61968_Metering_Register_Register);
  (n_EndDeviceControl, n_CIM15_IEC61968_Metering_EndDeviceControl_EndDeviceControl);
  (n_DynamicDemand, n_CIM15_IEC61968_Metering_DynamicDemand_DynamicDemand);
  (n_ReadingType, n_CIM15_IEC61968_Metering_ReadingType_ReadingType);
  (n_VendorShift, n_CIM15_IEC61968_PaymentMetering_VendorShift_VendorShift);
  (n_Transactor, n_CIM15_IEC61968_PaymentMetering_Transactor_Transactor);
  (n_CashierShift, n_CIM15_IEC61968_PaymentMetering_CashierShift_CashierShift);
  (n_TariffProfile, n_CIM15_IEC61968_PaymentMetering_TariffProfile_TariffProfile);
  (n_AccountingUnit, n_CIM15_IEC61968_PaymentMetering_AccountingUnit_AccountingUnit);
  (n_Transaction, n_CIM15_IEC61968_PaymentMetering_Transaction_Transaction);
  (n_TimeTariffInterval, n_CIM15_IEC61968_PaymentMetering_TimeTariffInterval_TimeTariffInterval);
  (n_Charge, n_CIM15_IEC61968_PaymentMetering_Charge_Charge);
  (n_AuxiliaryAgreement, n_CIM15_IEC61968_PaymentMetering_AuxiliaryAgreement_AuxiliaryAgreement);
  (n_Tender, n_CIM15_IEC61968_PaymentMetering_Tender_Tender);
  (n_ServiceSupplier, n_CIM15_IEC61968_PaymentMetering_ServiceSupplier_ServiceSupplier);
  (n_MerchantAgreement, n_CIM15_IEC61968_PaymentMetering_MerchantAgreement_MerchantAgreement);
  (n_LineDetail, n_CIM15_IEC61968_PaymentMetering_LineDetail_LineDetail);
  (n_ConsumptionTariffInterval, n_CIM15_IEC61968_PaymentMetering_ConsumptionTariffInterval_ConsumptionTariffInterval);
  (n_Vendor, n_CIM15_IEC61968_PaymentMetering_Vendor_Vendor);
  (n_Cheque, n_CIM15_IEC61968_PaymentMetering_Cheque_Cheque);
  (n_AccountMovement, n_CIM15_IEC61968_PaymentMetering_AccountMovement_AccountMovement);
  (n_Shift, n_CIM15_IEC61968_PaymentMetering_Shift_Shift);
  (n_Receipt, n_CIM15_IEC61968_PaymentMetering_Receipt_Receipt);
  (n_Due, n_CIM15_IEC61968_PaymentMetering_Due_Due);
  (n_BankAccountDetail, n_CIM15_IEC61968_PaymentMetering_BankAccountDetail_BankAccountDetail);
  (n_AuxiliaryAccount, n_CIM15_IEC61968_PaymentMetering_AuxiliaryAccount_AuxiliaryAccount);
  (n_Cashier, n_CIM15_IEC61968_PaymentMetering_Cashier_Cashier);
  (n_Card, n_CIM15_IEC61968_PaymentMetering_Card_Card);
  (n_MerchantAccount, n_CIM15_IEC61968_PaymentMetering_MerchantAccount_MerchantAccount);
  (n_PointOfSale, n_CIM15_IEC61968_PaymentMetering_PointOfSale_PointOfSale);
  (n_ProductAssetModel, n_CIM15_IEC61968_Assets_ProductAssetModel_ProductAssetModel);
  (n_AssetModel, n_CIM15_IEC61968_Assets_AssetModel_AssetModel);
  (n_Asset, n_CIM15_IEC61968_Assets_Asset_Asset);
  (n_ComMedia, n_CIM15_IEC61968_Assets_ComMedia_ComMedia);
  (n_AssetContainer, n_CIM15_IEC61968_Assets_AssetContainer_AssetContainer);
  (n_AssetFunction, n_CIM15_IEC61968_Assets_AssetFunction_AssetFunction);
  (n_Seal, n_CIM15_IEC61968_Assets_Seal_Seal);
  (n_AssetInfo, n_CIM15_IEC61968_Assets_AssetInfo_AssetInfo);
  (n_AcceptanceTest, n_CIM15_IEC61968_Assets_AcceptanceTest_AcceptanceTest);
  (n_Work, n_CIM15_IEC61968_Work_Work_Work);
  (n_Tariff, n_CIM15_IEC61968_Customers_Tariff_Tariff);
  (n_CustomerAccount, n_CIM15_IEC61968_Customers_CustomerAccount_CustomerAccount);
  (n_ServiceLocation, n_CIM15_IEC61968_Customers_ServiceLocation_ServiceLocation);
  (n_CustomerAgreement, n_CIM15_IEC61968_Customers_CustomerAgreement_CustomerAgreement);
  (n_ServiceCategory, n_CIM15_IEC61968_Customers_ServiceCategory_ServiceCategory);
  (n_PricingStructure, n_CIM15_IEC61968_Customers_PricingStructure_PricingStructure);
  (n_Customer, n_CIM15_IEC61968_Customers_Customer_Customer);
  (n_ConnectDisconnectFunction, n_CIM15_IEC61968_LoadControl_ConnectDisconnectFunction_ConnectDisconnectFunction);
  (n_RemoteConnectDisconnectInfo, n_CIM15_IEC61968_LoadControl_RemoteConnectDisconnectInfo_RemoteConnectDisconnectInfo);
  (n_MarketParticipant, n_CIM15_IEC62325_MarketParticipant_MarketParticipant);
  (n_IEC62325CIMVersion, n_CIM15_IEC62325_IEC62325CIMVersion_IEC62325CIMVersion);
  (n_MarketRole, n_CIM15_IEC62325_MarketRole_MarketRole);
  (n_PackageDependenciesCIMVeresion, n_CIM15_PackageDependencies_PackageDependenciesCIMVeresion_PackageDependenciesCIMVeresion);
  (n_CurrentTemperatureCurve, n_CIM15_IEC61970_Wires_CurrentTemperatureCurve_CurrentTemperatureCurve);
  (n_CheckPoint, n_CIM15_IEC61970_OperationalLimits_CheckPoint_CheckPoint);
  (n_VoltageCheckPoint, n_CIM15_IEC61970_OperationalLimits_VoltageCheckPoint_VoltageCheckPoint);
  (n_VoltageTimeCurve, n_CIM15_IEC61970_OperationalLimits_VoltageTimeCurve_VoltageTimeCurve)
].

(** nsURI and nsPrefix, CIM15/__init__.py. *)
Definition cim15_uri : name := n_http___iec_ch_TC57_2010_CIM_schema_cim15.
Definition cim15_prefix : name := n_cim.

