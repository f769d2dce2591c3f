(** Generated by tools/gen_tables.py from CIM14: do not edit. *)
From stdpp Require Import prelude.
From Verif Require Import PyStr PyHeap Schema Names.

(** Class table of CIM14: 471 classes. *)
Definition cim14 : schema := [
(* CIM14/CombinedVersion.py:23-46 *)
  Cls n_CIM14_CombinedVersion_CombinedVersion n_CombinedVersion (Some n_CIM14_Element_Element)
    [(n_version, VStr n_); (n_date, VStr n_)]
    [SAttr n_version; SAttr n_date]
    true true
    [n_version; n_date]
    [(n_version, VStr n_); (n_date, VStr n_)]
    []
    []
    []
    [];
(* CIM14/Element.py:22-38 *)
  Cls n_CIM14_Element_Element n_Element None
    [(n_UUID, VStr n_)]
    [SAttr n_UUID]
    false true
    [n_UUID]
    [(n_UUID, VStr n_)]
    []
    []
    []
    [];
(* CIM14/IEC61968/AssetModels/AssetModel.py:23-58 *)
  Cls n_CIM14_IEC61968_AssetModels_AssetModel_AssetModel n_AssetModel (Some n_CIM14_IEC61970_Core_IdentifiedObject_IdentifiedObject)
    [(n_usageKind, VStr n_streetlight); (n_corporateStandardKind, VStr n_other); (n_modelNumber, VStr n_); (n_weightTotal, VFloat n_0_0); (n_modelVersion, VStr n_)]
    [SAttr n_usageKind; SAttr n_corporateStandardKind; SAttr n_modelNumber; SAttr n_weightTotal; SAttr n_modelVersion]
    true true
    [n_usageKind; n_corporateStandardKind; n_modelNumber; n_weightTotal; n_modelVersion]
    [(n_usageKind, VStr n_streetlight); (n_corporateStandardKind, VStr n_other); (n_modelNumber, VStr n_); (n_weightTotal, VFloat n_0_0); (n_modelVersion, VStr n_)]
    [(n_usageKind, n_AssetModelUsageKind); (n_corporateStandardKind, n_CorporateStandardKind)]
    []
    []
    [];
(* CIM14/IEC61968/AssetModels/CableInfo.py:23-78 *)
  Cls n_CIM14_IEC61968_AssetModels_CableInfo_CableInfo n_CableInfo (Some n_CIM14_IEC61968_AssetModels_ConductorInfo_ConductorInfo)
    [(n_constructionKind, VStr n_sector); (n_shieldMaterial, VStr n_steel); (n_outerJacketKind, VStr n_polyethylene); (n_isStrandFill, VBool false); (n_diameterOverScreen, VFloat n_0_0); (n_diameterOverInsulation, VFloat n_0_0); (n_diameterOverJacket, VFloat n_0_0); (n_nominalTemperature, VFloat n_0_0); (n_diameterOverCore, VFloat n_0_0); (n_sheathAsNeutral, VBool false)]
    [SAttr n_constructionKind; SAttr n_shieldMaterial; SAttr n_outerJacketKind; SAttr n_isStrandFill; SAttr n_diameterOverScreen; SAttr n_diameterOverInsulation; SAttr n_diameterOverJacket; SAttr n_nominalTemperature; SAttr n_diameterOverCore; SAttr n_sheathAsNeutral]
    true true
    [n_constructionKind; n_shieldMaterial; n_outerJacketKind; n_isStrandFill; n_diameterOverScreen; n_diameterOverInsulation; n_diameterOverJacket; n_nominalTemperature; n_diameterOverCore; n_sheathAsNeutral]
    [(n_constructionKind, VStr n_sector); (n_shieldMaterial, VStr n_steel); (n_outerJacketKind, VStr n_polyethylene); (n_isStrandFill, VBool false); (n_diameterOverScreen, VFloat n_0_0); (n_diameterOverInsulation, VFloat n_0_0); (n_diameterOverJacket, VFloat n_0_0); (n_nominalTemperature, VFloat n_0_0); (n_diameterOverCore, VFloat n_0_0); (n_sheathAsNeutral, VBool false)]
    [(n_constructionKind, n_CableConstructionKind); (n_shieldMaterial, n_CableShieldMaterialKind); (n_outerJacketKind, n_CableOuterJacketKind)]
    []
    []
    [];
(* CIM14/IEC61968/AssetModels/ConcentricNeutralCableInfo.py:23-67 *)
  Cls n_CIM14_IEC61968_AssetModels_ConcentricNeutralCableInfo_ConcentricNeutralCableInfo n_ConcentricNeutralCableInfo (Some n_CIM14_IEC61968_AssetModels_CableInfo_CableInfo)
    [(n_diameterOverNeutral, VFloat n_0_0); (n_neutralStrandCount, VInt 0); (n_WireType, VNone)]
    [SAttr n_diameterOverNeutral; SAttr n_neutralStrandCount; SOne n_WireType]
    true true
    [n_diameterOverNeutral; n_neutralStrandCount]
    [(n_diameterOverNeutral, VFloat n_0_0); (n_neutralStrandCount, VInt 0)]
    []
    [n_WireType]
    []
    [(n_WireType, POneMany n_ConcentricNeutralCableInfos)];
(* CIM14/IEC61968/AssetModels/ConductorInfo.py:23-110 *)
  Cls n_CIM14_IEC61968_AssetModels_ConductorInfo_ConductorInfo n_ConductorInfo (Some n_CIM14_IEC61970_Core_IdentifiedObject_IdentifiedObject)
    [(n_usage, VStr n_distribution); (n_insulationMaterial, VStr n_crosslinkedPolyethylene); (n_insulated, VBool false); (n_insulationThickness, VFloat n_0_0); (n_phaseCount, VInt 0); (n_ConductorSegments, VNone); (n_WireArrangements, VNone)]
    [SAttr n_usage; SAttr n_insulationMaterial; SAttr n_insulated; SAttr n_insulationThickness; SAttr n_phaseCount; SMany n_ConductorSegments; SMany n_WireArrangements]
    true true
    [n_usage; n_insulationMaterial; n_insulated; n_insulationThickness; n_phaseCount]
    [(n_usage, VStr n_distribution); (n_insulationMaterial, VStr n_crosslinkedPolyethylene); (n_insulated, VBool false); (n_insulationThickness, VFloat n_0_0); (n_phaseCount, VInt 0)]
    [(n_usage, n_ConductorUsageKind); (n_insulationMaterial, n_ConductorInsulationKind)]
    [n_ConductorSegments; n_WireArrangements]
    [n_ConductorSegments; n_WireArrangements]
    [(n_ConductorSegments, PManyOne n_ConductorInfo); (n_WireArrangements, PManyOne n_ConductorInfo)];
(* CIM14/IEC61968/AssetModels/DistributionWindingTest.py:23-63 *)
  Cls n_CIM14_IEC61968_AssetModels_DistributionWindingTest_DistributionWindingTest n_DistributionWindingTest (Some n_CIM14_IEC61970_Core_IdentifiedObject_IdentifiedObject)
    [(n_fromTapStep, VInt 0); (n_FromWinding, VNone)]
    [SAttr n_fromTapStep; SOne n_FromWinding]
    true true
    [n_fromTapStep]
    [(n_fromTapStep, VInt 0)]
    []
    [n_FromWinding]
    []
    [(n_FromWinding, POneMany n_WindingTests)];
(* CIM14/IEC61968/AssetModels/EndDeviceModel.py:23-64 *)
  Cls n_CIM14_IEC61968_AssetModels_EndDeviceModel_EndDeviceModel n_EndDeviceModel (Some n_CIM14_IEC61968_AssetModels_AssetModel_AssetModel)
    [(n_EndDeviceAssets, VNone)]
    [SMany n_EndDeviceAssets]
    true true
    []
    []
    []
    [n_EndDeviceAssets]
    [n_EndDeviceAssets]
    [(n_EndDeviceAssets, PManyOne n_EndDeviceModel)];
(* CIM14/IEC61968/AssetModels/OpenCircuitTest.py:23-86 *)
  Cls n_CIM14_IEC61968_AssetModels_OpenCircuitTest_OpenCircuitTest n_OpenCircuitTest (Some n_CIM14_IEC61968_AssetModels_DistributionWindingTest_DistributionWindingTest)
    [(n_excitingCurrentZero, VFloat n_0_0); (n_noLoadLossZero, VFloat n_0_0); (n_noLoadLoss, VFloat n_0_0); (n_excitingCurrent, VFloat n_0_0); (n_MeasuredWindingSpecs, VNone)]
    [SAttr n_excitingCurrentZero; SAttr n_noLoadLossZero; SAttr n_noLoadLoss; SAttr n_excitingCurrent; SMany n_MeasuredWindingSpecs]
    true true
    [n_excitingCurrentZero; n_noLoadLossZero; n_noLoadLoss; n_excitingCurrent]
    [(n_excitingCurrentZero, VFloat n_0_0); (n_noLoadLossZero, VFloat n_0_0); (n_noLoadLoss, VFloat n_0_0); (n_excitingCurrent, VFloat n_0_0)]
    []
    [n_MeasuredWindingSpecs]
    [n_MeasuredWindingSpecs]
    [(n_MeasuredWindingSpecs, PManyMany n_OpenCircuitTests)];
(* CIM14/IEC61968/AssetModels/OverheadConductorInfo.py:23-50 *)
  Cls n_CIM14_IEC61968_AssetModels_OverheadConductorInfo_OverheadConductorInfo n_OverheadConductorInfo (Some n_CIM14_IEC61968_AssetModels_ConductorInfo_ConductorInfo)
    [(n_neutralInsulationThickness, VFloat n_0_0); (n_phaseConductorSpacing, VFloat n_0_0); (n_phaseConductorCount, VInt 0)]
    [SAttr n_neutralInsulationThickness; SAttr n_phaseConductorSpacing; SAttr n_phaseConductorCount]
    true true
    [n_neutralInsulationThickness; n_phaseConductorSpacing; n_phaseConductorCount]
    [(n_neutralInsulationThickness, VFloat n_0_0); (n_phaseConductorSpacing, VFloat n_0_0); (n_phaseConductorCount, VInt 0)]
    []
    []
    []
    [];
(* CIM14/IEC61968/AssetModels/ShortCircuitTest.py:23-86 *)
  Cls n_CIM14_IEC61968_AssetModels_ShortCircuitTest_ShortCircuitTest n_ShortCircuitTest (Some n_CIM14_IEC61968_AssetModels_DistributionWindingTest_DistributionWindingTest)
    [(n_loadLossZero, VFloat n_0_0); (n_leakageImpedanceZero, VFloat n_0_0); (n_leakageImpedance, VFloat n_0_0); (n_loadLoss, VFloat n_0_0); (n_ShortedWindingSpecs, VNone)]
    [SAttr n_loadLossZero; SAttr n_leakageImpedanceZero; SAttr n_leakageImpedance; SAttr n_loadLoss; SMany n_ShortedWindingSpecs]
    true true
    [n_loadLossZero; n_leakageImpedanceZero; n_leakageImpedance; n_loadLoss]
    [(n_loadLossZero, VFloat n_0_0); (n_leakageImpedanceZero, VFloat n_0_0); (n_leakageImpedance, VFloat n_0_0); (n_loadLoss, VFloat n_0_0)]
    []
    [n_ShortedWindingSpecs]
    [n_ShortedWindingSpecs]
    [(n_ShortedWindingSpecs, PManyMany n_ShortCircuitTests)];
(* CIM14/IEC61968/AssetModels/TapeShieldCableInfo.py:23-46 *)
  Cls n_CIM14_IEC61968_AssetModels_TapeShieldCableInfo_TapeShieldCableInfo n_TapeShieldCableInfo (Some n_CIM14_IEC61968_AssetModels_CableInfo_CableInfo)
    [(n_tapeThickness, VFloat n_0_0); (n_tapeLap, VFloat n_0_0)]
    [SAttr n_tapeThickness; SAttr n_tapeLap]
    true true
    [n_tapeThickness; n_tapeLap]
    [(n_tapeThickness, VFloat n_0_0); (n_tapeLap, VFloat n_0_0)]
    []
    []
    []
    [];
(* CIM14/IEC61968/AssetModels/ToWindingSpec.py:23-135 *)
  Cls n_CIM14_IEC61968_AssetModels_ToWindingSpec_ToWindingSpec n_ToWindingSpec (Some n_CIM14_IEC61970_Core_IdentifiedObject_IdentifiedObject)
    [(n_voltage, VFloat n_0_0); (n_phaseShift, VFloat n_0_0); (n_toTapStep, VInt 0); (n_ToWinding, VNone); (n_OpenCircuitTests, VNone); (n_ShortCircuitTests, VNone)]
    [SAttr n_voltage; SAttr n_phaseShift; SAttr n_toTapStep; SOne n_ToWinding; SMany n_OpenCircuitTests; SMany n_ShortCircuitTests]
    true true
    [n_voltage; n_phaseShift; n_toTapStep]
    [(n_voltage, VFloat n_0_0); (n_phaseShift, VFloat n_0_0); (n_toTapStep, VInt 0)]
    []
    [n_ToWinding; n_OpenCircuitTests; n_ShortCircuitTests]
    [n_OpenCircuitTests; n_ShortCircuitTests]
    [(n_ToWinding, POneMany n_ToWindingSpecs); (n_OpenCircuitTests, PManyMany n_MeasuredWindingSpecs); (n_ShortCircuitTests, PManyMany n_ShortedWindingSpecs)];
(* CIM14/IEC61968/AssetModels/TransformerInfo.py:23-90 *)
  Cls n_CIM14_IEC61968_AssetModels_TransformerInfo_TransformerInfo n_TransformerInfo (Some n_CIM14_IEC61970_Core_IdentifiedObject_IdentifiedObject)
    [(n_WindingInfos, VNone); (n_Transformers, VNone)]
    [SMany n_WindingInfos; SMany n_Transformers]
    true true
    []
    []
    []
    [n_WindingInfos; n_Transformers]
    [n_WindingInfos; n_Transformers]
    [(n_WindingInfos, PManyOne n_TransformerInfo); (n_Transformers, PManyOne n_TransformerInfo)];
(* CIM14/IEC61968/AssetModels/WindingInfo.py:23-173 *)
  Cls n_CIM14_IEC61968_AssetModels_WindingInfo_WindingInfo n_WindingInfo (Some n_CIM14_IEC61970_Core_IdentifiedObject_IdentifiedObject)
    [(n_connectionKind, VStr n_Yn); (n_r, VFloat n_0_0); (n_phaseAngle, VInt 0); (n_emergencyS, VFloat n_0_0); (n_ratedU, VFloat n_0_0); (n_insulationU, VFloat n_0_0); (n_ratedS, VFloat n_0_0); (n_sequenceNumber, VInt 0); (n_shortTermS, VFloat n_0_0); (n_Windings, VNone); (n_WindingTests, VNone); (n_TransformerInfo, VNone); (n_ToWindingSpecs, VNone)]
    [SAttr n_connectionKind; SAttr n_r; SAttr n_phaseAngle; SAttr n_emergencyS; SAttr n_ratedU; SAttr n_insulationU; SAttr n_ratedS; SAttr n_sequenceNumber; SAttr n_shortTermS; SMany n_Windings; SMany n_WindingTests; SOne n_TransformerInfo; SMany n_ToWindingSpecs]
    true true
    [n_connectionKind; n_r; n_phaseAngle; n_emergencyS; n_ratedU; n_insulationU; n_ratedS; n_sequenceNumber; n_shortTermS]
    [(n_connectionKind, VStr n_Yn); (n_r, VFloat n_0_0); (n_phaseAngle, VInt 0); (n_emergencyS, VFloat n_0_0); (n_ratedU, VFloat n_0_0); (n_insulationU, VFloat n_0_0); (n_ratedS, VFloat n_0_0); (n_sequenceNumber, VInt 0); (n_shortTermS, VFloat n_0_0)]
    [(n_connectionKind, n_WindingConnection)]
    [n_Windings; n_WindingTests; n_TransformerInfo; n_ToWindingSpecs]
    [n_Windings; n_WindingTests; n_ToWindingSpecs]
    [(n_Windings, PManyOne n_WindingInfo); (n_WindingTests, PManyOne n_FromWinding); (n_TransformerInfo, POneMany n_WindingInfos); (n_ToWindingSpecs, PManyOne n_ToWinding)];
(* CIM14/IEC61968/AssetModels/WireArrangement.py:23-92 *)
  Cls n_CIM14_IEC61968_AssetModels_WireArrangement_WireArrangement n_WireArrangement (Some n_CIM14_IEC61970_Core_IdentifiedObject_IdentifiedObject)
    [(n_position, VInt 0); (n_mountingPointX, VFloat n_0_0); (n_mountingPointY, VFloat n_0_0); (n_WireType, VNone); (n_ConductorInfo, VNone)]
    [SAttr n_position; SAttr n_mountingPointX; SAttr n_mountingPointY; SOne n_WireType; SOne n_ConductorInfo]
    true true
    [n_position; n_mountingPointX; n_mountingPointY]
    [(n_position, VInt 0); (n_mountingPointX, VFloat n_0_0); (n_mountingPointY, VFloat n_0_0)]
    []
    [n_WireType; n_ConductorInfo]
    []
    [(n_WireType, POneMany n_WireArrangements); (n_ConductorInfo, POneMany n_WireArrangements)];
(* CIM14/IEC61968/AssetModels/WireType.py:23-138 *)
  Cls n_CIM14_IEC61968_AssetModels_WireType_WireType n_WireType (Some n_CIM14_IEC61970_Core_IdentifiedObject_IdentifiedObject)
    [(n_material, VStr n_acsr); (n_rAC25, VFloat n_0_0); (n_sizeDescription, VStr n_); (n_rAC75, VFloat n_0_0); (n_radius, VFloat n_0_0); (n_coreRadius, VFloat n_0_0); (n_rAC50, VFloat n_0_0); (n_gmr, VFloat n_0_0); (n_rDC20, VFloat n_0_0); (n_ratedCurrent, VFloat n_0_0); (n_coreStrandCount, VInt 0); (n_strandCount, VInt 0); (n_WireArrangements, VNone); (n_ConcentricNeutralCableInfos, VNone)]
    [SAttr n_material; SAttr n_rAC25; SAttr n_sizeDescription; SAttr n_rAC75; SAttr n_radius; SAttr n_coreRadius; SAttr n_rAC50; SAttr n_gmr; SAttr n_rDC20; SAttr n_ratedCurrent; SAttr n_coreStrandCount; SAttr n_strandCount; SMany n_WireArrangements; SMany n_ConcentricNeutralCableInfos]
    true true
    [n_material; n_rAC25; n_sizeDescription; n_rAC75; n_radius; n_coreRadius; n_rAC50; n_gmr; n_rDC20; n_ratedCurrent; n_coreStrandCount; n_strandCount]
    [(n_material, VStr n_acsr); (n_rAC25, VFloat n_0_0); (n_sizeDescription, VStr n_); (n_rAC75, VFloat n_0_0); (n_radius, VFloat n_0_0); (n_coreRadius, VFloat n_0_0); (n_rAC50, VFloat n_0_0); (n_gmr, VFloat n_0_0); (n_rDC20, VFloat n_0_0); (n_ratedCurrent, VFloat n_0_0); (n_coreStrandCount, VInt 0); (n_strandCount, VInt 0)]
    [(n_material, n_ConductorMaterialKind)]
    [n_WireArrangements; n_ConcentricNeutralCableInfos]
    [n_WireArrangements; n_ConcentricNeutralCableInfos]
    [(n_WireArrangements, PManyOne n_WireType); (n_ConcentricNeutralCableInfos, PManyOne n_WireType)];
(* CIM14/IEC61968/Assets/AcceptanceTest.py:23-50 *)
  Cls n_CIM14_IEC61968_Assets_AcceptanceTest_AcceptanceTest n_AcceptanceTest (Some n_CIM14_Element_Element)
    [(n_success, VBool false); (n_type, VStr n_); (n_dateTime, VStr n_)]
    [SAttr n_success; SAttr n_type; SAttr n_dateTime]
    true true
    [n_success; n_type; n_dateTime]
    [(n_success, VBool false); (n_type, VStr n_); (n_dateTime, VStr n_)]
    []
    []
    []
    [];
(* CIM14/IEC61968/Assets/Asset.py:23-323 *)
  Cls n_CIM14_IEC61968_Assets_Asset_Asset n_Asset (Some n_CIM14_IEC61970_Core_IdentifiedObject_IdentifiedObject)
    [(n_category, VStr n_); (n_serialNumber, VStr n_); (n_manufacturedDate, VStr n_); (n_lotNumber, VStr n_); (n_critical, VBool false); (n_application, VStr n_); (n_initialLossOfLife, VFloat n_0_0); (n_corporateCode, VStr n_); (n_purchasePrice, VFloat n_0_0); (n_utcNumber, VStr n_); (n_installationDate, VStr n_); (n_initialCondition, VStr n_); (n_PowerSystemResources, VNone); (n_Properties, VNone); (n_acceptanceTest, VNone); (n_ActivityRecords, VNone); (n_Location, VNone); (n_AssetFunctions, VNone); (n_Measurements, VNone); (n_AssetContainer, VNone); (n_status, VNone); (n_Ratings, VNone); (n_electronicAddress, VNone)]
    [SAttr n_category; SAttr n_serialNumber; SAttr n_manufacturedDate; SAttr n_lotNumber; SAttr n_critical; SAttr n_application; SAttr n_initialLossOfLife; SAttr n_corporateCode; SAttr n_purchasePrice; SAttr n_utcNumber; SAttr n_installationDate; SAttr n_initialCondition; SMany n_PowerSystemResources; SMany n_Properties; SAttr n_acceptanceTest; SMany n_ActivityRecords; SOne n_Location; SMany n_AssetFunctions; SMany n_Measurements; SOne n_AssetContainer; SAttr n_status; SMany n_Ratings; SAttr n_electronicAddress]
    true true
    [n_category; n_serialNumber; n_manufacturedDate; n_lotNumber; n_critical; n_application; n_initialLossOfLife; n_corporateCode; n_purchasePrice; n_utcNumber; n_installationDate; n_initialCondition]
    [(n_category, VStr n_); (n_serialNumber, VStr n_); (n_manufacturedDate, VStr n_); (n_lotNumber, VStr n_); (n_critical, VBool false); (n_application, VStr n_); (n_initialLossOfLife, VFloat n_0_0); (n_corporateCode, VStr n_); (n_purchasePrice, VFloat n_0_0); (n_utcNumber, VStr n_); (n_installationDate, VStr n_); (n_initialCondition, VStr n_)]
    []
    [n_PowerSystemResources; n_Properties; n_acceptanceTest; n_ActivityRecords; n_Location; n_AssetFunctions; n_Measurements; n_AssetContainer; n_status; n_Ratings; n_electronicAddress]
    [n_PowerSystemResources; n_Properties; n_ActivityRecords; n_AssetFunctions; n_Measurements; n_Ratings]
    [(n_PowerSystemResources, PManyMany n_Assets); (n_Properties, PManyMany n_PropertyAssets); (n_ActivityRecords, PManyMany n_Assets); (n_Location, POneMany n_Assets); (n_AssetFunctions, PManyOne n_Asset); (n_Measurements, PManyOne n_Asset); (n_AssetContainer, POneMany n_Assets); (n_Ratings, PManyMany n_RatingAssets)];
(* CIM14/IEC61968/Assets/AssetContainer.py:23-89 *)
  Cls n_CIM14_IEC61968_Assets_AssetContainer_AssetContainer n_AssetContainer (Some n_CIM14_IEC61968_Assets_Asset_Asset)
    [(n_Seals, VNone); (n_Assets, VNone)]
    [SMany n_Seals; SMany n_Assets]
    true true
    []
    []
    []
    [n_Seals; n_Assets]
    [n_Seals; n_Assets]
    [(n_Seals, PManyOne n_AssetContainer); (n_Assets, PManyOne n_AssetContainer)];
(* CIM14/IEC61968/Assets/AssetFunction.py:23-78 *)
  Cls n_CIM14_IEC61968_Assets_AssetFunction_AssetFunction n_AssetFunction (Some n_CIM14_IEC61970_Core_IdentifiedObject_IdentifiedObject)
    [(n_configID, VStr n_); (n_programID, VStr n_); (n_firmwareID, VStr n_); (n_password, VStr n_); (n_hardwareID, VStr n_); (n_Asset, VNone)]
    [SAttr n_configID; SAttr n_programID; SAttr n_firmwareID; SAttr n_password; SAttr n_hardwareID; SOne n_Asset]
    true true
    [n_configID; n_programID; n_firmwareID; n_password; n_hardwareID]
    [(n_configID, VStr n_); (n_programID, VStr n_); (n_firmwareID, VStr n_); (n_password, VStr n_); (n_hardwareID, VStr n_)]
    []
    [n_Asset]
    []
    [(n_Asset, POneMany n_AssetFunctions)];
(* CIM14/IEC61968/Assets/ComMediaAsset.py:23-38 *)
  Cls n_CIM14_IEC61968_Assets_ComMediaAsset_ComMediaAsset n_ComMediaAsset (Some n_CIM14_IEC61968_Assets_Asset_Asset)
    []
    []
    true true
    []
    []
    []
    []
    []
    [];
(* CIM14/IEC61968/Assets/Seal.py:23-75 *)
  Cls n_CIM14_IEC61968_Assets_Seal_Seal n_Seal (Some n_CIM14_IEC61970_Core_IdentifiedObject_IdentifiedObject)
    [(n_kind, VStr n_other); (n_condition, VStr n_open); (n_sealNumber, VStr n_); (n_appliedDateTime, VStr n_); (n_AssetContainer, VNone)]
    [SAttr n_kind; SAttr n_condition; SAttr n_sealNumber; SAttr n_appliedDateTime; SOne n_AssetContainer]
    true true
    [n_kind; n_condition; n_sealNumber; n_appliedDateTime]
    [(n_kind, VStr n_other); (n_condition, VStr n_open); (n_sealNumber, VStr n_); (n_appliedDateTime, VStr n_)]
    [(n_kind, n_SealKind); (n_condition, n_SealConditionKind)]
    [n_AssetContainer]
    []
    [(n_AssetContainer, POneMany n_Seals)];
(* CIM14/IEC61968/Common/ActivityRecord.py:23-124 *)
  Cls n_CIM14_IEC61968_Common_ActivityRecord_ActivityRecord n_ActivityRecord (Some n_CIM14_IEC61970_Core_IdentifiedObject_IdentifiedObject)
    [(n_reason, VStr n_); (n_createdDateTime, VStr n_); (n_severity, VStr n_); (n_category, VStr n_); (n_Documents, VNone); (n_Assets, VNone); (n_status, VNone)]
    [SAttr n_reason; SAttr n_createdDateTime; SAttr n_severity; SAttr n_category; SMany n_Documents; SMany n_Assets; SAttr n_status]
    true true
    [n_reason; n_createdDateTime; n_severity; n_category]
    [(n_reason, VStr n_); (n_createdDateTime, VStr n_); (n_severity, VStr n_); (n_category, VStr n_)]
    []
    [n_Documents; n_Assets; n_status]
    [n_Documents; n_Assets]
    [(n_Documents, PManyMany n_ActivityRecords); (n_Assets, PManyMany n_ActivityRecords)];
(* CIM14/IEC61968/Common/Agreement.py:23-48 *)
  Cls n_CIM14_IEC61968_Common_Agreement_Agreement n_Agreement (Some n_CIM14_IEC61968_Common_Document_Document)
    [(n_signDate, VStr n_); (n_validityInterval, VNone)]
    [SAttr n_signDate; SAttr n_validityInterval]
    true true
    [n_signDate]
    [(n_signDate, VStr n_)]
    []
    [n_validityInterval]
    []
    [];
(* CIM14/IEC61968/Common/CoordinateSystem.py:23-89 *)
  Cls n_CIM14_IEC61968_Common_CoordinateSystem_CoordinateSystem n_CoordinateSystem (Some n_CIM14_Element_Element)
    [(n_name, VStr n_); (n_Location, VNone); (n_PositionPoints, VNone)]
    [SAttr n_name; SOne n_Location; SMany n_PositionPoints]
    true true
    [n_name]
    [(n_name, VStr n_)]
    []
    [n_Location; n_PositionPoints]
    [n_PositionPoints]
    [(n_Location, POneMany n_CoordinateSystems); (n_PositionPoints, PManyOne n_CoordinateSystem)];
(* CIM14/IEC61968/Common/DateTimeInterval.py:23-46 *)
  Cls n_CIM14_IEC61968_Common_DateTimeInterval_DateTimeInterval n_DateTimeInterval (Some n_CIM14_Element_Element)
    [(n_end, VStr n_); (n_start, VStr n_)]
    [SAttr n_end; SAttr n_start]
    true true
    [n_end; n_start]
    [(n_end, VStr n_); (n_start, VStr n_)]
    []
    []
    []
    [];
(* CIM14/IEC61968/Common/Document.py:23-144 *)
  Cls n_CIM14_IEC61968_Common_Document_Document n_Document (Some n_CIM14_IEC61970_Core_IdentifiedObject_IdentifiedObject)
    [(n_revisionNumber, VStr n_); (n_subject, VStr n_); (n_createdDateTime, VStr n_); (n_title, VStr n_); (n_category, VStr n_); (n_lastModifiedDateTime, VStr n_); (n_electronicAddress, VNone); (n_status, VNone); (n_ActivityRecords, VNone); (n_docStatus, VNone); (n_Measurements, VNone)]
    [SAttr n_revisionNumber; SAttr n_subject; SAttr n_createdDateTime; SAttr n_title; SAttr n_category; SAttr n_lastModifiedDateTime; SAttr n_electronicAddress; SAttr n_status; SMany n_ActivityRecords; SAttr n_docStatus; SMany n_Measurements]
    true true
    [n_revisionNumber; n_subject; n_createdDateTime; n_title; n_category; n_lastModifiedDateTime]
    [(n_revisionNumber, VStr n_); (n_subject, VStr n_); (n_createdDateTime, VStr n_); (n_title, VStr n_); (n_category, VStr n_); (n_lastModifiedDateTime, VStr n_)]
    []
    [n_electronicAddress; n_status; n_ActivityRecords; n_docStatus; n_Measurements]
    [n_ActivityRecords; n_Measurements]
    [(n_ActivityRecords, PManyMany n_Documents); (n_Measurements, PManyMany n_Documents)];
(* CIM14/IEC61968/Common/ElectronicAddress.py:23-68 *)
  Cls n_CIM14_IEC61968_Common_ElectronicAddress_ElectronicAddress n_ElectronicAddress (Some n_CIM14_Element_Element)
    [(n_password, VStr n_); (n_email, VStr n_); (n_radio, VStr n_); (n_userID, VStr n_); (n_lan, VStr n_); (n_web, VStr n_); (n_status, VNone)]
    [SAttr n_password; SAttr n_email; SAttr n_radio; SAttr n_userID; SAttr n_lan; SAttr n_web; SAttr n_status]
    true true
    [n_password; n_email; n_radio; n_userID; n_lan; n_web]
    [(n_password, VStr n_); (n_email, VStr n_); (n_radio, VStr n_); (n_userID, VStr n_); (n_lan, VStr n_); (n_web, VStr n_)]
    []
    [n_status]
    []
    [];
(* CIM14/IEC61968/Common/Location.py:23-225 *)
  Cls n_CIM14_IEC61968_Common_Location_Location n_Location (Some n_CIM14_IEC61970_Core_IdentifiedObject_IdentifiedObject)
    [(n_geoInfoReference, VStr n_); (n_corporateCode, VStr n_); (n_direction, VStr n_); (n_category, VStr n_); (n_PositionPoints, VNone); (n_PowerSystemResources, VNone); (n_CoordinateSystems, VNone); (n_Measurements, VNone); (n_secondaryAddress, VNone); (n_Assets, VNone); (n_phone2, VNone); (n_electronicAddress, VNone); (n_phone1, VNone); (n_mainAddress, VNone); (n_status, VNone)]
    [SAttr n_geoInfoReference; SAttr n_corporateCode; SAttr n_direction; SAttr n_category; SMany n_PositionPoints; SMany n_PowerSystemResources; SMany n_CoordinateSystems; SMany n_Measurements; SAttr n_secondaryAddress; SMany n_Assets; SAttr n_phone2; SAttr n_electronicAddress; SAttr n_phone1; SAttr n_mainAddress; SAttr n_status]
    true true
    [n_geoInfoReference; n_corporateCode; n_direction; n_category]
    [(n_geoInfoReference, VStr n_); (n_corporateCode, VStr n_); (n_direction, VStr n_); (n_category, VStr n_)]
    []
    [n_PositionPoints; n_PowerSystemResources; n_CoordinateSystems; n_Measurements; n_secondaryAddress; n_Assets; n_phone2; n_electronicAddress; n_phone1; n_mainAddress; n_status]
    [n_PositionPoints; n_PowerSystemResources; n_CoordinateSystems; n_Measurements; n_Assets]
    [(n_PositionPoints, PManyOne n_Location); (n_PowerSystemResources, PManyOne n_Location); (n_CoordinateSystems, PManyOne n_Location); (n_Measurements, PManyMany n_Locations); (n_Assets, PManyOne n_Location)];
(* CIM14/IEC61968/Common/Organisation.py:23-68 *)
  Cls n_CIM14_IEC61968_Common_Organisation_Organisation n_Organisation (Some n_CIM14_IEC61970_Core_IdentifiedObject_IdentifiedObject)
    [(n_electronicAddress, VNone); (n_streetAddress, VNone); (n_phone2, VNone); (n_phone1, VNone); (n_postalAddress, VNone)]
    [SAttr n_electronicAddress; SAttr n_streetAddress; SAttr n_phone2; SAttr n_phone1; SAttr n_postalAddress]
    true true
    []
    []
    []
    [n_electronicAddress; n_streetAddress; n_phone2; n_phone1; n_postalAddress]
    []
    [];
(* CIM14/IEC61968/Common/PositionPoint.py:23-96 *)
  Cls n_CIM14_IEC61968_Common_PositionPoint_PositionPoint n_PositionPoint (Some n_CIM14_Element_Element)
    [(n_xPosition, VStr n_); (n_zPosition, VStr n_); (n_sequenceNumber, VInt 0); (n_yPosition, VStr n_); (n_Location, VNone); (n_CoordinateSystem, VNone)]
    [SAttr n_xPosition; SAttr n_zPosition; SAttr n_sequenceNumber; SAttr n_yPosition; SOne n_Location; SOne n_CoordinateSystem]
    true true
    [n_xPosition; n_zPosition; n_sequenceNumber; n_yPosition]
    [(n_xPosition, VStr n_); (n_zPosition, VStr n_); (n_sequenceNumber, VInt 0); (n_yPosition, VStr n_)]
    []
    [n_Location; n_CoordinateSystem]
    []
    [(n_Location, POneMany n_PositionPoints); (n_CoordinateSystem, POneMany n_PositionPoints)];
(* CIM14/IEC61968/Common/PostalAddress.py:23-58 *)
  Cls n_CIM14_IEC61968_Common_PostalAddress_PostalAddress n_PostalAddress (Some n_CIM14_Element_Element)
    [(n_poBox, VStr n_); (n_postalCode, VStr n_); (n_streetDetail, VNone); (n_townDetail, VNone)]
    [SAttr n_poBox; SAttr n_postalCode; SAttr n_streetDetail; SAttr n_townDetail]
    true true
    [n_poBox; n_postalCode]
    [(n_poBox, VStr n_); (n_postalCode, VStr n_)]
    []
    [n_streetDetail; n_townDetail]
    []
    [];
(* CIM14/IEC61968/Common/Status.py:23-54 *)
  Cls n_CIM14_IEC61968_Common_Status_Status n_Status (Some n_CIM14_Element_Element)
    [(n_reason, VStr n_); (n_remark, VStr n_); (n_value, VStr n_); (n_dateTime, VStr n_)]
    [SAttr n_reason; SAttr n_remark; SAttr n_value; SAttr n_dateTime]
    true true
    [n_reason; n_remark; n_value; n_dateTime]
    [(n_reason, VStr n_); (n_remark, VStr n_); (n_value, VStr n_); (n_dateTime, VStr n_)]
    []
    []
    []
    [];
(* CIM14/IEC61968/Common/StreetAddress.py:23-56 *)
  Cls n_CIM14_IEC61968_Common_StreetAddress_StreetAddress n_StreetAddress (Some n_CIM14_Element_Element)
    [(n_status, VNone); (n_townDetail, VNone); (n_streetDetail, VNone)]
    [SAttr n_status; SAttr n_townDetail; SAttr n_streetDetail]
    true true
    []
    []
    []
    [n_status; n_townDetail; n_streetDetail]
    []
    [];
(* CIM14/IEC61968/Common/StreetDetail.py:23-78 *)
  Cls n_CIM14_IEC61968_Common_StreetDetail_StreetDetail n_StreetDetail (Some n_CIM14_Element_Element)
    [(n_number, VStr n_); (n_type, VStr n_); (n_suiteNumber, VStr n_); (n_addressGeneral, VStr n_); (n_buildingName, VStr n_); (n_name, VStr n_); (n_withinTownLimits, VBool false); (n_suffix, VStr n_); (n_code, VStr n_); (n_prefix, VStr n_)]
    [SAttr n_number; SAttr n_type; SAttr n_suiteNumber; SAttr n_addressGeneral; SAttr n_buildingName; SAttr n_name; SAttr n_withinTownLimits; SAttr n_suffix; SAttr n_code; SAttr n_prefix]
    true true
    [n_number; n_type; n_suiteNumber; n_addressGeneral; n_buildingName; n_name; n_withinTownLimits; n_suffix; n_code; n_prefix]
    [(n_number, VStr n_); (n_type, VStr n_); (n_suiteNumber, VStr n_); (n_addressGeneral, VStr n_); (n_buildingName, VStr n_); (n_name, VStr n_); (n_withinTownLimits, VBool false); (n_suffix, VStr n_); (n_code, VStr n_); (n_prefix, VStr n_)]
    []
    []
    []
    [];
(* CIM14/IEC61968/Common/TelephoneNumber.py:23-58 *)
  Cls n_CIM14_IEC61968_Common_TelephoneNumber_TelephoneNumber n_TelephoneNumber (Some n_CIM14_Element_Element)
    [(n_countryCode, VStr n_); (n_cityCode, VStr n_); (n_areaCode, VStr n_); (n_localNumber, VStr n_); (n_extension, VStr n_)]
    [SAttr n_countryCode; SAttr n_cityCode; SAttr n_areaCode; SAttr n_localNumber; SAttr n_extension]
    true true
    [n_countryCode; n_cityCode; n_areaCode; n_localNumber; n_extension]
    [(n_countryCode, VStr n_); (n_cityCode, VStr n_); (n_areaCode, VStr n_); (n_localNumber, VStr n_); (n_extension, VStr n_)]
    []
    []
    []
    [];
(* CIM14/IEC61968/Common/TimePoint.py:23-83 *)
  Cls n_CIM14_IEC61968_Common_TimePoint_TimePoint n_TimePoint (Some n_CIM14_IEC61970_Core_IdentifiedObject_IdentifiedObject)
    [(n_relativeTimeInterval, VFloat n_0_0); (n_sequenceNumber, VInt 0); (n_dateTime, VStr n_); (n_TimeSchedule, VNone); (n_status, VNone); (n_window, VNone)]
    [SAttr n_relativeTimeInterval; SAttr n_sequenceNumber; SAttr n_dateTime; SOne n_TimeSchedule; SAttr n_status; SAttr n_window]
    true true
    [n_relativeTimeInterval; n_sequenceNumber; n_dateTime]
    [(n_relativeTimeInterval, VFloat n_0_0); (n_sequenceNumber, VInt 0); (n_dateTime, VStr n_)]
    []
    [n_TimeSchedule; n_status; n_window]
    []
    [(n_TimeSchedule, POneMany n_TimePoints)];
(* CIM14/IEC61968/Common/TimeSchedule.py:23-86 *)
  Cls n_CIM14_IEC61968_Common_TimeSchedule_TimeSchedule n_TimeSchedule (Some n_CIM14_IEC61968_Common_Document_Document)
    [(n_recurrencePeriod, VFloat n_0_0); (n_disabled, VBool false); (n_offset, VFloat n_0_0); (n_recurrencePattern, VStr n_); (n_TimePoints, VNone); (n_scheduleInterval, VNone)]
    [SAttr n_recurrencePeriod; SAttr n_disabled; SAttr n_offset; SAttr n_recurrencePattern; SMany n_TimePoints; SAttr n_scheduleInterval]
    true true
    [n_recurrencePeriod; n_disabled; n_offset; n_recurrencePattern]
    [(n_recurrencePeriod, VFloat n_0_0); (n_disabled, VBool false); (n_offset, VFloat n_0_0); (n_recurrencePattern, VStr n_)]
    []
    [n_TimePoints; n_scheduleInterval]
    [n_TimePoints]
    [(n_TimePoints, PManyOne n_TimeSchedule)];
(* CIM14/IEC61968/Common/TownDetail.py:23-58 *)
  Cls n_CIM14_IEC61968_Common_TownDetail_TownDetail n_TownDetail (Some n_CIM14_Element_Element)
    [(n_code, VStr n_); (n_country, VStr n_); (n_stateOrProvince, VStr n_); (n_name, VStr n_); (n_section, VStr n_)]
    [SAttr n_code; SAttr n_country; SAttr n_stateOrProvince; SAttr n_name; SAttr n_section]
    true true
    [n_code; n_country; n_stateOrProvince; n_name; n_section]
    [(n_code, VStr n_); (n_country, VStr n_); (n_stateOrProvince, VStr n_); (n_name, VStr n_); (n_section, VStr n_)]
    []
    []
    []
    [];
(* CIM14/IEC61968/Common/UserAttribute.py:23-133 *)
  Cls n_CIM14_IEC61968_Common_UserAttribute_UserAttribute n_UserAttribute (Some n_CIM14_Element_Element)
    [(n_value, VStr n_); (n_sequenceNumber, VInt 0); (n_name, VStr n_); (n_PropertyAssets, VNone); (n_Transaction, VNone); (n_RatingAssets, VNone)]
    [SAttr n_value; SAttr n_sequenceNumber; SAttr n_name; SMany n_PropertyAssets; SOne n_Transaction; SMany n_RatingAssets]
    true true
    [n_value; n_sequenceNumber; n_name]
    [(n_value, VStr n_); (n_sequenceNumber, VInt 0); (n_name, VStr n_)]
    []
    [n_PropertyAssets; n_Transaction; n_RatingAssets]
    [n_PropertyAssets; n_RatingAssets]
    [(n_PropertyAssets, PManyMany n_Properties); (n_Transaction, POneMany n_UserAttributes); (n_RatingAssets, PManyMany n_Ratings)];
(* CIM14/IEC61968/Customers/Customer.py:23-144 *)
  Cls n_CIM14_IEC61968_Customers_Customer_Customer n_Customer (Some n_CIM14_IEC61968_Common_Organisation_Organisation)
    [(n_kind, VStr n_residentialAndCommercial); (n_pucNumber, VStr n_); (n_specialNeed, VStr n_); (n_vip, VBool false); (n_status, VNone); (n_Works, VNone); (n_CustomerAgreements, VNone); (n_EndDeviceAssets, VNone)]
    [SAttr n_kind; SAttr n_pucNumber; SAttr n_specialNeed; SAttr n_vip; SAttr n_status; SMany n_Works; SMany n_CustomerAgreements; SMany n_EndDeviceAssets]
    true true
    [n_kind; n_pucNumber; n_specialNeed; n_vip]
    [(n_kind, VStr n_residentialAndCommercial); (n_pucNumber, VStr n_); (n_specialNeed, VStr n_); (n_vip, VBool false)]
    [(n_kind, n_CustomerKind)]
    [n_status; n_Works; n_CustomerAgreements; n_EndDeviceAssets]
    [n_Works; n_CustomerAgreements; n_EndDeviceAssets]
    [(n_Works, PManyMany n_Customers); (n_CustomerAgreements, PManyOne n_Customer); (n_EndDeviceAssets, PManyOne n_Customer)];
(* CIM14/IEC61968/Customers/CustomerAccount.py:23-90 *)
  Cls n_CIM14_IEC61968_Customers_CustomerAccount_CustomerAccount n_CustomerAccount (Some n_CIM14_IEC61968_Common_Document_Document)
    [(n_PaymentTransactions, VNone); (n_CustomerAgreements, VNone)]
    [SMany n_PaymentTransactions; SMany n_CustomerAgreements]
    true true
    []
    []
    []
    [n_PaymentTransactions; n_CustomerAgreements]
    [n_PaymentTransactions; n_CustomerAgreements]
    [(n_PaymentTransactions, PManyOne n_CustomerAccount); (n_CustomerAgreements, PManyOne n_CustomerAccount)];
(* CIM14/IEC61968/Customers/CustomerAgreement.py:23-353 *)
  Cls n_CIM14_IEC61968_Customers_CustomerAgreement_CustomerAgreement n_CustomerAgreement (Some n_CIM14_IEC61968_Common_Agreement_Agreement)
    [(n_loadMgmt, VStr n_); (n_budgetBill, VStr n_); (n_billingCycle, VStr n_); (n_DemandResponseProgram, VNone); (n_ServiceSupplier, VNone); (n_PricingStructures, VNone); (n_ServiceLocations, VNone); (n_ServiceCategory, VNone); (n_MeterReadings, VNone); (n_CustomerAccount, VNone); (n_AuxiliaryAgreements, VNone); (n_EndDeviceControls, VNone); (n_Customer, VNone); (n_ServiceDeliveryPoints, VNone); (n_Equipments, VNone)]
    [SAttr n_loadMgmt; SAttr n_budgetBill; SAttr n_billingCycle; SOne n_DemandResponseProgram; SOne n_ServiceSupplier; SMany n_PricingStructures; SMany n_ServiceLocations; SOne n_ServiceCategory; SMany n_MeterReadings; SOne n_CustomerAccount; SMany n_AuxiliaryAgreements; SMany n_EndDeviceControls; SOne n_Customer; SMany n_ServiceDeliveryPoints; SMany n_Equipments]
    true true
    [n_loadMgmt; n_budgetBill; n_billingCycle]
    [(n_loadMgmt, VStr n_); (n_budgetBill, VStr n_); (n_billingCycle, VStr n_)]
    []
    [n_DemandResponseProgram; n_ServiceSupplier; n_PricingStructures; n_ServiceLocations; n_ServiceCategory; n_MeterReadings; n_CustomerAccount; n_AuxiliaryAgreements; n_EndDeviceControls; n_Customer; n_ServiceDeliveryPoints; n_Equipments]
    [n_PricingStructures; n_ServiceLocations; n_MeterReadings; n_AuxiliaryAgreements; n_EndDeviceControls; n_ServiceDeliveryPoints; n_Equipments]
    [(n_DemandResponseProgram, POneMany n_CustomerAgreements); (n_ServiceSupplier, POneMany n_CustomerAgreements); (n_PricingStructures, PManyMany n_CustomerAgreements); (n_ServiceLocations, PManyMany n_CustomerAgreements); (n_ServiceCategory, POneMany n_CustomerAgreements); (n_MeterReadings, PManyOne n_CustomerAgreement); (n_CustomerAccount, POneMany n_CustomerAgreements); (n_AuxiliaryAgreements, PManyOne n_CustomerAgreement); (n_EndDeviceControls, PManyOne n_CustomerAgreement); (n_Customer, POneMany n_CustomerAgreements); (n_ServiceDeliveryPoints, PManyOne n_CustomerAgreement); (n_Equipments, PManyMany n_CustomerAgreements)];
(* CIM14/IEC61968/Customers/PricingStructure.py:23-205 *)
  Cls n_CIM14_IEC61968_Customers_PricingStructure_PricingStructure n_PricingStructure (Some n_CIM14_IEC61968_Common_Document_Document)
    [(n_revenueKind, VStr n_industrial); (n_code, VStr n_); (n_dailyFloorUsage, VInt 0); (n_taxExemption, VBool false); (n_dailyEstimatedUsage, VInt 0); (n_dailyCeilingUsage, VInt 0); (n_Transactions, VNone); (n_ServiceDeliveryPoints, VNone); (n_CustomerAgreements, VNone); (n_ServiceCategory, VNone); (n_Tariffs, VNone)]
    [SAttr n_revenueKind; SAttr n_code; SAttr n_dailyFloorUsage; SAttr n_taxExemption; SAttr n_dailyEstimatedUsage; SAttr n_dailyCeilingUsage; SMany n_Transactions; SMany n_ServiceDeliveryPoints; SMany n_CustomerAgreements; SOne n_ServiceCategory; SMany n_Tariffs]
    true true
    [n_revenueKind; n_code; n_dailyFloorUsage; n_taxExemption; n_dailyEstimatedUsage; n_dailyCeilingUsage]
    [(n_revenueKind, VStr n_industrial); (n_code, VStr n_); (n_dailyFloorUsage, VInt 0); (n_taxExemption, VBool false); (n_dailyEstimatedUsage, VInt 0); (n_dailyCeilingUsage, VInt 0)]
    [(n_revenueKind, n_RevenueKind)]
    [n_Transactions; n_ServiceDeliveryPoints; n_CustomerAgreements; n_ServiceCategory; n_Tariffs]
    [n_Transactions; n_ServiceDeliveryPoints; n_CustomerAgreements; n_Tariffs]
    [(n_Transactions, PManyOne n_PricingStructure); (n_ServiceDeliveryPoints, PManyMany n_PricingStructures); (n_CustomerAgreements, PManyMany n_PricingStructures); (n_ServiceCategory, POneMany n_PricingStructures); (n_Tariffs, PManyMany n_PricingStructures)];
(* CIM14/IEC61968/Customers/ServiceCategory.py:23-119 *)
  Cls n_CIM14_IEC61968_Customers_ServiceCategory_ServiceCategory n_ServiceCategory (Some n_CIM14_IEC61970_Core_IdentifiedObject_IdentifiedObject)
    [(n_kind, VStr n_water); (n_CustomerAgreements, VNone); (n_PricingStructures, VNone); (n_ServiceDeliveryPoints, VNone)]
    [SAttr n_kind; SMany n_CustomerAgreements; SMany n_PricingStructures; SMany n_ServiceDeliveryPoints]
    true true
    [n_kind]
    [(n_kind, VStr n_water)]
    [(n_kind, n_ServiceKind)]
    [n_CustomerAgreements; n_PricingStructures; n_ServiceDeliveryPoints]
    [n_CustomerAgreements; n_PricingStructures; n_ServiceDeliveryPoints]
    [(n_CustomerAgreements, PManyOne n_ServiceCategory); (n_PricingStructures, PManyOne n_ServiceCategory); (n_ServiceDeliveryPoints, PManyOne n_ServiceCategory)];
(* CIM14/IEC61968/Customers/ServiceLocation.py:23-134 *)
  Cls n_CIM14_IEC61968_Customers_ServiceLocation_ServiceLocation n_ServiceLocation (Some n_CIM14_IEC61968_Common_Location_Location)
    [(n_siteAccessProblem, VStr n_); (n_accessMethod, VStr n_); (n_needsInspection, VBool false); (n_EndDeviceAssets, VNone); (n_CustomerAgreements, VNone); (n_ServiceDeliveryPoints, VNone)]
    [SAttr n_siteAccessProblem; SAttr n_accessMethod; SAttr n_needsInspection; SMany n_EndDeviceAssets; SMany n_CustomerAgreements; SMany n_ServiceDeliveryPoints]
    true true
    [n_siteAccessProblem; n_accessMethod; n_needsInspection]
    [(n_siteAccessProblem, VStr n_); (n_accessMethod, VStr n_); (n_needsInspection, VBool false)]
    []
    [n_EndDeviceAssets; n_CustomerAgreements; n_ServiceDeliveryPoints]
    [n_EndDeviceAssets; n_CustomerAgreements; n_ServiceDeliveryPoints]
    [(n_EndDeviceAssets, PManyOne n_ServiceLocation); (n_CustomerAgreements, PManyMany n_ServiceLocations); (n_ServiceDeliveryPoints, PManyOne n_ServiceLocation)];
(* CIM14/IEC61968/Customers/Tariff.py:23-110 *)
  Cls n_CIM14_IEC61968_Customers_Tariff_Tariff n_Tariff (Some n_CIM14_IEC61968_Common_Document_Document)
    [(n_startDate, VStr n_); (n_endDate, VStr n_); (n_TariffProfiles, VNone); (n_PricingStructures, VNone)]
    [SAttr n_startDate; SAttr n_endDate; SMany n_TariffProfiles; SMany n_PricingStructures]
    true true
    [n_startDate; n_endDate]
    [(n_startDate, VStr n_); (n_endDate, VStr n_)]
    []
    [n_TariffProfiles; n_PricingStructures]
    [n_TariffProfiles; n_PricingStructures]
    [(n_TariffProfiles, PManyMany n_Tariffs); (n_PricingStructures, PManyMany n_Tariffs)];
(* CIM14/IEC61968/IEC61968CIMVersion.py:23-46 *)
  Cls n_CIM14_IEC61968_IEC61968CIMVersion_IEC61968CIMVersion n_IEC61968CIMVersion (Some n_CIM14_Element_Element)
    [(n_date, VStr n_); (n_version, VStr n_)]
    [SAttr n_date; SAttr n_version]
    true true
    [n_date; n_version]
    [(n_date, VStr n_); (n_version, VStr n_)]
    []
    []
    []
    [];
(* CIM14/IEC61968/LoadControl/ConnectDisconnectFunction.py:23-103 *)
  Cls n_CIM14_IEC61968_LoadControl_ConnectDisconnectFunction_ConnectDisconnectFunction n_ConnectDisconnectFunction (Some n_CIM14_IEC61968_Metering_DeviceFunction_DeviceFunction)
    [(n_isLocalAutoReconOp, VBool false); (n_isLocalAutoDisconOp, VBool false); (n_isRemoteAutoReconOp, VBool false); (n_isRemoteAutoDisconOp, VBool false); (n_isConnected, VBool false); (n_eventCount, VInt 0); (n_isDelayedDiscon, VBool false); (n_rcdInfo, VNone); (n_Switches, VNone)]
    [SAttr n_isLocalAutoReconOp; SAttr n_isLocalAutoDisconOp; SAttr n_isRemoteAutoReconOp; SAttr n_isRemoteAutoDisconOp; SAttr n_isConnected; SAttr n_eventCount; SAttr n_isDelayedDiscon; SAttr n_rcdInfo; SMany n_Switches]
    true true
    [n_isLocalAutoReconOp; n_isLocalAutoDisconOp; n_isRemoteAutoReconOp; n_isRemoteAutoDisconOp; n_isConnected; n_eventCount; n_isDelayedDiscon]
    [(n_isLocalAutoReconOp, VBool false); (n_isLocalAutoDisconOp, VBool false); (n_isRemoteAutoReconOp, VBool false); (n_isRemoteAutoDisconOp, VBool false); (n_isConnected, VBool false); (n_eventCount, VInt 0); (n_isDelayedDiscon, VBool false)]
    []
    [n_rcdInfo; n_Switches]
    [n_Switches]
    [(n_Switches, PManyMany n_ConnectDisconnectFunctions)];
(* CIM14/IEC61968/LoadControl/RemoteConnectDisconnectInfo.py:23-86 *)
  Cls n_CIM14_IEC61968_LoadControl_RemoteConnectDisconnectInfo_RemoteConnectDisconnectInfo n_RemoteConnectDisconnectInfo (Some n_CIM14_Element_Element)
    [(n_needsPowerLimitCheck, VBool false); (n_isEnergyLimiting, VBool false); (n_isArmConnect, VBool false); (n_energyUsageWarning, VFloat n_0_0); (n_armedTimeout, VFloat n_0_0); (n_energyUsageStartDateTime, VStr n_); (n_isArmDisconnect, VBool false); (n_needsVoltageLimitCheck, VBool false); (n_powerLimit, VFloat n_0_0); (n_usePushbutton, VBool false); (n_customerVoltageLimit, VFloat n_0_0); (n_energyLimit, VFloat n_0_0)]
    [SAttr n_needsPowerLimitCheck; SAttr n_isEnergyLimiting; SAttr n_isArmConnect; SAttr n_energyUsageWarning; SAttr n_armedTimeout; SAttr n_energyUsageStartDateTime; SAttr n_isArmDisconnect; SAttr n_needsVoltageLimitCheck; SAttr n_powerLimit; SAttr n_usePushbutton; SAttr n_customerVoltageLimit; SAttr n_energyLimit]
    true true
    [n_needsPowerLimitCheck; n_isEnergyLimiting; n_isArmConnect; n_energyUsageWarning; n_armedTimeout; n_energyUsageStartDateTime; n_isArmDisconnect; n_needsVoltageLimitCheck; n_powerLimit; n_usePushbutton; n_customerVoltageLimit; n_energyLimit]
    [(n_needsPowerLimitCheck, VBool false); (n_isEnergyLimiting, VBool false); (n_isArmConnect, VBool false); (n_energyUsageWarning, VFloat n_0_0); (n_armedTimeout, VFloat n_0_0); (n_energyUsageStartDateTime, VStr n_); (n_isArmDisconnect, VBool false); (n_needsVoltageLimitCheck, VBool false); (n_powerLimit, VFloat n_0_0); (n_usePushbutton, VBool false); (n_customerVoltageLimit, VFloat n_0_0); (n_energyLimit, VFloat n_0_0)]
    []
    []
    []
    [];
(* CIM14/IEC61968/Metering/ComFunction.py:23-50 *)
  Cls n_CIM14_IEC61968_Metering_ComFunction_ComFunction n_ComFunction (Some n_CIM14_IEC61968_Metering_DeviceFunction_DeviceFunction)
    [(n_amrRouter, VStr n_); (n_twoWay, VBool false); (n_amrAddress, VStr n_)]
    [SAttr n_amrRouter; SAttr n_twoWay; SAttr n_amrAddress]
    true true
    [n_amrRouter; n_twoWay; n_amrAddress]
    [(n_amrRouter, VStr n_); (n_twoWay, VBool false); (n_amrAddress, VStr n_)]
    []
    []
    []
    [];
(* CIM14/IEC61968/Metering/DemandResponseProgram.py:23-126 *)
  Cls n_CIM14_IEC61968_Metering_DemandResponseProgram_DemandResponseProgram n_DemandResponseProgram (Some n_CIM14_IEC61970_Core_IdentifiedObject_IdentifiedObject)
    [(n_type, VStr n_); (n_CustomerAgreements, VNone); (n_EndDeviceControls, VNone); (n_validityInterval, VNone); (n_EndDeviceGroups, VNone)]
    [SAttr n_type; SMany n_CustomerAgreements; SMany n_EndDeviceControls; SAttr n_validityInterval; SMany n_EndDeviceGroups]
    true true
    [n_type]
    [(n_type, VStr n_)]
    []
    [n_CustomerAgreements; n_EndDeviceControls; n_validityInterval; n_EndDeviceGroups]
    [n_CustomerAgreements; n_EndDeviceControls; n_EndDeviceGroups]
    [(n_CustomerAgreements, PManyOne n_DemandResponseProgram); (n_EndDeviceControls, PManyOne n_DemandResponseProgram); (n_EndDeviceGroups, PManyOne n_DemandResponseProgram)];
(* CIM14/IEC61968/Metering/DeviceFunction.py:23-115 *)
  Cls n_CIM14_IEC61968_Metering_DeviceFunction_DeviceFunction n_DeviceFunction (Some n_CIM14_IEC61968_Assets_AssetFunction_AssetFunction)
    [(n_disabled, VBool false); (n_EndDeviceAsset, VNone); (n_Registers, VNone); (n_EndDeviceEvents, VNone)]
    [SAttr n_disabled; SOne n_EndDeviceAsset; SMany n_Registers; SMany n_EndDeviceEvents]
    true true
    [n_disabled]
    [(n_disabled, VBool false)]
    []
    [n_EndDeviceAsset; n_Registers; n_EndDeviceEvents]
    [n_Registers; n_EndDeviceEvents]
    [(n_EndDeviceAsset, POneMany n_DeviceFunctions); (n_Registers, PManyOne n_DeviceFunction); (n_EndDeviceEvents, PManyOne n_DeviceFunction)];
(* CIM14/IEC61968/Metering/DynamicDemand.py:23-50 *)
  Cls n_CIM14_IEC61968_Metering_DynamicDemand_DynamicDemand n_DynamicDemand (Some n_CIM14_Element_Element)
    [(n_kind, VStr n_logarithmic); (n_interval, VFloat n_0_0); (n_subInterval, VFloat n_0_0)]
    [SAttr n_kind; SAttr n_interval; SAttr n_subInterval]
    true true
    [n_kind; n_interval; n_subInterval]
    [(n_kind, VStr n_logarithmic); (n_interval, VFloat n_0_0); (n_subInterval, VFloat n_0_0)]
    [(n_kind, n_DemandKind)]
    []
    []
    [];
(* CIM14/IEC61968/Metering/ElectricMeteringFunction.py:23-82 *)
  Cls n_CIM14_IEC61968_Metering_ElectricMeteringFunction_ElectricMeteringFunction n_ElectricMeteringFunction (Some n_CIM14_IEC61968_Metering_DeviceFunction_DeviceFunction)
    [(n_billingMultiplierApplied, VBool false); (n_kWMultiplier, VInt 0); (n_demandMultiplier, VFloat n_0_0); (n_demandMultiplierApplied, VBool false); (n_transformerRatiosApplied, VBool false); (n_voltageRating, VFloat n_0_0); (n_billingMultiplier, VFloat n_0_0); (n_transformerVTRatio, VFloat n_0_0); (n_kWhMultiplier, VInt 0); (n_transformerCTRatio, VFloat n_0_0); (n_currentRating, VFloat n_0_0)]
    [SAttr n_billingMultiplierApplied; SAttr n_kWMultiplier; SAttr n_demandMultiplier; SAttr n_demandMultiplierApplied; SAttr n_transformerRatiosApplied; SAttr n_voltageRating; SAttr n_billingMultiplier; SAttr n_transformerVTRatio; SAttr n_kWhMultiplier; SAttr n_transformerCTRatio; SAttr n_currentRating]
    true true
    [n_billingMultiplierApplied; n_kWMultiplier; n_demandMultiplier; n_demandMultiplierApplied; n_transformerRatiosApplied; n_voltageRating; n_billingMultiplier; n_transformerVTRatio; n_kWhMultiplier; n_transformerCTRatio; n_currentRating]
    [(n_billingMultiplierApplied, VBool false); (n_kWMultiplier, VInt 0); (n_demandMultiplier, VFloat n_0_0); (n_demandMultiplierApplied, VBool false); (n_transformerRatiosApplied, VBool false); (n_voltageRating, VFloat n_0_0); (n_billingMultiplier, VFloat n_0_0); (n_transformerVTRatio, VFloat n_0_0); (n_kWhMultiplier, VInt 0); (n_transformerCTRatio, VFloat n_0_0); (n_currentRating, VFloat n_0_0)]
    []
    []
    []
    [];
(* CIM14/IEC61968/Metering/EndDeviceAsset.py:23-287 *)
  Cls n_CIM14_IEC61968_Metering_EndDeviceAsset_EndDeviceAsset n_EndDeviceAsset (Some n_CIM14_IEC61968_Assets_AssetContainer_AssetContainer)
    [(n_readRequest, VBool false); (n_demandResponse, VBool false); (n_relayCapable, VBool false); (n_amrSystem, VStr n_); (n_ratedCurrent, VFloat n_0_0); (n_phaseCount, VInt 0); (n_reverseFlowHandling, VBool false); (n_metrology, VBool false); (n_timeZoneOffset, VFloat n_0_0); (n_outageReport, VBool false); (n_dstEnabled, VBool false); (n_disconnect, VBool false); (n_ratedVoltage, VFloat n_0_0); (n_loadControl, VBool false); (n_EndDeviceGroups, VNone); (n_ServiceLocation, VNone); (n_EndDeviceModel, VNone); (n_DeviceFunctions, VNone); (n_ServiceDeliveryPoint, VNone); (n_Readings, VNone); (n_EndDeviceControls, VNone); (n_Customer, VNone)]
    [SAttr n_readRequest; SAttr n_demandResponse; SAttr n_relayCapable; SAttr n_amrSystem; SAttr n_ratedCurrent; SAttr n_phaseCount; SAttr n_reverseFlowHandling; SAttr n_metrology; SAttr n_timeZoneOffset; SAttr n_outageReport; SAttr n_dstEnabled; SAttr n_disconnect; SAttr n_ratedVoltage; SAttr n_loadControl; SMany n_EndDeviceGroups; SOne n_ServiceLocation; SOne n_EndDeviceModel; SMany n_DeviceFunctions; SOne n_ServiceDeliveryPoint; SMany n_Readings; SMany n_EndDeviceControls; SOne n_Customer]
    true true
    [n_readRequest; n_demandResponse; n_relayCapable; n_amrSystem; n_ratedCurrent; n_phaseCount; n_reverseFlowHandling; n_metrology; n_timeZoneOffset; n_outageReport; n_dstEnabled; n_disconnect; n_ratedVoltage; n_loadControl]
    [(n_readRequest, VBool false); (n_demandResponse, VBool false); (n_relayCapable, VBool false); (n_amrSystem, VStr n_); (n_ratedCurrent, VFloat n_0_0); (n_phaseCount, VInt 0); (n_reverseFlowHandling, VBool false); (n_metrology, VBool false); (n_timeZoneOffset, VFloat n_0_0); (n_outageReport, VBool false); (n_dstEnabled, VBool false); (n_disconnect, VBool false); (n_ratedVoltage, VFloat n_0_0); (n_loadControl, VBool false)]
    []
    [n_EndDeviceGroups; n_ServiceLocation; n_EndDeviceModel; n_DeviceFunctions; n_ServiceDeliveryPoint; n_Readings; n_EndDeviceControls; n_Customer]
    [n_EndDeviceGroups; n_DeviceFunctions; n_Readings; n_EndDeviceControls]
    [(n_EndDeviceGroups, PManyMany n_EndDeviceAssets); (n_ServiceLocation, POneMany n_EndDeviceAssets); (n_EndDeviceModel, POneMany n_EndDeviceAssets); (n_DeviceFunctions, PManyOne n_EndDeviceAsset); (n_ServiceDeliveryPoint, POneMany n_EndDeviceAssets); (n_Readings, PManyOne n_EndDeviceAsset); (n_EndDeviceControls, PManyOne n_EndDeviceAsset); (n_Customer, POneMany n_EndDeviceAssets)];
(* CIM14/IEC61968/Metering/EndDeviceControl.py:23-144 *)
  Cls n_CIM14_IEC61968_Metering_EndDeviceControl_EndDeviceControl n_EndDeviceControl (Some n_CIM14_IEC61970_Core_IdentifiedObject_IdentifiedObject)
    [(n_type, VStr n_); (n_drProgramMandatory, VBool false); (n_priceSignal, VFloat n_0_0); (n_drProgramLevel, VInt 0); (n_EndDeviceGroup, VNone); (n_DemandResponseProgram, VNone); (n_CustomerAgreement, VNone); (n_EndDeviceAsset, VNone); (n_scheduledInterval, VNone)]
    [SAttr n_type; SAttr n_drProgramMandatory; SAttr n_priceSignal; SAttr n_drProgramLevel; SOne n_EndDeviceGroup; SOne n_DemandResponseProgram; SOne n_CustomerAgreement; SOne n_EndDeviceAsset; SAttr n_scheduledInterval]
    true true
    [n_type; n_drProgramMandatory; n_priceSignal; n_drProgramLevel]
    [(n_type, VStr n_); (n_drProgramMandatory, VBool false); (n_priceSignal, VFloat n_0_0); (n_drProgramLevel, VInt 0)]
    []
    [n_EndDeviceGroup; n_DemandResponseProgram; n_CustomerAgreement; n_EndDeviceAsset; n_scheduledInterval]
    []
    [(n_EndDeviceGroup, POneMany n_EndDeviceControls); (n_DemandResponseProgram, POneMany n_EndDeviceControls); (n_CustomerAgreement, POneMany n_EndDeviceControls); (n_EndDeviceAsset, POneMany n_EndDeviceControls)];
(* CIM14/IEC61968/Metering/EndDeviceEvent.py:23-84 *)
  Cls n_CIM14_IEC61968_Metering_EndDeviceEvent_EndDeviceEvent n_EndDeviceEvent (Some n_CIM14_IEC61968_Common_ActivityRecord_ActivityRecord)
    [(n_userID, VStr n_); (n_MeterReading, VNone); (n_DeviceFunction, VNone)]
    [SAttr n_userID; SOne n_MeterReading; SOne n_DeviceFunction]
    true true
    [n_userID]
    [(n_userID, VStr n_)]
    []
    [n_MeterReading; n_DeviceFunction]
    []
    [(n_MeterReading, POneMany n_EndDeviceEvents); (n_DeviceFunction, POneMany n_EndDeviceEvents)];
(* CIM14/IEC61968/Metering/EndDeviceGroup.py:23-121 *)
  Cls n_CIM14_IEC61968_Metering_EndDeviceGroup_EndDeviceGroup n_EndDeviceGroup (Some n_CIM14_IEC61970_Core_IdentifiedObject_IdentifiedObject)
    [(n_groupAddress, VInt 0); (n_EndDeviceAssets, VNone); (n_EndDeviceControls, VNone); (n_DemandResponseProgram, VNone)]
    [SAttr n_groupAddress; SMany n_EndDeviceAssets; SMany n_EndDeviceControls; SOne n_DemandResponseProgram]
    true true
    [n_groupAddress]
    [(n_groupAddress, VInt 0)]
    []
    [n_EndDeviceAssets; n_EndDeviceControls; n_DemandResponseProgram]
    [n_EndDeviceAssets; n_EndDeviceControls]
    [(n_EndDeviceAssets, PManyMany n_EndDeviceGroups); (n_EndDeviceControls, PManyOne n_EndDeviceGroup); (n_DemandResponseProgram, POneMany n_EndDeviceGroups)];
(* CIM14/IEC61968/Metering/IntervalBlock.py:23-133 *)
  Cls n_CIM14_IEC61968_Metering_IntervalBlock_IntervalBlock n_IntervalBlock (Some n_CIM14_Element_Element)
    [(n_MeterReading, VNone); (n_Pending, VNone); (n_ReadingType, VNone); (n_IntervalReadings, VNone)]
    [SOne n_MeterReading; SOne n_Pending; SOne n_ReadingType; SMany n_IntervalReadings]
    true true
    []
    []
    []
    [n_MeterReading; n_Pending; n_ReadingType; n_IntervalReadings]
    [n_IntervalReadings]
    [(n_MeterReading, POneMany n_IntervalBlocks); (n_Pending, POneMany n_IntervalBlocks); (n_ReadingType, POneMany n_IntervalBlocks); (n_IntervalReadings, PManyMany n_IntervalBlocks)];
(* CIM14/IEC61968/Metering/IntervalReading.py:23-100 *)
  Cls n_CIM14_IEC61968_Metering_IntervalReading_IntervalReading n_IntervalReading (Some n_CIM14_IEC61970_Meas_MeasurementValue_MeasurementValue)
    [(n_value, VFloat n_0_0); (n_ReadingQualities, VNone); (n_IntervalBlocks, VNone)]
    [SAttr n_value; SMany n_ReadingQualities; SMany n_IntervalBlocks]
    true true
    [n_value]
    [(n_value, VFloat n_0_0)]
    []
    [n_ReadingQualities; n_IntervalBlocks]
    [n_ReadingQualities; n_IntervalBlocks]
    [(n_ReadingQualities, PManyOne n_IntervalReading); (n_IntervalBlocks, PManyMany n_IntervalReadings)];
(* CIM14/IEC61968/Metering/MeterAsset.py:23-154 *)
  Cls n_CIM14_IEC61968_Metering_MeterAsset_MeterAsset n_MeterAsset (Some n_CIM14_IEC61968_Metering_EndDeviceAsset_EndDeviceAsset)
    [(n_kH, VFloat n_0_0); (n_kR, VFloat n_0_0); (n_formNumber, VStr n_); (n_MeterReplacementWorks, VNone); (n_MeterServiceWorks, VNone); (n_MeterReadings, VNone); (n_VendingTransactions, VNone)]
    [SAttr n_kH; SAttr n_kR; SAttr n_formNumber; SMany n_MeterReplacementWorks; SMany n_MeterServiceWorks; SMany n_MeterReadings; SMany n_VendingTransactions]
    true true
    [n_kH; n_kR; n_formNumber]
    [(n_kH, VFloat n_0_0); (n_kR, VFloat n_0_0); (n_formNumber, VStr n_)]
    []
    [n_MeterReplacementWorks; n_MeterServiceWorks; n_MeterReadings; n_VendingTransactions]
    [n_MeterReplacementWorks; n_MeterServiceWorks; n_MeterReadings; n_VendingTransactions]
    [(n_MeterReplacementWorks, PManyOne n_OldMeterAsset); (n_MeterServiceWorks, PManyOne n_MeterAsset); (n_MeterReadings, PManyOne n_MeterAsset); (n_VendingTransactions, PManyOne n_MeterAsset)];
(* CIM14/IEC61968/Metering/MeterReading.py:23-191 *)
  Cls n_CIM14_IEC61968_Metering_MeterReading_MeterReading n_MeterReading (Some n_CIM14_IEC61970_Core_IdentifiedObject_IdentifiedObject)
    [(n_IntervalBlocks, VNone); (n_CustomerAgreement, VNone); (n_MeterAsset, VNone); (n_EndDeviceEvents, VNone); (n_Readings, VNone); (n_ServiceDeliveryPoint, VNone); (n_valuesInterval, VNone)]
    [SMany n_IntervalBlocks; SOne n_CustomerAgreement; SOne n_MeterAsset; SMany n_EndDeviceEvents; SMany n_Readings; SOne n_ServiceDeliveryPoint; SAttr n_valuesInterval]
    true true
    []
    []
    []
    [n_IntervalBlocks; n_CustomerAgreement; n_MeterAsset; n_EndDeviceEvents; n_Readings; n_ServiceDeliveryPoint; n_valuesInterval]
    [n_IntervalBlocks; n_EndDeviceEvents; n_Readings]
    [(n_IntervalBlocks, PManyOne n_MeterReading); (n_CustomerAgreement, POneMany n_MeterReadings); (n_MeterAsset, POneMany n_MeterReadings); (n_EndDeviceEvents, PManyOne n_MeterReading); (n_Readings, PManyMany n_MeterReadings); (n_ServiceDeliveryPoint, POneMany n_MeterReadings)];
(* CIM14/IEC61968/Metering/MeterServiceWork.py:23-80 *)
  Cls n_CIM14_IEC61968_Metering_MeterServiceWork_MeterServiceWork n_MeterServiceWork (Some n_CIM14_IEC61968_Work_Work_Work)
    [(n_OldMeterAsset, VNone); (n_MeterAsset, VNone)]
    [SOne n_OldMeterAsset; SOne n_MeterAsset]
    true true
    []
    []
    []
    [n_OldMeterAsset; n_MeterAsset]
    []
    [(n_OldMeterAsset, POneMany n_MeterReplacementWorks); (n_MeterAsset, POneMany n_MeterServiceWorks)];
(* CIM14/IEC61968/Metering/Pending.py:23-104 *)
  Cls n_CIM14_IEC61968_Metering_Pending_Pending n_Pending (Some n_CIM14_Element_Element)
    [(n_scalarDenominator, VInt 0); (n_scalarFloat, VFloat n_0_0); (n_scalarNumerator, VInt 0); (n_multiplyBeforeAdd, VBool false); (n_offset, VInt 0); (n_IntervalBlocks, VNone); (n_ReadingType, VNone)]
    [SAttr n_scalarDenominator; SAttr n_scalarFloat; SAttr n_scalarNumerator; SAttr n_multiplyBeforeAdd; SAttr n_offset; SMany n_IntervalBlocks; SOne n_ReadingType]
    true true
    [n_scalarDenominator; n_scalarFloat; n_scalarNumerator; n_multiplyBeforeAdd; n_offset]
    [(n_scalarDenominator, VInt 0); (n_scalarFloat, VFloat n_0_0); (n_scalarNumerator, VInt 0); (n_multiplyBeforeAdd, VBool false); (n_offset, VInt 0)]
    []
    [n_IntervalBlocks; n_ReadingType]
    [n_IntervalBlocks]
    [(n_IntervalBlocks, PManyOne n_Pending); (n_ReadingType, POneOne n_Pending)];
(* CIM14/IEC61968/Metering/Reading.py:23-141 *)
  Cls n_CIM14_IEC61968_Metering_Reading_Reading n_Reading (Some n_CIM14_IEC61970_Meas_MeasurementValue_MeasurementValue)
    [(n_value, VFloat n_0_0); (n_ReadingType, VNone); (n_ReadingQualities, VNone); (n_EndDeviceAsset, VNone); (n_MeterReadings, VNone)]
    [SAttr n_value; SOne n_ReadingType; SMany n_ReadingQualities; SOne n_EndDeviceAsset; SMany n_MeterReadings]
    true true
    [n_value]
    [(n_value, VFloat n_0_0)]
    []
    [n_ReadingType; n_ReadingQualities; n_EndDeviceAsset; n_MeterReadings]
    [n_ReadingQualities; n_MeterReadings]
    [(n_ReadingType, POneMany n_Readings); (n_ReadingQualities, PManyOne n_Reading); (n_EndDeviceAsset, POneMany n_Readings); (n_MeterReadings, PManyMany n_Readings)];
(* CIM14/IEC61968/Metering/ReadingQuality.py:23-84 *)
  Cls n_CIM14_IEC61968_Metering_ReadingQuality_ReadingQuality n_ReadingQuality (Some n_CIM14_Element_Element)
    [(n_quality, VStr n_); (n_IntervalReading, VNone); (n_Reading, VNone)]
    [SAttr n_quality; SOne n_IntervalReading; SOne n_Reading]
    true true
    [n_quality]
    [(n_quality, VStr n_)]
    []
    [n_IntervalReading; n_Reading]
    []
    [(n_IntervalReading, POneMany n_ReadingQualities); (n_Reading, POneMany n_ReadingQualities)];
(* CIM14/IEC61968/Metering/ReadingType.py:23-168 *)
  Cls n_CIM14_IEC61968_Metering_ReadingType_ReadingType n_ReadingType (Some n_CIM14_IEC61970_Core_IdentifiedObject_IdentifiedObject)
    [(n_multiplier, VStr n_k); (n_kind, VStr n_voltageAngle); (n_unit, VStr n_N); (n_reverseChronology, VBool false); (n_defaultQuality, VStr n_); (n_defaultValueDataType, VStr n_); (n_channelNumber, VInt 0); (n_intervalLength, VFloat n_0_0); (n_Readings, VNone); (n_dynamicConfiguration, VNone); (n_IntervalBlocks, VNone); (n_Pending, VNone); (n_Register, VNone)]
    [SAttr n_multiplier; SAttr n_kind; SAttr n_unit; SAttr n_reverseChronology; SAttr n_defaultQuality; SAttr n_defaultValueDataType; SAttr n_channelNumber; SAttr n_intervalLength; SMany n_Readings; SAttr n_dynamicConfiguration; SMany n_IntervalBlocks; SOne n_Pending; SOne n_Register]
    true true
    [n_multiplier; n_kind; n_unit; n_reverseChronology; n_defaultQuality; n_defaultValueDataType; n_channelNumber; n_intervalLength]
    [(n_multiplier, VStr n_k); (n_kind, VStr n_voltageAngle); (n_unit, VStr n_N); (n_reverseChronology, VBool false); (n_defaultQuality, VStr n_); (n_defaultValueDataType, VStr n_); (n_channelNumber, VInt 0); (n_intervalLength, VFloat n_0_0)]
    [(n_multiplier, n_UnitMultiplier); (n_kind, n_ReadingKind); (n_unit, n_UnitSymbol)]
    [n_Readings; n_dynamicConfiguration; n_IntervalBlocks; n_Pending; n_Register]
    [n_Readings; n_IntervalBlocks]
    [(n_Readings, PManyOne n_ReadingType); (n_IntervalBlocks, PManyOne n_ReadingType); (n_Pending, POneOne n_ReadingType); (n_Register, POneOne n_ReadingType)];
(* CIM14/IEC61968/Metering/Register.py:23-87 *)
  Cls n_CIM14_IEC61968_Metering_Register_Register n_Register (Some n_CIM14_IEC61970_Core_IdentifiedObject_IdentifiedObject)
    [(n_leftDigitCount, VInt 0); (n_rightDigitCount, VInt 0); (n_ReadingType, VNone); (n_DeviceFunction, VNone)]
    [SAttr n_leftDigitCount; SAttr n_rightDigitCount; SOne n_ReadingType; SOne n_DeviceFunction]
    true true
    [n_leftDigitCount; n_rightDigitCount]
    [(n_leftDigitCount, VInt 0); (n_rightDigitCount, VInt 0)]
    []
    [n_ReadingType; n_DeviceFunction]
    []
    [(n_ReadingType, POneOne n_Register); (n_DeviceFunction, POneMany n_Registers)];
(* CIM14/IEC61968/Metering/SDPLocation.py:23-86 *)
  Cls n_CIM14_IEC61968_Metering_SDPLocation_SDPLocation n_SDPLocation (Some n_CIM14_IEC61968_Common_Location_Location)
    [(n_remark, VStr n_); (n_siteAccessProblem, VStr n_); (n_occupancyDate, VStr n_); (n_accessMethod, VStr n_); (n_ServiceDeliveryPoints, VNone)]
    [SAttr n_remark; SAttr n_siteAccessProblem; SAttr n_occupancyDate; SAttr n_accessMethod; SMany n_ServiceDeliveryPoints]
    true true
    [n_remark; n_siteAccessProblem; n_occupancyDate; n_accessMethod]
    [(n_remark, VStr n_); (n_siteAccessProblem, VStr n_); (n_occupancyDate, VStr n_); (n_accessMethod, VStr n_)]
    []
    [n_ServiceDeliveryPoints]
    [n_ServiceDeliveryPoints]
    [(n_ServiceDeliveryPoints, PManyMany n_SDPLocations)];
(* CIM14/IEC61968/Metering/ServiceDeliveryPoint.py:23-319 *)
  Cls n_CIM14_IEC61968_Metering_ServiceDeliveryPoint_ServiceDeliveryPoint n_ServiceDeliveryPoint (Some n_CIM14_IEC61970_Core_IdentifiedObject_IdentifiedObject)
    [(n_phaseCode, VStr n_A); (n_ratedPower, VFloat n_0_0); (n_servicePriority, VStr n_); (n_checkBilling, VBool false); (n_grounded, VBool false); (n_serviceDeliveryRemark, VStr n_); (n_ratedCurrent, VFloat n_0_0); (n_estimatedLoad, VFloat n_0_0); (n_nominalServiceVoltage, VInt 0); (n_ctptReference, VInt 0); (n_PricingStructures, VNone); (n_Transformer, VNone); (n_SDPLocations, VNone); (n_EndDeviceAssets, VNone); (n_EnergyConsumer, VNone); (n_ServiceLocation, VNone); (n_CustomerAgreement, VNone); (n_MeterReadings, VNone); (n_ServiceSupplier, VNone); (n_ServiceCategory, VNone)]
    [SAttr n_phaseCode; SAttr n_ratedPower; SAttr n_servicePriority; SAttr n_checkBilling; SAttr n_grounded; SAttr n_serviceDeliveryRemark; SAttr n_ratedCurrent; SAttr n_estimatedLoad; SAttr n_nominalServiceVoltage; SAttr n_ctptReference; SMany n_PricingStructures; SOne n_Transformer; SMany n_SDPLocations; SMany n_EndDeviceAssets; SOne n_EnergyConsumer; SOne n_ServiceLocation; SOne n_CustomerAgreement; SMany n_MeterReadings; SOne n_ServiceSupplier; SOne n_ServiceCategory]
    true true
    [n_phaseCode; n_ratedPower; n_servicePriority; n_checkBilling; n_grounded; n_serviceDeliveryRemark; n_ratedCurrent; n_estimatedLoad; n_nominalServiceVoltage; n_ctptReference]
    [(n_phaseCode, VStr n_A); (n_ratedPower, VFloat n_0_0); (n_servicePriority, VStr n_); (n_checkBilling, VBool false); (n_grounded, VBool false); (n_serviceDeliveryRemark, VStr n_); (n_ratedCurrent, VFloat n_0_0); (n_estimatedLoad, VFloat n_0_0); (n_nominalServiceVoltage, VInt 0); (n_ctptReference, VInt 0)]
    [(n_phaseCode, n_PhaseCode)]
    [n_PricingStructures; n_Transformer; n_SDPLocations; n_EndDeviceAssets; n_EnergyConsumer; n_ServiceLocation; n_CustomerAgreement; n_MeterReadings; n_ServiceSupplier; n_ServiceCategory]
    [n_PricingStructures; n_SDPLocations; n_EndDeviceAssets; n_MeterReadings]
    [(n_PricingStructures, PManyMany n_ServiceDeliveryPoints); (n_Transformer, POneMany n_ServiceDeliveryPoints); (n_SDPLocations, PManyMany n_ServiceDeliveryPoints); (n_EndDeviceAssets, PManyOne n_ServiceDeliveryPoint); (n_EnergyConsumer, POneMany n_ServiceDeliveryPoints); (n_ServiceLocation, POneMany n_ServiceDeliveryPoints); (n_CustomerAgreement, POneMany n_ServiceDeliveryPoints); (n_MeterReadings, PManyOne n_ServiceDeliveryPoint); (n_ServiceSupplier, POneMany n_ServiceDeliveryPoints); (n_ServiceCategory, POneMany n_ServiceDeliveryPoints)];
(* CIM14/IEC61968/PaymentMetering/AccountMovement.py:23-50 *)
  Cls n_CIM14_IEC61968_PaymentMetering_AccountMovement_AccountMovement n_AccountMovement (Some n_CIM14_Element_Element)
    [(n_dateTime, VStr n_); (n_amount, VFloat n_0_0); (n_reason, VStr n_)]
    [SAttr n_dateTime; SAttr n_amount; SAttr n_reason]
    true true
    [n_dateTime; n_amount; n_reason]
    [(n_dateTime, VStr n_); (n_amount, VFloat n_0_0); (n_reason, VStr n_)]
    []
    []
    []
    [];
(* CIM14/IEC61968/PaymentMetering/AccountingUnit.py:23-54 *)
  Cls n_CIM14_IEC61968_PaymentMetering_AccountingUnit_AccountingUnit n_AccountingUnit (Some n_CIM14_Element_Element)
    [(n_multiplier, VStr n_k); (n_monetaryUnit, VStr n_CNY); (n_energyUnit, VFloat n_0_0); (n_value, VFloat n_0_0)]
    [SAttr n_multiplier; SAttr n_monetaryUnit; SAttr n_energyUnit; SAttr n_value]
    true true
    [n_multiplier; n_monetaryUnit; n_energyUnit; n_value]
    [(n_multiplier, VStr n_k); (n_monetaryUnit, VStr n_CNY); (n_energyUnit, VFloat n_0_0); (n_value, VFloat n_0_0)]
    [(n_multiplier, n_UnitMultiplier); (n_monetaryUnit, n_Currency)]
    []
    []
    [];
(* CIM14/IEC61968/PaymentMetering/AuxiliaryAccount.py:23-143 *)
  Cls n_CIM14_IEC61968_PaymentMetering_AuxiliaryAccount_AuxiliaryAccount n_AuxiliaryAccount (Some n_CIM14_IEC61968_Common_Document_Document)
    [(n_balance, VFloat n_0_0); (n_principleAmount, VFloat n_0_0); (n_Charges, VNone); (n_AuxiliaryAgreement, VNone); (n_PaymentTransactions, VNone); (n_lastDebit, VNone); (n_lastCredit, VNone); (n_due, VNone)]
    [SAttr n_balance; SAttr n_principleAmount; SMany n_Charges; SOne n_AuxiliaryAgreement; SMany n_PaymentTransactions; SAttr n_lastDebit; SAttr n_lastCredit; SAttr n_due]
    true true
    [n_balance; n_principleAmount]
    [(n_balance, VFloat n_0_0); (n_principleAmount, VFloat n_0_0)]
    []
    [n_Charges; n_AuxiliaryAgreement; n_PaymentTransactions; n_lastDebit; n_lastCredit; n_due]
    [n_Charges; n_PaymentTransactions]
    [(n_Charges, PManyMany n_AuxiliaryAccounts); (n_AuxiliaryAgreement, POneMany n_AuxiliaryAccounts); (n_PaymentTransactions, PManyOne n_AuxiliaryAccount)];
(* CIM14/IEC61968/PaymentMetering/AuxiliaryAgreement.py:23-125 *)
  Cls n_CIM14_IEC61968_PaymentMetering_AuxiliaryAgreement_AuxiliaryAgreement n_AuxiliaryAgreement (Some n_CIM14_IEC61968_Common_Agreement_Agreement)
    [(n_arrearsInterest, VFloat n_0_0); (n_vendPortion, VFloat n_0_0); (n_minAmount, VFloat n_0_0); (n_auxPriorityCode, VStr n_); (n_subCategory, VStr n_); (n_auxRef, VStr n_); (n_auxCycle, VStr n_); (n_vendPortionArrear, VFloat n_0_0); (n_payCycle, VStr n_); (n_fixedAmount, VFloat n_0_0); (n_AuxiliaryAccounts, VNone); (n_CustomerAgreement, VNone)]
    [SAttr n_arrearsInterest; SAttr n_vendPortion; SAttr n_minAmount; SAttr n_auxPriorityCode; SAttr n_subCategory; SAttr n_auxRef; SAttr n_auxCycle; SAttr n_vendPortionArrear; SAttr n_payCycle; SAttr n_fixedAmount; SMany n_AuxiliaryAccounts; SOne n_CustomerAgreement]
    true true
    [n_arrearsInterest; n_vendPortion; n_minAmount; n_auxPriorityCode; n_subCategory; n_auxRef; n_auxCycle; n_vendPortionArrear; n_payCycle; n_fixedAmount]
    [(n_arrearsInterest, VFloat n_0_0); (n_vendPortion, VFloat n_0_0); (n_minAmount, VFloat n_0_0); (n_auxPriorityCode, VStr n_); (n_subCategory, VStr n_); (n_auxRef, VStr n_); (n_auxCycle, VStr n_); (n_vendPortionArrear, VFloat n_0_0); (n_payCycle, VStr n_); (n_fixedAmount, VFloat n_0_0)]
    []
    [n_AuxiliaryAccounts; n_CustomerAgreement]
    [n_AuxiliaryAccounts]
    [(n_AuxiliaryAccounts, PManyOne n_AuxiliaryAgreement); (n_CustomerAgreement, POneMany n_AuxiliaryAgreements)];
(* CIM14/IEC61968/PaymentMetering/BankAccountDetail.py:23-58 *)
  Cls n_CIM14_IEC61968_PaymentMetering_BankAccountDetail_BankAccountDetail n_BankAccountDetail (Some n_CIM14_Element_Element)
    [(n_holderName, VStr n_); (n_accountNumber, VStr n_); (n_bankName, VStr n_); (n_branchCode, VStr n_); (n_holderID, VStr n_)]
    [SAttr n_holderName; SAttr n_accountNumber; SAttr n_bankName; SAttr n_branchCode; SAttr n_holderID]
    true true
    [n_holderName; n_accountNumber; n_bankName; n_branchCode; n_holderID]
    [(n_holderName, VStr n_); (n_accountNumber, VStr n_); (n_bankName, VStr n_); (n_branchCode, VStr n_); (n_holderID, VStr n_)]
    []
    []
    []
    [];
(* CIM14/IEC61968/PaymentMetering/Card.py:23-74 *)
  Cls n_CIM14_IEC61968_PaymentMetering_Card_Card n_Card (Some n_CIM14_Element_Element)
    [(n_pan, VStr n_); (n_expiryDate, VStr n_); (n_cvNumber, VStr n_); (n_accountHolderName, VStr n_); (n_Tender, VNone)]
    [SAttr n_pan; SAttr n_expiryDate; SAttr n_cvNumber; SAttr n_accountHolderName; SOne n_Tender]
    true true
    [n_pan; n_expiryDate; n_cvNumber; n_accountHolderName]
    [(n_pan, VStr n_); (n_expiryDate, VStr n_); (n_cvNumber, VStr n_); (n_accountHolderName, VStr n_)]
    []
    [n_Tender]
    []
    [(n_Tender, POneOne n_Card)];
(* CIM14/IEC61968/PaymentMetering/Cashier.py:23-91 *)
  Cls n_CIM14_IEC61968_PaymentMetering_Cashier_Cashier n_Cashier (Some n_CIM14_IEC61970_Core_IdentifiedObject_IdentifiedObject)
    [(n_CashierShifts, VNone); (n_electronicAddress, VNone); (n_Vendor, VNone)]
    [SMany n_CashierShifts; SAttr n_electronicAddress; SOne n_Vendor]
    true true
    []
    []
    []
    [n_CashierShifts; n_electronicAddress; n_Vendor]
    [n_CashierShifts]
    [(n_CashierShifts, PManyOne n_Cashier); (n_Vendor, POneMany n_Cashiers)];
(* CIM14/IEC61968/PaymentMetering/CashierShift.py:23-135 *)
  Cls n_CIM14_IEC61968_PaymentMetering_CashierShift_CashierShift n_CashierShift (Some n_CIM14_IEC61968_PaymentMetering_Shift_Shift)
    [(n_cashFloat, VFloat n_0_0); (n_Receipts, VNone); (n_Transactions, VNone); (n_Cashier, VNone); (n_PointOfSale, VNone)]
    [SAttr n_cashFloat; SMany n_Receipts; SMany n_Transactions; SOne n_Cashier; SOne n_PointOfSale]
    true true
    [n_cashFloat]
    [(n_cashFloat, VFloat n_0_0)]
    []
    [n_Receipts; n_Transactions; n_Cashier; n_PointOfSale]
    [n_Receipts; n_Transactions]
    [(n_Receipts, PManyOne n_CashierShift); (n_Transactions, PManyOne n_CashierShift); (n_Cashier, POneMany n_CashierShifts); (n_PointOfSale, POneMany n_CashierShifts)];
(* CIM14/IEC61968/PaymentMetering/Charge.py:23-194 *)
  Cls n_CIM14_IEC61968_PaymentMetering_Charge_Charge n_Charge (Some n_CIM14_IEC61970_Core_IdentifiedObject_IdentifiedObject)
    [(n_kind, VStr n_demandCharge); (n_variablePortion, VFloat n_0_0); (n_AuxiliaryAccounts, VNone); (n_ParentCharge, VNone); (n_ChildCharges, VNone); (n_fixedPortion, VNone); (n_ConsumptionTariffIntervals, VNone); (n_TimeTariffIntervals, VNone)]
    [SAttr n_kind; SAttr n_variablePortion; SMany n_AuxiliaryAccounts; SOne n_ParentCharge; SMany n_ChildCharges; SAttr n_fixedPortion; SMany n_ConsumptionTariffIntervals; SMany n_TimeTariffIntervals]
    true true
    [n_kind; n_variablePortion]
    [(n_kind, VStr n_demandCharge); (n_variablePortion, VFloat n_0_0)]
    [(n_kind, n_ChargeKind)]
    [n_AuxiliaryAccounts; n_ParentCharge; n_ChildCharges; n_fixedPortion; n_ConsumptionTariffIntervals; n_TimeTariffIntervals]
    [n_AuxiliaryAccounts; n_ChildCharges; n_ConsumptionTariffIntervals; n_TimeTariffIntervals]
    [(n_AuxiliaryAccounts, PManyMany n_Charges); (n_ParentCharge, POneMany n_ChildCharges); (n_ChildCharges, PManyOne n_ParentCharge); (n_ConsumptionTariffIntervals, PManyMany n_Charges); (n_TimeTariffIntervals, PManyMany n_Charges)];
(* CIM14/IEC61968/PaymentMetering/Cheque.py:23-80 *)
  Cls n_CIM14_IEC61968_PaymentMetering_Cheque_Cheque n_Cheque (Some n_CIM14_Element_Element)
    [(n_kind, VStr n_other); (n_micrNumber, VStr n_); (n_date, VStr n_); (n_chequeNumber, VStr n_); (n_Tender, VNone); (n_bankAccountDetail, VNone)]
    [SAttr n_kind; SAttr n_micrNumber; SAttr n_date; SAttr n_chequeNumber; SOne n_Tender; SAttr n_bankAccountDetail]
    true true
    [n_kind; n_micrNumber; n_date; n_chequeNumber]
    [(n_kind, VStr n_other); (n_micrNumber, VStr n_); (n_date, VStr n_); (n_chequeNumber, VStr n_)]
    [(n_kind, n_ChequeKind)]
    [n_Tender; n_bankAccountDetail]
    []
    [(n_Tender, POneOne n_Cheque)];
(* CIM14/IEC61968/PaymentMetering/ConsumptionTariffInterval.py:23-110 *)
  Cls n_CIM14_IEC61968_PaymentMetering_ConsumptionTariffInterval_ConsumptionTariffInterval n_ConsumptionTariffInterval (Some n_CIM14_Element_Element)
    [(n_sequenceNumber, VInt 0); (n_startValue, VFloat n_0_0); (n_TariffProfiles, VNone); (n_Charges, VNone)]
    [SAttr n_sequenceNumber; SAttr n_startValue; SMany n_TariffProfiles; SMany n_Charges]
    true true
    [n_sequenceNumber; n_startValue]
    [(n_sequenceNumber, VInt 0); (n_startValue, VFloat n_0_0)]
    []
    [n_TariffProfiles; n_Charges]
    [n_TariffProfiles; n_Charges]
    [(n_TariffProfiles, PManyMany n_ConsumptionTariffIntervals); (n_Charges, PManyMany n_ConsumptionTariffIntervals)];
(* CIM14/IEC61968/PaymentMetering/Due.py:23-58 *)
  Cls n_CIM14_IEC61968_PaymentMetering_Due_Due n_Due (Some n_CIM14_Element_Element)
    [(n_interest, VFloat n_0_0); (n_principle, VFloat n_0_0); (n_arrears, VFloat n_0_0); (n_current, VFloat n_0_0); (n_charges, VFloat n_0_0)]
    [SAttr n_interest; SAttr n_principle; SAttr n_arrears; SAttr n_current; SAttr n_charges]
    true true
    [n_interest; n_principle; n_arrears; n_current; n_charges]
    [(n_interest, VFloat n_0_0); (n_principle, VFloat n_0_0); (n_arrears, VFloat n_0_0); (n_current, VFloat n_0_0); (n_charges, VFloat n_0_0)]
    []
    []
    []
    [];
(* CIM14/IEC61968/PaymentMetering/LineDetail.py:23-54 *)
  Cls n_CIM14_IEC61968_PaymentMetering_LineDetail_LineDetail n_LineDetail (Some n_CIM14_Element_Element)
    [(n_dateTime, VStr n_); (n_rounding, VFloat n_0_0); (n_note, VStr n_); (n_amount, VFloat n_0_0)]
    [SAttr n_dateTime; SAttr n_rounding; SAttr n_note; SAttr n_amount]
    true true
    [n_dateTime; n_rounding; n_note; n_amount]
    [(n_dateTime, VStr n_); (n_rounding, VFloat n_0_0); (n_note, VStr n_); (n_amount, VFloat n_0_0)]
    []
    []
    []
    [];
(* CIM14/IEC61968/PaymentMetering/MerchantAccount.py:23-151 *)
  Cls n_CIM14_IEC61968_PaymentMetering_MerchantAccount_MerchantAccount n_MerchantAccount (Some n_CIM14_IEC61968_Common_Document_Document)
    [(n_provisionalBalance, VFloat n_0_0); (n_currentBalance, VFloat n_0_0); (n_VendorShifts, VNone); (n_MerchantAgreement, VNone); (n_Vendors, VNone); (n_Transactors, VNone)]
    [SAttr n_provisionalBalance; SAttr n_currentBalance; SMany n_VendorShifts; SOne n_MerchantAgreement; SMany n_Vendors; SMany n_Transactors]
    true true
    [n_provisionalBalance; n_currentBalance]
    [(n_provisionalBalance, VFloat n_0_0); (n_currentBalance, VFloat n_0_0)]
    []
    [n_VendorShifts; n_MerchantAgreement; n_Vendors; n_Transactors]
    [n_VendorShifts; n_Vendors; n_Transactors]
    [(n_VendorShifts, PManyOne n_MerchantAccount); (n_MerchantAgreement, POneMany n_MerchantAccounts); (n_Vendors, PManyOne n_MerchantAccount); (n_Transactors, PManyMany n_MerchantAccounts)];
(* CIM14/IEC61968/PaymentMetering/MerchantAgreement.py:23-64 *)
  Cls n_CIM14_IEC61968_PaymentMetering_MerchantAgreement_MerchantAgreement n_MerchantAgreement (Some n_CIM14_IEC61968_Common_Agreement_Agreement)
    [(n_MerchantAccounts, VNone)]
    [SMany n_MerchantAccounts]
    true true
    []
    []
    []
    [n_MerchantAccounts]
    [n_MerchantAccounts]
    [(n_MerchantAccounts, PManyOne n_MerchantAgreement)];
(* CIM14/IEC61968/PaymentMetering/PointOfSale.py:23-89 *)
  Cls n_CIM14_IEC61968_PaymentMetering_PointOfSale_PointOfSale n_PointOfSale (Some n_CIM14_IEC61970_Core_IdentifiedObject_IdentifiedObject)
    [(n_location, VStr n_); (n_Vendor, VNone); (n_CashierShifts, VNone)]
    [SAttr n_location; SOne n_Vendor; SMany n_CashierShifts]
    true true
    [n_location]
    [(n_location, VStr n_)]
    []
    [n_Vendor; n_CashierShifts]
    [n_CashierShifts]
    [(n_Vendor, POneMany n_PointOfSales); (n_CashierShifts, PManyOne n_PointOfSale)];
(* CIM14/IEC61968/PaymentMetering/Receipt.py:23-142 *)
  Cls n_CIM14_IEC61968_PaymentMetering_Receipt_Receipt n_Receipt (Some n_CIM14_IEC61970_Core_IdentifiedObject_IdentifiedObject)
    [(n_isBankable, VBool false); (n_CashierShift, VNone); (n_Tenders, VNone); (n_VendorShift, VNone); (n_Transactions, VNone); (n_line, VNone)]
    [SAttr n_isBankable; SOne n_CashierShift; SMany n_Tenders; SOne n_VendorShift; SMany n_Transactions; SAttr n_line]
    true true
    [n_isBankable]
    [(n_isBankable, VBool false)]
    []
    [n_CashierShift; n_Tenders; n_VendorShift; n_Transactions; n_line]
    [n_Tenders; n_Transactions]
    [(n_CashierShift, POneMany n_Receipts); (n_Tenders, PManyOne n_Receipt); (n_VendorShift, POneMany n_Receipts); (n_Transactions, PManyOne n_Receipt)];
(* CIM14/IEC61968/PaymentMetering/ServiceSupplier.py:23-98 *)
  Cls n_CIM14_IEC61968_PaymentMetering_ServiceSupplier_ServiceSupplier n_ServiceSupplier (Some n_CIM14_IEC61968_Common_Organisation_Organisation)
    [(n_kind, VStr n_retailer); (n_issuerIdentificationNumber, VStr n_); (n_CustomerAgreements, VNone); (n_ServiceDeliveryPoints, VNone)]
    [SAttr n_kind; SAttr n_issuerIdentificationNumber; SMany n_CustomerAgreements; SMany n_ServiceDeliveryPoints]
    true true
    [n_kind; n_issuerIdentificationNumber]
    [(n_kind, VStr n_retailer); (n_issuerIdentificationNumber, VStr n_)]
    [(n_kind, n_SupplierKind)]
    [n_CustomerAgreements; n_ServiceDeliveryPoints]
    [n_CustomerAgreements; n_ServiceDeliveryPoints]
    [(n_CustomerAgreements, PManyOne n_ServiceSupplier); (n_ServiceDeliveryPoints, PManyOne n_ServiceSupplier)];
(* CIM14/IEC61968/PaymentMetering/Shift.py:23-64 *)
  Cls n_CIM14_IEC61968_PaymentMetering_Shift_Shift n_Shift (Some n_CIM14_IEC61970_Core_IdentifiedObject_IdentifiedObject)
    [(n_receiptsGrandTotalNonBankable, VFloat n_0_0); (n_receiptsGrandTotalBankable, VFloat n_0_0); (n_receiptsGrandTotalRounding, VFloat n_0_0); (n_transactionsGrandTotal, VFloat n_0_0); (n_transactionsGrandTotalRounding, VFloat n_0_0); (n_activityInterval, VNone)]
    [SAttr n_receiptsGrandTotalNonBankable; SAttr n_receiptsGrandTotalBankable; SAttr n_receiptsGrandTotalRounding; SAttr n_transactionsGrandTotal; SAttr n_transactionsGrandTotalRounding; SAttr n_activityInterval]
    true true
    [n_receiptsGrandTotalNonBankable; n_receiptsGrandTotalBankable; n_receiptsGrandTotalRounding; n_transactionsGrandTotal; n_transactionsGrandTotalRounding]
    [(n_receiptsGrandTotalNonBankable, VFloat n_0_0); (n_receiptsGrandTotalBankable, VFloat n_0_0); (n_receiptsGrandTotalRounding, VFloat n_0_0); (n_transactionsGrandTotal, VFloat n_0_0); (n_transactionsGrandTotalRounding, VFloat n_0_0)]
    []
    [n_activityInterval]
    []
    [];
(* CIM14/IEC61968/PaymentMetering/TariffProfile.py:23-138 *)
  Cls n_CIM14_IEC61968_PaymentMetering_TariffProfile_TariffProfile n_TariffProfile (Some n_CIM14_IEC61968_Common_Document_Document)
    [(n_tariffCycle, VStr n_); (n_ConsumptionTariffIntervals, VNone); (n_TimeTariffIntervals, VNone); (n_Tariffs, VNone)]
    [SAttr n_tariffCycle; SMany n_ConsumptionTariffIntervals; SMany n_TimeTariffIntervals; SMany n_Tariffs]
    true true
    [n_tariffCycle]
    [(n_tariffCycle, VStr n_)]
    []
    [n_ConsumptionTariffIntervals; n_TimeTariffIntervals; n_Tariffs]
    [n_ConsumptionTariffIntervals; n_TimeTariffIntervals; n_Tariffs]
    [(n_ConsumptionTariffIntervals, PManyMany n_TariffProfiles); (n_TimeTariffIntervals, PManyMany n_TariffProfiles); (n_Tariffs, PManyMany n_TariffProfiles)];
(* CIM14/IEC61968/PaymentMetering/Tender.py:23-111 *)
  Cls n_CIM14_IEC61968_PaymentMetering_Tender_Tender n_Tender (Some n_CIM14_IEC61970_Core_IdentifiedObject_IdentifiedObject)
    [(n_kind, VStr n_cash); (n_amount, VFloat n_0_0); (n_change, VFloat n_0_0); (n_Cheque, VNone); (n_Receipt, VNone); (n_Card, VNone)]
    [SAttr n_kind; SAttr n_amount; SAttr n_change; SOne n_Cheque; SOne n_Receipt; SOne n_Card]
    true true
    [n_kind; n_amount; n_change]
    [(n_kind, VStr n_cash); (n_amount, VFloat n_0_0); (n_change, VFloat n_0_0)]
    [(n_kind, n_TenderKind)]
    [n_Cheque; n_Receipt; n_Card]
    []
    [(n_Cheque, POneOne n_Tender); (n_Receipt, POneMany n_Tenders); (n_Card, POneOne n_Tender)];
(* CIM14/IEC61968/PaymentMetering/TimeTariffInterval.py:23-110 *)
  Cls n_CIM14_IEC61968_PaymentMetering_TimeTariffInterval_TimeTariffInterval n_TimeTariffInterval (Some n_CIM14_Element_Element)
    [(n_sequenceNumber, VInt 0); (n_startDateTime, VStr n_); (n_TariffProfiles, VNone); (n_Charges, VNone)]
    [SAttr n_sequenceNumber; SAttr n_startDateTime; SMany n_TariffProfiles; SMany n_Charges]
    true true
    [n_sequenceNumber; n_startDateTime]
    [(n_sequenceNumber, VInt 0); (n_startDateTime, VStr n_)]
    []
    [n_TariffProfiles; n_Charges]
    [n_TariffProfiles; n_Charges]
    [(n_TariffProfiles, PManyMany n_TimeTariffIntervals); (n_Charges, PManyMany n_TimeTariffIntervals)];
(* CIM14/IEC61968/PaymentMetering/Transaction.py:23-245 *)
  Cls n_CIM14_IEC61968_PaymentMetering_Transaction_Transaction n_Transaction (Some n_CIM14_IEC61970_Core_IdentifiedObject_IdentifiedObject)
    [(n_kind, VStr n_diversePayment); (n_serviceUnitsEnergy, VFloat n_0_0); (n_diverseReference, VStr n_); (n_receiverReference, VStr n_); (n_donorReference, VStr n_); (n_serviceUnitsError, VFloat n_0_0); (n_reversedId, VStr n_); (n_PricingStructure, VNone); (n_UserAttributes, VNone); (n_CustomerAccount, VNone); (n_CashierShift, VNone); (n_VendorShift, VNone); (n_MeterAsset, VNone); (n_AuxiliaryAccount, VNone); (n_line, VNone); (n_Receipt, VNone)]
    [SAttr n_kind; SAttr n_serviceUnitsEnergy; SAttr n_diverseReference; SAttr n_receiverReference; SAttr n_donorReference; SAttr n_serviceUnitsError; SAttr n_reversedId; SOne n_PricingStructure; SMany n_UserAttributes; SOne n_CustomerAccount; SOne n_CashierShift; SOne n_VendorShift; SOne n_MeterAsset; SOne n_AuxiliaryAccount; SAttr n_line; SOne n_Receipt]
    true true
    [n_kind; n_serviceUnitsEnergy; n_diverseReference; n_receiverReference; n_donorReference; n_serviceUnitsError; n_reversedId]
    [(n_kind, VStr n_diversePayment); (n_serviceUnitsEnergy, VFloat n_0_0); (n_diverseReference, VStr n_); (n_receiverReference, VStr n_); (n_donorReference, VStr n_); (n_serviceUnitsError, VFloat n_0_0); (n_reversedId, VStr n_)]
    [(n_kind, n_TransactionKind)]
    [n_PricingStructure; n_UserAttributes; n_CustomerAccount; n_CashierShift; n_VendorShift; n_MeterAsset; n_AuxiliaryAccount; n_line; n_Receipt]
    [n_UserAttributes]
    [(n_PricingStructure, POneMany n_Transactions); (n_UserAttributes, PManyOne n_Transaction); (n_CustomerAccount, POneMany n_PaymentTransactions); (n_CashierShift, POneMany n_Transactions); (n_VendorShift, POneMany n_Transactions); (n_MeterAsset, POneMany n_VendingTransactions); (n_AuxiliaryAccount, POneMany n_PaymentTransactions); (n_Receipt, POneMany n_Transactions)];
(* CIM14/IEC61968/PaymentMetering/Transactor.py:23-70 *)
  Cls n_CIM14_IEC61968_PaymentMetering_Transactor_Transactor n_Transactor (Some n_CIM14_IEC61970_Core_IdentifiedObject_IdentifiedObject)
    [(n_MerchantAccounts, VNone)]
    [SMany n_MerchantAccounts]
    true true
    []
    []
    []
    [n_MerchantAccounts]
    [n_MerchantAccounts]
    [(n_MerchantAccounts, PManyMany n_Transactors)];
(* CIM14/IEC61968/PaymentMetering/Vendor.py:23-137 *)
  Cls n_CIM14_IEC61968_PaymentMetering_Vendor_Vendor n_Vendor (Some n_CIM14_IEC61970_Core_IdentifiedObject_IdentifiedObject)
    [(n_PointOfSales, VNone); (n_MerchantAccount, VNone); (n_Cashiers, VNone); (n_VendorShifts, VNone)]
    [SMany n_PointOfSales; SOne n_MerchantAccount; SMany n_Cashiers; SMany n_VendorShifts]
    true true
    []
    []
    []
    [n_PointOfSales; n_MerchantAccount; n_Cashiers; n_VendorShifts]
    [n_PointOfSales; n_Cashiers; n_VendorShifts]
    [(n_PointOfSales, PManyOne n_Vendor); (n_MerchantAccount, POneMany n_Vendors); (n_Cashiers, PManyOne n_Vendor); (n_VendorShifts, PManyOne n_Vendor)];
(* CIM14/IEC61968/PaymentMetering/VendorShift.py:23-138 *)
  Cls n_CIM14_IEC61968_PaymentMetering_VendorShift_VendorShift n_VendorShift (Some n_CIM14_IEC61968_PaymentMetering_Shift_Shift)
    [(n_merchantDebitAmount, VFloat n_0_0); (n_posted, VBool false); (n_MerchantAccount, VNone); (n_Transactions, VNone); (n_Receipts, VNone); (n_Vendor, VNone)]
    [SAttr n_merchantDebitAmount; SAttr n_posted; SOne n_MerchantAccount; SMany n_Transactions; SMany n_Receipts; SOne n_Vendor]
    true true
    [n_merchantDebitAmount; n_posted]
    [(n_merchantDebitAmount, VFloat n_0_0); (n_posted, VBool false)]
    []
    [n_MerchantAccount; n_Transactions; n_Receipts; n_Vendor]
    [n_Transactions; n_Receipts]
    [(n_MerchantAccount, POneMany n_VendorShifts); (n_Transactions, PManyOne n_VendorShift); (n_Receipts, PManyOne n_VendorShift); (n_Vendor, POneMany n_VendorShifts)];
(* CIM14/IEC61968/WiresExt/DistributionLineSegment.py:23-101 *)
  Cls n_CIM14_IEC61968_WiresExt_DistributionLineSegment_DistributionLineSegment n_DistributionLineSegment (Some n_CIM14_IEC61970_Wires_ACLineSegment_ACLineSegment)
    [(n_ConductorInfo, VNone); (n_PhaseImpedance, VNone); (n_SequenceImpedance, VNone)]
    [SOne n_ConductorInfo; SOne n_PhaseImpedance; SOne n_SequenceImpedance]
    true true
    []
    []
    []
    [n_ConductorInfo; n_PhaseImpedance; n_SequenceImpedance]
    []
    [(n_ConductorInfo, POneMany n_ConductorSegments); (n_PhaseImpedance, POneMany n_ConductorSegments); (n_SequenceImpedance, POneMany n_ConductorSegments)];
(* CIM14/IEC61968/WiresExt/DistributionTapChanger.py:23-86 *)
  Cls n_CIM14_IEC61968_WiresExt_DistributionTapChanger_DistributionTapChanger n_DistributionTapChanger (Some n_CIM14_IEC61970_Wires_RatioTapChanger_RatioTapChanger)
    [(n_monitoredPhase, VStr n_A); (n_ptRatio, VFloat n_0_0); (n_reverseLineDropX, VFloat n_0_0); (n_ctRating, VFloat n_0_0); (n_reverseLineDropR, VFloat n_0_0); (n_lineDropCompensation, VBool false); (n_ctRatio, VFloat n_0_0); (n_targetVoltage, VFloat n_0_0); (n_limitVoltage, VFloat n_0_0); (n_lineDropR, VFloat n_0_0); (n_lineDropX, VFloat n_0_0); (n_bandVoltage, VFloat n_0_0)]
    [SAttr n_monitoredPhase; SAttr n_ptRatio; SAttr n_reverseLineDropX; SAttr n_ctRating; SAttr n_reverseLineDropR; SAttr n_lineDropCompensation; SAttr n_ctRatio; SAttr n_targetVoltage; SAttr n_limitVoltage; SAttr n_lineDropR; SAttr n_lineDropX; SAttr n_bandVoltage]
    true true
    [n_monitoredPhase; n_ptRatio; n_reverseLineDropX; n_ctRating; n_reverseLineDropR; n_lineDropCompensation; n_ctRatio; n_targetVoltage; n_limitVoltage; n_lineDropR; n_lineDropX; n_bandVoltage]
    [(n_monitoredPhase, VStr n_A); (n_ptRatio, VFloat n_0_0); (n_reverseLineDropX, VFloat n_0_0); (n_ctRating, VFloat n_0_0); (n_reverseLineDropR, VFloat n_0_0); (n_lineDropCompensation, VBool false); (n_ctRatio, VFloat n_0_0); (n_targetVoltage, VFloat n_0_0); (n_limitVoltage, VFloat n_0_0); (n_lineDropR, VFloat n_0_0); (n_lineDropX, VFloat n_0_0); (n_bandVoltage, VFloat n_0_0)]
    [(n_monitoredPhase, n_PhaseCode)]
    []
    []
    [];
(* CIM14/IEC61968/WiresExt/DistributionTransformer.py:23-132 *)
  Cls n_CIM14_IEC61968_WiresExt_DistributionTransformer_DistributionTransformer n_DistributionTransformer (Some n_CIM14_IEC61970_Core_Equipment_Equipment)
    [(n_Windings, VNone); (n_ServiceDeliveryPoints, VNone); (n_TransformerBank, VNone); (n_TransformerInfo, VNone)]
    [SMany n_Windings; SMany n_ServiceDeliveryPoints; SOne n_TransformerBank; SOne n_TransformerInfo]
    true true
    []
    []
    []
    [n_Windings; n_ServiceDeliveryPoints; n_TransformerBank; n_TransformerInfo]
    [n_Windings; n_ServiceDeliveryPoints]
    [(n_Windings, PManyOne n_Transformer); (n_ServiceDeliveryPoints, PManyOne n_Transformer); (n_TransformerBank, POneMany n_Transformers); (n_TransformerInfo, POneMany n_Transformers)];
(* CIM14/IEC61968/WiresExt/DistributionTransformerWinding.py:23-153 *)
  Cls n_CIM14_IEC61968_WiresExt_DistributionTransformerWinding_DistributionTransformerWinding n_DistributionTransformerWinding (Some n_CIM14_IEC61970_Core_ConductingEquipment_ConductingEquipment)
    [(n_grounded, VBool false); (n_xground, VFloat n_0_0); (n_rground, VFloat n_0_0); (n_Transformer, VNone); (n_WindingInfo, VNone); (n_RatioTapChanger, VNone); (n_PiImpedance, VNone); (n_PhaseTapChanger, VNone)]
    [SAttr n_grounded; SAttr n_xground; SAttr n_rground; SOne n_Transformer; SOne n_WindingInfo; SOne n_RatioTapChanger; SOne n_PiImpedance; SOne n_PhaseTapChanger]
    true true
    [n_grounded; n_xground; n_rground]
    [(n_grounded, VBool false); (n_xground, VFloat n_0_0); (n_rground, VFloat n_0_0)]
    []
    [n_Transformer; n_WindingInfo; n_RatioTapChanger; n_PiImpedance; n_PhaseTapChanger]
    []
    [(n_Transformer, POneMany n_Windings); (n_WindingInfo, POneMany n_Windings); (n_RatioTapChanger, POneOne n_Winding); (n_PiImpedance, POneMany n_Windings); (n_PhaseTapChanger, POneOne n_Winding)];
(* CIM14/IEC61968/WiresExt/PerLengthPhaseImpedance.py:23-94 *)
  Cls n_CIM14_IEC61968_WiresExt_PerLengthPhaseImpedance_PerLengthPhaseImpedance n_PerLengthPhaseImpedance (Some n_CIM14_IEC61970_Core_IdentifiedObject_IdentifiedObject)
    [(n_conductorCount, VInt 0); (n_ConductorSegments, VNone); (n_PhaseImpedanceData, VNone)]
    [SAttr n_conductorCount; SMany n_ConductorSegments; SMany n_PhaseImpedanceData]
    true true
    [n_conductorCount]
    [(n_conductorCount, VInt 0)]
    []
    [n_ConductorSegments; n_PhaseImpedanceData]
    [n_ConductorSegments; n_PhaseImpedanceData]
    [(n_ConductorSegments, PManyOne n_PhaseImpedance); (n_PhaseImpedanceData, PManyOne n_PhaseImpedance)];
(* CIM14/IEC61968/WiresExt/PerLengthSequenceImpedance.py:23-96 *)
  Cls n_CIM14_IEC61968_WiresExt_PerLengthSequenceImpedance_PerLengthSequenceImpedance n_PerLengthSequenceImpedance (Some n_CIM14_IEC61970_Core_IdentifiedObject_IdentifiedObject)
    [(n_r0, VFloat n_0_0); (n_r, VFloat n_0_0); (n_b0ch, VFloat n_0_0); (n_x0, VFloat n_0_0); (n_gch, VFloat n_0_0); (n_g0ch, VFloat n_0_0); (n_bch, VFloat n_0_0); (n_x, VFloat n_0_0); (n_ConductorSegments, VNone)]
    [SAttr n_r0; SAttr n_r; SAttr n_b0ch; SAttr n_x0; SAttr n_gch; SAttr n_g0ch; SAttr n_bch; SAttr n_x; SMany n_ConductorSegments]
    true true
    [n_r0; n_r; n_b0ch; n_x0; n_gch; n_g0ch; n_bch; n_x]
    [(n_r0, VFloat n_0_0); (n_r, VFloat n_0_0); (n_b0ch, VFloat n_0_0); (n_x0, VFloat n_0_0); (n_gch, VFloat n_0_0); (n_g0ch, VFloat n_0_0); (n_bch, VFloat n_0_0); (n_x, VFloat n_0_0)]
    []
    [n_ConductorSegments]
    [n_ConductorSegments]
    [(n_ConductorSegments, PManyOne n_SequenceImpedance)];
(* CIM14/IEC61968/WiresExt/PhaseImpedanceData.py:23-75 *)
  Cls n_CIM14_IEC61968_WiresExt_PhaseImpedanceData_PhaseImpedanceData n_PhaseImpedanceData (Some n_CIM14_Element_Element)
    [(n_r, VFloat n_0_0); (n_x, VFloat n_0_0); (n_sequenceNumber, VInt 0); (n_b, VFloat n_0_0); (n_PhaseImpedance, VNone)]
    [SAttr n_r; SAttr n_x; SAttr n_sequenceNumber; SAttr n_b; SOne n_PhaseImpedance]
    true true
    [n_r; n_x; n_sequenceNumber; n_b]
    [(n_r, VFloat n_0_0); (n_x, VFloat n_0_0); (n_sequenceNumber, VInt 0); (n_b, VFloat n_0_0)]
    []
    [n_PhaseImpedance]
    []
    [(n_PhaseImpedance, POneMany n_PhaseImpedanceData)];
(* CIM14/IEC61968/WiresExt/TransformerBank.py:23-68 *)
  Cls n_CIM14_IEC61968_WiresExt_TransformerBank_TransformerBank n_TransformerBank (Some n_CIM14_IEC61970_Core_Equipment_Equipment)
    [(n_vectorGroup, VStr n_); (n_Transformers, VNone)]
    [SAttr n_vectorGroup; SMany n_Transformers]
    true true
    [n_vectorGroup]
    [(n_vectorGroup, VStr n_)]
    []
    [n_Transformers]
    [n_Transformers]
    [(n_Transformers, PManyOne n_TransformerBank)];
(* CIM14/IEC61968/WiresExt/WindingPiImpedance.py:23-96 *)
  Cls n_CIM14_IEC61968_WiresExt_WindingPiImpedance_WindingPiImpedance n_WindingPiImpedance (Some n_CIM14_IEC61970_Core_IdentifiedObject_IdentifiedObject)
    [(n_g, VFloat n_0_0); (n_b, VFloat n_0_0); (n_r, VFloat n_0_0); (n_x0, VFloat n_0_0); (n_x, VFloat n_0_0); (n_r0, VFloat n_0_0); (n_b0, VFloat n_0_0); (n_g0, VFloat n_0_0); (n_Windings, VNone)]
    [SAttr n_g; SAttr n_b; SAttr n_r; SAttr n_x0; SAttr n_x; SAttr n_r0; SAttr n_b0; SAttr n_g0; SMany n_Windings]
    true true
    [n_g; n_b; n_r; n_x0; n_x; n_r0; n_b0; n_g0]
    [(n_g, VFloat n_0_0); (n_b, VFloat n_0_0); (n_r, VFloat n_0_0); (n_x0, VFloat n_0_0); (n_x, VFloat n_0_0); (n_r0, VFloat n_0_0); (n_b0, VFloat n_0_0); (n_g0, VFloat n_0_0)]
    []
    [n_Windings]
    [n_Windings]
    [(n_Windings, PManyOne n_PiImpedance)];
(* CIM14/IEC61968/Work/Work.py:23-82 *)
  Cls n_CIM14_IEC61968_Work_Work_Work n_Work (Some n_CIM14_IEC61968_Common_Document_Document)
    [(n_kind, VStr n_construction); (n_priority, VStr n_); (n_requestDateTime, VStr n_); (n_Customers, VNone)]
    [SAttr n_kind; SAttr n_priority; SAttr n_requestDateTime; SMany n_Customers]
    true true
    [n_kind; n_priority; n_requestDateTime]
    [(n_kind, VStr n_construction); (n_priority, VStr n_); (n_requestDateTime, VStr n_)]
    [(n_kind, n_WorkKind)]
    [n_Customers]
    [n_Customers]
    [(n_Customers, PManyMany n_Works)];
(* CIM14/IEC61970/Contingency/Contingency.py:23-68 *)
  Cls n_CIM14_IEC61970_Contingency_Contingency_Contingency n_Contingency (Some n_CIM14_IEC61970_Core_IdentifiedObject_IdentifiedObject)
    [(n_mustStudy, VBool false); (n_ContingencyElement, VNone)]
    [SAttr n_mustStudy; SMany n_ContingencyElement]
    true true
    [n_mustStudy]
    [(n_mustStudy, VBool false)]
    []
    [n_ContingencyElement]
    [n_ContingencyElement]
    [(n_ContingencyElement, PManyOne n_Contingency)];
(* CIM14/IEC61970/Contingency/ContingencyElement.py:23-59 *)
  Cls n_CIM14_IEC61970_Contingency_ContingencyElement_ContingencyElement n_ContingencyElement (Some n_CIM14_IEC61970_Core_IdentifiedObject_IdentifiedObject)
    [(n_Contingency, VNone)]
    [SOne n_Contingency]
    true true
    []
    []
    []
    [n_Contingency]
    []
    [(n_Contingency, POneMany n_ContingencyElement)];
(* CIM14/IEC61970/Contingency/ContingencyEquipment.py:23-63 *)
  Cls n_CIM14_IEC61970_Contingency_ContingencyEquipment_ContingencyEquipment n_ContingencyEquipment (Some n_CIM14_IEC61970_Contingency_ContingencyElement_ContingencyElement)
    [(n_contingentStatus, VStr n_outOfService); (n_Equipment, VNone)]
    [SAttr n_contingentStatus; SOne n_Equipment]
    true true
    [n_contingentStatus]
    [(n_contingentStatus, VStr n_outOfService)]
    [(n_contingentStatus, n_ContingencyEquipmentStatusKind)]
    [n_Equipment]
    []
    [(n_Equipment, POneMany n_ContingencyEquipment)];
(* CIM14/IEC61970/ControlArea/AltGeneratingUnitMeas.py:23-84 *)
  Cls n_CIM14_IEC61970_ControlArea_AltGeneratingUnitMeas_AltGeneratingUnitMeas n_AltGeneratingUnitMeas (Some n_CIM14_Element_Element)
    [(n_priority, VInt 0); (n_ControlAreaGeneratingUnit, VNone); (n_AnalogValue, VNone)]
    [SAttr n_priority; SOne n_ControlAreaGeneratingUnit; SOne n_AnalogValue]
    true true
    [n_priority]
    [(n_priority, VInt 0)]
    []
    [n_ControlAreaGeneratingUnit; n_AnalogValue]
    []
    [(n_ControlAreaGeneratingUnit, POneMany n_AltGeneratingUnitMeas); (n_AnalogValue, POneMany n_AltGeneratingUnit)];
(* CIM14/IEC61970/ControlArea/AltTieMeas.py:23-84 *)
  Cls n_CIM14_IEC61970_ControlArea_AltTieMeas_AltTieMeas n_AltTieMeas (Some n_CIM14_Element_Element)
    [(n_priority, VInt 0); (n_AnalogValue, VNone); (n_TieFlow, VNone)]
    [SAttr n_priority; SOne n_AnalogValue; SOne n_TieFlow]
    true true
    [n_priority]
    [(n_priority, VInt 0)]
    []
    [n_AnalogValue; n_TieFlow]
    []
    [(n_AnalogValue, POneMany n_AltTieMeas); (n_TieFlow, POneMany n_AltTieMeas)];
(* CIM14/IEC61970/ControlArea/ControlArea.py:23-122 *)
  Cls n_CIM14_IEC61970_ControlArea_ControlArea_ControlArea n_ControlArea (Some n_CIM14_IEC61970_Core_PowerSystemResource_PowerSystemResource)
    [(n_type, VStr n_Interchange); (n_netInterchange, VFloat n_0_0); (n_pTolerance, VFloat n_0_0); (n_TieFlow, VNone); (n_EnergyArea, VNone); (n_ControlAreaGeneratingUnit, VNone)]
    [SAttr n_type; SAttr n_netInterchange; SAttr n_pTolerance; SMany n_TieFlow; SOne n_EnergyArea; SMany n_ControlAreaGeneratingUnit]
    true true
    [n_type; n_netInterchange; n_pTolerance]
    [(n_type, VStr n_Interchange); (n_netInterchange, VFloat n_0_0); (n_pTolerance, VFloat n_0_0)]
    [(n_type, n_ControlAreaTypeKind)]
    [n_TieFlow; n_EnergyArea; n_ControlAreaGeneratingUnit]
    [n_TieFlow; n_ControlAreaGeneratingUnit]
    [(n_TieFlow, PManyOne n_ControlArea); (n_EnergyArea, POneOne n_ControlArea); (n_ControlAreaGeneratingUnit, PManyOne n_ControlArea)];
(* CIM14/IEC61970/ControlArea/ControlAreaGeneratingUnit.py:23-106 *)
  Cls n_CIM14_IEC61970_ControlArea_ControlAreaGeneratingUnit_ControlAreaGeneratingUnit n_ControlAreaGeneratingUnit (Some n_CIM14_Element_Element)
    [(n_AltGeneratingUnitMeas, VNone); (n_ControlArea, VNone); (n_GeneratingUnit, VNone)]
    [SMany n_AltGeneratingUnitMeas; SOne n_ControlArea; SOne n_GeneratingUnit]
    true true
    []
    []
    []
    [n_AltGeneratingUnitMeas; n_ControlArea; n_GeneratingUnit]
    [n_AltGeneratingUnitMeas]
    [(n_AltGeneratingUnitMeas, PManyOne n_ControlAreaGeneratingUnit); (n_ControlArea, POneMany n_ControlAreaGeneratingUnit); (n_GeneratingUnit, POneMany n_ControlAreaGeneratingUnit)];
(* CIM14/IEC61970/ControlArea/TieFlow.py:23-110 *)
  Cls n_CIM14_IEC61970_ControlArea_TieFlow_TieFlow n_TieFlow (Some n_CIM14_Element_Element)
    [(n_positiveFlowIn, VBool false); (n_ControlArea, VNone); (n_AltTieMeas, VNone); (n_Terminal, VNone)]
    [SAttr n_positiveFlowIn; SOne n_ControlArea; SMany n_AltTieMeas; SOne n_Terminal]
    true true
    [n_positiveFlowIn]
    [(n_positiveFlowIn, VBool false)]
    []
    [n_ControlArea; n_AltTieMeas; n_Terminal]
    [n_AltTieMeas]
    [(n_ControlArea, POneMany n_TieFlow); (n_AltTieMeas, PManyOne n_TieFlow); (n_Terminal, POneMany n_TieFlow)];
(* CIM14/IEC61970/Core/BasePower.py:23-42 *)
  Cls n_CIM14_IEC61970_Core_BasePower_BasePower n_BasePower (Some n_CIM14_IEC61970_Core_IdentifiedObject_IdentifiedObject)
    [(n_basePower, VFloat n_0_0)]
    [SAttr n_basePower]
    true true
    [n_basePower]
    [(n_basePower, VFloat n_0_0)]
    []
    []
    []
    [];
(* CIM14/IEC61970/Core/BaseVoltage.py:23-124 *)
  Cls n_CIM14_IEC61970_Core_BaseVoltage_BaseVoltage n_BaseVoltage (Some n_CIM14_IEC61970_Core_IdentifiedObject_IdentifiedObject)
    [(n_nominalVoltage, VFloat n_0_0); (n_isDC, VBool false); (n_ConductingEquipment, VNone); (n_VoltageLevel, VNone); (n_TopologicalNode, VNone)]
    [SAttr n_nominalVoltage; SAttr n_isDC; SMany n_ConductingEquipment; SMany n_VoltageLevel; SMany n_TopologicalNode]
    true true
    [n_nominalVoltage; n_isDC]
    [(n_nominalVoltage, VFloat n_0_0); (n_isDC, VBool false)]
    []
    [n_ConductingEquipment; n_VoltageLevel; n_TopologicalNode]
    [n_ConductingEquipment; n_VoltageLevel; n_TopologicalNode]
    [(n_ConductingEquipment, PManyOne n_BaseVoltage); (n_VoltageLevel, PManyOne n_BaseVoltage); (n_TopologicalNode, PManyOne n_BaseVoltage)];
(* CIM14/IEC61970/Core/BasicIntervalSchedule.py:23-58 *)
  Cls n_CIM14_IEC61970_Core_BasicIntervalSchedule_BasicIntervalSchedule n_BasicIntervalSchedule (Some n_CIM14_IEC61970_Core_IdentifiedObject_IdentifiedObject)
    [(n_value2Multiplier, VStr n_k); (n_value2Unit, VStr n_N); (n_value1Multiplier, VStr n_k); (n_value1Unit, VStr n_N); (n_startTime, VStr n_)]
    [SAttr n_value2Multiplier; SAttr n_value2Unit; SAttr n_value1Multiplier; SAttr n_value1Unit; SAttr n_startTime]
    true true
    [n_value2Multiplier; n_value2Unit; n_value1Multiplier; n_value1Unit; n_startTime]
    [(n_value2Multiplier, VStr n_k); (n_value2Unit, VStr n_N); (n_value1Multiplier, VStr n_k); (n_value1Unit, VStr n_N); (n_startTime, VStr n_)]
    [(n_value2Multiplier, n_UnitMultiplier); (n_value2Unit, n_UnitSymbol); (n_value1Multiplier, n_UnitMultiplier); (n_value1Unit, n_UnitSymbol)]
    []
    []
    [];
(* CIM14/IEC61970/Core/Bay.py:23-96 *)
  Cls n_CIM14_IEC61970_Core_Bay_Bay n_Bay (Some n_CIM14_IEC61970_Core_EquipmentContainer_EquipmentContainer)
    [(n_busBarConfiguration, VStr n_mainWithTransfer); (n_breakerConfiguration, VStr n_breakerAndAHalf); (n_bayPowerMeasFlag, VBool false); (n_bayEnergyMeasFlag, VBool false); (n_Substation, VNone); (n_VoltageLevel, VNone)]
    [SAttr n_busBarConfiguration; SAttr n_breakerConfiguration; SAttr n_bayPowerMeasFlag; SAttr n_bayEnergyMeasFlag; SOne n_Substation; SOne n_VoltageLevel]
    true true
    [n_busBarConfiguration; n_breakerConfiguration; n_bayPowerMeasFlag; n_bayEnergyMeasFlag]
    [(n_busBarConfiguration, VStr n_mainWithTransfer); (n_breakerConfiguration, VStr n_breakerAndAHalf); (n_bayPowerMeasFlag, VBool false); (n_bayEnergyMeasFlag, VBool false)]
    [(n_busBarConfiguration, n_BusbarConfiguration); (n_breakerConfiguration, n_BreakerConfiguration)]
    [n_Substation; n_VoltageLevel]
    []
    [(n_Substation, POneMany n_Bays); (n_VoltageLevel, POneMany n_Bays)];
(* CIM14/IEC61970/Core/ConductingEquipment.py:23-167 *)
  Cls n_CIM14_IEC61970_Core_ConductingEquipment_ConductingEquipment n_ConductingEquipment (Some n_CIM14_IEC61970_Core_Equipment_Equipment)
    [(n_phases, VStr n_A); (n_ClearanceTags, VNone); (n_SvStatus, VNone); (n_Terminals, VNone); (n_BaseVoltage, VNone); (n_ProtectionEquipments, VNone)]
    [SAttr n_phases; SMany n_ClearanceTags; SOne n_SvStatus; SMany n_Terminals; SOne n_BaseVoltage; SMany n_ProtectionEquipments]
    true true
    [n_phases]
    [(n_phases, VStr n_A)]
    [(n_phases, n_PhaseCode)]
    [n_ClearanceTags; n_SvStatus; n_Terminals; n_BaseVoltage; n_ProtectionEquipments]
    [n_ClearanceTags; n_Terminals; n_ProtectionEquipments]
    [(n_ClearanceTags, PManyOne n_ConductingEquipment); (n_SvStatus, POneOne n_ConductingEquipment); (n_Terminals, PManyOne n_ConductingEquipment); (n_BaseVoltage, POneMany n_ConductingEquipment); (n_ProtectionEquipments, PManyMany n_ConductingEquipments)];
(* CIM14/IEC61970/Core/ConnectivityNode.py:23-127 *)
  Cls n_CIM14_IEC61970_Core_ConnectivityNode_ConnectivityNode n_ConnectivityNode (Some n_CIM14_IEC61970_Core_IdentifiedObject_IdentifiedObject)
    [(n_TopologicalNode, VNone); (n_BusNameMarker, VNone); (n_ConnectivityNodeContainer, VNone); (n_Terminals, VNone)]
    [SOne n_TopologicalNode; SOne n_BusNameMarker; SOne n_ConnectivityNodeContainer; SMany n_Terminals]
    true true
    []
    []
    []
    [n_TopologicalNode; n_BusNameMarker; n_ConnectivityNodeContainer; n_Terminals]
    [n_Terminals]
    [(n_TopologicalNode, POneMany n_ConnectivityNodes); (n_BusNameMarker, POneMany n_ConnectivityNode); (n_ConnectivityNodeContainer, POneMany n_ConnectivityNodes); (n_Terminals, PManyOne n_ConnectivityNode)];
(* CIM14/IEC61970/Core/ConnectivityNodeContainer.py:23-90 *)
  Cls n_CIM14_IEC61970_Core_ConnectivityNodeContainer_ConnectivityNodeContainer n_ConnectivityNodeContainer (Some n_CIM14_IEC61970_Core_PowerSystemResource_PowerSystemResource)
    [(n_ConnectivityNodes, VNone); (n_TopologicalNode, VNone)]
    [SMany n_ConnectivityNodes; SMany n_TopologicalNode]
    true true
    []
    []
    []
    [n_ConnectivityNodes; n_TopologicalNode]
    [n_ConnectivityNodes; n_TopologicalNode]
    [(n_ConnectivityNodes, PManyOne n_ConnectivityNodeContainer); (n_TopologicalNode, PManyOne n_ConnectivityNodeContainer)];
(* CIM14/IEC61970/Core/Curve.py:23-100 *)
  Cls n_CIM14_IEC61970_Core_Curve_Curve n_Curve (Some n_CIM14_IEC61970_Core_IdentifiedObject_IdentifiedObject)
    [(n_y2Multiplier, VStr n_k); (n_y3Multiplier, VStr n_k); (n_y1Unit, VStr n_N); (n_xMultiplier, VStr n_k); (n_y3Unit, VStr n_N); (n_xUnit, VStr n_N); (n_y1Multiplier, VStr n_k); (n_curveStyle, VStr n_rampYValue); (n_y2Unit, VStr n_N); (n_CurveDatas, VNone)]
    [SAttr n_y2Multiplier; SAttr n_y3Multiplier; SAttr n_y1Unit; SAttr n_xMultiplier; SAttr n_y3Unit; SAttr n_xUnit; SAttr n_y1Multiplier; SAttr n_curveStyle; SAttr n_y2Unit; SMany n_CurveDatas]
    true true
    [n_y2Multiplier; n_y3Multiplier; n_y1Unit; n_xMultiplier; n_y3Unit; n_xUnit; n_y1Multiplier; n_curveStyle; n_y2Unit]
    [(n_y2Multiplier, VStr n_k); (n_y3Multiplier, VStr n_k); (n_y1Unit, VStr n_N); (n_xMultiplier, VStr n_k); (n_y3Unit, VStr n_N); (n_xUnit, VStr n_N); (n_y1Multiplier, VStr n_k); (n_curveStyle, VStr n_rampYValue); (n_y2Unit, VStr n_N)]
    [(n_y2Multiplier, n_UnitMultiplier); (n_y3Multiplier, n_UnitMultiplier); (n_y1Unit, n_UnitSymbol); (n_xMultiplier, n_UnitMultiplier); (n_y3Unit, n_UnitSymbol); (n_xUnit, n_UnitSymbol); (n_y1Multiplier, n_UnitMultiplier); (n_curveStyle, n_CurveStyle); (n_y2Unit, n_UnitSymbol)]
    [n_CurveDatas]
    [n_CurveDatas]
    [(n_CurveDatas, PManyOne n_Curve)];
(* CIM14/IEC61970/Core/CurveData.py:23-75 *)
  Cls n_CIM14_IEC61970_Core_CurveData_CurveData n_CurveData (Some n_CIM14_Element_Element)
    [(n_y3value, VFloat n_0_0); (n_xvalue, VFloat n_0_0); (n_y2value, VFloat n_0_0); (n_y1value, VFloat n_0_0); (n_Curve, VNone)]
    [SAttr n_y3value; SAttr n_xvalue; SAttr n_y2value; SAttr n_y1value; SOne n_Curve]
    true true
    [n_y3value; n_xvalue; n_y2value; n_y1value]
    [(n_y3value, VFloat n_0_0); (n_xvalue, VFloat n_0_0); (n_y2value, VFloat n_0_0); (n_y1value, VFloat n_0_0)]
    []
    [n_Curve]
    []
    [(n_Curve, POneMany n_CurveDatas)];
(* CIM14/IEC61970/Core/Equipment.py:23-150 *)
  Cls n_CIM14_IEC61970_Core_Equipment_Equipment n_Equipment (Some n_CIM14_IEC61970_Core_PowerSystemResource_PowerSystemResource)
    [(n_normaIlyInService, VBool false); (n_aggregate, VBool false); (n_OperationalLimitSet, VNone); (n_ContingencyEquipment, VNone); (n_EquipmentContainer, VNone); (n_CustomerAgreements, VNone)]
    [SAttr n_normaIlyInService; SAttr n_aggregate; SMany n_OperationalLimitSet; SMany n_ContingencyEquipment; SOne n_EquipmentContainer; SMany n_CustomerAgreements]
    true true
    [n_normaIlyInService; n_aggregate]
    [(n_normaIlyInService, VBool false); (n_aggregate, VBool false)]
    []
    [n_OperationalLimitSet; n_ContingencyEquipment; n_EquipmentContainer; n_CustomerAgreements]
    [n_OperationalLimitSet; n_ContingencyEquipment; n_CustomerAgreements]
    [(n_OperationalLimitSet, PManyOne n_Equipment); (n_ContingencyEquipment, PManyOne n_Equipment); (n_EquipmentContainer, POneMany n_Equipments); (n_CustomerAgreements, PManyMany n_Equipments)];
(* CIM14/IEC61970/Core/EquipmentContainer.py:23-64 *)
  Cls n_CIM14_IEC61970_Core_EquipmentContainer_EquipmentContainer n_EquipmentContainer (Some n_CIM14_IEC61970_Core_ConnectivityNodeContainer_ConnectivityNodeContainer)
    [(n_Equipments, VNone)]
    [SMany n_Equipments]
    true true
    []
    []
    []
    [n_Equipments]
    [n_Equipments]
    [(n_Equipments, PManyOne n_EquipmentContainer)];
(* CIM14/IEC61970/Core/GeographicalRegion.py:23-64 *)
  Cls n_CIM14_IEC61970_Core_GeographicalRegion_GeographicalRegion n_GeographicalRegion (Some n_CIM14_IEC61970_Core_IdentifiedObject_IdentifiedObject)
    [(n_Regions, VNone)]
    [SMany n_Regions]
    true true
    []
    []
    []
    [n_Regions]
    [n_Regions]
    [(n_Regions, PManyOne n_Region)];
(* CIM14/IEC61970/Core/IdentifiedObject.py:23-83 *)
  Cls n_CIM14_IEC61970_Core_IdentifiedObject_IdentifiedObject n_IdentifiedObject (Some n_CIM14_Element_Element)
    [(n_pathName, VStr n_); (n_aliasName, VStr n_); (n_mRID, VStr n_); (n_name, VStr n_); (n_description, VStr n_); (n_localName, VStr n_); (n_ModelingAuthoritySet, VNone)]
    [SAttr n_pathName; SAttr n_aliasName; SAttr n_mRID; SAttr n_name; SAttr n_description; SAttr n_localName; SOne n_ModelingAuthoritySet]
    true true
    [n_pathName; n_aliasName; n_mRID; n_name; n_description; n_localName]
    [(n_pathName, VStr n_); (n_aliasName, VStr n_); (n_mRID, VStr n_); (n_name, VStr n_); (n_description, VStr n_); (n_localName, VStr n_)]
    []
    [n_ModelingAuthoritySet]
    []
    [(n_ModelingAuthoritySet, POneMany n_IdentifiedObjects)];
(* CIM14/IEC61970/Core/IrregularIntervalSchedule.py:23-64 *)
  Cls n_CIM14_IEC61970_Core_IrregularIntervalSchedule_IrregularIntervalSchedule n_IrregularIntervalSchedule (Some n_CIM14_IEC61970_Core_BasicIntervalSchedule_BasicIntervalSchedule)
    [(n_TimePoints, VNone)]
    [SMany n_TimePoints]
    true true
    []
    []
    []
    [n_TimePoints]
    [n_TimePoints]
    [(n_TimePoints, PManyOne n_IntervalSchedule)];
(* CIM14/IEC61970/Core/IrregularTimePoint.py:23-71 *)
  Cls n_CIM14_IEC61970_Core_IrregularTimePoint_IrregularTimePoint n_IrregularTimePoint (Some n_CIM14_Element_Element)
    [(n_time, VFloat n_0_0); (n_value2, VFloat n_0_0); (n_value1, VFloat n_0_0); (n_IntervalSchedule, VNone)]
    [SAttr n_time; SAttr n_value2; SAttr n_value1; SOne n_IntervalSchedule]
    true true
    [n_time; n_value2; n_value1]
    [(n_time, VFloat n_0_0); (n_value2, VFloat n_0_0); (n_value1, VFloat n_0_0)]
    []
    [n_IntervalSchedule]
    []
    [(n_IntervalSchedule, POneMany n_TimePoints)];
(* CIM14/IEC61970/Core/OperatingParticipant.py:23-64 *)
  Cls n_CIM14_IEC61970_Core_OperatingParticipant_OperatingParticipant n_OperatingParticipant (Some n_CIM14_IEC61970_Core_IdentifiedObject_IdentifiedObject)
    [(n_OperatingShare, VNone)]
    [SMany n_OperatingShare]
    true true
    []
    []
    []
    [n_OperatingShare]
    [n_OperatingShare]
    [(n_OperatingShare, PManyOne n_OperatingParticipant)];
(* CIM14/IEC61970/Core/OperatingShare.py:23-84 *)
  Cls n_CIM14_IEC61970_Core_OperatingShare_OperatingShare n_OperatingShare (Some n_CIM14_Element_Element)
    [(n_percentage, VFloat n_0_0); (n_PowerSystemResource, VNone); (n_OperatingParticipant, VNone)]
    [SAttr n_percentage; SOne n_PowerSystemResource; SOne n_OperatingParticipant]
    true true
    [n_percentage]
    [(n_percentage, VFloat n_0_0)]
    []
    [n_PowerSystemResource; n_OperatingParticipant]
    []
    [(n_PowerSystemResource, POneMany n_OperatingShare); (n_OperatingParticipant, POneMany n_OperatingShare)];
(* CIM14/IEC61970/Core/PSRType.py:23-64 *)
  Cls n_CIM14_IEC61970_Core_PSRType_PSRType n_PSRType (Some n_CIM14_IEC61970_Core_IdentifiedObject_IdentifiedObject)
    [(n_PowerSystemResources, VNone)]
    [SMany n_PowerSystemResources]
    true true
    []
    []
    []
    [n_PowerSystemResources]
    [n_PowerSystemResources]
    [(n_PowerSystemResources, PManyOne n_PSRType)];
(* CIM14/IEC61970/Core/PowerSystemResource.py:23-273 *)
  Cls n_CIM14_IEC61970_Core_PowerSystemResource_PowerSystemResource n_PowerSystemResource (Some n_CIM14_IEC61970_Core_IdentifiedObject_IdentifiedObject)
    [(n_Location, VNone); (n_Assets, VNone); (n_PsrLists, VNone); (n_Measurements, VNone); (n_OperatingShare, VNone); (n_OutageSchedule, VNone); (n_ReportingGroup, VNone); (n_Block, VNone); (n_PSRType, VNone)]
    [SOne n_Location; SMany n_Assets; SMany n_PsrLists; SMany n_Measurements; SMany n_OperatingShare; SOne n_OutageSchedule; SMany n_ReportingGroup; SMany n_Block; SOne n_PSRType]
    true true
    []
    []
    []
    [n_Location; n_Assets; n_PsrLists; n_Measurements; n_OperatingShare; n_OutageSchedule; n_ReportingGroup; n_Block; n_PSRType]
    [n_Assets; n_PsrLists; n_Measurements; n_OperatingShare; n_ReportingGroup; n_Block]
    [(n_Location, POneMany n_PowerSystemResources); (n_Assets, PManyMany n_PowerSystemResources); (n_PsrLists, PManyMany n_PowerSystemResources); (n_Measurements, PManyOne n_PowerSystemResource); (n_OperatingShare, PManyOne n_PowerSystemResource); (n_OutageSchedule, POneOne n_PowerSystemResource); (n_ReportingGroup, PManyMany n_PowerSystemResource); (n_Block, PManyOne n_PowerSystemResource); (n_PSRType, POneMany n_PowerSystemResources)];
(* CIM14/IEC61970/Core/PsrList.py:23-73 *)
  Cls n_CIM14_IEC61970_Core_PsrList_PsrList n_PsrList (Some n_CIM14_IEC61970_Core_IdentifiedObject_IdentifiedObject)
    [(n_typePSRList, VStr n_); (n_PowerSystemResources, VNone)]
    [SAttr n_typePSRList; SMany n_PowerSystemResources]
    true true
    [n_typePSRList]
    [(n_typePSRList, VStr n_)]
    []
    [n_PowerSystemResources]
    [n_PowerSystemResources]
    [(n_PowerSystemResources, PManyMany n_PsrLists)];
(* CIM14/IEC61970/Core/RegularIntervalSchedule.py:23-72 *)
  Cls n_CIM14_IEC61970_Core_RegularIntervalSchedule_RegularIntervalSchedule n_RegularIntervalSchedule (Some n_CIM14_IEC61970_Core_BasicIntervalSchedule_BasicIntervalSchedule)
    [(n_endTime, VStr n_); (n_timeStep, VFloat n_0_0); (n_TimePoints, VNone)]
    [SAttr n_endTime; SAttr n_timeStep; SMany n_TimePoints]
    true true
    [n_endTime; n_timeStep]
    [(n_endTime, VStr n_); (n_timeStep, VFloat n_0_0)]
    []
    [n_TimePoints]
    [n_TimePoints]
    [(n_TimePoints, PManyOne n_IntervalSchedule)];
(* CIM14/IEC61970/Core/RegularTimePoint.py:23-71 *)
  Cls n_CIM14_IEC61970_Core_RegularTimePoint_RegularTimePoint n_RegularTimePoint (Some n_CIM14_Element_Element)
    [(n_value1, VFloat n_0_0); (n_sequenceNumber, VInt 0); (n_value2, VFloat n_0_0); (n_IntervalSchedule, VNone)]
    [SAttr n_value1; SAttr n_sequenceNumber; SAttr n_value2; SOne n_IntervalSchedule]
    true true
    [n_value1; n_sequenceNumber; n_value2]
    [(n_value1, VFloat n_0_0); (n_sequenceNumber, VInt 0); (n_value2, VFloat n_0_0)]
    []
    [n_IntervalSchedule]
    []
    [(n_IntervalSchedule, POneMany n_TimePoints)];
(* CIM14/IEC61970/Core/ReportingGroup.py:23-143 *)
  Cls n_CIM14_IEC61970_Core_ReportingGroup_ReportingGroup n_ReportingGroup (Some n_CIM14_IEC61970_Core_IdentifiedObject_IdentifiedObject)
    [(n_ReportingSuperGroup, VNone); (n_TopologicalNode, VNone); (n_BusNameMarker, VNone); (n_PowerSystemResource, VNone)]
    [SOne n_ReportingSuperGroup; SMany n_TopologicalNode; SMany n_BusNameMarker; SMany n_PowerSystemResource]
    true true
    []
    []
    []
    [n_ReportingSuperGroup; n_TopologicalNode; n_BusNameMarker; n_PowerSystemResource]
    [n_TopologicalNode; n_BusNameMarker; n_PowerSystemResource]
    [(n_ReportingSuperGroup, POneMany n_ReportingGroup); (n_TopologicalNode, PManyOne n_ReportingGroup); (n_BusNameMarker, PManyOne n_ReportingGroup); (n_PowerSystemResource, PManyMany n_ReportingGroup)];
(* CIM14/IEC61970/Core/ReportingSuperGroup.py:23-64 *)
  Cls n_CIM14_IEC61970_Core_ReportingSuperGroup_ReportingSuperGroup n_ReportingSuperGroup (Some n_CIM14_IEC61970_Core_IdentifiedObject_IdentifiedObject)
    [(n_ReportingGroup, VNone)]
    [SMany n_ReportingGroup]
    true true
    []
    []
    []
    [n_ReportingGroup]
    [n_ReportingGroup]
    [(n_ReportingGroup, PManyOne n_ReportingSuperGroup)];
(* CIM14/IEC61970/Core/SubGeographicalRegion.py:23-111 *)
  Cls n_CIM14_IEC61970_Core_SubGeographicalRegion_SubGeographicalRegion n_SubGeographicalRegion (Some n_CIM14_IEC61970_Core_IdentifiedObject_IdentifiedObject)
    [(n_Region, VNone); (n_Substations, VNone); (n_Lines, VNone)]
    [SOne n_Region; SMany n_Substations; SMany n_Lines]
    true true
    []
    []
    []
    [n_Region; n_Substations; n_Lines]
    [n_Substations; n_Lines]
    [(n_Region, POneMany n_Regions); (n_Substations, PManyOne n_Region); (n_Lines, PManyOne n_Region)];
(* CIM14/IEC61970/Core/Substation.py:23-111 *)
  Cls n_CIM14_IEC61970_Core_Substation_Substation n_Substation (Some n_CIM14_IEC61970_Core_EquipmentContainer_EquipmentContainer)
    [(n_VoltageLevels, VNone); (n_Bays, VNone); (n_Region, VNone)]
    [SMany n_VoltageLevels; SMany n_Bays; SOne n_Region]
    true true
    []
    []
    []
    [n_VoltageLevels; n_Bays; n_Region]
    [n_VoltageLevels; n_Bays]
    [(n_VoltageLevels, PManyOne n_Substation); (n_Bays, PManyOne n_Substation); (n_Region, POneMany n_Substations)];
(* CIM14/IEC61970/Core/Terminal.py:23-337 *)
  Cls n_CIM14_IEC61970_Core_Terminal_Terminal n_Terminal (Some n_CIM14_IEC61970_Core_IdentifiedObject_IdentifiedObject)
    [(n_connected, VBool false); (n_sequenceNumber, VInt 0); (n_TopologicalNode, VNone); (n_Block, VNone); (n_OperationalLimitSet, VNone); (n_HasSecond_MutualCoupling, VNone); (n_RegulatingControl, VNone); (n_Measurements, VNone); (n_BranchGroupTerminal, VNone); (n_ConductingEquipment, VNone); (n_HasFirst_MutualCoupling, VNone); (n_SvPowerFlow, VNone); (n_ConnectivityNode, VNone); (n_TieFlow, VNone)]
    [SAttr n_connected; SAttr n_sequenceNumber; SOne n_TopologicalNode; SMany n_Block; SMany n_OperationalLimitSet; SMany n_HasSecond_MutualCoupling; SMany n_RegulatingControl; SMany n_Measurements; SMany n_BranchGroupTerminal; SOne n_ConductingEquipment; SMany n_HasFirst_MutualCoupling; SOne n_SvPowerFlow; SOne n_ConnectivityNode; SMany n_TieFlow]
    true true
    [n_connected; n_sequenceNumber]
    [(n_connected, VBool false); (n_sequenceNumber, VInt 0)]
    []
    [n_TopologicalNode; n_Block; n_OperationalLimitSet; n_HasSecond_MutualCoupling; n_RegulatingControl; n_Measurements; n_BranchGroupTerminal; n_ConductingEquipment; n_HasFirst_MutualCoupling; n_SvPowerFlow; n_ConnectivityNode; n_TieFlow]
    [n_Block; n_OperationalLimitSet; n_HasSecond_MutualCoupling; n_RegulatingControl; n_Measurements; n_BranchGroupTerminal; n_HasFirst_MutualCoupling; n_TieFlow]
    [(n_TopologicalNode, POneMany n_Terminal); (n_Block, PManyOne n_Terminal); (n_OperationalLimitSet, PManyOne n_Terminal); (n_HasSecond_MutualCoupling, PManyOne n_Second_Terminal); (n_RegulatingControl, PManyOne n_Terminal); (n_Measurements, PManyOne n_Terminal); (n_BranchGroupTerminal, PManyOne n_Terminal); (n_ConductingEquipment, POneMany n_Terminals); (n_HasFirst_MutualCoupling, PManyOne n_First_Terminal); (n_SvPowerFlow, POneOne n_Terminal); (n_ConnectivityNode, POneMany n_Terminals); (n_TieFlow, PManyOne n_Terminal)];
(* CIM14/IEC61970/Core/Unit.py:23-166 *)
  Cls n_CIM14_IEC61970_Core_Unit_Unit n_Unit (Some n_CIM14_IEC61970_Core_IdentifiedObject_IdentifiedObject)
    [(n_Controls, VNone); (n_Measurements, VNone); (n_MetaBlockConOutput, VNone); (n_MetaBlockConInput, VNone); (n_ProtectionEquipments, VNone)]
    [SMany n_Controls; SMany n_Measurements; SMany n_MetaBlockConOutput; SMany n_MetaBlockConInput; SMany n_ProtectionEquipments]
    true true
    []
    []
    []
    [n_Controls; n_Measurements; n_MetaBlockConOutput; n_MetaBlockConInput; n_ProtectionEquipments]
    [n_Controls; n_Measurements; n_MetaBlockConOutput; n_MetaBlockConInput; n_ProtectionEquipments]
    [(n_Controls, PManyOne n_Unit); (n_Measurements, PManyOne n_Unit); (n_MetaBlockConOutput, PManyOne n_Unit); (n_MetaBlockConInput, PManyOne n_Unit); (n_ProtectionEquipments, PManyOne n_Unit)];
(* CIM14/IEC61970/Core/VoltageLevel.py:23-114 *)
  Cls n_CIM14_IEC61970_Core_VoltageLevel_VoltageLevel n_VoltageLevel (Some n_CIM14_IEC61970_Core_EquipmentContainer_EquipmentContainer)
    [(n_highVoltageLimit, VFloat n_0_0); (n_lowVoltageLimit, VFloat n_0_0); (n_Substation, VNone); (n_Bays, VNone); (n_BaseVoltage, VNone)]
    [SAttr n_highVoltageLimit; SAttr n_lowVoltageLimit; SOne n_Substation; SMany n_Bays; SOne n_BaseVoltage]
    true true
    [n_highVoltageLimit; n_lowVoltageLimit]
    [(n_highVoltageLimit, VFloat n_0_0); (n_lowVoltageLimit, VFloat n_0_0)]
    []
    [n_Substation; n_Bays; n_BaseVoltage]
    [n_Bays]
    [(n_Substation, POneMany n_VoltageLevels); (n_Bays, PManyOne n_VoltageLevel); (n_BaseVoltage, POneMany n_VoltageLevel)];
(* CIM14/IEC61970/Dynamics/AsynchronousMachine.py:23-78 *)
  Cls n_CIM14_IEC61970_Dynamics_AsynchronousMachine_AsynchronousMachine n_AsynchronousMachine (Some n_CIM14_IEC61970_Dynamics_RotatingMachine_RotatingMachine)
    [(n_xm, VFloat n_0_0); (n_xs, VFloat n_0_0); (n_xpp, VFloat n_0_0); (n_xlr2, VFloat n_0_0); (n_rr2, VFloat n_0_0); (n_tpo, VFloat n_0_0); (n_rr1, VFloat n_0_0); (n_xp, VFloat n_0_0); (n_tppo, VFloat n_0_0); (n_xlr1, VFloat n_0_0)]
    [SAttr n_xm; SAttr n_xs; SAttr n_xpp; SAttr n_xlr2; SAttr n_rr2; SAttr n_tpo; SAttr n_rr1; SAttr n_xp; SAttr n_tppo; SAttr n_xlr1]
    true true
    [n_xm; n_xs; n_xpp; n_xlr2; n_rr2; n_tpo; n_rr1; n_xp; n_tppo; n_xlr1]
    [(n_xm, VFloat n_0_0); (n_xs, VFloat n_0_0); (n_xpp, VFloat n_0_0); (n_xlr2, VFloat n_0_0); (n_rr2, VFloat n_0_0); (n_tpo, VFloat n_0_0); (n_rr1, VFloat n_0_0); (n_xp, VFloat n_0_0); (n_tppo, VFloat n_0_0); (n_xlr1, VFloat n_0_0)]
    []
    []
    []
    [];
(* CIM14/IEC61970/Dynamics/AttributeBlockParameter.py:23-42 *)
  Cls n_CIM14_IEC61970_Dynamics_AttributeBlockParameter_AttributeBlockParameter n_AttributeBlockParameter (Some n_CIM14_IEC61970_Dynamics_MetaBlockParameter_MetaBlockParameter)
    [(n_attributeName, VStr n_)]
    [SAttr n_attributeName]
    true true
    [n_attributeName]
    [(n_attributeName, VStr n_)]
    []
    []
    []
    [];
(* CIM14/IEC61970/Dynamics/Block.py:23-273 *)
  Cls n_CIM14_IEC61970_Dynamics_Block_Block n_Block (Some n_CIM14_IEC61970_Core_PowerSystemResource_PowerSystemResource)
    [(n_positiveFlowIn, VBool false); (n_inService, VBool false); (n_Terminal, VNone); (n_MemberOf_BlockConnectivity, VNone); (n_blockUsageInputReference0, VNone); (n_BlockUsageOutputReference, VNone); (n_PowerSystemResource, VNone); (n_slotReference0, VNone); (n_tieToMeasurement0, VNone); (n_MetaBlock, VNone); (n_BlockConnection, VNone); (n_BlockParameter, VNone)]
    [SAttr n_positiveFlowIn; SAttr n_inService; SOne n_Terminal; SOne n_MemberOf_BlockConnectivity; SMany n_blockUsageInputReference0; SMany n_BlockUsageOutputReference; SOne n_PowerSystemResource; SOne n_slotReference0; SMany n_tieToMeasurement0; SOne n_MetaBlock; SMany n_BlockConnection; SMany n_BlockParameter]
    true true
    [n_positiveFlowIn; n_inService]
    [(n_positiveFlowIn, VBool false); (n_inService, VBool false)]
    []
    [n_Terminal; n_MemberOf_BlockConnectivity; n_blockUsageInputReference0; n_BlockUsageOutputReference; n_PowerSystemResource; n_slotReference0; n_tieToMeasurement0; n_MetaBlock; n_BlockConnection; n_BlockParameter]
    [n_blockUsageInputReference0; n_BlockUsageOutputReference; n_tieToMeasurement0; n_BlockConnection; n_BlockParameter]
    [(n_Terminal, POneMany n_Block); (n_MemberOf_BlockConnectivity, POneMany n_Block); (n_blockUsageInputReference0, PManyOne n_block0); (n_BlockUsageOutputReference, PManyOne n_block0); (n_PowerSystemResource, POneMany n_Block); (n_slotReference0, POneMany n_block0); (n_tieToMeasurement0, PManyOne n_block0); (n_MetaBlock, POneMany n_Block); (n_BlockConnection, PManyOne n_Block); (n_BlockParameter, PManyOne n_MemberOf_Block)];
(* CIM14/IEC61970/Dynamics/BlockConnection.py:23-98 *)
  Cls n_CIM14_IEC61970_Dynamics_BlockConnection_BlockConnection n_BlockConnection (Some n_CIM14_IEC61970_Core_IdentifiedObject_IdentifiedObject)
    [(n_MetaBlockConnection, VNone); (n_MemberOf_BlockConnectivity, VNone); (n_Block, VNone)]
    [SOne n_MetaBlockConnection; SOne n_MemberOf_BlockConnectivity; SOne n_Block]
    true true
    []
    []
    []
    [n_MetaBlockConnection; n_MemberOf_BlockConnectivity; n_Block]
    []
    [(n_MetaBlockConnection, POneMany n_BlockConnection); (n_MemberOf_BlockConnectivity, POneMany n_BlockConnection); (n_Block, POneMany n_BlockConnection)];
(* CIM14/IEC61970/Dynamics/BlockConnectivity.py:23-108 *)
  Cls n_CIM14_IEC61970_Dynamics_BlockConnectivity_BlockConnectivity n_BlockConnectivity (Some n_CIM14_IEC61970_Core_IdentifiedObject_IdentifiedObject)
    [(n_MetaBlockConnectivity, VNone); (n_Block, VNone); (n_BlockConnection, VNone)]
    [SOne n_MetaBlockConnectivity; SMany n_Block; SMany n_BlockConnection]
    true true
    []
    []
    []
    [n_MetaBlockConnectivity; n_Block; n_BlockConnection]
    [n_Block; n_BlockConnection]
    [(n_MetaBlockConnectivity, POneMany n_BlockConnectivity); (n_Block, PManyOne n_MemberOf_BlockConnectivity); (n_BlockConnection, PManyOne n_MemberOf_BlockConnectivity)];
(* CIM14/IEC61970/Dynamics/BlockConstant.py:23-62 *)
  Cls n_CIM14_IEC61970_Dynamics_BlockConstant_BlockConstant n_BlockConstant (Some n_CIM14_IEC61970_Dynamics_MetaBlockConnectable_MetaBlockConnectable)
    [(n_value, VFloat n_0_0); (n_metaBlock0, VNone)]
    [SAttr n_value; SOne n_metaBlock0]
    true true
    [n_value]
    [(n_value, VFloat n_0_0)]
    []
    [n_metaBlock0]
    []
    [(n_metaBlock0, POneMany n_blockConstant0)];
(* CIM14/IEC61970/Dynamics/BlockInputReference.py:23-100 *)
  Cls n_CIM14_IEC61970_Dynamics_BlockInputReference_BlockInputReference n_BlockInputReference (Some n_CIM14_IEC61970_Core_IdentifiedObject_IdentifiedObject)
    [(n_metaBlockReference0, VNone); (n_metaBlockInput0, VNone); (n_BlockConnectable, VNone)]
    [SOne n_metaBlockReference0; SOne n_metaBlockInput0; SOne n_BlockConnectable]
    true true
    []
    []
    []
    [n_metaBlockReference0; n_metaBlockInput0; n_BlockConnectable]
    []
    [(n_metaBlockReference0, POneMany n_blockInputReference0); (n_metaBlockInput0, POneMany n_blockInputReference0); (n_BlockConnectable, POneMany n_BlockInputReference)];
(* CIM14/IEC61970/Dynamics/BlockInputType.py:23-86 *)
  Cls n_CIM14_IEC61970_Dynamics_BlockInputType_BlockInputType n_BlockInputType (Some n_CIM14_IEC61970_Core_IdentifiedObject_IdentifiedObject)
    [(n_slotInput0, VNone); (n_metaBlockInput0, VNone)]
    [SMany n_slotInput0; SMany n_metaBlockInput0]
    true true
    []
    []
    []
    [n_slotInput0; n_metaBlockInput0]
    [n_slotInput0; n_metaBlockInput0]
    [(n_slotInput0, PManyOne n_blockInputType0); (n_metaBlockInput0, PManyOne n_blockInputType0)];
(* CIM14/IEC61970/Dynamics/BlockOutputReference.py:23-89 *)
  Cls n_CIM14_IEC61970_Dynamics_BlockOutputReference_BlockOutputReference n_BlockOutputReference (Some n_CIM14_IEC61970_Dynamics_MetaBlockConnectable_MetaBlockConnectable)
    [(n_metaBlockOutput0, VNone); (n_metaBlockReference0, VNone)]
    [SOne n_metaBlockOutput0; SMany n_metaBlockReference0]
    true true
    []
    []
    []
    [n_metaBlockOutput0; n_metaBlockReference0]
    [n_metaBlockReference0]
    [(n_metaBlockOutput0, POneMany n_BlockOutputReference); (n_metaBlockReference0, PManyMany n_blockOutputReference0)];
(* CIM14/IEC61970/Dynamics/BlockOutputType.py:23-86 *)
  Cls n_CIM14_IEC61970_Dynamics_BlockOutputType_BlockOutputType n_BlockOutputType (Some n_CIM14_IEC61970_Core_IdentifiedObject_IdentifiedObject)
    [(n_metaBlockOutput0, VNone); (n_slotOutput0, VNone)]
    [SMany n_metaBlockOutput0; SMany n_slotOutput0]
    true true
    []
    []
    []
    [n_metaBlockOutput0; n_slotOutput0]
    [n_metaBlockOutput0; n_slotOutput0]
    [(n_metaBlockOutput0, PManyOne n_blockOutputType0); (n_slotOutput0, PManyOne n_blockOutputType0)];
(* CIM14/IEC61970/Dynamics/BlockParameter.py:23-122 *)
  Cls n_CIM14_IEC61970_Dynamics_BlockParameter_BlockParameter n_BlockParameter (Some n_CIM14_IEC61970_Core_IdentifiedObject_IdentifiedObject)
    [(n_value, VFloat n_0_0); (n_MetaBlockParameter, VNone); (n_MemberOf_MetaBlockReference, VNone); (n_UserBlockParameter, VNone); (n_MemberOf_Block, VNone)]
    [SAttr n_value; SOne n_MetaBlockParameter; SOne n_MemberOf_MetaBlockReference; SOne n_UserBlockParameter; SOne n_MemberOf_Block]
    true true
    [n_value]
    [(n_value, VFloat n_0_0)]
    []
    [n_MetaBlockParameter; n_MemberOf_MetaBlockReference; n_UserBlockParameter; n_MemberOf_Block]
    []
    [(n_MetaBlockParameter, POneMany n_BlockParameter); (n_MemberOf_MetaBlockReference, POneMany n_BlockParameter); (n_UserBlockParameter, POneMany n_BlockUsageParameter); (n_MemberOf_Block, POneMany n_BlockParameter)];
(* CIM14/IEC61970/Dynamics/BlockType.py:23-88 *)
  Cls n_CIM14_IEC61970_Dynamics_BlockType_BlockType n_BlockType (Some n_CIM14_IEC61970_Core_IdentifiedObject_IdentifiedObject)
    [(n_slot0, VNone); (n_metaBlock0, VNone)]
    [SMany n_slot0; SMany n_metaBlock0]
    true true
    []
    []
    []
    [n_slot0; n_metaBlock0]
    [n_slot0; n_metaBlock0]
    [(n_slot0, PManyOne n_blockType0); (n_metaBlock0, PManyOne n_blockType0)];
(* CIM14/IEC61970/Dynamics/BlockUsageInputReference.py:23-99 *)
  Cls n_CIM14_IEC61970_Dynamics_BlockUsageInputReference_BlockUsageInputReference n_BlockUsageInputReference (Some n_CIM14_IEC61970_Core_IdentifiedObject_IdentifiedObject)
    [(n_block0, VNone); (n_BlockUsageOutputReference, VNone); (n_metaBlockInput0, VNone)]
    [SOne n_block0; SOne n_BlockUsageOutputReference; SOne n_metaBlockInput0]
    true true
    []
    []
    []
    [n_block0; n_BlockUsageOutputReference; n_metaBlockInput0]
    []
    [(n_block0, POneMany n_blockUsageInputReference0); (n_BlockUsageOutputReference, POneMany n_BlockUsageInputReference); (n_metaBlockInput0, POneMany n_blockUsageInputReference0)];
(* CIM14/IEC61970/Dynamics/BlockUsageOutputReference.py:23-104 *)
  Cls n_CIM14_IEC61970_Dynamics_BlockUsageOutputReference_BlockUsageOutputReference n_BlockUsageOutputReference (Some n_CIM14_IEC61970_Core_IdentifiedObject_IdentifiedObject)
    [(n_block0, VNone); (n_BlockUsageInputReference, VNone); (n_metaBlockOutput0, VNone)]
    [SOne n_block0; SMany n_BlockUsageInputReference; SOne n_metaBlockOutput0]
    true true
    []
    []
    []
    [n_block0; n_BlockUsageInputReference; n_metaBlockOutput0]
    [n_BlockUsageInputReference]
    [(n_block0, POneMany n_BlockUsageOutputReference); (n_BlockUsageInputReference, PManyOne n_BlockUsageOutputReference); (n_metaBlockOutput0, POneMany n_blockUsageOutputReference0)];
(* CIM14/IEC61970/Dynamics/CompositeModel.py:23-67 *)
  Cls n_CIM14_IEC61970_Dynamics_CompositeModel_CompositeModel n_CompositeModel (Some n_CIM14_Element_Element)
    [(n_slotReference0, VNone)]
    [SMany n_slotReference0]
    true true
    []
    []
    []
    [n_slotReference0]
    [n_slotReference0]
    [(n_slotReference0, PManyMany n_compositeModel0)];
(* CIM14/IEC61970/Dynamics/ConnectionFrame.py:23-86 *)
  Cls n_CIM14_IEC61970_Dynamics_ConnectionFrame_ConnectionFrame n_ConnectionFrame (Some n_CIM14_IEC61970_Core_IdentifiedObject_IdentifiedObject)
    [(n_slotConnection0, VNone); (n_slot0, VNone)]
    [SMany n_slotConnection0; SMany n_slot0]
    true true
    []
    []
    []
    [n_slotConnection0; n_slot0]
    [n_slotConnection0; n_slot0]
    [(n_slotConnection0, PManyOne n_connectionFrame0); (n_slot0, PManyOne n_connectionFrame0)];
(* CIM14/IEC61970/Dynamics/ExcitationSystemLimiter.py:23-36 *)
  Cls n_CIM14_IEC61970_Dynamics_ExcitationSystemLimiter_ExcitationSystemLimiter n_ExcitationSystemLimiter (Some n_CIM14_Element_Element)
    []
    []
    true true
    []
    []
    []
    []
    []
    [];
(* CIM14/IEC61970/Dynamics/ExcitationSystems/ExcAC1A.py:23-114 *)
  Cls n_CIM14_IEC61970_Dynamics_ExcitationSystems_ExcAC1A_ExcAC1A n_ExcAC1A (Some n_CIM14_IEC61970_Dynamics_ExcitationSystems_ExcitationSystem_ExcitationSystem)
    [(n_vrmin, VFloat n_0_0); (n_tr, VFloat n_0_0); (n_vrmax, VFloat n_0_0); (n_ta, VFloat n_0_0); (n_kf, VFloat n_0_0); (n_te, VFloat n_0_0); (n_ka, VFloat n_0_0); (n_vamax, VFloat n_0_0); (n_tb, VFloat n_0_0); (n_e1, VFloat n_0_0); (n_kd, VFloat n_0_0); (n_se1, VFloat n_0_0); (n_vamin, VFloat n_0_0); (n_ke, VFloat n_0_0); (n_kc, VFloat n_0_0); (n_tf, VFloat n_0_0); (n_tc, VFloat n_0_0); (n_e2, VFloat n_0_0); (n_se2, VFloat n_0_0)]
    [SAttr n_vrmin; SAttr n_tr; SAttr n_vrmax; SAttr n_ta; SAttr n_kf; SAttr n_te; SAttr n_ka; SAttr n_vamax; SAttr n_tb; SAttr n_e1; SAttr n_kd; SAttr n_se1; SAttr n_vamin; SAttr n_ke; SAttr n_kc; SAttr n_tf; SAttr n_tc; SAttr n_e2; SAttr n_se2]
    true true
    [n_vrmin; n_tr; n_vrmax; n_ta; n_kf; n_te; n_ka; n_vamax; n_tb; n_e1; n_kd; n_se1; n_vamin; n_ke; n_kc; n_tf; n_tc; n_e2; n_se2]
    [(n_vrmin, VFloat n_0_0); (n_tr, VFloat n_0_0); (n_vrmax, VFloat n_0_0); (n_ta, VFloat n_0_0); (n_kf, VFloat n_0_0); (n_te, VFloat n_0_0); (n_ka, VFloat n_0_0); (n_vamax, VFloat n_0_0); (n_tb, VFloat n_0_0); (n_e1, VFloat n_0_0); (n_kd, VFloat n_0_0); (n_se1, VFloat n_0_0); (n_vamin, VFloat n_0_0); (n_ke, VFloat n_0_0); (n_kc, VFloat n_0_0); (n_tf, VFloat n_0_0); (n_tc, VFloat n_0_0); (n_e2, VFloat n_0_0); (n_se2, VFloat n_0_0)]
    []
    []
    []
    [];
(* CIM14/IEC61970/Dynamics/ExcitationSystems/ExcAC2A.py:23-126 *)
  Cls n_CIM14_IEC61970_Dynamics_ExcitationSystems_ExcAC2A_ExcAC2A n_ExcAC2A (Some n_CIM14_IEC61970_Dynamics_ExcitationSystems_ExcitationSystem_ExcitationSystem)
    [(n_vrmin, VFloat n_0_0); (n_vamin, VFloat n_0_0); (n_kh, VFloat n_0_0); (n_vrmax, VFloat n_0_0); (n_tb, VFloat n_0_0); (n_e1, VFloat n_0_0); (n_se1, VFloat n_0_0); (n_te, VFloat n_0_0); (n_kf, VFloat n_0_0); (n_tc, VFloat n_0_0); (n_e2, VFloat n_0_0); (n_ke, VFloat n_0_0); (n_tr, VFloat n_0_0); (n_tf, VFloat n_0_0); (n_ta, VFloat n_0_0); (n_kc, VFloat n_0_0); (n_kd, VFloat n_0_0); (n_se2, VFloat n_0_0); (n_vfemax, VFloat n_0_0); (n_vamax, VFloat n_0_0); (n_kb, VFloat n_0_0); (n_ka, VFloat n_0_0)]
    [SAttr n_vrmin; SAttr n_vamin; SAttr n_kh; SAttr n_vrmax; SAttr n_tb; SAttr n_e1; SAttr n_se1; SAttr n_te; SAttr n_kf; SAttr n_tc; SAttr n_e2; SAttr n_ke; SAttr n_tr; SAttr n_tf; SAttr n_ta; SAttr n_kc; SAttr n_kd; SAttr n_se2; SAttr n_vfemax; SAttr n_vamax; SAttr n_kb; SAttr n_ka]
    true true
    [n_vrmin; n_vamin; n_kh; n_vrmax; n_tb; n_e1; n_se1; n_te; n_kf; n_tc; n_e2; n_ke; n_tr; n_tf; n_ta; n_kc; n_kd; n_se2; n_vfemax; n_vamax; n_kb; n_ka]
    [(n_vrmin, VFloat n_0_0); (n_vamin, VFloat n_0_0); (n_kh, VFloat n_0_0); (n_vrmax, VFloat n_0_0); (n_tb, VFloat n_0_0); (n_e1, VFloat n_0_0); (n_se1, VFloat n_0_0); (n_te, VFloat n_0_0); (n_kf, VFloat n_0_0); (n_tc, VFloat n_0_0); (n_e2, VFloat n_0_0); (n_ke, VFloat n_0_0); (n_tr, VFloat n_0_0); (n_tf, VFloat n_0_0); (n_ta, VFloat n_0_0); (n_kc, VFloat n_0_0); (n_kd, VFloat n_0_0); (n_se2, VFloat n_0_0); (n_vfemax, VFloat n_0_0); (n_vamax, VFloat n_0_0); (n_kb, VFloat n_0_0); (n_ka, VFloat n_0_0)]
    []
    []
    []
    [];
(* CIM14/IEC61970/Dynamics/ExcitationSystems/ExcAC3A.py:23-126 *)
  Cls n_CIM14_IEC61970_Dynamics_ExcitationSystems_ExcAC3A_ExcAC3A n_ExcAC3A (Some n_CIM14_IEC61970_Dynamics_ExcitationSystems_ExcitationSystem_ExcitationSystem)
    [(n_kf, VFloat n_0_0); (n_e2, VFloat n_0_0); (n_te, VFloat n_0_0); (n_ka, VFloat n_0_0); (n_kr, VFloat n_0_0); (n_tc, VFloat n_0_0); (n_efdn, VFloat n_0_0); (n_ke, VFloat n_0_0); (n_e1, VFloat n_0_0); (n_kd, VFloat n_0_0); (n_se2, VFloat n_0_0); (n_vamax, VFloat n_0_0); (n_tr, VFloat n_0_0); (n_vamin, VFloat n_0_0); (n_tf, VFloat n_0_0); (n_vemin, VFloat n_0_0); (n_kn, VFloat n_0_0); (n_vfemax, VFloat n_0_0); (n_tb, VFloat n_0_0); (n_se1, VFloat n_0_0); (n_kc, VFloat n_0_0); (n_ta, VFloat n_0_0)]
    [SAttr n_kf; SAttr n_e2; SAttr n_te; SAttr n_ka; SAttr n_kr; SAttr n_tc; SAttr n_efdn; SAttr n_ke; SAttr n_e1; SAttr n_kd; SAttr n_se2; SAttr n_vamax; SAttr n_tr; SAttr n_vamin; SAttr n_tf; SAttr n_vemin; SAttr n_kn; SAttr n_vfemax; SAttr n_tb; SAttr n_se1; SAttr n_kc; SAttr n_ta]
    true true
    [n_kf; n_e2; n_te; n_ka; n_kr; n_tc; n_efdn; n_ke; n_e1; n_kd; n_se2; n_vamax; n_tr; n_vamin; n_tf; n_vemin; n_kn; n_vfemax; n_tb; n_se1; n_kc; n_ta]
    [(n_kf, VFloat n_0_0); (n_e2, VFloat n_0_0); (n_te, VFloat n_0_0); (n_ka, VFloat n_0_0); (n_kr, VFloat n_0_0); (n_tc, VFloat n_0_0); (n_efdn, VFloat n_0_0); (n_ke, VFloat n_0_0); (n_e1, VFloat n_0_0); (n_kd, VFloat n_0_0); (n_se2, VFloat n_0_0); (n_vamax, VFloat n_0_0); (n_tr, VFloat n_0_0); (n_vamin, VFloat n_0_0); (n_tf, VFloat n_0_0); (n_vemin, VFloat n_0_0); (n_kn, VFloat n_0_0); (n_vfemax, VFloat n_0_0); (n_tb, VFloat n_0_0); (n_se1, VFloat n_0_0); (n_kc, VFloat n_0_0); (n_ta, VFloat n_0_0)]
    []
    []
    []
    [];
(* CIM14/IEC61970/Dynamics/ExcitationSystems/ExcAC4A.py:23-78 *)
  Cls n_CIM14_IEC61970_Dynamics_ExcitationSystems_ExcAC4A_ExcAC4A n_ExcAC4A (Some n_CIM14_IEC61970_Dynamics_ExcitationSystems_ExcitationSystem_ExcitationSystem)
    [(n_ka, VFloat n_0_0); (n_vimin, VFloat n_0_0); (n_tb, VFloat n_0_0); (n_tr, VFloat n_0_0); (n_tc, VFloat n_0_0); (n_ta, VFloat n_0_0); (n_kc, VFloat n_0_0); (n_vrmin, VFloat n_0_0); (n_vrmax, VFloat n_0_0); (n_vimax, VFloat n_0_0)]
    [SAttr n_ka; SAttr n_vimin; SAttr n_tb; SAttr n_tr; SAttr n_tc; SAttr n_ta; SAttr n_kc; SAttr n_vrmin; SAttr n_vrmax; SAttr n_vimax]
    true true
    [n_ka; n_vimin; n_tb; n_tr; n_tc; n_ta; n_kc; n_vrmin; n_vrmax; n_vimax]
    [(n_ka, VFloat n_0_0); (n_vimin, VFloat n_0_0); (n_tb, VFloat n_0_0); (n_tr, VFloat n_0_0); (n_tc, VFloat n_0_0); (n_ta, VFloat n_0_0); (n_kc, VFloat n_0_0); (n_vrmin, VFloat n_0_0); (n_vrmax, VFloat n_0_0); (n_vimax, VFloat n_0_0)]
    []
    []
    []
    [];
(* CIM14/IEC61970/Dynamics/ExcitationSystems/ExcAC5A.py:23-98 *)
  Cls n_CIM14_IEC61970_Dynamics_ExcitationSystems_ExcAC5A_ExcAC5A n_ExcAC5A (Some n_CIM14_IEC61970_Dynamics_ExcitationSystems_ExcitationSystem_ExcitationSystem)
    [(n_ka, VFloat n_0_0); (n_e1, VFloat n_0_0); (n_kf, VFloat n_0_0); (n_te, VFloat n_0_0); (n_vrmin, VFloat n_0_0); (n_vrmax, VFloat n_0_0); (n_se2, VFloat n_0_0); (n_tf3, VFloat n_0_0); (n_e2, VFloat n_0_0); (n_ke, VFloat n_0_0); (n_tr, VFloat n_0_0); (n_se1, VFloat n_0_0); (n_tf2, VFloat n_0_0); (n_tf1, VFloat n_0_0); (n_ta, VFloat n_0_0)]
    [SAttr n_ka; SAttr n_e1; SAttr n_kf; SAttr n_te; SAttr n_vrmin; SAttr n_vrmax; SAttr n_se2; SAttr n_tf3; SAttr n_e2; SAttr n_ke; SAttr n_tr; SAttr n_se1; SAttr n_tf2; SAttr n_tf1; SAttr n_ta]
    true true
    [n_ka; n_e1; n_kf; n_te; n_vrmin; n_vrmax; n_se2; n_tf3; n_e2; n_ke; n_tr; n_se1; n_tf2; n_tf1; n_ta]
    [(n_ka, VFloat n_0_0); (n_e1, VFloat n_0_0); (n_kf, VFloat n_0_0); (n_te, VFloat n_0_0); (n_vrmin, VFloat n_0_0); (n_vrmax, VFloat n_0_0); (n_se2, VFloat n_0_0); (n_tf3, VFloat n_0_0); (n_e2, VFloat n_0_0); (n_ke, VFloat n_0_0); (n_tr, VFloat n_0_0); (n_se1, VFloat n_0_0); (n_tf2, VFloat n_0_0); (n_tf1, VFloat n_0_0); (n_ta, VFloat n_0_0)]
    []
    []
    []
    [];
(* CIM14/IEC61970/Dynamics/ExcitationSystems/ExcAC6A.py:23-130 *)
  Cls n_CIM14_IEC61970_Dynamics_ExcitationSystems_ExcAC6A_ExcAC6A n_ExcAC6A (Some n_CIM14_IEC61970_Dynamics_ExcitationSystems_ExcitationSystem_ExcitationSystem)
    [(n_te, VFloat n_0_0); (n_ka, VFloat n_0_0); (n_vhmax, VFloat n_0_0); (n_kh, VFloat n_0_0); (n_tk, VFloat n_0_0); (n_ke, VFloat n_0_0); (n_se1, VFloat n_0_0); (n_tr, VFloat n_0_0); (n_vrmin, VFloat n_0_0); (n_vrmax, VFloat n_0_0); (n_tc, VFloat n_0_0); (n_e2, VFloat n_0_0); (n_tj, VFloat n_0_0); (n_kc, VFloat n_0_0); (n_vfelim, VFloat n_0_0); (n_ta, VFloat n_0_0); (n_th, VFloat n_0_0); (n_kd, VFloat n_0_0); (n_vamax, VFloat n_0_0); (n_tb, VFloat n_0_0); (n_e1, VFloat n_0_0); (n_vamin, VFloat n_0_0); (n_se2, VFloat n_0_0)]
    [SAttr n_te; SAttr n_ka; SAttr n_vhmax; SAttr n_kh; SAttr n_tk; SAttr n_ke; SAttr n_se1; SAttr n_tr; SAttr n_vrmin; SAttr n_vrmax; SAttr n_tc; SAttr n_e2; SAttr n_tj; SAttr n_kc; SAttr n_vfelim; SAttr n_ta; SAttr n_th; SAttr n_kd; SAttr n_vamax; SAttr n_tb; SAttr n_e1; SAttr n_vamin; SAttr n_se2]
    true true
    [n_te; n_ka; n_vhmax; n_kh; n_tk; n_ke; n_se1; n_tr; n_vrmin; n_vrmax; n_tc; n_e2; n_tj; n_kc; n_vfelim; n_ta; n_th; n_kd; n_vamax; n_tb; n_e1; n_vamin; n_se2]
    [(n_te, VFloat n_0_0); (n_ka, VFloat n_0_0); (n_vhmax, VFloat n_0_0); (n_kh, VFloat n_0_0); (n_tk, VFloat n_0_0); (n_ke, VFloat n_0_0); (n_se1, VFloat n_0_0); (n_tr, VFloat n_0_0); (n_vrmin, VFloat n_0_0); (n_vrmax, VFloat n_0_0); (n_tc, VFloat n_0_0); (n_e2, VFloat n_0_0); (n_tj, VFloat n_0_0); (n_kc, VFloat n_0_0); (n_vfelim, VFloat n_0_0); (n_ta, VFloat n_0_0); (n_th, VFloat n_0_0); (n_kd, VFloat n_0_0); (n_vamax, VFloat n_0_0); (n_tb, VFloat n_0_0); (n_e1, VFloat n_0_0); (n_vamin, VFloat n_0_0); (n_se2, VFloat n_0_0)]
    []
    []
    []
    [];
(* CIM14/IEC61970/Dynamics/ExcitationSystems/ExcAC7B.py:23-146 *)
  Cls n_CIM14_IEC61970_Dynamics_ExcitationSystems_ExcAC7B_ExcAC7B n_ExcAC7B (Some n_CIM14_IEC61970_Dynamics_ExcitationSystems_ExcitationSystem_ExcitationSystem)
    [(n_kir, VFloat n_0_0); (n_kpr, VFloat n_0_0); (n_vfemax, VFloat n_0_0); (n_te, VFloat n_0_0); (n_vemin, VFloat n_0_0); (n_ke, VFloat n_0_0); (n_kp, VFloat n_0_0); (n_kd, VFloat n_0_0); (n_kdr, VFloat n_0_0); (n_kf3, VFloat n_0_0); (n_e1, VFloat n_0_0); (n_tdr, VFloat n_0_0); (n_se2, VFloat n_0_0); (n_kf1, VFloat n_0_0); (n_e2, VFloat n_0_0); (n_kc, VFloat n_0_0); (n_vamin, VFloat n_0_0); (n_se1, VFloat n_0_0); (n_vrmin, VFloat n_0_0); (n_tf, VFloat n_0_0); (n_vrmax, VFloat n_0_0); (n_kf2, VFloat n_0_0); (n_kl, VFloat n_0_0); (n_kpa, VFloat n_0_0); (n_kia, VFloat n_0_0); (n_tr, VFloat n_0_0); (n_vamax, VFloat n_0_0)]
    [SAttr n_kir; SAttr n_kpr; SAttr n_vfemax; SAttr n_te; SAttr n_vemin; SAttr n_ke; SAttr n_kp; SAttr n_kd; SAttr n_kdr; SAttr n_kf3; SAttr n_e1; SAttr n_tdr; SAttr n_se2; SAttr n_kf1; SAttr n_e2; SAttr n_kc; SAttr n_vamin; SAttr n_se1; SAttr n_vrmin; SAttr n_tf; SAttr n_vrmax; SAttr n_kf2; SAttr n_kl; SAttr n_kpa; SAttr n_kia; SAttr n_tr; SAttr n_vamax]
    true true
    [n_kir; n_kpr; n_vfemax; n_te; n_vemin; n_ke; n_kp; n_kd; n_kdr; n_kf3; n_e1; n_tdr; n_se2; n_kf1; n_e2; n_kc; n_vamin; n_se1; n_vrmin; n_tf; n_vrmax; n_kf2; n_kl; n_kpa; n_kia; n_tr; n_vamax]
    [(n_kir, VFloat n_0_0); (n_kpr, VFloat n_0_0); (n_vfemax, VFloat n_0_0); (n_te, VFloat n_0_0); (n_vemin, VFloat n_0_0); (n_ke, VFloat n_0_0); (n_kp, VFloat n_0_0); (n_kd, VFloat n_0_0); (n_kdr, VFloat n_0_0); (n_kf3, VFloat n_0_0); (n_e1, VFloat n_0_0); (n_tdr, VFloat n_0_0); (n_se2, VFloat n_0_0); (n_kf1, VFloat n_0_0); (n_e2, VFloat n_0_0); (n_kc, VFloat n_0_0); (n_vamin, VFloat n_0_0); (n_se1, VFloat n_0_0); (n_vrmin, VFloat n_0_0); (n_tf, VFloat n_0_0); (n_vrmax, VFloat n_0_0); (n_kf2, VFloat n_0_0); (n_kl, VFloat n_0_0); (n_kpa, VFloat n_0_0); (n_kia, VFloat n_0_0); (n_tr, VFloat n_0_0); (n_vamax, VFloat n_0_0)]
    []
    []
    []
    [];
(* CIM14/IEC61970/Dynamics/ExcitationSystems/ExcAC8B.py:23-118 *)
  Cls n_CIM14_IEC61970_Dynamics_ExcitationSystems_ExcAC8B_ExcAC8B n_ExcAC8B (Some n_CIM14_IEC61970_Dynamics_ExcitationSystems_ExcitationSystem_ExcitationSystem)
    [(n_vfemax, VFloat n_0_0); (n_vrmin, VFloat n_0_0); (n_ta, VFloat n_0_0); (n_tdr, VFloat n_0_0); (n_vtmult, VFloat n_0_0); (n_ka, VFloat n_0_0); (n_kdr, VFloat n_0_0); (n_se1, VFloat n_0_0); (n_e1, VFloat n_0_0); (n_vemin, VFloat n_0_0); (n_te, VFloat n_0_0); (n_ke, VFloat n_0_0); (n_se2, VFloat n_0_0); (n_tr, VFloat n_0_0); (n_kir, VFloat n_0_0); (n_kpr, VFloat n_0_0); (n_vrmax, VFloat n_0_0); (n_kd, VFloat n_0_0); (n_e2, VFloat n_0_0); (n_kc, VFloat n_0_0)]
    [SAttr n_vfemax; SAttr n_vrmin; SAttr n_ta; SAttr n_tdr; SAttr n_vtmult; SAttr n_ka; SAttr n_kdr; SAttr n_se1; SAttr n_e1; SAttr n_vemin; SAttr n_te; SAttr n_ke; SAttr n_se2; SAttr n_tr; SAttr n_kir; SAttr n_kpr; SAttr n_vrmax; SAttr n_kd; SAttr n_e2; SAttr n_kc]
    true true
    [n_vfemax; n_vrmin; n_ta; n_tdr; n_vtmult; n_ka; n_kdr; n_se1; n_e1; n_vemin; n_te; n_ke; n_se2; n_tr; n_kir; n_kpr; n_vrmax; n_kd; n_e2; n_kc]
    [(n_vfemax, VFloat n_0_0); (n_vrmin, VFloat n_0_0); (n_ta, VFloat n_0_0); (n_tdr, VFloat n_0_0); (n_vtmult, VFloat n_0_0); (n_ka, VFloat n_0_0); (n_kdr, VFloat n_0_0); (n_se1, VFloat n_0_0); (n_e1, VFloat n_0_0); (n_vemin, VFloat n_0_0); (n_te, VFloat n_0_0); (n_ke, VFloat n_0_0); (n_se2, VFloat n_0_0); (n_tr, VFloat n_0_0); (n_kir, VFloat n_0_0); (n_kpr, VFloat n_0_0); (n_vrmax, VFloat n_0_0); (n_kd, VFloat n_0_0); (n_e2, VFloat n_0_0); (n_kc, VFloat n_0_0)]
    []
    []
    []
    [];
(* CIM14/IEC61970/Dynamics/ExcitationSystems/ExcBAS.py:23-38 *)
  Cls n_CIM14_IEC61970_Dynamics_ExcitationSystems_ExcBAS_ExcBAS n_ExcBAS (Some n_CIM14_IEC61970_Dynamics_ExcitationSystems_ExcitationSystem_ExcitationSystem)
    []
    []
    true true
    []
    []
    []
    []
    []
    [];
(* CIM14/IEC61970/Dynamics/ExcitationSystems/ExcBBC.py:23-38 *)
  Cls n_CIM14_IEC61970_Dynamics_ExcitationSystems_ExcBBC_ExcBBC n_ExcBBC (Some n_CIM14_IEC61970_Dynamics_ExcitationSystems_ExcitationSystem_ExcitationSystem)
    []
    []
    true true
    []
    []
    []
    []
    []
    [];
(* CIM14/IEC61970/Dynamics/ExcitationSystems/ExcCZ.py:23-38 *)
  Cls n_CIM14_IEC61970_Dynamics_ExcitationSystems_ExcCZ_ExcCZ n_ExcCZ (Some n_CIM14_IEC61970_Dynamics_ExcitationSystems_ExcitationSystem_ExcitationSystem)
    []
    []
    true true
    []
    []
    []
    []
    []
    [];
(* CIM14/IEC61970/Dynamics/ExcitationSystems/ExcDC1A.py:23-106 *)
  Cls n_CIM14_IEC61970_Dynamics_ExcitationSystems_ExcDC1A_ExcDC1A n_ExcDC1A (Some n_CIM14_IEC61970_Dynamics_ExcitationSystems_ExcitationSystem_ExcitationSystem)
    [(n_ta, VFloat n_0_0); (n_ka, VFloat n_0_0); (n_e1, VFloat n_0_0); (n_tb, VFloat n_0_0); (n_se2, VFloat n_0_0); (n_te, VFloat n_0_0); (n_exclim, VFloat n_0_0); (n_e2, VFloat n_0_0); (n_tr, VFloat n_0_0); (n_uelin, VFloat n_0_0); (n_tf, VFloat n_0_0); (n_vrmax, VFloat n_0_0); (n_kf, VFloat n_0_0); (n_ke, VFloat n_0_0); (n_se1, VFloat n_0_0); (n_vrmin, VFloat n_0_0); (n_tc, VFloat n_0_0)]
    [SAttr n_ta; SAttr n_ka; SAttr n_e1; SAttr n_tb; SAttr n_se2; SAttr n_te; SAttr n_exclim; SAttr n_e2; SAttr n_tr; SAttr n_uelin; SAttr n_tf; SAttr n_vrmax; SAttr n_kf; SAttr n_ke; SAttr n_se1; SAttr n_vrmin; SAttr n_tc]
    true true
    [n_ta; n_ka; n_e1; n_tb; n_se2; n_te; n_exclim; n_e2; n_tr; n_uelin; n_tf; n_vrmax; n_kf; n_ke; n_se1; n_vrmin; n_tc]
    [(n_ta, VFloat n_0_0); (n_ka, VFloat n_0_0); (n_e1, VFloat n_0_0); (n_tb, VFloat n_0_0); (n_se2, VFloat n_0_0); (n_te, VFloat n_0_0); (n_exclim, VFloat n_0_0); (n_e2, VFloat n_0_0); (n_tr, VFloat n_0_0); (n_uelin, VFloat n_0_0); (n_tf, VFloat n_0_0); (n_vrmax, VFloat n_0_0); (n_kf, VFloat n_0_0); (n_ke, VFloat n_0_0); (n_se1, VFloat n_0_0); (n_vrmin, VFloat n_0_0); (n_tc, VFloat n_0_0)]
    []
    []
    []
    [];
(* CIM14/IEC61970/Dynamics/ExcitationSystems/ExcDC2A.py:23-106 *)
  Cls n_CIM14_IEC61970_Dynamics_ExcitationSystems_ExcDC2A_ExcDC2A n_ExcDC2A (Some n_CIM14_IEC61970_Dynamics_ExcitationSystems_ExcitationSystem_ExcitationSystem)
    [(n_te, VFloat n_0_0); (n_ke, VFloat n_0_0); (n_e1, VFloat n_0_0); (n_tc, VFloat n_0_0); (n_se2, VFloat n_0_0); (n_tb, VFloat n_0_0); (n_uelin, VFloat n_0_0); (n_e2, VFloat n_0_0); (n_tf, VFloat n_0_0); (n_kf, VFloat n_0_0); (n_vrmax, VFloat n_0_0); (n_se1, VFloat n_0_0); (n_ta, VFloat n_0_0); (n_ka, VFloat n_0_0); (n_tr, VFloat n_0_0); (n_exclim, VFloat n_0_0); (n_vrmin, VFloat n_0_0)]
    [SAttr n_te; SAttr n_ke; SAttr n_e1; SAttr n_tc; SAttr n_se2; SAttr n_tb; SAttr n_uelin; SAttr n_e2; SAttr n_tf; SAttr n_kf; SAttr n_vrmax; SAttr n_se1; SAttr n_ta; SAttr n_ka; SAttr n_tr; SAttr n_exclim; SAttr n_vrmin]
    true true
    [n_te; n_ke; n_e1; n_tc; n_se2; n_tb; n_uelin; n_e2; n_tf; n_kf; n_vrmax; n_se1; n_ta; n_ka; n_tr; n_exclim; n_vrmin]
    [(n_te, VFloat n_0_0); (n_ke, VFloat n_0_0); (n_e1, VFloat n_0_0); (n_tc, VFloat n_0_0); (n_se2, VFloat n_0_0); (n_tb, VFloat n_0_0); (n_uelin, VFloat n_0_0); (n_e2, VFloat n_0_0); (n_tf, VFloat n_0_0); (n_kf, VFloat n_0_0); (n_vrmax, VFloat n_0_0); (n_se1, VFloat n_0_0); (n_ta, VFloat n_0_0); (n_ka, VFloat n_0_0); (n_tr, VFloat n_0_0); (n_exclim, VFloat n_0_0); (n_vrmin, VFloat n_0_0)]
    []
    []
    []
    [];
(* CIM14/IEC61970/Dynamics/ExcitationSystems/ExcDC3A.py:23-86 *)
  Cls n_CIM14_IEC61970_Dynamics_ExcitationSystems_ExcDC3A_ExcDC3A n_ExcDC3A (Some n_CIM14_IEC61970_Dynamics_ExcitationSystems_ExcitationSystem_ExcitationSystem)
    [(n_e1, VFloat n_0_0); (n_vrmax, VFloat n_0_0); (n_te, VFloat n_0_0); (n_ke, VFloat n_0_0); (n_tr, VFloat n_0_0); (n_se2, VFloat n_0_0); (n_trh, VFloat n_0_0); (n_vrmin, VFloat n_0_0); (n_exclim, VFloat n_0_0); (n_e2, VFloat n_0_0); (n_kv, VFloat n_0_0); (n_se1, VFloat n_0_0)]
    [SAttr n_e1; SAttr n_vrmax; SAttr n_te; SAttr n_ke; SAttr n_tr; SAttr n_se2; SAttr n_trh; SAttr n_vrmin; SAttr n_exclim; SAttr n_e2; SAttr n_kv; SAttr n_se1]
    true true
    [n_e1; n_vrmax; n_te; n_ke; n_tr; n_se2; n_trh; n_vrmin; n_exclim; n_e2; n_kv; n_se1]
    [(n_e1, VFloat n_0_0); (n_vrmax, VFloat n_0_0); (n_te, VFloat n_0_0); (n_ke, VFloat n_0_0); (n_tr, VFloat n_0_0); (n_se2, VFloat n_0_0); (n_trh, VFloat n_0_0); (n_vrmin, VFloat n_0_0); (n_exclim, VFloat n_0_0); (n_e2, VFloat n_0_0); (n_kv, VFloat n_0_0); (n_se1, VFloat n_0_0)]
    []
    []
    []
    [];
(* CIM14/IEC61970/Dynamics/ExcitationSystems/ExcDC4B.py:23-118 *)
  Cls n_CIM14_IEC61970_Dynamics_ExcitationSystems_ExcDC4B_ExcDC4B n_ExcDC4B (Some n_CIM14_IEC61970_Dynamics_ExcitationSystems_ExcitationSystem_ExcitationSystem)
    [(n_e1, VFloat n_0_0); (n_se2, VFloat n_0_0); (n_tf, VFloat n_0_0); (n_oelin, VFloat n_0_0); (n_ki, VFloat n_0_0); (n_ta, VFloat n_0_0); (n_vrmax, VFloat n_0_0); (n_tr, VFloat n_0_0); (n_kf, VFloat n_0_0); (n_vrmin, VFloat n_0_0); (n_te, VFloat n_0_0); (n_ka, VFloat n_0_0); (n_kp, VFloat n_0_0); (n_td, VFloat n_0_0); (n_kd, VFloat n_0_0); (n_vemin, VFloat n_0_0); (n_ke, VFloat n_0_0); (n_se1, VFloat n_0_0); (n_e2, VFloat n_0_0); (n_uelin, VFloat n_0_0)]
    [SAttr n_e1; SAttr n_se2; SAttr n_tf; SAttr n_oelin; SAttr n_ki; SAttr n_ta; SAttr n_vrmax; SAttr n_tr; SAttr n_kf; SAttr n_vrmin; SAttr n_te; SAttr n_ka; SAttr n_kp; SAttr n_td; SAttr n_kd; SAttr n_vemin; SAttr n_ke; SAttr n_se1; SAttr n_e2; SAttr n_uelin]
    true true
    [n_e1; n_se2; n_tf; n_oelin; n_ki; n_ta; n_vrmax; n_tr; n_kf; n_vrmin; n_te; n_ka; n_kp; n_td; n_kd; n_vemin; n_ke; n_se1; n_e2; n_uelin]
    [(n_e1, VFloat n_0_0); (n_se2, VFloat n_0_0); (n_tf, VFloat n_0_0); (n_oelin, VFloat n_0_0); (n_ki, VFloat n_0_0); (n_ta, VFloat n_0_0); (n_vrmax, VFloat n_0_0); (n_tr, VFloat n_0_0); (n_kf, VFloat n_0_0); (n_vrmin, VFloat n_0_0); (n_te, VFloat n_0_0); (n_ka, VFloat n_0_0); (n_kp, VFloat n_0_0); (n_td, VFloat n_0_0); (n_kd, VFloat n_0_0); (n_vemin, VFloat n_0_0); (n_ke, VFloat n_0_0); (n_se1, VFloat n_0_0); (n_e2, VFloat n_0_0); (n_uelin, VFloat n_0_0)]
    []
    []
    []
    [];
(* CIM14/IEC61970/Dynamics/ExcitationSystems/ExcELIN1.py:23-38 *)
  Cls n_CIM14_IEC61970_Dynamics_ExcitationSystems_ExcELIN1_ExcELIN1 n_ExcELIN1 (Some n_CIM14_IEC61970_Dynamics_ExcitationSystems_ExcitationSystem_ExcitationSystem)
    []
    []
    true true
    []
    []
    []
    []
    []
    [];
(* CIM14/IEC61970/Dynamics/ExcitationSystems/ExcELIN2.py:23-38 *)
  Cls n_CIM14_IEC61970_Dynamics_ExcitationSystems_ExcELIN2_ExcELIN2 n_ExcELIN2 (Some n_CIM14_IEC61970_Dynamics_ExcitationSystems_ExcitationSystem_ExcitationSystem)
    []
    []
    true true
    []
    []
    []
    []
    []
    [];
(* CIM14/IEC61970/Dynamics/ExcitationSystems/ExcHU.py:23-38 *)
  Cls n_CIM14_IEC61970_Dynamics_ExcitationSystems_ExcHU_ExcHU n_ExcHU (Some n_CIM14_IEC61970_Dynamics_ExcitationSystems_ExcitationSystem_ExcitationSystem)
    []
    []
    true true
    []
    []
    []
    []
    []
    [];
(* CIM14/IEC61970/Dynamics/ExcitationSystems/ExcPIC.py:23-38 *)
  Cls n_CIM14_IEC61970_Dynamics_ExcitationSystems_ExcPIC_ExcPIC n_ExcPIC (Some n_CIM14_IEC61970_Dynamics_ExcitationSystems_ExcitationSystem_ExcitationSystem)
    []
    []
    true true
    []
    []
    []
    []
    []
    [];
(* CIM14/IEC61970/Dynamics/ExcitationSystems/ExcREXS.py:23-38 *)
  Cls n_CIM14_IEC61970_Dynamics_ExcitationSystems_ExcREXS_ExcREXS n_ExcREXS (Some n_CIM14_IEC61970_Dynamics_ExcitationSystems_ExcitationSystem_ExcitationSystem)
    []
    []
    true true
    []
    []
    []
    []
    []
    [];
(* CIM14/IEC61970/Dynamics/ExcitationSystems/ExcSCRX.py:23-70 *)
  Cls n_CIM14_IEC61970_Dynamics_ExcitationSystems_ExcSCRX_ExcSCRX n_ExcSCRX (Some n_CIM14_IEC61970_Dynamics_ExcitationSystems_ExcitationSystem_ExcitationSystem)
    [(n_tb, VFloat n_0_0); (n_cswitch, VBool false); (n_emin, VFloat n_0_0); (n_k, VFloat n_0_0); (n_te, VFloat n_0_0); (n_emax, VFloat n_0_0); (n_tatb, VFloat n_0_0); (n_rcrfd, VFloat n_0_0)]
    [SAttr n_tb; SAttr n_cswitch; SAttr n_emin; SAttr n_k; SAttr n_te; SAttr n_emax; SAttr n_tatb; SAttr n_rcrfd]
    true true
    [n_tb; n_cswitch; n_emin; n_k; n_te; n_emax; n_tatb; n_rcrfd]
    [(n_tb, VFloat n_0_0); (n_cswitch, VBool false); (n_emin, VFloat n_0_0); (n_k, VFloat n_0_0); (n_te, VFloat n_0_0); (n_emax, VFloat n_0_0); (n_tatb, VFloat n_0_0); (n_rcrfd, VFloat n_0_0)]
    []
    []
    []
    [];
(* CIM14/IEC61970/Dynamics/ExcitationSystems/ExcSEXS.py:23-78 *)
  Cls n_CIM14_IEC61970_Dynamics_ExcitationSystems_ExcSEXS_ExcSEXS n_ExcSEXS (Some n_CIM14_IEC61970_Dynamics_ExcitationSystems_ExcitationSystem_ExcitationSystem)
    [(n_tb, VFloat n_0_0); (n_kc, VFloat n_0_0); (n_emax, VFloat n_0_0); (n_tatb, VFloat n_0_0); (n_tc, VFloat n_0_0); (n_efdmin, VFloat n_0_0); (n_efdmax, VFloat n_0_0); (n_emin, VFloat n_0_0); (n_k, VFloat n_0_0); (n_te, VFloat n_0_0)]
    [SAttr n_tb; SAttr n_kc; SAttr n_emax; SAttr n_tatb; SAttr n_tc; SAttr n_efdmin; SAttr n_efdmax; SAttr n_emin; SAttr n_k; SAttr n_te]
    true true
    [n_tb; n_kc; n_emax; n_tatb; n_tc; n_efdmin; n_efdmax; n_emin; n_k; n_te]
    [(n_tb, VFloat n_0_0); (n_kc, VFloat n_0_0); (n_emax, VFloat n_0_0); (n_tatb, VFloat n_0_0); (n_tc, VFloat n_0_0); (n_efdmin, VFloat n_0_0); (n_efdmax, VFloat n_0_0); (n_emin, VFloat n_0_0); (n_k, VFloat n_0_0); (n_te, VFloat n_0_0)]
    []
    []
    []
    [];
(* CIM14/IEC61970/Dynamics/ExcitationSystems/ExcSK.py:23-38 *)
  Cls n_CIM14_IEC61970_Dynamics_ExcitationSystems_ExcSK_ExcSK n_ExcSK (Some n_CIM14_IEC61970_Dynamics_ExcitationSystems_ExcitationSystem_ExcitationSystem)
    []
    []
    true true
    []
    []
    []
    []
    []
    [];
(* CIM14/IEC61970/Dynamics/ExcitationSystems/ExcSK2.py:23-38 *)
  Cls n_CIM14_IEC61970_Dynamics_ExcitationSystems_ExcSK2_ExcSK2 n_ExcSK2 (Some n_CIM14_IEC61970_Dynamics_ExcitationSystems_ExcitationSystem_ExcitationSystem)
    []
    []
    true true
    []
    []
    []
    []
    []
    [];
(* CIM14/IEC61970/Dynamics/ExcitationSystems/ExcST1A.py:23-118 *)
  Cls n_CIM14_IEC61970_Dynamics_ExcitationSystems_ExcST1A_ExcST1A n_ExcST1A (Some n_CIM14_IEC61970_Dynamics_ExcitationSystems_ExcitationSystem_ExcitationSystem)
    [(n_ta, VFloat n_0_0); (n_vimin, VFloat n_0_0); (n_vamin, VFloat n_0_0); (n_kf, VFloat n_0_0); (n_vrmin, VFloat n_0_0); (n_ka, VFloat n_0_0); (n_tb, VFloat n_0_0); (n_vamax, VFloat n_0_0); (n_tb1, VFloat n_0_0); (n_uelin, VFloat n_0_0); (n_kc, VFloat n_0_0); (n_tc1, VFloat n_0_0); (n_tf, VFloat n_0_0); (n_klr, VFloat n_0_0); (n_vimax, VFloat n_0_0); (n_tc, VFloat n_0_0); (n_pssin, VFloat n_0_0); (n_vrmax, VFloat n_0_0); (n_tr, VFloat n_0_0); (n_ilr, VFloat n_0_0)]
    [SAttr n_ta; SAttr n_vimin; SAttr n_vamin; SAttr n_kf; SAttr n_vrmin; SAttr n_ka; SAttr n_tb; SAttr n_vamax; SAttr n_tb1; SAttr n_uelin; SAttr n_kc; SAttr n_tc1; SAttr n_tf; SAttr n_klr; SAttr n_vimax; SAttr n_tc; SAttr n_pssin; SAttr n_vrmax; SAttr n_tr; SAttr n_ilr]
    true true
    [n_ta; n_vimin; n_vamin; n_kf; n_vrmin; n_ka; n_tb; n_vamax; n_tb1; n_uelin; n_kc; n_tc1; n_tf; n_klr; n_vimax; n_tc; n_pssin; n_vrmax; n_tr; n_ilr]
    [(n_ta, VFloat n_0_0); (n_vimin, VFloat n_0_0); (n_vamin, VFloat n_0_0); (n_kf, VFloat n_0_0); (n_vrmin, VFloat n_0_0); (n_ka, VFloat n_0_0); (n_tb, VFloat n_0_0); (n_vamax, VFloat n_0_0); (n_tb1, VFloat n_0_0); (n_uelin, VFloat n_0_0); (n_kc, VFloat n_0_0); (n_tc1, VFloat n_0_0); (n_tf, VFloat n_0_0); (n_klr, VFloat n_0_0); (n_vimax, VFloat n_0_0); (n_tc, VFloat n_0_0); (n_pssin, VFloat n_0_0); (n_vrmax, VFloat n_0_0); (n_tr, VFloat n_0_0); (n_ilr, VFloat n_0_0)]
    []
    []
    []
    [];
(* CIM14/IEC61970/Dynamics/ExcitationSystems/ExcST2A.py:23-102 *)
  Cls n_CIM14_IEC61970_Dynamics_ExcitationSystems_ExcST2A_ExcST2A n_ExcST2A (Some n_CIM14_IEC61970_Dynamics_ExcitationSystems_ExcitationSystem_ExcitationSystem)
    [(n_te, VFloat n_0_0); (n_ka, VFloat n_0_0); (n_tb, VFloat n_0_0); (n_tf, VFloat n_0_0); (n_kf, VFloat n_0_0); (n_ke, VFloat n_0_0); (n_tr, VFloat n_0_0); (n_tc, VFloat n_0_0); (n_ta, VFloat n_0_0); (n_kc, VFloat n_0_0); (n_ki, VFloat n_0_0); (n_kp, VFloat n_0_0); (n_uelin, VFloat n_0_0); (n_vrmax, VFloat n_0_0); (n_efdmax, VFloat n_0_0); (n_vrmin, VFloat n_0_0)]
    [SAttr n_te; SAttr n_ka; SAttr n_tb; SAttr n_tf; SAttr n_kf; SAttr n_ke; SAttr n_tr; SAttr n_tc; SAttr n_ta; SAttr n_kc; SAttr n_ki; SAttr n_kp; SAttr n_uelin; SAttr n_vrmax; SAttr n_efdmax; SAttr n_vrmin]
    true true
    [n_te; n_ka; n_tb; n_tf; n_kf; n_ke; n_tr; n_tc; n_ta; n_kc; n_ki; n_kp; n_uelin; n_vrmax; n_efdmax; n_vrmin]
    [(n_te, VFloat n_0_0); (n_ka, VFloat n_0_0); (n_tb, VFloat n_0_0); (n_tf, VFloat n_0_0); (n_kf, VFloat n_0_0); (n_ke, VFloat n_0_0); (n_tr, VFloat n_0_0); (n_tc, VFloat n_0_0); (n_ta, VFloat n_0_0); (n_kc, VFloat n_0_0); (n_ki, VFloat n_0_0); (n_kp, VFloat n_0_0); (n_uelin, VFloat n_0_0); (n_vrmax, VFloat n_0_0); (n_efdmax, VFloat n_0_0); (n_vrmin, VFloat n_0_0)]
    []
    []
    []
    [];
(* CIM14/IEC61970/Dynamics/ExcitationSystems/ExcST3A.py:23-122 *)
  Cls n_CIM14_IEC61970_Dynamics_ExcitationSystems_ExcST3A_ExcST3A n_ExcST3A (Some n_CIM14_IEC61970_Dynamics_ExcitationSystems_ExcitationSystem_ExcitationSystem)
    [(n_kp, VFloat n_0_0); (n_angp, VFloat n_0_0); (n_xl, VFloat n_0_0); (n_tc, VFloat n_0_0); (n_tb, VFloat n_0_0); (n_ki, VFloat n_0_0); (n_vbmax, VFloat n_0_0); (n_kc, VFloat n_0_0); (n_vrmax, VFloat n_0_0); (n_vimax, VFloat n_0_0); (n_vgmax, VFloat n_0_0); (n_km, VFloat n_0_0); (n_vmmax, VFloat n_0_0); (n_ka, VFloat n_0_0); (n_tr, VFloat n_0_0); (n_vrmin, VFloat n_0_0); (n_kg, VFloat n_0_0); (n_vimin, VFloat n_0_0); (n_vmmin, VFloat n_0_0); (n_tm, VFloat n_0_0); (n_ta, VFloat n_0_0)]
    [SAttr n_kp; SAttr n_angp; SAttr n_xl; SAttr n_tc; SAttr n_tb; SAttr n_ki; SAttr n_vbmax; SAttr n_kc; SAttr n_vrmax; SAttr n_vimax; SAttr n_vgmax; SAttr n_km; SAttr n_vmmax; SAttr n_ka; SAttr n_tr; SAttr n_vrmin; SAttr n_kg; SAttr n_vimin; SAttr n_vmmin; SAttr n_tm; SAttr n_ta]
    true true
    [n_kp; n_angp; n_xl; n_tc; n_tb; n_ki; n_vbmax; n_kc; n_vrmax; n_vimax; n_vgmax; n_km; n_vmmax; n_ka; n_tr; n_vrmin; n_kg; n_vimin; n_vmmin; n_tm; n_ta]
    [(n_kp, VFloat n_0_0); (n_angp, VFloat n_0_0); (n_xl, VFloat n_0_0); (n_tc, VFloat n_0_0); (n_tb, VFloat n_0_0); (n_ki, VFloat n_0_0); (n_vbmax, VFloat n_0_0); (n_kc, VFloat n_0_0); (n_vrmax, VFloat n_0_0); (n_vimax, VFloat n_0_0); (n_vgmax, VFloat n_0_0); (n_km, VFloat n_0_0); (n_vmmax, VFloat n_0_0); (n_ka, VFloat n_0_0); (n_tr, VFloat n_0_0); (n_vrmin, VFloat n_0_0); (n_kg, VFloat n_0_0); (n_vimin, VFloat n_0_0); (n_vmmin, VFloat n_0_0); (n_tm, VFloat n_0_0); (n_ta, VFloat n_0_0)]
    []
    []
    []
    [];
(* CIM14/IEC61970/Dynamics/ExcitationSystems/ExcST4B.py:23-110 *)
  Cls n_CIM14_IEC61970_Dynamics_ExcitationSystems_ExcST4B_ExcST4B n_ExcST4B (Some n_CIM14_IEC61970_Dynamics_ExcitationSystems_ExcitationSystem_ExcitationSystem)
    [(n_kp, VFloat n_0_0); (n_kim, VFloat n_0_0); (n_vbmax, VFloat n_0_0); (n_kc, VFloat n_0_0); (n_kpr, VFloat n_0_0); (n_xl, VFloat n_0_0); (n_vgmax, VFloat n_0_0); (n_vmmin, VFloat n_0_0); (n_kg, VFloat n_0_0); (n_vmmax, VFloat n_0_0); (n_tr, VFloat n_0_0); (n_ta, VFloat n_0_0); (n_kpm, VFloat n_0_0); (n_angp, VFloat n_0_0); (n_vrmin, VFloat n_0_0); (n_kir, VFloat n_0_0); (n_vrmax, VFloat n_0_0); (n_ki, VFloat n_0_0)]
    [SAttr n_kp; SAttr n_kim; SAttr n_vbmax; SAttr n_kc; SAttr n_kpr; SAttr n_xl; SAttr n_vgmax; SAttr n_vmmin; SAttr n_kg; SAttr n_vmmax; SAttr n_tr; SAttr n_ta; SAttr n_kpm; SAttr n_angp; SAttr n_vrmin; SAttr n_kir; SAttr n_vrmax; SAttr n_ki]
    true true
    [n_kp; n_kim; n_vbmax; n_kc; n_kpr; n_xl; n_vgmax; n_vmmin; n_kg; n_vmmax; n_tr; n_ta; n_kpm; n_angp; n_vrmin; n_kir; n_vrmax; n_ki]
    [(n_kp, VFloat n_0_0); (n_kim, VFloat n_0_0); (n_vbmax, VFloat n_0_0); (n_kc, VFloat n_0_0); (n_kpr, VFloat n_0_0); (n_xl, VFloat n_0_0); (n_vgmax, VFloat n_0_0); (n_vmmin, VFloat n_0_0); (n_kg, VFloat n_0_0); (n_vmmax, VFloat n_0_0); (n_tr, VFloat n_0_0); (n_ta, VFloat n_0_0); (n_kpm, VFloat n_0_0); (n_angp, VFloat n_0_0); (n_vrmin, VFloat n_0_0); (n_kir, VFloat n_0_0); (n_vrmax, VFloat n_0_0); (n_ki, VFloat n_0_0)]
    []
    []
    []
    [];
(* CIM14/IEC61970/Dynamics/ExcitationSystems/ExcST5B.py:23-110 *)
  Cls n_CIM14_IEC61970_Dynamics_ExcitationSystems_ExcST5B_ExcST5B n_ExcST5B (Some n_CIM14_IEC61970_Dynamics_ExcitationSystems_ExcitationSystem_ExcitationSystem)
    [(n_tb2, VFloat n_0_0); (n_tb1, VFloat n_0_0); (n_tub2, VFloat n_0_0); (n_tuc1, VFloat n_0_0); (n_kr, VFloat n_0_0); (n_tob2, VFloat n_0_0); (n_tob1, VFloat n_0_0); (n_tc1, VFloat n_0_0); (n_toc1, VFloat n_0_0); (n_tub1, VFloat n_0_0); (n_tc2, VFloat n_0_0); (n_kc, VFloat n_0_0); (n_vrmax, VFloat n_0_0); (n_tuc2, VFloat n_0_0); (n_toc2, VFloat n_0_0); (n_t1, VFloat n_0_0); (n_tr, VFloat n_0_0); (n_vrmin, VFloat n_0_0)]
    [SAttr n_tb2; SAttr n_tb1; SAttr n_tub2; SAttr n_tuc1; SAttr n_kr; SAttr n_tob2; SAttr n_tob1; SAttr n_tc1; SAttr n_toc1; SAttr n_tub1; SAttr n_tc2; SAttr n_kc; SAttr n_vrmax; SAttr n_tuc2; SAttr n_toc2; SAttr n_t1; SAttr n_tr; SAttr n_vrmin]
    true true
    [n_tb2; n_tb1; n_tub2; n_tuc1; n_kr; n_tob2; n_tob1; n_tc1; n_toc1; n_tub1; n_tc2; n_kc; n_vrmax; n_tuc2; n_toc2; n_t1; n_tr; n_vrmin]
    [(n_tb2, VFloat n_0_0); (n_tb1, VFloat n_0_0); (n_tub2, VFloat n_0_0); (n_tuc1, VFloat n_0_0); (n_kr, VFloat n_0_0); (n_tob2, VFloat n_0_0); (n_tob1, VFloat n_0_0); (n_tc1, VFloat n_0_0); (n_toc1, VFloat n_0_0); (n_tub1, VFloat n_0_0); (n_tc2, VFloat n_0_0); (n_kc, VFloat n_0_0); (n_vrmax, VFloat n_0_0); (n_tuc2, VFloat n_0_0); (n_toc2, VFloat n_0_0); (n_t1, VFloat n_0_0); (n_tr, VFloat n_0_0); (n_vrmin, VFloat n_0_0)]
    []
    []
    []
    [];
(* CIM14/IEC61970/Dynamics/ExcitationSystems/ExcST6B.py:23-106 *)
  Cls n_CIM14_IEC61970_Dynamics_ExcitationSystems_ExcST6B_ExcST6B n_ExcST6B (Some n_CIM14_IEC61970_Dynamics_ExcitationSystems_ExcitationSystem_ExcitationSystem)
    [(n_tr, VFloat n_0_0); (n_ilr, VFloat n_0_0); (n_vrmin, VFloat n_0_0); (n_vmult, VFloat n_0_0); (n_vrmax, VFloat n_0_0); (n_oelin, VFloat n_0_0); (n_klr, VFloat n_0_0); (n_kg, VFloat n_0_0); (n_kpa, VFloat n_0_0); (n_vamax, VFloat n_0_0); (n_ts, VFloat n_0_0); (n_kcl, VFloat n_0_0); (n_tg, VFloat n_0_0); (n_vamin, VFloat n_0_0); (n_kia, VFloat n_0_0); (n_kff, VFloat n_0_0); (n_km, VFloat n_0_0)]
    [SAttr n_tr; SAttr n_ilr; SAttr n_vrmin; SAttr n_vmult; SAttr n_vrmax; SAttr n_oelin; SAttr n_klr; SAttr n_kg; SAttr n_kpa; SAttr n_vamax; SAttr n_ts; SAttr n_kcl; SAttr n_tg; SAttr n_vamin; SAttr n_kia; SAttr n_kff; SAttr n_km]
    true true
    [n_tr; n_ilr; n_vrmin; n_vmult; n_vrmax; n_oelin; n_klr; n_kg; n_kpa; n_vamax; n_ts; n_kcl; n_tg; n_vamin; n_kia; n_kff; n_km]
    [(n_tr, VFloat n_0_0); (n_ilr, VFloat n_0_0); (n_vrmin, VFloat n_0_0); (n_vmult, VFloat n_0_0); (n_vrmax, VFloat n_0_0); (n_oelin, VFloat n_0_0); (n_klr, VFloat n_0_0); (n_kg, VFloat n_0_0); (n_kpa, VFloat n_0_0); (n_vamax, VFloat n_0_0); (n_ts, VFloat n_0_0); (n_kcl, VFloat n_0_0); (n_tg, VFloat n_0_0); (n_vamin, VFloat n_0_0); (n_kia, VFloat n_0_0); (n_kff, VFloat n_0_0); (n_km, VFloat n_0_0)]
    []
    []
    []
    [];
(* CIM14/IEC61970/Dynamics/ExcitationSystems/ExcST7B.py:23-106 *)
  Cls n_CIM14_IEC61970_Dynamics_ExcitationSystems_ExcST7B_ExcST7B n_ExcST7B (Some n_CIM14_IEC61970_Dynamics_ExcitationSystems_ExcitationSystem_ExcitationSystem)
    [(n_oelin, VFloat n_0_0); (n_vmax, VFloat n_0_0); (n_tb, VFloat n_0_0); (n_kia, VFloat n_0_0); (n_kpa, VFloat n_0_0); (n_kh, VFloat n_0_0); (n_vrmin, VFloat n_0_0); (n_ts, VFloat n_0_0); (n_tia, VFloat n_0_0); (n_tg, VFloat n_0_0); (n_tr, VFloat n_0_0); (n_tf, VFloat n_0_0); (n_vrmax, VFloat n_0_0); (n_uelin, VFloat n_0_0); (n_kl, VFloat n_0_0); (n_vmin, VFloat n_0_0); (n_tc, VFloat n_0_0)]
    [SAttr n_oelin; SAttr n_vmax; SAttr n_tb; SAttr n_kia; SAttr n_kpa; SAttr n_kh; SAttr n_vrmin; SAttr n_ts; SAttr n_tia; SAttr n_tg; SAttr n_tr; SAttr n_tf; SAttr n_vrmax; SAttr n_uelin; SAttr n_kl; SAttr n_vmin; SAttr n_tc]
    true true
    [n_oelin; n_vmax; n_tb; n_kia; n_kpa; n_kh; n_vrmin; n_ts; n_tia; n_tg; n_tr; n_tf; n_vrmax; n_uelin; n_kl; n_vmin; n_tc]
    [(n_oelin, VFloat n_0_0); (n_vmax, VFloat n_0_0); (n_tb, VFloat n_0_0); (n_kia, VFloat n_0_0); (n_kpa, VFloat n_0_0); (n_kh, VFloat n_0_0); (n_vrmin, VFloat n_0_0); (n_ts, VFloat n_0_0); (n_tia, VFloat n_0_0); (n_tg, VFloat n_0_0); (n_tr, VFloat n_0_0); (n_tf, VFloat n_0_0); (n_vrmax, VFloat n_0_0); (n_uelin, VFloat n_0_0); (n_kl, VFloat n_0_0); (n_vmin, VFloat n_0_0); (n_tc, VFloat n_0_0)]
    []
    []
    []
    [];
(* CIM14/IEC61970/Dynamics/ExcitationSystems/ExcWT2E.py:23-38 *)
  Cls n_CIM14_IEC61970_Dynamics_ExcitationSystems_ExcWT2E_ExcWT2E n_ExcWT2E (Some n_CIM14_IEC61970_Dynamics_ExcitationSystems_ExcitationSystem_ExcitationSystem)
    []
    []
    true true
    []
    []
    []
    []
    []
    [];
(* CIM14/IEC61970/Dynamics/ExcitationSystems/ExcWT3E.py:23-38 *)
  Cls n_CIM14_IEC61970_Dynamics_ExcitationSystems_ExcWT3E_ExcWT3E n_ExcWT3E (Some n_CIM14_IEC61970_Dynamics_ExcitationSystems_ExcitationSystem_ExcitationSystem)
    []
    []
    true true
    []
    []
    []
    []
    []
    [];
(* CIM14/IEC61970/Dynamics/ExcitationSystems/ExcWT4E.py:23-38 *)
  Cls n_CIM14_IEC61970_Dynamics_ExcitationSystems_ExcWT4E_ExcWT4E n_ExcWT4E (Some n_CIM14_IEC61970_Dynamics_ExcitationSystems_ExcitationSystem_ExcitationSystem)
    []
    []
    true true
    []
    []
    []
    []
    []
    [];
(* CIM14/IEC61970/Dynamics/ExcitationSystems/ExcitationSystem.py:23-38 *)
  Cls n_CIM14_IEC61970_Dynamics_ExcitationSystems_ExcitationSystem_ExcitationSystem n_ExcitationSystem (Some n_CIM14_IEC61970_Core_PowerSystemResource_PowerSystemResource)
    []
    []
    true true
    []
    []
    []
    []
    []
    [];
(* CIM14/IEC61970/Dynamics/Generators/GenAsync.py:23-38 *)
  Cls n_CIM14_IEC61970_Dynamics_Generators_GenAsync_GenAsync n_GenAsync (Some n_CIM14_IEC61970_Dynamics_AsynchronousMachine_AsynchronousMachine)
    []
    []
    true true
    []
    []
    []
    []
    []
    [];
(* CIM14/IEC61970/Dynamics/Generators/GenEquiv.py:23-73 *)
  Cls n_CIM14_IEC61970_Dynamics_Generators_GenEquiv_GenEquiv n_GenEquiv (Some n_CIM14_IEC61970_Dynamics_RotatingMachine_RotatingMachine)
    [(n_xp, VFloat n_0_0); (n_synchronousMachine0, VNone)]
    [SAttr n_xp; SMany n_synchronousMachine0]
    true true
    [n_xp]
    [(n_xp, VFloat n_0_0)]
    []
    [n_synchronousMachine0]
    [n_synchronousMachine0]
    [(n_synchronousMachine0, PManyMany n_genEquiv0)];
(* CIM14/IEC61970/Dynamics/Generators/GenLoad.py:23-69 *)
  Cls n_CIM14_IEC61970_Dynamics_Generators_GenLoad_GenLoad n_GenLoad (Some n_CIM14_IEC61970_Wires_RegulatingCondEq_RegulatingCondEq)
    [(n_synchronousMachine0, VNone)]
    [SMany n_synchronousMachine0]
    true true
    []
    []
    []
    [n_synchronousMachine0]
    [n_synchronousMachine0]
    [(n_synchronousMachine0, PManyMany n_genLoad0)];
(* CIM14/IEC61970/Dynamics/Loads/AggregateLoad.py:23-69 *)
  Cls n_CIM14_IEC61970_Dynamics_Loads_AggregateLoad_AggregateLoad n_AggregateLoad (Some n_CIM14_IEC61970_Core_PowerSystemResource_PowerSystemResource)
    [(n_energyConsumer0, VNone)]
    [SMany n_energyConsumer0]
    true true
    []
    []
    []
    [n_energyConsumer0]
    [n_energyConsumer0]
    [(n_energyConsumer0, PManyMany n_aggregateLoad0)];
(* CIM14/IEC61970/Dynamics/Loads/LoadMotor.py:23-90 *)
  Cls n_CIM14_IEC61970_Dynamics_Loads_LoadMotor_LoadMotor n_LoadMotor (Some n_CIM14_IEC61970_Dynamics_Loads_AggregateLoad_AggregateLoad)
    [(n_tv, VFloat n_0_0); (n_pfrac, VFloat n_0_0); (n_vt, VFloat n_0_0); (n_d, VFloat n_0_0); (n_ra, VFloat n_0_0); (n_ls, VFloat n_0_0); (n_lfac, VFloat n_0_0); (n_tpo, VFloat n_0_0); (n_h, VFloat n_0_0); (n_lp, VFloat n_0_0); (n_lpp, VFloat n_0_0); (n_tppo, VFloat n_0_0); (n_tbkr, VFloat n_0_0)]
    [SAttr n_tv; SAttr n_pfrac; SAttr n_vt; SAttr n_d; SAttr n_ra; SAttr n_ls; SAttr n_lfac; SAttr n_tpo; SAttr n_h; SAttr n_lp; SAttr n_lpp; SAttr n_tppo; SAttr n_tbkr]
    true true
    [n_tv; n_pfrac; n_vt; n_d; n_ra; n_ls; n_lfac; n_tpo; n_h; n_lp; n_lpp; n_tppo; n_tbkr]
    [(n_tv, VFloat n_0_0); (n_pfrac, VFloat n_0_0); (n_vt, VFloat n_0_0); (n_d, VFloat n_0_0); (n_ra, VFloat n_0_0); (n_ls, VFloat n_0_0); (n_lfac, VFloat n_0_0); (n_tpo, VFloat n_0_0); (n_h, VFloat n_0_0); (n_lp, VFloat n_0_0); (n_lpp, VFloat n_0_0); (n_tppo, VFloat n_0_0); (n_tbkr, VFloat n_0_0)]
    []
    []
    []
    [];
(* CIM14/IEC61970/Dynamics/Loads/LoadStatic.py:23-106 *)
  Cls n_CIM14_IEC61970_Dynamics_Loads_LoadStatic_LoadStatic n_LoadStatic (Some n_CIM14_IEC61970_Dynamics_Loads_AggregateLoad_AggregateLoad)
    [(n_staticLoadType, VStr n_ZIP1); (n_ep1, VFloat n_0_0); (n_kp3, VFloat n_0_0); (n_eq3, VFloat n_0_0); (n_kp2, VFloat n_0_0); (n_eq2, VFloat n_0_0); (n_kqf, VFloat n_0_0); (n_kq4, VFloat n_0_0); (n_kq2, VFloat n_0_0); (n_kp1, VFloat n_0_0); (n_ep2, VFloat n_0_0); (n_eq1, VFloat n_0_0); (n_kpf, VFloat n_0_0); (n_kp4, VFloat n_0_0); (n_kq3, VFloat n_0_0); (n_ep3, VFloat n_0_0); (n_kq1, VFloat n_0_0)]
    [SAttr n_staticLoadType; SAttr n_ep1; SAttr n_kp3; SAttr n_eq3; SAttr n_kp2; SAttr n_eq2; SAttr n_kqf; SAttr n_kq4; SAttr n_kq2; SAttr n_kp1; SAttr n_ep2; SAttr n_eq1; SAttr n_kpf; SAttr n_kp4; SAttr n_kq3; SAttr n_ep3; SAttr n_kq1]
    true true
    [n_staticLoadType; n_ep1; n_kp3; n_eq3; n_kp2; n_eq2; n_kqf; n_kq4; n_kq2; n_kp1; n_ep2; n_eq1; n_kpf; n_kp4; n_kq3; n_ep3; n_kq1]
    [(n_staticLoadType, VStr n_ZIP1); (n_ep1, VFloat n_0_0); (n_kp3, VFloat n_0_0); (n_eq3, VFloat n_0_0); (n_kp2, VFloat n_0_0); (n_eq2, VFloat n_0_0); (n_kqf, VFloat n_0_0); (n_kq4, VFloat n_0_0); (n_kq2, VFloat n_0_0); (n_kp1, VFloat n_0_0); (n_ep2, VFloat n_0_0); (n_eq1, VFloat n_0_0); (n_kpf, VFloat n_0_0); (n_kp4, VFloat n_0_0); (n_kq3, VFloat n_0_0); (n_ep3, VFloat n_0_0); (n_kq1, VFloat n_0_0)]
    [(n_staticLoadType, n_StaticLoadType)]
    []
    []
    [];
(* CIM14/IEC61970/Dynamics/Loads/LoadStaticArea.py:23-38 *)
  Cls n_CIM14_IEC61970_Dynamics_Loads_LoadStaticArea_LoadStaticArea n_LoadStaticArea (Some n_CIM14_IEC61970_Dynamics_Loads_LoadStatic_LoadStatic)
    []
    []
    true true
    []
    []
    []
    []
    []
    [];
(* CIM14/IEC61970/Dynamics/Loads/LoadStaticBus.py:23-38 *)
  Cls n_CIM14_IEC61970_Dynamics_Loads_LoadStaticBus_LoadStaticBus n_LoadStaticBus (Some n_CIM14_IEC61970_Dynamics_Loads_LoadStatic_LoadStatic)
    []
    []
    true true
    []
    []
    []
    []
    []
    [];
(* CIM14/IEC61970/Dynamics/Loads/LoadStaticOwner.py:23-38 *)
  Cls n_CIM14_IEC61970_Dynamics_Loads_LoadStaticOwner_LoadStaticOwner n_LoadStaticOwner (Some n_CIM14_IEC61970_Dynamics_Loads_LoadStatic_LoadStatic)
    []
    []
    true true
    []
    []
    []
    []
    []
    [];
(* CIM14/IEC61970/Dynamics/Loads/LoadStaticSystem.py:23-38 *)
  Cls n_CIM14_IEC61970_Dynamics_Loads_LoadStaticSystem_LoadStaticSystem n_LoadStaticSystem (Some n_CIM14_IEC61970_Dynamics_Loads_LoadStatic_LoadStatic)
    []
    []
    true true
    []
    []
    []
    []
    []
    [];
(* CIM14/IEC61970/Dynamics/Loads/LoadStaticZone.py:23-38 *)
  Cls n_CIM14_IEC61970_Dynamics_Loads_LoadStaticZone_LoadStaticZone n_LoadStaticZone (Some n_CIM14_IEC61970_Dynamics_Loads_LoadStatic_LoadStatic)
    []
    []
    true true
    []
    []
    []
    []
    []
    [];
(* CIM14/IEC61970/Dynamics/MetaBlock.py:23-277 *)
  Cls n_CIM14_IEC61970_Dynamics_MetaBlock_MetaBlock n_MetaBlock (Some n_CIM14_IEC61970_Core_IdentifiedObject_IdentifiedObject)
    [(n_blockKind, VStr n_powerSystemStabilizer); (n_internal, VBool false); (n_proprietary, VBool false); (n_primitive, VBool false); (n_MetaBlockReference, VNone); (n_MetaBlockOutput, VNone); (n_MetaBlockState, VNone); (n_MetaBlockSignal, VNone); (n_blockType0, VNone); (n_MetaBlockInput, VNone); (n_blockConstant0, VNone); (n_Block, VNone); (n_MetaBlockParameter, VNone)]
    [SAttr n_blockKind; SAttr n_internal; SAttr n_proprietary; SAttr n_primitive; SMany n_MetaBlockReference; SMany n_MetaBlockOutput; SMany n_MetaBlockState; SMany n_MetaBlockSignal; SOne n_blockType0; SMany n_MetaBlockInput; SMany n_blockConstant0; SMany n_Block; SMany n_MetaBlockParameter]
    true true
    [n_blockKind; n_internal; n_proprietary; n_primitive]
    [(n_blockKind, VStr n_powerSystemStabilizer); (n_internal, VBool false); (n_proprietary, VBool false); (n_primitive, VBool false)]
    [(n_blockKind, n_BlockKind)]
    [n_MetaBlockReference; n_MetaBlockOutput; n_MetaBlockState; n_MetaBlockSignal; n_blockType0; n_MetaBlockInput; n_blockConstant0; n_Block; n_MetaBlockParameter]
    [n_MetaBlockReference; n_MetaBlockOutput; n_MetaBlockState; n_MetaBlockSignal; n_MetaBlockInput; n_blockConstant0; n_Block; n_MetaBlockParameter]
    [(n_MetaBlockReference, PManyOne n_MemberOf_MetaBlock); (n_MetaBlockOutput, PManyOne n_MemberOf_MetaBlock); (n_MetaBlockState, PManyOne n_MemberOf_MetaBlock); (n_MetaBlockSignal, PManyOne n_MemberOf_MetaBlock); (n_blockType0, POneMany n_metaBlock0); (n_MetaBlockInput, PManyOne n_MemberOf_MetaBlock); (n_blockConstant0, PManyOne n_metaBlock0); (n_Block, PManyOne n_MetaBlock); (n_MetaBlockParameter, PManyOne n_MemberOf_MetaBlock)];
(* CIM14/IEC61970/Dynamics/MetaBlockConInput.py:23-97 *)
  Cls n_CIM14_IEC61970_Dynamics_MetaBlockConInput_MetaBlockConInput n_MetaBlockConInput (Some n_CIM14_IEC61970_Core_IdentifiedObject_IdentifiedObject)
    [(n_MetaBlockConSignal, VNone); (n_MemberOf_MetaBlockConnection, VNone); (n_Unit, VNone)]
    [SOne n_MetaBlockConSignal; SOne n_MemberOf_MetaBlockConnection; SOne n_Unit]
    true true
    []
    []
    []
    [n_MetaBlockConSignal; n_MemberOf_MetaBlockConnection; n_Unit]
    []
    [(n_MetaBlockConSignal, POneOne n_MetaBlockConInput); (n_MemberOf_MetaBlockConnection, POneMany n_MetaBlockConInput); (n_Unit, POneMany n_MetaBlockConInput)];
(* CIM14/IEC61970/Dynamics/MetaBlockConOutput.py:23-103 *)
  Cls n_CIM14_IEC61970_Dynamics_MetaBlockConOutput_MetaBlockConOutput n_MetaBlockConOutput (Some n_CIM14_IEC61970_Core_IdentifiedObject_IdentifiedObject)
    [(n_MetaBlockConSignal, VNone); (n_MemberOf_MetaBlockConnection, VNone); (n_Unit, VNone)]
    [SMany n_MetaBlockConSignal; SOne n_MemberOf_MetaBlockConnection; SOne n_Unit]
    true true
    []
    []
    []
    [n_MetaBlockConSignal; n_MemberOf_MetaBlockConnection; n_Unit]
    [n_MetaBlockConSignal]
    [(n_MetaBlockConSignal, PManyOne n_MetaBlockConOutput); (n_MemberOf_MetaBlockConnection, POneMany n_MetaBlockConOutput); (n_Unit, POneMany n_MetaBlockConOutput)];
(* CIM14/IEC61970/Dynamics/MetaBlockConSignal.py:23-115 *)
  Cls n_CIM14_IEC61970_Dynamics_MetaBlockConSignal_MetaBlockConSignal n_MetaBlockConSignal (Some n_CIM14_IEC61970_Core_IdentifiedObject_IdentifiedObject)
    [(n_MetaBlockConInput, VNone); (n_MemberOf_MetaBlockConnectivity, VNone); (n_MetaBlockConOutput, VNone); (n_metaBlockConnectivity0, VNone)]
    [SOne n_MetaBlockConInput; SOne n_MemberOf_MetaBlockConnectivity; SOne n_MetaBlockConOutput; SOne n_metaBlockConnectivity0]
    true true
    []
    []
    []
    [n_MetaBlockConInput; n_MemberOf_MetaBlockConnectivity; n_MetaBlockConOutput; n_metaBlockConnectivity0]
    []
    [(n_MetaBlockConInput, POneOne n_MetaBlockConSignal); (n_MemberOf_MetaBlockConnectivity, POneMany n_MetaBlockConSignal); (n_MetaBlockConOutput, POneMany n_MetaBlockConSignal); (n_metaBlockConnectivity0, POneMany n_metaBlockConSignal0)];
(* CIM14/IEC61970/Dynamics/MetaBlockConnectable.py:23-264 *)
  Cls n_CIM14_IEC61970_Dynamics_MetaBlockConnectable_MetaBlockConnectable n_MetaBlockConnectable (Some n_CIM14_IEC61970_Core_IdentifiedObject_IdentifiedObject)
    [(n_StandardControlBlock_MetaBlockStateReference, VNone); (n_MetaBlockOutputReference, VNone); (n_MetaBlockStateReference, VNone); (n_BlockInputReference, VNone); (n_StandardControlBlock_MetaBlockInputReference, VNone); (n_StandardControlBlock_MetaBlockParameterReference, VNone); (n_MetaBlockParameterReference, VNone); (n_StandardControlBlock_MetaBlockOutputReference, VNone); (n_MetaBlockInputReference, VNone)]
    [SMany n_StandardControlBlock_MetaBlockStateReference; SMany n_MetaBlockOutputReference; SMany n_MetaBlockStateReference; SMany n_BlockInputReference; SMany n_StandardControlBlock_MetaBlockInputReference; SMany n_StandardControlBlock_MetaBlockParameterReference; SMany n_MetaBlockParameterReference; SMany n_StandardControlBlock_MetaBlockOutputReference; SMany n_MetaBlockInputReference]
    true true
    []
    []
    []
    [n_StandardControlBlock_MetaBlockStateReference; n_MetaBlockOutputReference; n_MetaBlockStateReference; n_BlockInputReference; n_StandardControlBlock_MetaBlockInputReference; n_StandardControlBlock_MetaBlockParameterReference; n_MetaBlockParameterReference; n_StandardControlBlock_MetaBlockOutputReference; n_MetaBlockInputReference]
    [n_StandardControlBlock_MetaBlockStateReference; n_MetaBlockOutputReference; n_MetaBlockStateReference; n_BlockInputReference; n_StandardControlBlock_MetaBlockInputReference; n_StandardControlBlock_MetaBlockParameterReference; n_MetaBlockParameterReference; n_StandardControlBlock_MetaBlockOutputReference; n_MetaBlockInputReference]
    [(n_StandardControlBlock_MetaBlockStateReference, PManyOne n_StandardControlBlock_MetaBlockConnectable); (n_MetaBlockOutputReference, PManyOne n_MetaBlockConnectable); (n_MetaBlockStateReference, PManyOne n_MetaBlockConnectable); (n_BlockInputReference, PManyOne n_BlockConnectable); (n_StandardControlBlock_MetaBlockInputReference, PManyOne n_StandardControlBlock_MetaBlockConnectable); (n_StandardControlBlock_MetaBlockParameterReference, PManyOne n_StandardControlBlock_MetaBlockConnectable); (n_MetaBlockParameterReference, PManyOne n_MetaBlockConnectable); (n_StandardControlBlock_MetaBlockOutputReference, PManyOne n_StandardControlBlock_MetaBlockConnectable); (n_MetaBlockInputReference, PManyOne n_MetaBlockConnectable)];
(* CIM14/IEC61970/Dynamics/MetaBlockConnection.py:23-155 *)
  Cls n_CIM14_IEC61970_Dynamics_MetaBlockConnection_MetaBlockConnection n_MetaBlockConnection (Some n_CIM14_IEC61970_Core_IdentifiedObject_IdentifiedObject)
    [(n_slotname, VStr n_); (n_MetaBlockConOutput, VNone); (n_MetaBlockConInput, VNone); (n_metaBlockConnectivity0, VNone); (n_BlockConnection, VNone); (n_MemberOf_MetaBlockConnectivity, VNone)]
    [SAttr n_slotname; SMany n_MetaBlockConOutput; SMany n_MetaBlockConInput; SOne n_metaBlockConnectivity0; SMany n_BlockConnection; SOne n_MemberOf_MetaBlockConnectivity]
    true true
    [n_slotname]
    [(n_slotname, VStr n_)]
    []
    [n_MetaBlockConOutput; n_MetaBlockConInput; n_metaBlockConnectivity0; n_BlockConnection; n_MemberOf_MetaBlockConnectivity]
    [n_MetaBlockConOutput; n_MetaBlockConInput; n_BlockConnection]
    [(n_MetaBlockConOutput, PManyOne n_MemberOf_MetaBlockConnection); (n_MetaBlockConInput, PManyOne n_MemberOf_MetaBlockConnection); (n_metaBlockConnectivity0, POneMany n_metaBlockConnection0); (n_BlockConnection, PManyOne n_MetaBlockConnection); (n_MemberOf_MetaBlockConnectivity, POneMany n_MetaBlockConnection)];
(* CIM14/IEC61970/Dynamics/MetaBlockConnectivity.py:23-161 *)
  Cls n_CIM14_IEC61970_Dynamics_MetaBlockConnectivity_MetaBlockConnectivity n_MetaBlockConnectivity (Some n_CIM14_IEC61970_Core_IdentifiedObject_IdentifiedObject)
    [(n_BlockConnectivity, VNone); (n_MetaBlockConSignal, VNone); (n_metaBlockConnection0, VNone); (n_metaBlockConSignal0, VNone); (n_MetaBlockConnection, VNone)]
    [SMany n_BlockConnectivity; SMany n_MetaBlockConSignal; SMany n_metaBlockConnection0; SMany n_metaBlockConSignal0; SMany n_MetaBlockConnection]
    true true
    []
    []
    []
    [n_BlockConnectivity; n_MetaBlockConSignal; n_metaBlockConnection0; n_metaBlockConSignal0; n_MetaBlockConnection]
    [n_BlockConnectivity; n_MetaBlockConSignal; n_metaBlockConnection0; n_metaBlockConSignal0; n_MetaBlockConnection]
    [(n_BlockConnectivity, PManyOne n_MetaBlockConnectivity); (n_MetaBlockConSignal, PManyOne n_MemberOf_MetaBlockConnectivity); (n_metaBlockConnection0, PManyOne n_metaBlockConnectivity0); (n_metaBlockConSignal0, PManyOne n_metaBlockConnectivity0); (n_MetaBlockConnection, PManyOne n_MemberOf_MetaBlockConnectivity)];
(* CIM14/IEC61970/Dynamics/MetaBlockInput.py:23-156 *)
  Cls n_CIM14_IEC61970_Dynamics_MetaBlockInput_MetaBlockInput n_MetaBlockInput (Some n_CIM14_IEC61970_Dynamics_MetaBlockConnectable_MetaBlockConnectable)
    [(n_blockInputReference0, VNone); (n_MemberOf_MetaBlock, VNone); (n_blockUsageInputReference0, VNone); (n_blockInputType0, VNone); (n_tieToMeasurement0, VNone)]
    [SMany n_blockInputReference0; SOne n_MemberOf_MetaBlock; SMany n_blockUsageInputReference0; SOne n_blockInputType0; SMany n_tieToMeasurement0]
    true true
    []
    []
    []
    [n_blockInputReference0; n_MemberOf_MetaBlock; n_blockUsageInputReference0; n_blockInputType0; n_tieToMeasurement0]
    [n_blockInputReference0; n_blockUsageInputReference0; n_tieToMeasurement0]
    [(n_blockInputReference0, PManyOne n_metaBlockInput0); (n_MemberOf_MetaBlock, POneMany n_MetaBlockInput); (n_blockUsageInputReference0, PManyOne n_metaBlockInput0); (n_blockInputType0, POneMany n_metaBlockInput0); (n_tieToMeasurement0, PManyOne n_metaBlockInput0)];
(* CIM14/IEC61970/Dynamics/MetaBlockInputReference.py:23-119 *)
  Cls n_CIM14_IEC61970_Dynamics_MetaBlockInputReference_MetaBlockInputReference n_MetaBlockInputReference (Some n_CIM14_IEC61970_Core_IdentifiedObject_IdentifiedObject)
    [(n_positiveFlowIn, VBool false); (n_StandardControlBlock_MetaBlockConnectable, VNone); (n_MemberOf_MetaBlockReference, VNone); (n_MetaBlockSignal, VNone); (n_MetaBlockConnectable, VNone)]
    [SAttr n_positiveFlowIn; SOne n_StandardControlBlock_MetaBlockConnectable; SOne n_MemberOf_MetaBlockReference; SOne n_MetaBlockSignal; SOne n_MetaBlockConnectable]
    true true
    [n_positiveFlowIn]
    [(n_positiveFlowIn, VBool false)]
    []
    [n_StandardControlBlock_MetaBlockConnectable; n_MemberOf_MetaBlockReference; n_MetaBlockSignal; n_MetaBlockConnectable]
    []
    [(n_StandardControlBlock_MetaBlockConnectable, POneMany n_StandardControlBlock_MetaBlockInputReference); (n_MemberOf_MetaBlockReference, POneMany n_MetaBlockInputReference); (n_MetaBlockSignal, POneOne n_From); (n_MetaBlockConnectable, POneMany n_MetaBlockInputReference)];
(* CIM14/IEC61970/Dynamics/MetaBlockOutput.py:23-130 *)
  Cls n_CIM14_IEC61970_Dynamics_MetaBlockOutput_MetaBlockOutput n_MetaBlockOutput (Some n_CIM14_IEC61970_Dynamics_MetaBlockConnectable_MetaBlockConnectable)
    [(n_BlockOutputReference, VNone); (n_MemberOf_MetaBlock, VNone); (n_blockUsageOutputReference0, VNone); (n_blockOutputType0, VNone)]
    [SMany n_BlockOutputReference; SOne n_MemberOf_MetaBlock; SMany n_blockUsageOutputReference0; SOne n_blockOutputType0]
    true true
    []
    []
    []
    [n_BlockOutputReference; n_MemberOf_MetaBlock; n_blockUsageOutputReference0; n_blockOutputType0]
    [n_BlockOutputReference; n_blockUsageOutputReference0]
    [(n_BlockOutputReference, PManyOne n_metaBlockOutput0); (n_MemberOf_MetaBlock, POneMany n_MetaBlockOutput); (n_blockUsageOutputReference0, PManyOne n_metaBlockOutput0); (n_blockOutputType0, POneMany n_metaBlockOutput0)];
(* CIM14/IEC61970/Dynamics/MetaBlockOutputReference.py:23-121 *)
  Cls n_CIM14_IEC61970_Dynamics_MetaBlockOutputReference_MetaBlockOutputReference n_MetaBlockOutputReference (Some n_CIM14_IEC61970_Core_IdentifiedObject_IdentifiedObject)
    [(n_MetaBlockConnectable, VNone); (n_MemberOf_MetaBlockReference, VNone); (n_MetaBlockSignal, VNone); (n_StandardControlBlock_MetaBlockConnectable, VNone)]
    [SOne n_MetaBlockConnectable; SOne n_MemberOf_MetaBlockReference; SMany n_MetaBlockSignal; SOne n_StandardControlBlock_MetaBlockConnectable]
    true true
    []
    []
    []
    [n_MetaBlockConnectable; n_MemberOf_MetaBlockReference; n_MetaBlockSignal; n_StandardControlBlock_MetaBlockConnectable]
    [n_MetaBlockSignal]
    [(n_MetaBlockConnectable, POneMany n_MetaBlockOutputReference); (n_MemberOf_MetaBlockReference, POneMany n_MetaBlockOutputReference); (n_MetaBlockSignal, PManyOne n_To); (n_StandardControlBlock_MetaBlockConnectable, POneMany n_StandardControlBlock_MetaBlockOutputReference)];
(* CIM14/IEC61970/Dynamics/MetaBlockParameter.py:23-84 *)
  Cls n_CIM14_IEC61970_Dynamics_MetaBlockParameter_MetaBlockParameter n_MetaBlockParameter (Some n_CIM14_IEC61970_Dynamics_MetaBlockConnectable_MetaBlockConnectable)
    [(n_BlockParameter, VNone); (n_MemberOf_MetaBlock, VNone)]
    [SMany n_BlockParameter; SOne n_MemberOf_MetaBlock]
    true true
    []
    []
    []
    [n_BlockParameter; n_MemberOf_MetaBlock]
    [n_BlockParameter]
    [(n_BlockParameter, PManyOne n_MetaBlockParameter); (n_MemberOf_MetaBlock, POneMany n_MetaBlockParameter)];
(* CIM14/IEC61970/Dynamics/MetaBlockParameterReference.py:23-98 *)
  Cls n_CIM14_IEC61970_Dynamics_MetaBlockParameterReference_MetaBlockParameterReference n_MetaBlockParameterReference (Some n_CIM14_IEC61970_Core_IdentifiedObject_IdentifiedObject)
    [(n_StandardControlBlock_MetaBlockConnectable, VNone); (n_MetaBlockConnectable, VNone); (n_MemberOf_MetaBlockReference, VNone)]
    [SOne n_StandardControlBlock_MetaBlockConnectable; SOne n_MetaBlockConnectable; SOne n_MemberOf_MetaBlockReference]
    true true
    []
    []
    []
    [n_StandardControlBlock_MetaBlockConnectable; n_MetaBlockConnectable; n_MemberOf_MetaBlockReference]
    []
    [(n_StandardControlBlock_MetaBlockConnectable, POneMany n_StandardControlBlock_MetaBlockParameterReference); (n_MetaBlockConnectable, POneMany n_MetaBlockParameterReference); (n_MemberOf_MetaBlockReference, POneMany n_MetaBlockParameterReference)];
(* CIM14/IEC61970/Dynamics/MetaBlockReference.py:23-248 *)
  Cls n_CIM14_IEC61970_Dynamics_MetaBlockReference_MetaBlockReference n_MetaBlockReference (Some n_CIM14_IEC61970_Core_IdentifiedObject_IdentifiedObject)
    [(n_equationType, VStr n_); (n_blockInputReference0, VNone); (n_MemberOf_MetaBlock, VNone); (n_MetaBlock, VNone); (n_blockOutputReference0, VNone); (n_MetaBlockStateReference, VNone); (n_MetaBlockInputReference, VNone); (n_MetaBlockOutputReference, VNone); (n_BlockParameter, VNone); (n_MetaBlockParameterReference, VNone)]
    [SAttr n_equationType; SMany n_blockInputReference0; SOne n_MemberOf_MetaBlock; SAttr n_MetaBlock; SMany n_blockOutputReference0; SMany n_MetaBlockStateReference; SMany n_MetaBlockInputReference; SMany n_MetaBlockOutputReference; SMany n_BlockParameter; SMany n_MetaBlockParameterReference]
    true true
    [n_equationType]
    [(n_equationType, VStr n_)]
    []
    [n_blockInputReference0; n_MemberOf_MetaBlock; n_MetaBlock; n_blockOutputReference0; n_MetaBlockStateReference; n_MetaBlockInputReference; n_MetaBlockOutputReference; n_BlockParameter; n_MetaBlockParameterReference]
    [n_blockInputReference0; n_blockOutputReference0; n_MetaBlockStateReference; n_MetaBlockInputReference; n_MetaBlockOutputReference; n_BlockParameter; n_MetaBlockParameterReference]
    [(n_blockInputReference0, PManyOne n_metaBlockReference0); (n_MemberOf_MetaBlock, POneMany n_MetaBlockReference); (n_blockOutputReference0, PManyMany n_metaBlockReference0); (n_MetaBlockStateReference, PManyOne n_MemberOf_MetaBlockReference); (n_MetaBlockInputReference, PManyOne n_MemberOf_MetaBlockReference); (n_MetaBlockOutputReference, PManyOne n_MemberOf_MetaBlockReference); (n_BlockParameter, PManyOne n_MemberOf_MetaBlockReference); (n_MetaBlockParameterReference, PManyOne n_MemberOf_MetaBlockReference)];
(* CIM14/IEC61970/Dynamics/MetaBlockSignal.py:23-157 *)
  Cls n_CIM14_IEC61970_Dynamics_MetaBlockSignal_MetaBlockSignal n_MetaBlockSignal (Some n_CIM14_IEC61970_Core_IdentifiedObject_IdentifiedObject)
    [(n_metaBlockSignal1, VNone); (n_metaBlockSignal, VNone); (n_MemberOf_MetaBlock, VNone); (n_From, VNone); (n_To, VNone)]
    [SMany n_metaBlockSignal1; SMany n_metaBlockSignal; SOne n_MemberOf_MetaBlock; SOne n_From; SOne n_To]
    true true
    []
    []
    []
    [n_metaBlockSignal1; n_metaBlockSignal; n_MemberOf_MetaBlock; n_From; n_To]
    [n_metaBlockSignal1; n_metaBlockSignal]
    [(n_metaBlockSignal1, PManyMany n_metaBlockSignal); (n_metaBlockSignal, PManyMany n_metaBlockSignal1); (n_MemberOf_MetaBlock, POneMany n_MetaBlockSignal); (n_From, POneOne n_MetaBlockSignal); (n_To, POneMany n_MetaBlockSignal)];
(* CIM14/IEC61970/Dynamics/MetaBlockState.py:23-56 *)
  Cls n_CIM14_IEC61970_Dynamics_MetaBlockState_MetaBlockState n_MetaBlockState (Some n_CIM14_IEC61970_Dynamics_MetaBlockConnectable_MetaBlockConnectable)
    [(n_MemberOf_MetaBlock, VNone)]
    [SOne n_MemberOf_MetaBlock]
    true true
    []
    []
    []
    [n_MemberOf_MetaBlock]
    []
    [(n_MemberOf_MetaBlock, POneMany n_MetaBlockState)];
(* CIM14/IEC61970/Dynamics/MetaBlockStateReference.py:23-100 *)
  Cls n_CIM14_IEC61970_Dynamics_MetaBlockStateReference_MetaBlockStateReference n_MetaBlockStateReference (Some n_CIM14_IEC61970_Core_IdentifiedObject_IdentifiedObject)
    [(n_positiveFlowIn, VBool false); (n_StandardControlBlock_MetaBlockConnectable, VNone); (n_MetaBlockConnectable, VNone); (n_MemberOf_MetaBlockReference, VNone)]
    [SAttr n_positiveFlowIn; SOne n_StandardControlBlock_MetaBlockConnectable; SOne n_MetaBlockConnectable; SOne n_MemberOf_MetaBlockReference]
    true true
    [n_positiveFlowIn]
    [(n_positiveFlowIn, VBool false)]
    []
    [n_StandardControlBlock_MetaBlockConnectable; n_MetaBlockConnectable; n_MemberOf_MetaBlockReference]
    []
    [(n_StandardControlBlock_MetaBlockConnectable, POneMany n_StandardControlBlock_MetaBlockStateReference); (n_MetaBlockConnectable, POneMany n_MetaBlockStateReference); (n_MemberOf_MetaBlockReference, POneMany n_MetaBlockStateReference)];
(* CIM14/IEC61970/Dynamics/Motors/MechLoad1.py:23-54 *)
  Cls n_CIM14_IEC61970_Dynamics_Motors_MechLoad1_MechLoad1 n_MechLoad1 (Some n_CIM14_IEC61970_Dynamics_Motors_MechanicalLoad_MechanicalLoad)
    [(n_e, VFloat n_0_0); (n_b, VFloat n_0_0); (n_d, VFloat n_0_0); (n_a, VFloat n_0_0)]
    [SAttr n_e; SAttr n_b; SAttr n_d; SAttr n_a]
    true true
    [n_e; n_b; n_d; n_a]
    [(n_e, VFloat n_0_0); (n_b, VFloat n_0_0); (n_d, VFloat n_0_0); (n_a, VFloat n_0_0)]
    []
    []
    []
    [];
(* CIM14/IEC61970/Dynamics/Motors/MechanicalLoad.py:23-69 *)
  Cls n_CIM14_IEC61970_Dynamics_Motors_MechanicalLoad_MechanicalLoad n_MechanicalLoad (Some n_CIM14_IEC61970_Core_PowerSystemResource_PowerSystemResource)
    [(n_rotatingMachine0, VNone)]
    [SMany n_rotatingMachine0]
    true true
    []
    []
    []
    [n_rotatingMachine0]
    [n_rotatingMachine0]
    [(n_rotatingMachine0, PManyMany n_mechanicalLoad0)];
(* CIM14/IEC61970/Dynamics/Motors/MotorAsync.py:23-38 *)
  Cls n_CIM14_IEC61970_Dynamics_Motors_MotorAsync_MotorAsync n_MotorAsync (Some n_CIM14_IEC61970_Dynamics_AsynchronousMachine_AsynchronousMachine)
    []
    []
    true true
    []
    []
    []
    []
    []
    [];
(* CIM14/IEC61970/Dynamics/Motors/MotorSync.py:23-42 *)
  Cls n_CIM14_IEC61970_Dynamics_Motors_MotorSync_MotorSync n_MotorSync (Some n_CIM14_IEC61970_Wires_SynchronousMachine_SynchronousMachine)
    [(n_synchronousMotorType, VStr n_salientPole)]
    [SAttr n_synchronousMotorType]
    true true
    [n_synchronousMotorType]
    [(n_synchronousMotorType, VStr n_salientPole)]
    [(n_synchronousMotorType, n_SynchronousMotorType)]
    []
    []
    [];
(* CIM14/IEC61970/Dynamics/PowerSystemStabilizers/PowerSystemStabilizer.py:23-38 *)
  Cls n_CIM14_IEC61970_Dynamics_PowerSystemStabilizers_PowerSystemStabilizer_PowerSystemStabilizer n_PowerSystemStabilizer (Some n_CIM14_IEC61970_Core_PowerSystemResource_PowerSystemResource)
    []
    []
    true true
    []
    []
    []
    []
    []
    [];
(* CIM14/IEC61970/Dynamics/PowerSystemStabilizers/PssIEEE1A.py:23-38 *)
  Cls n_CIM14_IEC61970_Dynamics_PowerSystemStabilizers_PssIEEE1A_PssIEEE1A n_PssIEEE1A (Some n_CIM14_IEC61970_Dynamics_PowerSystemStabilizers_PowerSystemStabilizer_PowerSystemStabilizer)
    []
    []
    true true
    []
    []
    []
    []
    []
    [];
(* CIM14/IEC61970/Dynamics/PowerSystemStabilizers/PssIEEE2B.py:23-162 *)
  Cls n_CIM14_IEC61970_Dynamics_PowerSystemStabilizers_PssIEEE2B_PssIEEE2B n_PssIEEE2B (Some n_CIM14_IEC61970_Dynamics_PowerSystemStabilizers_PowerSystemStabilizer_PowerSystemStabilizer)
    [(n_t11, VFloat n_0_0); (n_vsi1max, VFloat n_0_0); (n_t3, VFloat n_0_0); (n_tw3, VFloat n_0_0); (n_vstmax, VFloat n_0_0); (n_t2, VFloat n_0_0); (n_n, VInt 0); (n_vsi1min, VFloat n_0_0); (n_t9, VFloat n_0_0); (n_ks2, VFloat n_0_0); (n_vstmin, VFloat n_0_0); (n_j1, VInt 0); (n_tw1, VFloat n_0_0); (n_tb, VFloat n_0_0); (n_t7, VFloat n_0_0); (n_vsi2max, VFloat n_0_0); (n_t6, VFloat n_0_0); (n_t1, VFloat n_0_0); (n_m, VInt 0); (n_vsi2min, VFloat n_0_0); (n_a, VFloat n_0_0); (n_t4, VFloat n_0_0); (n_tw4, VFloat n_0_0); (n_ks4, VFloat n_0_0); (n_ta, VFloat n_0_0); (n_ks3, VFloat n_0_0); (n_t10, VFloat n_0_0); (n_tw2, VFloat n_0_0); (n_j2, VInt 0); (n_ks1, VFloat n_0_0); (n_t8, VFloat n_0_0)]
    [SAttr n_t11; SAttr n_vsi1max; SAttr n_t3; SAttr n_tw3; SAttr n_vstmax; SAttr n_t2; SAttr n_n; SAttr n_vsi1min; SAttr n_t9; SAttr n_ks2; SAttr n_vstmin; SAttr n_j1; SAttr n_tw1; SAttr n_tb; SAttr n_t7; SAttr n_vsi2max; SAttr n_t6; SAttr n_t1; SAttr n_m; SAttr n_vsi2min; SAttr n_a; SAttr n_t4; SAttr n_tw4; SAttr n_ks4; SAttr n_ta; SAttr n_ks3; SAttr n_t10; SAttr n_tw2; SAttr n_j2; SAttr n_ks1; SAttr n_t8]
    true true
    [n_t11; n_vsi1max; n_t3; n_tw3; n_vstmax; n_t2; n_n; n_vsi1min; n_t9; n_ks2; n_vstmin; n_j1; n_tw1; n_tb; n_t7; n_vsi2max; n_t6; n_t1; n_m; n_vsi2min; n_a; n_t4; n_tw4; n_ks4; n_ta; n_ks3; n_t10; n_tw2; n_j2; n_ks1; n_t8]
    [(n_t11, VFloat n_0_0); (n_vsi1max, VFloat n_0_0); (n_t3, VFloat n_0_0); (n_tw3, VFloat n_0_0); (n_vstmax, VFloat n_0_0); (n_t2, VFloat n_0_0); (n_n, VInt 0); (n_vsi1min, VFloat n_0_0); (n_t9, VFloat n_0_0); (n_ks2, VFloat n_0_0); (n_vstmin, VFloat n_0_0); (n_j1, VInt 0); (n_tw1, VFloat n_0_0); (n_tb, VFloat n_0_0); (n_t7, VFloat n_0_0); (n_vsi2max, VFloat n_0_0); (n_t6, VFloat n_0_0); (n_t1, VFloat n_0_0); (n_m, VInt 0); (n_vsi2min, VFloat n_0_0); (n_a, VFloat n_0_0); (n_t4, VFloat n_0_0); (n_tw4, VFloat n_0_0); (n_ks4, VFloat n_0_0); (n_ta, VFloat n_0_0); (n_ks3, VFloat n_0_0); (n_t10, VFloat n_0_0); (n_tw2, VFloat n_0_0); (n_j2, VInt 0); (n_ks1, VFloat n_0_0); (n_t8, VFloat n_0_0)]
    []
    []
    []
    [];
(* CIM14/IEC61970/Dynamics/PowerSystemStabilizers/PssIEEE3B.py:23-38 *)
  Cls n_CIM14_IEC61970_Dynamics_PowerSystemStabilizers_PssIEEE3B_PssIEEE3B n_PssIEEE3B (Some n_CIM14_IEC61970_Dynamics_PowerSystemStabilizers_PowerSystemStabilizer_PowerSystemStabilizer)
    []
    []
    true true
    []
    []
    []
    []
    []
    [];
(* CIM14/IEC61970/Dynamics/PowerSystemStabilizers/PssIEEE4B.py:23-38 *)
  Cls n_CIM14_IEC61970_Dynamics_PowerSystemStabilizers_PssIEEE4B_PssIEEE4B n_PssIEEE4B (Some n_CIM14_IEC61970_Dynamics_PowerSystemStabilizers_PowerSystemStabilizer_PowerSystemStabilizer)
    []
    []
    true true
    []
    []
    []
    []
    []
    [];
(* CIM14/IEC61970/Dynamics/PowerSystemStabilizers/PssPTIST1.py:23-38 *)
  Cls n_CIM14_IEC61970_Dynamics_PowerSystemStabilizers_PssPTIST1_PssPTIST1 n_PssPTIST1 (Some n_CIM14_IEC61970_Dynamics_PowerSystemStabilizers_PowerSystemStabilizer_PowerSystemStabilizer)
    []
    []
    true true
    []
    []
    []
    []
    []
    [];
(* CIM14/IEC61970/Dynamics/PowerSystemStabilizers/PssPTIST3.py:23-38 *)
  Cls n_CIM14_IEC61970_Dynamics_PowerSystemStabilizers_PssPTIST3_PssPTIST3 n_PssPTIST3 (Some n_CIM14_IEC61970_Dynamics_PowerSystemStabilizers_PowerSystemStabilizer_PowerSystemStabilizer)
    []
    []
    true true
    []
    []
    []
    []
    []
    [];
(* CIM14/IEC61970/Dynamics/PowerSystemStabilizers/PssSB.py:23-38 *)
  Cls n_CIM14_IEC61970_Dynamics_PowerSystemStabilizers_PssSB_PssSB n_PssSB (Some n_CIM14_IEC61970_Dynamics_PowerSystemStabilizers_PowerSystemStabilizer_PowerSystemStabilizer)
    []
    []
    true true
    []
    []
    []
    []
    []
    [];
(* CIM14/IEC61970/Dynamics/PowerSystemStabilizers/PssSB4.py:23-38 *)
  Cls n_CIM14_IEC61970_Dynamics_PowerSystemStabilizers_PssSB4_PssSB4 n_PssSB4 (Some n_CIM14_IEC61970_Dynamics_PowerSystemStabilizers_PowerSystemStabilizer_PowerSystemStabilizer)
    []
    []
    true true
    []
    []
    []
    []
    []
    [];
(* CIM14/IEC61970/Dynamics/PowerSystemStabilizers/PssSH.py:23-38 *)
  Cls n_CIM14_IEC61970_Dynamics_PowerSystemStabilizers_PssSH_PssSH n_PssSH (Some n_CIM14_IEC61970_Dynamics_PowerSystemStabilizers_PowerSystemStabilizer_PowerSystemStabilizer)
    []
    []
    true true
    []
    []
    []
    []
    []
    [];
(* CIM14/IEC61970/Dynamics/PowerSystemStabilizers/PssSK.py:23-38 *)
  Cls n_CIM14_IEC61970_Dynamics_PowerSystemStabilizers_PssSK_PssSK n_PssSK (Some n_CIM14_IEC61970_Dynamics_PowerSystemStabilizers_PowerSystemStabilizer_PowerSystemStabilizer)
    []
    []
    true true
    []
    []
    []
    []
    []
    [];
(* CIM14/IEC61970/Dynamics/PowerSystemStabilizers/PssWSCC.py:23-38 *)
  Cls n_CIM14_IEC61970_Dynamics_PowerSystemStabilizers_PssWSCC_PssWSCC n_PssWSCC (Some n_CIM14_IEC61970_Dynamics_PowerSystemStabilizers_PowerSystemStabilizer_PowerSystemStabilizer)
    []
    []
    true true
    []
    []
    []
    []
    []
    [];
(* CIM14/IEC61970/Dynamics/ProtectiveDevice.py:23-36 *)
  Cls n_CIM14_IEC61970_Dynamics_ProtectiveDevice_ProtectiveDevice n_ProtectiveDevice (Some n_CIM14_Element_Element)
    []
    []
    true true
    []
    []
    []
    []
    []
    [];
(* CIM14/IEC61970/Dynamics/RotatingMachine.py:23-101 *)
  Cls n_CIM14_IEC61970_Dynamics_RotatingMachine_RotatingMachine n_RotatingMachine (Some n_CIM14_IEC61970_Wires_RegulatingCondEq_RegulatingCondEq)
    [(n_parametersFormType, VStr n_timeConstantReactance); (n_d, VFloat n_0_0); (n_rs, VFloat n_0_0); (n_h, VFloat n_0_0); (n_s12, VFloat n_0_0); (n_ratedS, VFloat n_0_0); (n_s1, VFloat n_0_0); (n_xls, VFloat n_0_0); (n_mechanicalLoad0, VNone)]
    [SAttr n_parametersFormType; SAttr n_d; SAttr n_rs; SAttr n_h; SAttr n_s12; SAttr n_ratedS; SAttr n_s1; SAttr n_xls; SMany n_mechanicalLoad0]
    true true
    [n_parametersFormType; n_d; n_rs; n_h; n_s12; n_ratedS; n_s1; n_xls]
    [(n_parametersFormType, VStr n_timeConstantReactance); (n_d, VFloat n_0_0); (n_rs, VFloat n_0_0); (n_h, VFloat n_0_0); (n_s12, VFloat n_0_0); (n_ratedS, VFloat n_0_0); (n_s1, VFloat n_0_0); (n_xls, VFloat n_0_0)]
    [(n_parametersFormType, n_ParametersFormType)]
    [n_mechanicalLoad0]
    [n_mechanicalLoad0]
    [(n_mechanicalLoad0, PManyMany n_rotatingMachine0)];
(* CIM14/IEC61970/Dynamics/Slot.py:23-151 *)
  Cls n_CIM14_IEC61970_Dynamics_Slot_Slot n_Slot (Some n_CIM14_IEC61970_Core_IdentifiedObject_IdentifiedObject)
    [(n_blockType0, VNone); (n_slotReference0, VNone); (n_slotOutput0, VNone); (n_connectionFrame0, VNone); (n_slotInput0, VNone)]
    [SOne n_blockType0; SMany n_slotReference0; SMany n_slotOutput0; SOne n_connectionFrame0; SMany n_slotInput0]
    true true
    []
    []
    []
    [n_blockType0; n_slotReference0; n_slotOutput0; n_connectionFrame0; n_slotInput0]
    [n_slotReference0; n_slotOutput0; n_slotInput0]
    [(n_blockType0, POneMany n_slot0); (n_slotReference0, PManyOne n_slot0); (n_slotOutput0, PManyOne n_slot0); (n_connectionFrame0, POneMany n_slot0); (n_slotInput0, PManyOne n_slot0)];
(* CIM14/IEC61970/Dynamics/SlotConnection.py:23-97 *)
  Cls n_CIM14_IEC61970_Dynamics_SlotConnection_SlotConnection n_SlotConnection (Some n_CIM14_IEC61970_Core_IdentifiedObject_IdentifiedObject)
    [(n_connectionFrame0, VNone); (n_slotInput0, VNone); (n_slotOutput0, VNone)]
    [SOne n_connectionFrame0; SOne n_slotInput0; SOne n_slotOutput0]
    true true
    []
    []
    []
    [n_connectionFrame0; n_slotInput0; n_slotOutput0]
    []
    [(n_connectionFrame0, POneMany n_slotConnection0); (n_slotInput0, POneOne n_slotConnection0); (n_slotOutput0, POneMany n_slotConnection0)];
(* CIM14/IEC61970/Dynamics/SlotInput.py:23-95 *)
  Cls n_CIM14_IEC61970_Dynamics_SlotInput_SlotInput n_SlotInput (Some n_CIM14_IEC61970_Core_IdentifiedObject_IdentifiedObject)
    [(n_blockInputType0, VNone); (n_slotConnection0, VNone); (n_slot0, VNone)]
    [SOne n_blockInputType0; SOne n_slotConnection0; SOne n_slot0]
    true true
    []
    []
    []
    [n_blockInputType0; n_slotConnection0; n_slot0]
    []
    [(n_blockInputType0, POneMany n_slotInput0); (n_slotConnection0, POneOne n_slotInput0); (n_slot0, POneMany n_slotInput0)];
(* CIM14/IEC61970/Dynamics/SlotOutput.py:23-101 *)
  Cls n_CIM14_IEC61970_Dynamics_SlotOutput_SlotOutput n_SlotOutput (Some n_CIM14_IEC61970_Core_IdentifiedObject_IdentifiedObject)
    [(n_slot0, VNone); (n_slotConnection0, VNone); (n_blockOutputType0, VNone)]
    [SOne n_slot0; SMany n_slotConnection0; SOne n_blockOutputType0]
    true true
    []
    []
    []
    [n_slot0; n_slotConnection0; n_blockOutputType0]
    [n_slotConnection0]
    [(n_slot0, POneMany n_slotOutput0); (n_slotConnection0, PManyOne n_slotOutput0); (n_blockOutputType0, POneMany n_slotOutput0)];
(* CIM14/IEC61970/Dynamics/SlotReference.py:23-114 *)
  Cls n_CIM14_IEC61970_Dynamics_SlotReference_SlotReference n_SlotReference (Some n_CIM14_IEC61970_Core_IdentifiedObject_IdentifiedObject)
    [(n_slot0, VNone); (n_block0, VNone); (n_compositeModel0, VNone)]
    [SOne n_slot0; SMany n_block0; SMany n_compositeModel0]
    true true
    []
    []
    []
    [n_slot0; n_block0; n_compositeModel0]
    [n_block0; n_compositeModel0]
    [(n_slot0, POneMany n_slotReference0); (n_block0, PManyOne n_slotReference0); (n_compositeModel0, PManyMany n_slotReference0)];
(* CIM14/IEC61970/Dynamics/SourceModels.py:23-36 *)
  Cls n_CIM14_IEC61970_Dynamics_SourceModels_SourceModels n_SourceModels (Some n_CIM14_Element_Element)
    []
    []
    true true
    []
    []
    []
    []
    []
    [];
(* CIM14/IEC61970/Dynamics/StaticVarDevice.py:23-36 *)
  Cls n_CIM14_IEC61970_Dynamics_StaticVarDevice_StaticVarDevice n_StaticVarDevice (Some n_CIM14_Element_Element)
    []
    []
    true true
    []
    []
    []
    []
    []
    [];
(* CIM14/IEC61970/Dynamics/TieToMeasurement.py:23-99 *)
  Cls n_CIM14_IEC61970_Dynamics_TieToMeasurement_TieToMeasurement n_TieToMeasurement (Some n_CIM14_IEC61970_Core_IdentifiedObject_IdentifiedObject)
    [(n_measurement0, VNone); (n_block0, VNone); (n_metaBlockInput0, VNone)]
    [SOne n_measurement0; SOne n_block0; SOne n_metaBlockInput0]
    true true
    []
    []
    []
    [n_measurement0; n_block0; n_metaBlockInput0]
    []
    [(n_measurement0, POneMany n_tieToMeasurement0); (n_block0, POneMany n_tieToMeasurement0); (n_metaBlockInput0, POneMany n_tieToMeasurement0)];
(* CIM14/IEC61970/Dynamics/TurbineGovernors/Class1.py:23-36 *)
  Cls n_CIM14_IEC61970_Dynamics_TurbineGovernors_Class1_Class1 n_Class1 (Some n_CIM14_Element_Element)
    []
    []
    true true
    []
    []
    []
    []
    []
    [];
(* CIM14/IEC61970/Dynamics/TurbineGovernors/GovCT1.py:23-182 *)
  Cls n_CIM14_IEC61970_Dynamics_TurbineGovernors_GovCT1_GovCT1 n_GovCT1 (Some n_CIM14_IEC61970_Dynamics_TurbineGovernors_TurbineGovernor_TurbineGovernor)
    [(n_tdgov, VFloat n_0_0); (n_tb, VFloat n_0_0); (n_kdgov, VFloat n_0_0); (n_db, VFloat n_0_0); (n_vmin, VFloat n_0_0); (n_kturb, VFloat n_0_0); (n_teng, VFloat n_0_0); (n_minerr, VFloat n_0_0); (n_aset, VFloat n_0_0); (n_maxerr, VFloat n_0_0); (n_tsa, VFloat n_0_0); (n_mwbase, VFloat n_0_0); (n_wfspd, VBool false); (n_kiload, VFloat n_0_0); (n_kpgov, VFloat n_0_0); (n_ldref, VFloat n_0_0); (n_vmax, VFloat n_0_0); (n_rup, VFloat n_0_0); (n_r, VFloat n_0_0); (n_tpelec, VFloat n_0_0); (n_ta, VFloat n_0_0); (n_ropen, VFloat n_0_0); (n_kimw, VFloat n_0_0); (n_ka, VFloat n_0_0); (n_rdown, VFloat n_0_0); (n_rclose, VFloat n_0_0); (n_dm, VFloat n_0_0); (n_tsb, VFloat n_0_0); (n_kigov, VFloat n_0_0); (n_kpload, VFloat n_0_0); (n_tfload, VFloat n_0_0); (n_tact, VFloat n_0_0); (n_tc, VFloat n_0_0); (n_wfnl, VFloat n_0_0); (n_pmwset, VFloat n_0_0); (n_rselect, VBool false)]
    [SAttr n_tdgov; SAttr n_tb; SAttr n_kdgov; SAttr n_db; SAttr n_vmin; SAttr n_kturb; SAttr n_teng; SAttr n_minerr; SAttr n_aset; SAttr n_maxerr; SAttr n_tsa; SAttr n_mwbase; SAttr n_wfspd; SAttr n_kiload; SAttr n_kpgov; SAttr n_ldref; SAttr n_vmax; SAttr n_rup; SAttr n_r; SAttr n_tpelec; SAttr n_ta; SAttr n_ropen; SAttr n_kimw; SAttr n_ka; SAttr n_rdown; SAttr n_rclose; SAttr n_dm; SAttr n_tsb; SAttr n_kigov; SAttr n_kpload; SAttr n_tfload; SAttr n_tact; SAttr n_tc; SAttr n_wfnl; SAttr n_pmwset; SAttr n_rselect]
    true true
    [n_tdgov; n_tb; n_kdgov; n_db; n_vmin; n_kturb; n_teng; n_minerr; n_aset; n_maxerr; n_tsa; n_mwbase; n_wfspd; n_kiload; n_kpgov; n_ldref; n_vmax; n_rup; n_r; n_tpelec; n_ta; n_ropen; n_kimw; n_ka; n_rdown; n_rclose; n_dm; n_tsb; n_kigov; n_kpload; n_tfload; n_tact; n_tc; n_wfnl; n_pmwset; n_rselect]
    [(n_tdgov, VFloat n_0_0); (n_tb, VFloat n_0_0); (n_kdgov, VFloat n_0_0); (n_db, VFloat n_0_0); (n_vmin, VFloat n_0_0); (n_kturb, VFloat n_0_0); (n_teng, VFloat n_0_0); (n_minerr, VFloat n_0_0); (n_aset, VFloat n_0_0); (n_maxerr, VFloat n_0_0); (n_tsa, VFloat n_0_0); (n_mwbase, VFloat n_0_0); (n_wfspd, VBool false); (n_kiload, VFloat n_0_0); (n_kpgov, VFloat n_0_0); (n_ldref, VFloat n_0_0); (n_vmax, VFloat n_0_0); (n_rup, VFloat n_0_0); (n_r, VFloat n_0_0); (n_tpelec, VFloat n_0_0); (n_ta, VFloat n_0_0); (n_ropen, VFloat n_0_0); (n_kimw, VFloat n_0_0); (n_ka, VFloat n_0_0); (n_rdown, VFloat n_0_0); (n_rclose, VFloat n_0_0); (n_dm, VFloat n_0_0); (n_tsb, VFloat n_0_0); (n_kigov, VFloat n_0_0); (n_kpload, VFloat n_0_0); (n_tfload, VFloat n_0_0); (n_tact, VFloat n_0_0); (n_tc, VFloat n_0_0); (n_wfnl, VFloat n_0_0); (n_pmwset, VFloat n_0_0); (n_rselect, VBool false)]
    []
    []
    []
    [];
(* CIM14/IEC61970/Dynamics/TurbineGovernors/GovCT2.py:23-36 *)
  Cls n_CIM14_IEC61970_Dynamics_TurbineGovernors_GovCT2_GovCT2 n_GovCT2 (Some n_CIM14_IEC61970_Dynamics_TurbineGovernors_TurbineGovernor_TurbineGovernor)
    []
    []
    true true
    []
    []
    []
    []
    []
    [];
(* CIM14/IEC61970/Dynamics/TurbineGovernors/GovDUM.py:23-36 *)
  Cls n_CIM14_IEC61970_Dynamics_TurbineGovernors_GovDUM_GovDUM n_GovDUM (Some n_CIM14_IEC61970_Dynamics_TurbineGovernors_TurbineGovernor_TurbineGovernor)
    []
    []
    true true
    []
    []
    []
    []
    []
    [];
(* CIM14/IEC61970/Dynamics/TurbineGovernors/GovGASM.py:23-36 *)
  Cls n_CIM14_IEC61970_Dynamics_TurbineGovernors_GovGASM_GovGASM n_GovGASM (Some n_CIM14_IEC61970_Dynamics_TurbineGovernors_TurbineGovernor_TurbineGovernor)
    []
    []
    true true
    []
    []
    []
    []
    []
    [];
(* CIM14/IEC61970/Dynamics/TurbineGovernors/GovGAST.py:23-36 *)
  Cls n_CIM14_IEC61970_Dynamics_TurbineGovernors_GovGAST_GovGAST n_GovGAST (Some n_CIM14_IEC61970_Dynamics_TurbineGovernors_TurbineGovernor_TurbineGovernor)
    []
    []
    true true
    []
    []
    []
    []
    []
    [];
(* CIM14/IEC61970/Dynamics/TurbineGovernors/GovGAST2.py:23-36 *)
  Cls n_CIM14_IEC61970_Dynamics_TurbineGovernors_GovGAST2_GovGAST2 n_GovGAST2 (Some n_CIM14_IEC61970_Dynamics_TurbineGovernors_TurbineGovernor_TurbineGovernor)
    []
    []
    true true
    []
    []
    []
    []
    []
    [];
(* CIM14/IEC61970/Dynamics/TurbineGovernors/GovGASTWD.py:23-36 *)
  Cls n_CIM14_IEC61970_Dynamics_TurbineGovernors_GovGASTWD_GovGASTWD n_GovGASTWD (Some n_CIM14_IEC61970_Dynamics_TurbineGovernors_TurbineGovernor_TurbineGovernor)
    []
    []
    true true
    []
    []
    []
    []
    []
    [];
(* CIM14/IEC61970/Dynamics/TurbineGovernors/GovHydro0.py:23-36 *)
  Cls n_CIM14_IEC61970_Dynamics_TurbineGovernors_GovHydro0_GovHydro0 n_GovHydro0 (Some n_CIM14_IEC61970_Dynamics_TurbineGovernors_TurbineGovernor_TurbineGovernor)
    []
    []
    true true
    []
    []
    []
    []
    []
    [];
(* CIM14/IEC61970/Dynamics/TurbineGovernors/GovHydro1.py:23-140 *)
  Cls n_CIM14_IEC61970_Dynamics_TurbineGovernors_GovHydro1_GovHydro1 n_GovHydro1 (Some n_CIM14_IEC61970_Dynamics_TurbineGovernors_TurbineGovernor_TurbineGovernor)
    [(n_tf, VFloat n_0_0); (n_velm, VFloat n_0_0); (n_mwbase, VFloat n_0_0); (n_gmin, VFloat n_0_0); (n_gmax, VFloat n_0_0); (n_rperm, VFloat n_0_0); (n_tr, VFloat n_0_0); (n_rtemp, VFloat n_0_0); (n_qnl, VFloat n_0_0); (n_tg, VFloat n_0_0); (n_dturb, VFloat n_0_0); (n_at, VFloat n_0_0); (n_tw, VFloat n_0_0); (n_HydroTurbine, VNone); (n_synchronousMachine0, VNone)]
    [SAttr n_tf; SAttr n_velm; SAttr n_mwbase; SAttr n_gmin; SAttr n_gmax; SAttr n_rperm; SAttr n_tr; SAttr n_rtemp; SAttr n_qnl; SAttr n_tg; SAttr n_dturb; SAttr n_at; SAttr n_tw; SOne n_HydroTurbine; SMany n_synchronousMachine0]
    true true
    [n_tf; n_velm; n_mwbase; n_gmin; n_gmax; n_rperm; n_tr; n_rtemp; n_qnl; n_tg; n_dturb; n_at; n_tw]
    [(n_tf, VFloat n_0_0); (n_velm, VFloat n_0_0); (n_mwbase, VFloat n_0_0); (n_gmin, VFloat n_0_0); (n_gmax, VFloat n_0_0); (n_rperm, VFloat n_0_0); (n_tr, VFloat n_0_0); (n_rtemp, VFloat n_0_0); (n_qnl, VFloat n_0_0); (n_tg, VFloat n_0_0); (n_dturb, VFloat n_0_0); (n_at, VFloat n_0_0); (n_tw, VFloat n_0_0)]
    []
    [n_HydroTurbine; n_synchronousMachine0]
    [n_synchronousMachine0]
    [(n_HydroTurbine, POneOne n_HydroTurbineGovernor); (n_synchronousMachine0, PManyMany n_govHydro10)];
(* CIM14/IEC61970/Dynamics/TurbineGovernors/GovHydro2.py:23-152 *)
  Cls n_CIM14_IEC61970_Dynamics_TurbineGovernors_GovHydro2_GovHydro2 n_GovHydro2 (Some n_CIM14_IEC61970_Dynamics_TurbineGovernors_TurbineGovernor_TurbineGovernor)
    [(n_tg, VFloat n_0_0); (n_uc, VFloat n_0_0); (n_gv1, VFloat n_0_0); (n_db1, VFloat n_0_0); (n_pmax, VFloat n_0_0); (n_pgv4, VFloat n_0_0); (n_gv5, VFloat n_0_0); (n_uo, VFloat n_0_0); (n_rperm, VFloat n_0_0); (n_db2, VFloat n_0_0); (n_pgv5, VFloat n_0_0); (n_tw, VFloat n_0_0); (n_pgv2, VFloat n_0_0); (n_gv3, VFloat n_0_0); (n_gv2, VFloat n_0_0); (n_rtemp, VFloat n_0_0); (n_mwbase, VFloat n_0_0); (n_aturb, VFloat n_0_0); (n_kturb, VFloat n_0_0); (n_pgv3, VFloat n_0_0); (n_pmin, VFloat n_0_0); (n_tr, VFloat n_0_0); (n_eps, VFloat n_0_0); (n_gv6, VFloat n_0_0); (n_pgv1, VFloat n_0_0); (n_tp, VFloat n_0_0); (n_pgv6, VFloat n_0_0); (n_gv4, VFloat n_0_0); (n_bturb, VFloat n_0_0)]
    [SAttr n_tg; SAttr n_uc; SAttr n_gv1; SAttr n_db1; SAttr n_pmax; SAttr n_pgv4; SAttr n_gv5; SAttr n_uo; SAttr n_rperm; SAttr n_db2; SAttr n_pgv5; SAttr n_tw; SAttr n_pgv2; SAttr n_gv3; SAttr n_gv2; SAttr n_rtemp; SAttr n_mwbase; SAttr n_aturb; SAttr n_kturb; SAttr n_pgv3; SAttr n_pmin; SAttr n_tr; SAttr n_eps; SAttr n_gv6; SAttr n_pgv1; SAttr n_tp; SAttr n_pgv6; SAttr n_gv4; SAttr n_bturb]
    true true
    [n_tg; n_uc; n_gv1; n_db1; n_pmax; n_pgv4; n_gv5; n_uo; n_rperm; n_db2; n_pgv5; n_tw; n_pgv2; n_gv3; n_gv2; n_rtemp; n_mwbase; n_aturb; n_kturb; n_pgv3; n_pmin; n_tr; n_eps; n_gv6; n_pgv1; n_tp; n_pgv6; n_gv4; n_bturb]
    [(n_tg, VFloat n_0_0); (n_uc, VFloat n_0_0); (n_gv1, VFloat n_0_0); (n_db1, VFloat n_0_0); (n_pmax, VFloat n_0_0); (n_pgv4, VFloat n_0_0); (n_gv5, VFloat n_0_0); (n_uo, VFloat n_0_0); (n_rperm, VFloat n_0_0); (n_db2, VFloat n_0_0); (n_pgv5, VFloat n_0_0); (n_tw, VFloat n_0_0); (n_pgv2, VFloat n_0_0); (n_gv3, VFloat n_0_0); (n_gv2, VFloat n_0_0); (n_rtemp, VFloat n_0_0); (n_mwbase, VFloat n_0_0); (n_aturb, VFloat n_0_0); (n_kturb, VFloat n_0_0); (n_pgv3, VFloat n_0_0); (n_pmin, VFloat n_0_0); (n_tr, VFloat n_0_0); (n_eps, VFloat n_0_0); (n_gv6, VFloat n_0_0); (n_pgv1, VFloat n_0_0); (n_tp, VFloat n_0_0); (n_pgv6, VFloat n_0_0); (n_gv4, VFloat n_0_0); (n_bturb, VFloat n_0_0)]
    []
    []
    []
    [];
(* CIM14/IEC61970/Dynamics/TurbineGovernors/GovHydro3.py:23-36 *)
  Cls n_CIM14_IEC61970_Dynamics_TurbineGovernors_GovHydro3_GovHydro3 n_GovHydro3 (Some n_CIM14_IEC61970_Dynamics_TurbineGovernors_TurbineGovernor_TurbineGovernor)
    []
    []
    true true
    []
    []
    []
    []
    []
    [];
(* CIM14/IEC61970/Dynamics/TurbineGovernors/GovHydro4.py:23-36 *)
  Cls n_CIM14_IEC61970_Dynamics_TurbineGovernors_GovHydro4_GovHydro4 n_GovHydro4 (Some n_CIM14_IEC61970_Dynamics_TurbineGovernors_TurbineGovernor_TurbineGovernor)
    []
    []
    true true
    []
    []
    []
    []
    []
    [];
(* CIM14/IEC61970/Dynamics/TurbineGovernors/GovHydroDD.py:23-36 *)
  Cls n_CIM14_IEC61970_Dynamics_TurbineGovernors_GovHydroDD_GovHydroDD n_GovHydroDD (Some n_CIM14_IEC61970_Dynamics_TurbineGovernors_TurbineGovernor_TurbineGovernor)
    []
    []
    true true
    []
    []
    []
    []
    []
    [];
(* CIM14/IEC61970/Dynamics/TurbineGovernors/GovHydroPID.py:23-36 *)
  Cls n_CIM14_IEC61970_Dynamics_TurbineGovernors_GovHydroPID_GovHydroPID n_GovHydroPID (Some n_CIM14_IEC61970_Dynamics_TurbineGovernors_TurbineGovernor_TurbineGovernor)
    []
    []
    true true
    []
    []
    []
    []
    []
    [];
(* CIM14/IEC61970/Dynamics/TurbineGovernors/GovHydroPID2.py:23-36 *)
  Cls n_CIM14_IEC61970_Dynamics_TurbineGovernors_GovHydroPID2_GovHydroPID2 n_GovHydroPID2 (Some n_CIM14_IEC61970_Dynamics_TurbineGovernors_TurbineGovernor_TurbineGovernor)
    []
    []
    true true
    []
    []
    []
    []
    []
    [];
(* CIM14/IEC61970/Dynamics/TurbineGovernors/GovHydroR.py:23-36 *)
  Cls n_CIM14_IEC61970_Dynamics_TurbineGovernors_GovHydroR_GovHydroR n_GovHydroR (Some n_CIM14_IEC61970_Dynamics_TurbineGovernors_TurbineGovernor_TurbineGovernor)
    []
    []
    true true
    []
    []
    []
    []
    []
    [];
(* CIM14/IEC61970/Dynamics/TurbineGovernors/GovHydroWEH.py:23-36 *)
  Cls n_CIM14_IEC61970_Dynamics_TurbineGovernors_GovHydroWEH_GovHydroWEH n_GovHydroWEH (Some n_CIM14_IEC61970_Dynamics_TurbineGovernors_TurbineGovernor_TurbineGovernor)
    []
    []
    true true
    []
    []
    []
    []
    []
    [];
(* CIM14/IEC61970/Dynamics/TurbineGovernors/GovHydroWPID.py:23-36 *)
  Cls n_CIM14_IEC61970_Dynamics_TurbineGovernors_GovHydroWPID_GovHydroWPID n_GovHydroWPID (Some n_CIM14_IEC61970_Dynamics_TurbineGovernors_TurbineGovernor_TurbineGovernor)
    []
    []
    true true
    []
    []
    []
    []
    []
    [];
(* CIM14/IEC61970/Dynamics/TurbineGovernors/GovRAV.py:23-36 *)
  Cls n_CIM14_IEC61970_Dynamics_TurbineGovernors_GovRAV_GovRAV n_GovRAV (Some n_CIM14_IEC61970_Dynamics_TurbineGovernors_TurbineGovernor_TurbineGovernor)
    []
    []
    true true
    []
    []
    []
    []
    []
    [];
(* CIM14/IEC61970/Dynamics/TurbineGovernors/GovSteam0.py:23-70 *)
  Cls n_CIM14_IEC61970_Dynamics_TurbineGovernors_GovSteam0_GovSteam0 n_GovSteam0 (Some n_CIM14_IEC61970_Dynamics_TurbineGovernors_TurbineGovernor_TurbineGovernor)
    [(n_t2, VFloat n_0_0); (n_t1, VFloat n_0_0); (n_vmin, VFloat n_0_0); (n_dt, VFloat n_0_0); (n_vmax, VFloat n_0_0); (n_mwbase, VFloat n_0_0); (n_r, VFloat n_0_0); (n_t3, VFloat n_0_0)]
    [SAttr n_t2; SAttr n_t1; SAttr n_vmin; SAttr n_dt; SAttr n_vmax; SAttr n_mwbase; SAttr n_r; SAttr n_t3]
    true true
    [n_t2; n_t1; n_vmin; n_dt; n_vmax; n_mwbase; n_r; n_t3]
    [(n_t2, VFloat n_0_0); (n_t1, VFloat n_0_0); (n_vmin, VFloat n_0_0); (n_dt, VFloat n_0_0); (n_vmax, VFloat n_0_0); (n_mwbase, VFloat n_0_0); (n_r, VFloat n_0_0); (n_t3, VFloat n_0_0)]
    []
    []
    []
    [];
(* CIM14/IEC61970/Dynamics/TurbineGovernors/GovSteam1.py:23-182 *)
  Cls n_CIM14_IEC61970_Dynamics_TurbineGovernors_GovSteam1_GovSteam1 n_GovSteam1 (Some n_CIM14_IEC61970_Dynamics_TurbineGovernors_TurbineGovernor_TurbineGovernor)
    [(n_gv1, VFloat n_0_0); (n_pgv3, VFloat n_0_0); (n_uo, VFloat n_0_0); (n_k1, VFloat n_0_0); (n_mwbase, VFloat n_0_0); (n_k8, VFloat n_0_0); (n_uc, VFloat n_0_0); (n_gv5, VFloat n_0_0); (n_k7, VFloat n_0_0); (n_gv4, VFloat n_0_0); (n_k, VFloat n_0_0); (n_gv2, VFloat n_0_0); (n_db2, VFloat n_0_0); (n_pgv4, VFloat n_0_0); (n_t6, VFloat n_0_0); (n_k2, VFloat n_0_0); (n_db1, VFloat n_0_0); (n_t5, VFloat n_0_0); (n_k5, VFloat n_0_0); (n_pgv2, VFloat n_0_0); (n_pgv1, VFloat n_0_0); (n_t3, VFloat n_0_0); (n_t1, VFloat n_0_0); (n_k6, VFloat n_0_0); (n_gv3, VFloat n_0_0); (n_eps, VFloat n_0_0); (n_gv6, VFloat n_0_0); (n_t4, VFloat n_0_0); (n_pgv6, VFloat n_0_0); (n_pmin, VFloat n_0_0); (n_k4, VFloat n_0_0); (n_pgv5, VFloat n_0_0); (n_pmax, VFloat n_0_0); (n_t7, VFloat n_0_0); (n_k3, VFloat n_0_0); (n_t2, VFloat n_0_0)]
    [SAttr n_gv1; SAttr n_pgv3; SAttr n_uo; SAttr n_k1; SAttr n_mwbase; SAttr n_k8; SAttr n_uc; SAttr n_gv5; SAttr n_k7; SAttr n_gv4; SAttr n_k; SAttr n_gv2; SAttr n_db2; SAttr n_pgv4; SAttr n_t6; SAttr n_k2; SAttr n_db1; SAttr n_t5; SAttr n_k5; SAttr n_pgv2; SAttr n_pgv1; SAttr n_t3; SAttr n_t1; SAttr n_k6; SAttr n_gv3; SAttr n_eps; SAttr n_gv6; SAttr n_t4; SAttr n_pgv6; SAttr n_pmin; SAttr n_k4; SAttr n_pgv5; SAttr n_pmax; SAttr n_t7; SAttr n_k3; SAttr n_t2]
    true true
    [n_gv1; n_pgv3; n_uo; n_k1; n_mwbase; n_k8; n_uc; n_gv5; n_k7; n_gv4; n_k; n_gv2; n_db2; n_pgv4; n_t6; n_k2; n_db1; n_t5; n_k5; n_pgv2; n_pgv1; n_t3; n_t1; n_k6; n_gv3; n_eps; n_gv6; n_t4; n_pgv6; n_pmin; n_k4; n_pgv5; n_pmax; n_t7; n_k3; n_t2]
    [(n_gv1, VFloat n_0_0); (n_pgv3, VFloat n_0_0); (n_uo, VFloat n_0_0); (n_k1, VFloat n_0_0); (n_mwbase, VFloat n_0_0); (n_k8, VFloat n_0_0); (n_uc, VFloat n_0_0); (n_gv5, VFloat n_0_0); (n_k7, VFloat n_0_0); (n_gv4, VFloat n_0_0); (n_k, VFloat n_0_0); (n_gv2, VFloat n_0_0); (n_db2, VFloat n_0_0); (n_pgv4, VFloat n_0_0); (n_t6, VFloat n_0_0); (n_k2, VFloat n_0_0); (n_db1, VFloat n_0_0); (n_t5, VFloat n_0_0); (n_k5, VFloat n_0_0); (n_pgv2, VFloat n_0_0); (n_pgv1, VFloat n_0_0); (n_t3, VFloat n_0_0); (n_t1, VFloat n_0_0); (n_k6, VFloat n_0_0); (n_gv3, VFloat n_0_0); (n_eps, VFloat n_0_0); (n_gv6, VFloat n_0_0); (n_t4, VFloat n_0_0); (n_pgv6, VFloat n_0_0); (n_pmin, VFloat n_0_0); (n_k4, VFloat n_0_0); (n_pgv5, VFloat n_0_0); (n_pmax, VFloat n_0_0); (n_t7, VFloat n_0_0); (n_k3, VFloat n_0_0); (n_t2, VFloat n_0_0)]
    []
    []
    []
    [];
(* CIM14/IEC61970/Dynamics/TurbineGovernors/GovSteamCC.py:23-36 *)
  Cls n_CIM14_IEC61970_Dynamics_TurbineGovernors_GovSteamCC_GovSteamCC n_GovSteamCC (Some n_CIM14_IEC61970_Dynamics_TurbineGovernors_TurbineGovernor_TurbineGovernor)
    []
    []
    true true
    []
    []
    []
    []
    []
    [];
(* CIM14/IEC61970/Dynamics/TurbineGovernors/GovSteamEU.py:23-36 *)
  Cls n_CIM14_IEC61970_Dynamics_TurbineGovernors_GovSteamEU_GovSteamEU n_GovSteamEU (Some n_CIM14_IEC61970_Dynamics_TurbineGovernors_TurbineGovernor_TurbineGovernor)
    []
    []
    true true
    []
    []
    []
    []
    []
    [];
(* CIM14/IEC61970/Dynamics/TurbineGovernors/GovSteamFV2.py:23-36 *)
  Cls n_CIM14_IEC61970_Dynamics_TurbineGovernors_GovSteamFV2_GovSteamFV2 n_GovSteamFV2 (Some n_CIM14_IEC61970_Dynamics_TurbineGovernors_TurbineGovernor_TurbineGovernor)
    []
    []
    true true
    []
    []
    []
    []
    []
    [];
(* CIM14/IEC61970/Dynamics/TurbineGovernors/GovSteamFV3.py:23-36 *)
  Cls n_CIM14_IEC61970_Dynamics_TurbineGovernors_GovSteamFV3_GovSteamFV3 n_GovSteamFV3 (Some n_CIM14_IEC61970_Dynamics_TurbineGovernors_TurbineGovernor_TurbineGovernor)
    []
    []
    true true
    []
    []
    []
    []
    []
    [];
(* CIM14/IEC61970/Dynamics/TurbineGovernors/GovSteamSGO.py:23-36 *)
  Cls n_CIM14_IEC61970_Dynamics_TurbineGovernors_GovSteamSGO_GovSteamSGO n_GovSteamSGO (Some n_CIM14_IEC61970_Dynamics_TurbineGovernors_TurbineGovernor_TurbineGovernor)
    []
    []
    true true
    []
    []
    []
    []
    []
    [];
(* CIM14/IEC61970/Dynamics/TurbineGovernors/GovWT1P.py:23-36 *)
  Cls n_CIM14_IEC61970_Dynamics_TurbineGovernors_GovWT1P_GovWT1P n_GovWT1P (Some n_CIM14_IEC61970_Dynamics_TurbineGovernors_TurbineGovernor_TurbineGovernor)
    []
    []
    true true
    []
    []
    []
    []
    []
    [];
(* CIM14/IEC61970/Dynamics/TurbineGovernors/GovWT1T.py:23-36 *)
  Cls n_CIM14_IEC61970_Dynamics_TurbineGovernors_GovWT1T_GovWT1T n_GovWT1T (Some n_CIM14_IEC61970_Dynamics_TurbineGovernors_TurbineGovernor_TurbineGovernor)
    []
    []
    true true
    []
    []
    []
    []
    []
    [];
(* CIM14/IEC61970/Dynamics/TurbineGovernors/GovWT2P.py:23-36 *)
  Cls n_CIM14_IEC61970_Dynamics_TurbineGovernors_GovWT2P_GovWT2P n_GovWT2P (Some n_CIM14_IEC61970_Dynamics_TurbineGovernors_TurbineGovernor_TurbineGovernor)
    []
    []
    true true
    []
    []
    []
    []
    []
    [];
(* CIM14/IEC61970/Dynamics/TurbineGovernors/GovWT2T.py:23-36 *)
  Cls n_CIM14_IEC61970_Dynamics_TurbineGovernors_GovWT2T_GovWT2T n_GovWT2T (Some n_CIM14_IEC61970_Dynamics_TurbineGovernors_TurbineGovernor_TurbineGovernor)
    []
    []
    true true
    []
    []
    []
    []
    []
    [];
(* CIM14/IEC61970/Dynamics/TurbineGovernors/GovWT3P.py:23-36 *)
  Cls n_CIM14_IEC61970_Dynamics_TurbineGovernors_GovWT3P_GovWT3P n_GovWT3P (Some n_CIM14_IEC61970_Dynamics_TurbineGovernors_TurbineGovernor_TurbineGovernor)
    []
    []
    true true
    []
    []
    []
    []
    []
    [];
(* CIM14/IEC61970/Dynamics/TurbineGovernors/GovWT3T.py:23-36 *)
  Cls n_CIM14_IEC61970_Dynamics_TurbineGovernors_GovWT3T_GovWT3T n_GovWT3T (Some n_CIM14_IEC61970_Dynamics_TurbineGovernors_TurbineGovernor_TurbineGovernor)
    []
    []
    true true
    []
    []
    []
    []
    []
    [];
(* CIM14/IEC61970/Dynamics/TurbineGovernors/GovWT4P.py:23-36 *)
  Cls n_CIM14_IEC61970_Dynamics_TurbineGovernors_GovWT4P_GovWT4P n_GovWT4P (Some n_CIM14_IEC61970_Dynamics_TurbineGovernors_TurbineGovernor_TurbineGovernor)
    []
    []
    true true
    []
    []
    []
    []
    []
    [];
(* CIM14/IEC61970/Dynamics/TurbineGovernors/GovWT4T.py:23-36 *)
  Cls n_CIM14_IEC61970_Dynamics_TurbineGovernors_GovWT4T_GovWT4T n_GovWT4T (Some n_CIM14_IEC61970_Dynamics_TurbineGovernors_TurbineGovernor_TurbineGovernor)
    []
    []
    true true
    []
    []
    []
    []
    []
    [];
(* CIM14/IEC61970/Dynamics/TurbineGovernors/TLCFB1.py:23-36 *)
  Cls n_CIM14_IEC61970_Dynamics_TurbineGovernors_TLCFB1_TLCFB1 n_TLCFB1 (Some n_CIM14_IEC61970_Dynamics_TurbineGovernors_TurbineGovernor_TurbineGovernor)
    []
    []
    true true
    []
    []
    []
    []
    []
    [];
(* CIM14/IEC61970/Dynamics/TurbineGovernors/TurbineGovernor.py:23-38 *)
  Cls n_CIM14_IEC61970_Dynamics_TurbineGovernors_TurbineGovernor_TurbineGovernor n_TurbineGovernor (Some n_CIM14_IEC61970_Core_PowerSystemResource_PowerSystemResource)
    []
    []
    true true
    []
    []
    []
    []
    []
    [];
(* CIM14/IEC61970/Dynamics/UserBlockParameter.py:23-63 *)
  Cls n_CIM14_IEC61970_Dynamics_UserBlockParameter_UserBlockParameter n_UserBlockParameter (Some n_CIM14_IEC61970_Dynamics_MetaBlockParameter_MetaBlockParameter)
    [(n_BlockUsageParameter, VNone)]
    [SMany n_BlockUsageParameter]
    true true
    []
    []
    []
    [n_BlockUsageParameter]
    [n_BlockUsageParameter]
    [(n_BlockUsageParameter, PManyOne n_UserBlockParameter)];
(* CIM14/IEC61970/Dynamics/VoltageCompensator/VcompCross.py:23-46 *)
  Cls n_CIM14_IEC61970_Dynamics_VoltageCompensator_VcompCross_VcompCross n_VcompCross (Some n_CIM14_IEC61970_Dynamics_VoltageCompensator_VoltageCompensator_VoltageCompensator)
    [(n_xcomp2, VFloat n_0_0); (n_rcomp2, VFloat n_0_0)]
    [SAttr n_xcomp2; SAttr n_rcomp2]
    true true
    [n_xcomp2; n_rcomp2]
    [(n_xcomp2, VFloat n_0_0); (n_rcomp2, VFloat n_0_0)]
    []
    []
    []
    [];
(* CIM14/IEC61970/Dynamics/VoltageCompensator/VcompIEEE.py:23-46 *)
  Cls n_CIM14_IEC61970_Dynamics_VoltageCompensator_VcompIEEE_VcompIEEE n_VcompIEEE (Some n_CIM14_IEC61970_Dynamics_VoltageCompensator_VoltageCompensator_VoltageCompensator)
    [(n_xcomp, VFloat n_0_0); (n_rcomp, VFloat n_0_0)]
    [SAttr n_xcomp; SAttr n_rcomp]
    true true
    [n_xcomp; n_rcomp]
    [(n_xcomp, VFloat n_0_0); (n_rcomp, VFloat n_0_0)]
    []
    []
    []
    [];
(* CIM14/IEC61970/Dynamics/VoltageCompensator/VoltageCompensator.py:23-38 *)
  Cls n_CIM14_IEC61970_Dynamics_VoltageCompensator_VoltageCompensator_VoltageCompensator n_VoltageCompensator (Some n_CIM14_IEC61970_Core_PowerSystemResource_PowerSystemResource)
    []
    []
    true true
    []
    []
    []
    []
    []
    [];
(* CIM14/IEC61970/Equivalents/EquivalentBranch.py:23-46 *)
  Cls n_CIM14_IEC61970_Equivalents_EquivalentBranch_EquivalentBranch n_EquivalentBranch (Some n_CIM14_IEC61970_Equivalents_EquivalentEquipment_EquivalentEquipment)
    [(n_x, VFloat n_0_0); (n_r, VFloat n_0_0)]
    [SAttr n_x; SAttr n_r]
    true true
    [n_x; n_r]
    [(n_x, VFloat n_0_0); (n_r, VFloat n_0_0)]
    []
    []
    []
    [];
(* CIM14/IEC61970/Equivalents/EquivalentEquipment.py:23-59 *)
  Cls n_CIM14_IEC61970_Equivalents_EquivalentEquipment_EquivalentEquipment n_EquivalentEquipment (Some n_CIM14_IEC61970_Core_ConductingEquipment_ConductingEquipment)
    [(n_EquivalentNetwork, VNone)]
    [SOne n_EquivalentNetwork]
    true true
    []
    []
    []
    [n_EquivalentNetwork]
    []
    [(n_EquivalentNetwork, POneMany n_EquivalentEquipments)];
(* CIM14/IEC61970/Equivalents/EquivalentInjection.py:23-58 *)
  Cls n_CIM14_IEC61970_Equivalents_EquivalentInjection_EquivalentInjection n_EquivalentInjection (Some n_CIM14_IEC61970_Equivalents_EquivalentEquipment_EquivalentEquipment)
    [(n_maxP, VFloat n_0_0); (n_regulationCapability, VBool false); (n_regulationTarget, VFloat n_0_0); (n_minP, VFloat n_0_0); (n_regulationStatus, VBool false)]
    [SAttr n_maxP; SAttr n_regulationCapability; SAttr n_regulationTarget; SAttr n_minP; SAttr n_regulationStatus]
    true true
    [n_maxP; n_regulationCapability; n_regulationTarget; n_minP; n_regulationStatus]
    [(n_maxP, VFloat n_0_0); (n_regulationCapability, VBool false); (n_regulationTarget, VFloat n_0_0); (n_minP, VFloat n_0_0); (n_regulationStatus, VBool false)]
    []
    []
    []
    [];
(* CIM14/IEC61970/Equivalents/EquivalentNetwork.py:23-64 *)
  Cls n_CIM14_IEC61970_Equivalents_EquivalentNetwork_EquivalentNetwork n_EquivalentNetwork (Some n_CIM14_IEC61970_Core_ConnectivityNodeContainer_ConnectivityNodeContainer)
    [(n_EquivalentEquipments, VNone)]
    [SMany n_EquivalentEquipments]
    true true
    []
    []
    []
    [n_EquivalentEquipments]
    [n_EquivalentEquipments]
    [(n_EquivalentEquipments, PManyOne n_EquivalentNetwork)];
(* CIM14/IEC61970/Equivalents/EquivalentShunt.py:23-46 *)
  Cls n_CIM14_IEC61970_Equivalents_EquivalentShunt_EquivalentShunt n_EquivalentShunt (Some n_CIM14_IEC61970_Equivalents_EquivalentEquipment_EquivalentEquipment)
    [(n_b, VFloat n_0_0); (n_g, VFloat n_0_0)]
    [SAttr n_b; SAttr n_g]
    true true
    [n_b; n_g]
    [(n_b, VFloat n_0_0); (n_g, VFloat n_0_0)]
    []
    []
    []
    [];
(* CIM14/IEC61970/Generation/GenerationDynamics/BWRSteamSupply.py:23-122 *)
  Cls n_CIM14_IEC61970_Generation_GenerationDynamics_BWRSteamSupply_BWRSteamSupply n_BWRSteamSupply (Some n_CIM14_IEC61970_Generation_GenerationDynamics_SteamSupply_SteamSupply)
    [(n_lowerLimit, VFloat n_0_0); (n_pressureSetpointGA, VFloat n_0_0); (n_rfAux8, VFloat n_0_0); (n_rfAux3, VFloat n_0_0); (n_rfAux2, VFloat n_0_0); (n_highPowerLimit, VFloat n_0_0); (n_rodPattern, VFloat n_0_0); (n_rodPatternConstant, VFloat n_0_0); (n_integralGain, VFloat n_0_0); (n_rfAux7, VFloat n_0_0); (n_proportionalGain, VFloat n_0_0); (n_rfAux6, VFloat n_0_0); (n_pressureSetpointTC2, VFloat n_0_0); (n_rfAux1, VFloat n_0_0); (n_pressureSetpointTC1, VFloat n_0_0); (n_inCoreThermalTC, VFloat n_0_0); (n_upperLimit, VFloat n_0_0); (n_rfAux4, VFloat n_0_0); (n_pressureLimit, VFloat n_0_0); (n_rfAux5, VFloat n_0_0); (n_lowPowerLimit, VFloat n_0_0)]
    [SAttr n_lowerLimit; SAttr n_pressureSetpointGA; SAttr n_rfAux8; SAttr n_rfAux3; SAttr n_rfAux2; SAttr n_highPowerLimit; SAttr n_rodPattern; SAttr n_rodPatternConstant; SAttr n_integralGain; SAttr n_rfAux7; SAttr n_proportionalGain; SAttr n_rfAux6; SAttr n_pressureSetpointTC2; SAttr n_rfAux1; SAttr n_pressureSetpointTC1; SAttr n_inCoreThermalTC; SAttr n_upperLimit; SAttr n_rfAux4; SAttr n_pressureLimit; SAttr n_rfAux5; SAttr n_lowPowerLimit]
    true true
    [n_lowerLimit; n_pressureSetpointGA; n_rfAux8; n_rfAux3; n_rfAux2; n_highPowerLimit; n_rodPattern; n_rodPatternConstant; n_integralGain; n_rfAux7; n_proportionalGain; n_rfAux6; n_pressureSetpointTC2; n_rfAux1; n_pressureSetpointTC1; n_inCoreThermalTC; n_upperLimit; n_rfAux4; n_pressureLimit; n_rfAux5; n_lowPowerLimit]
    [(n_lowerLimit, VFloat n_0_0); (n_pressureSetpointGA, VFloat n_0_0); (n_rfAux8, VFloat n_0_0); (n_rfAux3, VFloat n_0_0); (n_rfAux2, VFloat n_0_0); (n_highPowerLimit, VFloat n_0_0); (n_rodPattern, VFloat n_0_0); (n_rodPatternConstant, VFloat n_0_0); (n_integralGain, VFloat n_0_0); (n_rfAux7, VFloat n_0_0); (n_proportionalGain, VFloat n_0_0); (n_rfAux6, VFloat n_0_0); (n_pressureSetpointTC2, VFloat n_0_0); (n_rfAux1, VFloat n_0_0); (n_pressureSetpointTC1, VFloat n_0_0); (n_inCoreThermalTC, VFloat n_0_0); (n_upperLimit, VFloat n_0_0); (n_rfAux4, VFloat n_0_0); (n_pressureLimit, VFloat n_0_0); (n_rfAux5, VFloat n_0_0); (n_lowPowerLimit, VFloat n_0_0)]
    []
    []
    []
    [];
(* CIM14/IEC61970/Generation/GenerationDynamics/CTTempActivePowerCurve.py:23-58 *)
  Cls n_CIM14_IEC61970_Generation_GenerationDynamics_CTTempActivePowerCurve_CTTempActivePowerCurve n_CTTempActivePowerCurve (Some n_CIM14_IEC61970_Core_Curve_Curve)
    [(n_CombustionTurbine, VNone)]
    [SOne n_CombustionTurbine]
    true true
    []
    []
    []
    [n_CombustionTurbine]
    []
    [(n_CombustionTurbine, POneOne n_CTTempActivePowerCurve)];
(* CIM14/IEC61970/Generation/GenerationDynamics/CombustionTurbine.py:23-131 *)
  Cls n_CIM14_IEC61970_Generation_GenerationDynamics_CombustionTurbine_CombustionTurbine n_CombustionTurbine (Some n_CIM14_IEC61970_Generation_GenerationDynamics_PrimeMover_PrimeMover)
    [(n_capabilityVersusFrequency, VFloat n_0_0); (n_heatRecoveryFlag, VBool false); (n_timeConstant, VFloat n_0_0); (n_auxPowerVersusFrequency, VFloat n_0_0); (n_auxPowerVersusVoltage, VFloat n_0_0); (n_referenceTemp, VFloat n_0_0); (n_ambientTemp, VFloat n_0_0); (n_powerVariationByTemp, VFloat n_0_0); (n_HeatRecoveryBoiler, VNone); (n_CTTempActivePowerCurve, VNone); (n_AirCompressor, VNone)]
    [SAttr n_capabilityVersusFrequency; SAttr n_heatRecoveryFlag; SAttr n_timeConstant; SAttr n_auxPowerVersusFrequency; SAttr n_auxPowerVersusVoltage; SAttr n_referenceTemp; SAttr n_ambientTemp; SAttr n_powerVariationByTemp; SOne n_HeatRecoveryBoiler; SOne n_CTTempActivePowerCurve; SOne n_AirCompressor]
    true true
    [n_capabilityVersusFrequency; n_heatRecoveryFlag; n_timeConstant; n_auxPowerVersusFrequency; n_auxPowerVersusVoltage; n_referenceTemp; n_ambientTemp; n_powerVariationByTemp]
    [(n_capabilityVersusFrequency, VFloat n_0_0); (n_heatRecoveryFlag, VBool false); (n_timeConstant, VFloat n_0_0); (n_auxPowerVersusFrequency, VFloat n_0_0); (n_auxPowerVersusVoltage, VFloat n_0_0); (n_referenceTemp, VFloat n_0_0); (n_ambientTemp, VFloat n_0_0); (n_powerVariationByTemp, VFloat n_0_0)]
    []
    [n_HeatRecoveryBoiler; n_CTTempActivePowerCurve; n_AirCompressor]
    []
    [(n_HeatRecoveryBoiler, POneMany n_CombustionTurbines); (n_CTTempActivePowerCurve, POneOne n_CombustionTurbine); (n_AirCompressor, POneOne n_CombustionTurbine)];
(* CIM14/IEC61970/Generation/GenerationDynamics/DrumBoiler.py:23-42 *)
  Cls n_CIM14_IEC61970_Generation_GenerationDynamics_DrumBoiler_DrumBoiler n_DrumBoiler (Some n_CIM14_IEC61970_Generation_GenerationDynamics_FossilSteamSupply_FossilSteamSupply)
    [(n_drumBoilerRating, VFloat n_0_0)]
    [SAttr n_drumBoilerRating]
    true true
    [n_drumBoilerRating]
    [(n_drumBoilerRating, VFloat n_0_0)]
    []
    []
    []
    [];
(* CIM14/IEC61970/Generation/GenerationDynamics/FossilSteamSupply.py:23-142 *)
  Cls n_CIM14_IEC61970_Generation_GenerationDynamics_FossilSteamSupply_FossilSteamSupply n_FossilSteamSupply (Some n_CIM14_IEC61970_Generation_GenerationDynamics_SteamSupply_SteamSupply)
    [(n_boilerControlMode, VStr n_following); (n_superHeater2Capacity, VFloat n_0_0); (n_auxPowerVersusFrequency, VFloat n_0_0); (n_feedWaterIG, VFloat n_0_0); (n_controlPED, VFloat n_0_0); (n_throttlePressureSP, VFloat n_0_0); (n_pressureCtrlIG, VFloat n_0_0); (n_fuelSupplyDelay, VFloat n_0_0); (n_controlPEB, VFloat n_0_0); (n_controlTC, VFloat n_0_0); (n_pressureFeedback, VInt 0); (n_feedWaterPG, VFloat n_0_0); (n_controlIC, VFloat n_0_0); (n_controlPC, VFloat n_0_0); (n_minErrorRateP, VFloat n_0_0); (n_fuelSupplyTC, VFloat n_0_0); (n_fuelDemandLimit, VFloat n_0_0); (n_mechPowerSensorLag, VFloat n_0_0); (n_pressureCtrlDG, VFloat n_0_0); (n_maxErrorRateP, VFloat n_0_0); (n_superHeaterPipePD, VFloat n_0_0); (n_controlErrorBiasP, VFloat n_0_0); (n_feedWaterTC, VFloat n_0_0); (n_superHeater1Capacity, VFloat n_0_0); (n_auxPowerVersusVoltage, VFloat n_0_0); (n_pressureCtrlPG, VFloat n_0_0)]
    [SAttr n_boilerControlMode; SAttr n_superHeater2Capacity; SAttr n_auxPowerVersusFrequency; SAttr n_feedWaterIG; SAttr n_controlPED; SAttr n_throttlePressureSP; SAttr n_pressureCtrlIG; SAttr n_fuelSupplyDelay; SAttr n_controlPEB; SAttr n_controlTC; SAttr n_pressureFeedback; SAttr n_feedWaterPG; SAttr n_controlIC; SAttr n_controlPC; SAttr n_minErrorRateP; SAttr n_fuelSupplyTC; SAttr n_fuelDemandLimit; SAttr n_mechPowerSensorLag; SAttr n_pressureCtrlDG; SAttr n_maxErrorRateP; SAttr n_superHeaterPipePD; SAttr n_controlErrorBiasP; SAttr n_feedWaterTC; SAttr n_superHeater1Capacity; SAttr n_auxPowerVersusVoltage; SAttr n_pressureCtrlPG]
    true true
    [n_boilerControlMode; n_superHeater2Capacity; n_auxPowerVersusFrequency; n_feedWaterIG; n_controlPED; n_throttlePressureSP; n_pressureCtrlIG; n_fuelSupplyDelay; n_controlPEB; n_controlTC; n_pressureFeedback; n_feedWaterPG; n_controlIC; n_controlPC; n_minErrorRateP; n_fuelSupplyTC; n_fuelDemandLimit; n_mechPowerSensorLag; n_pressureCtrlDG; n_maxErrorRateP; n_superHeaterPipePD; n_controlErrorBiasP; n_feedWaterTC; n_superHeater1Capacity; n_auxPowerVersusVoltage; n_pressureCtrlPG]
    [(n_boilerControlMode, VStr n_following); (n_superHeater2Capacity, VFloat n_0_0); (n_auxPowerVersusFrequency, VFloat n_0_0); (n_feedWaterIG, VFloat n_0_0); (n_controlPED, VFloat n_0_0); (n_throttlePressureSP, VFloat n_0_0); (n_pressureCtrlIG, VFloat n_0_0); (n_fuelSupplyDelay, VFloat n_0_0); (n_controlPEB, VFloat n_0_0); (n_controlTC, VFloat n_0_0); (n_pressureFeedback, VInt 0); (n_feedWaterPG, VFloat n_0_0); (n_controlIC, VFloat n_0_0); (n_controlPC, VFloat n_0_0); (n_minErrorRateP, VFloat n_0_0); (n_fuelSupplyTC, VFloat n_0_0); (n_fuelDemandLimit, VFloat n_0_0); (n_mechPowerSensorLag, VFloat n_0_0); (n_pressureCtrlDG, VFloat n_0_0); (n_maxErrorRateP, VFloat n_0_0); (n_superHeaterPipePD, VFloat n_0_0); (n_controlErrorBiasP, VFloat n_0_0); (n_feedWaterTC, VFloat n_0_0); (n_superHeater1Capacity, VFloat n_0_0); (n_auxPowerVersusVoltage, VFloat n_0_0); (n_pressureCtrlPG, VFloat n_0_0)]
    [(n_boilerControlMode, n_BoilerControlMode)]
    []
    []
    [];
(* CIM14/IEC61970/Generation/GenerationDynamics/HeatRecoveryBoiler.py:23-68 *)
  Cls n_CIM14_IEC61970_Generation_GenerationDynamics_HeatRecoveryBoiler_HeatRecoveryBoiler n_HeatRecoveryBoiler (Some n_CIM14_IEC61970_Generation_GenerationDynamics_FossilSteamSupply_FossilSteamSupply)
    [(n_steamSupplyRating2, VFloat n_0_0); (n_CombustionTurbines, VNone)]
    [SAttr n_steamSupplyRating2; SMany n_CombustionTurbines]
    true true
    [n_steamSupplyRating2]
    [(n_steamSupplyRating2, VFloat n_0_0)]
    []
    [n_CombustionTurbines]
    [n_CombustionTurbines]
    [(n_CombustionTurbines, PManyOne n_HeatRecoveryBoiler)];
(* CIM14/IEC61970/Generation/GenerationDynamics/HydroTurbine.py:23-101 *)
  Cls n_CIM14_IEC61970_Generation_GenerationDynamics_HydroTurbine_HydroTurbine n_HydroTurbine (Some n_CIM14_IEC61970_Generation_GenerationDynamics_PrimeMover_PrimeMover)
    [(n_turbineType, VStr n_francis); (n_turbineRating, VFloat n_0_0); (n_maxHeadMaxP, VFloat n_0_0); (n_transientDroopTime, VFloat n_0_0); (n_speedRegulation, VFloat n_0_0); (n_waterStartingTime, VFloat n_0_0); (n_speedRating, VFloat n_0_0); (n_transientRegulation, VFloat n_0_0); (n_gateUpperLimit, VFloat n_0_0); (n_minHeadMaxP, VFloat n_0_0); (n_gateRateLimit, VFloat n_0_0); (n_HydroTurbineGovernor, VNone)]
    [SAttr n_turbineType; SAttr n_turbineRating; SAttr n_maxHeadMaxP; SAttr n_transientDroopTime; SAttr n_speedRegulation; SAttr n_waterStartingTime; SAttr n_speedRating; SAttr n_transientRegulation; SAttr n_gateUpperLimit; SAttr n_minHeadMaxP; SAttr n_gateRateLimit; SOne n_HydroTurbineGovernor]
    true true
    [n_turbineType; n_turbineRating; n_maxHeadMaxP; n_transientDroopTime; n_speedRegulation; n_waterStartingTime; n_speedRating; n_transientRegulation; n_gateUpperLimit; n_minHeadMaxP; n_gateRateLimit]
    [(n_turbineType, VStr n_francis); (n_turbineRating, VFloat n_0_0); (n_maxHeadMaxP, VFloat n_0_0); (n_transientDroopTime, VFloat n_0_0); (n_speedRegulation, VFloat n_0_0); (n_waterStartingTime, VFloat n_0_0); (n_speedRating, VFloat n_0_0); (n_transientRegulation, VFloat n_0_0); (n_gateUpperLimit, VFloat n_0_0); (n_minHeadMaxP, VFloat n_0_0); (n_gateRateLimit, VFloat n_0_0)]
    [(n_turbineType, n_TurbineType)]
    [n_HydroTurbineGovernor]
    []
    [(n_HydroTurbineGovernor, POneOne n_HydroTurbine)];
(* CIM14/IEC61970/Generation/GenerationDynamics/PWRSteamSupply.py:23-118 *)
  Cls n_CIM14_IEC61970_Generation_GenerationDynamics_PWRSteamSupply_PWRSteamSupply n_PWRSteamSupply (Some n_CIM14_IEC61970_Generation_GenerationDynamics_SteamSupply_SteamSupply)
    [(n_pressureCG, VFloat n_0_0); (n_throttlePressureSP, VFloat n_0_0); (n_coldLegFBLagTC, VFloat n_0_0); (n_hotLegSteamGain, VFloat n_0_0); (n_coreHTLagTC2, VFloat n_0_0); (n_coreHTLagTC1, VFloat n_0_0); (n_coreNeutronicsHT, VFloat n_0_0); (n_coldLegFBLeadTC1, VFloat n_0_0); (n_feedbackFactor, VFloat n_0_0); (n_coreNeutronicsEffTC, VFloat n_0_0); (n_steamFlowFG, VFloat n_0_0); (n_steamPressureDropLagTC, VFloat n_0_0); (n_steamPressureFG, VFloat n_0_0); (n_coldLegFG1, VFloat n_0_0); (n_throttlePressureFactor, VFloat n_0_0); (n_coldLegFBLeadTC2, VFloat n_0_0); (n_hotLegToColdLegGain, VFloat n_0_0); (n_coldLegFG2, VFloat n_0_0); (n_hotLegLagTC, VFloat n_0_0); (n_coldLegLagTC, VFloat n_0_0)]
    [SAttr n_pressureCG; SAttr n_throttlePressureSP; SAttr n_coldLegFBLagTC; SAttr n_hotLegSteamGain; SAttr n_coreHTLagTC2; SAttr n_coreHTLagTC1; SAttr n_coreNeutronicsHT; SAttr n_coldLegFBLeadTC1; SAttr n_feedbackFactor; SAttr n_coreNeutronicsEffTC; SAttr n_steamFlowFG; SAttr n_steamPressureDropLagTC; SAttr n_steamPressureFG; SAttr n_coldLegFG1; SAttr n_throttlePressureFactor; SAttr n_coldLegFBLeadTC2; SAttr n_hotLegToColdLegGain; SAttr n_coldLegFG2; SAttr n_hotLegLagTC; SAttr n_coldLegLagTC]
    true true
    [n_pressureCG; n_throttlePressureSP; n_coldLegFBLagTC; n_hotLegSteamGain; n_coreHTLagTC2; n_coreHTLagTC1; n_coreNeutronicsHT; n_coldLegFBLeadTC1; n_feedbackFactor; n_coreNeutronicsEffTC; n_steamFlowFG; n_steamPressureDropLagTC; n_steamPressureFG; n_coldLegFG1; n_throttlePressureFactor; n_coldLegFBLeadTC2; n_hotLegToColdLegGain; n_coldLegFG2; n_hotLegLagTC; n_coldLegLagTC]
    [(n_pressureCG, VFloat n_0_0); (n_throttlePressureSP, VFloat n_0_0); (n_coldLegFBLagTC, VFloat n_0_0); (n_hotLegSteamGain, VFloat n_0_0); (n_coreHTLagTC2, VFloat n_0_0); (n_coreHTLagTC1, VFloat n_0_0); (n_coreNeutronicsHT, VFloat n_0_0); (n_coldLegFBLeadTC1, VFloat n_0_0); (n_feedbackFactor, VFloat n_0_0); (n_coreNeutronicsEffTC, VFloat n_0_0); (n_steamFlowFG, VFloat n_0_0); (n_steamPressureDropLagTC, VFloat n_0_0); (n_steamPressureFG, VFloat n_0_0); (n_coldLegFG1, VFloat n_0_0); (n_throttlePressureFactor, VFloat n_0_0); (n_coldLegFBLeadTC2, VFloat n_0_0); (n_hotLegToColdLegGain, VFloat n_0_0); (n_coldLegFG2, VFloat n_0_0); (n_hotLegLagTC, VFloat n_0_0); (n_coldLegLagTC, VFloat n_0_0)]
    []
    []
    []
    [];
(* CIM14/IEC61970/Generation/GenerationDynamics/PrimeMover.py:23-74 *)
  Cls n_CIM14_IEC61970_Generation_GenerationDynamics_PrimeMover_PrimeMover n_PrimeMover (Some n_CIM14_IEC61970_Core_PowerSystemResource_PowerSystemResource)
    [(n_primeMoverRating, VFloat n_0_0); (n_SynchronousMachines, VNone)]
    [SAttr n_primeMoverRating; SMany n_SynchronousMachines]
    true true
    [n_primeMoverRating]
    [(n_primeMoverRating, VFloat n_0_0)]
    []
    [n_SynchronousMachines]
    [n_SynchronousMachines]
    [(n_SynchronousMachines, PManyMany n_PrimeMovers)];
(* CIM14/IEC61970/Generation/GenerationDynamics/SteamSupply.py:23-74 *)
  Cls n_CIM14_IEC61970_Generation_GenerationDynamics_SteamSupply_SteamSupply n_SteamSupply (Some n_CIM14_IEC61970_Core_PowerSystemResource_PowerSystemResource)
    [(n_steamSupplyRating, VFloat n_0_0); (n_SteamTurbines, VNone)]
    [SAttr n_steamSupplyRating; SMany n_SteamTurbines]
    true true
    [n_steamSupplyRating]
    [(n_steamSupplyRating, VFloat n_0_0)]
    []
    [n_SteamTurbines]
    [n_SteamTurbines]
    [(n_SteamTurbines, PManyMany n_SteamSupplys)];
(* CIM14/IEC61970/Generation/GenerationDynamics/SteamTurbine.py:23-118 *)
  Cls n_CIM14_IEC61970_Generation_GenerationDynamics_SteamTurbine_SteamTurbine n_SteamTurbine (Some n_CIM14_IEC61970_Generation_GenerationDynamics_PrimeMover_PrimeMover)
    [(n_reheater2TC, VFloat n_0_0); (n_shaft1PowerIP, VFloat n_0_0); (n_shaft1PowerLP2, VFloat n_0_0); (n_reheater1TC, VFloat n_0_0); (n_steamChestTC, VFloat n_0_0); (n_crossoverTC, VFloat n_0_0); (n_shaft2PowerHP, VFloat n_0_0); (n_shaft2PowerLP2, VFloat n_0_0); (n_shaft2PowerIP, VFloat n_0_0); (n_shaft1PowerHP, VFloat n_0_0); (n_shaft1PowerLP1, VFloat n_0_0); (n_shaft2PowerLP1, VFloat n_0_0); (n_SteamSupplys, VNone)]
    [SAttr n_reheater2TC; SAttr n_shaft1PowerIP; SAttr n_shaft1PowerLP2; SAttr n_reheater1TC; SAttr n_steamChestTC; SAttr n_crossoverTC; SAttr n_shaft2PowerHP; SAttr n_shaft2PowerLP2; SAttr n_shaft2PowerIP; SAttr n_shaft1PowerHP; SAttr n_shaft1PowerLP1; SAttr n_shaft2PowerLP1; SMany n_SteamSupplys]
    true true
    [n_reheater2TC; n_shaft1PowerIP; n_shaft1PowerLP2; n_reheater1TC; n_steamChestTC; n_crossoverTC; n_shaft2PowerHP; n_shaft2PowerLP2; n_shaft2PowerIP; n_shaft1PowerHP; n_shaft1PowerLP1; n_shaft2PowerLP1]
    [(n_reheater2TC, VFloat n_0_0); (n_shaft1PowerIP, VFloat n_0_0); (n_shaft1PowerLP2, VFloat n_0_0); (n_reheater1TC, VFloat n_0_0); (n_steamChestTC, VFloat n_0_0); (n_crossoverTC, VFloat n_0_0); (n_shaft2PowerHP, VFloat n_0_0); (n_shaft2PowerLP2, VFloat n_0_0); (n_shaft2PowerIP, VFloat n_0_0); (n_shaft1PowerHP, VFloat n_0_0); (n_shaft1PowerLP1, VFloat n_0_0); (n_shaft2PowerLP1, VFloat n_0_0)]
    []
    [n_SteamSupplys]
    [n_SteamSupplys]
    [(n_SteamSupplys, PManyMany n_SteamTurbines)];
(* CIM14/IEC61970/Generation/GenerationDynamics/Subcritical.py:23-38 *)
  Cls n_CIM14_IEC61970_Generation_GenerationDynamics_Subcritical_Subcritical n_Subcritical (Some n_CIM14_IEC61970_Generation_GenerationDynamics_FossilSteamSupply_FossilSteamSupply)
    []
    []
    true true
    []
    []
    []
    []
    []
    [];
(* CIM14/IEC61970/Generation/GenerationDynamics/Supercritical.py:23-38 *)
  Cls n_CIM14_IEC61970_Generation_GenerationDynamics_Supercritical_Supercritical n_Supercritical (Some n_CIM14_IEC61970_Generation_GenerationDynamics_FossilSteamSupply_FossilSteamSupply)
    []
    []
    true true
    []
    []
    []
    []
    []
    [];
(* CIM14/IEC61970/Generation/Production/AirCompressor.py:23-82 *)
  Cls n_CIM14_IEC61970_Generation_Production_AirCompressor_AirCompressor n_AirCompressor (Some n_CIM14_IEC61970_Core_PowerSystemResource_PowerSystemResource)
    [(n_airCompressorRating, VFloat n_0_0); (n_CAESPlant, VNone); (n_CombustionTurbine, VNone)]
    [SAttr n_airCompressorRating; SOne n_CAESPlant; SOne n_CombustionTurbine]
    true true
    [n_airCompressorRating]
    [(n_airCompressorRating, VFloat n_0_0)]
    []
    [n_CAESPlant; n_CombustionTurbine]
    []
    [(n_CAESPlant, POneOne n_AirCompressor); (n_CombustionTurbine, POneOne n_AirCompressor)];
(* CIM14/IEC61970/Generation/Production/CAESPlant.py:23-86 *)
  Cls n_CIM14_IEC61970_Generation_Production_CAESPlant_CAESPlant n_CAESPlant (Some n_CIM14_IEC61970_Core_PowerSystemResource_PowerSystemResource)
    [(n_energyStorageCapacity, VFloat n_0_0); (n_ratedCapacityP, VFloat n_0_0); (n_AirCompressor, VNone); (n_ThermalGeneratingUnit, VNone)]
    [SAttr n_energyStorageCapacity; SAttr n_ratedCapacityP; SOne n_AirCompressor; SOne n_ThermalGeneratingUnit]
    true true
    [n_energyStorageCapacity; n_ratedCapacityP]
    [(n_energyStorageCapacity, VFloat n_0_0); (n_ratedCapacityP, VFloat n_0_0)]
    []
    [n_AirCompressor; n_ThermalGeneratingUnit]
    []
    [(n_AirCompressor, POneOne n_CAESPlant); (n_ThermalGeneratingUnit, POneOne n_CAESPlant)];
(* CIM14/IEC61970/Generation/Production/CogenerationPlant.py:23-104 *)
  Cls n_CIM14_IEC61970_Generation_Production_CogenerationPlant_CogenerationPlant n_CogenerationPlant (Some n_CIM14_IEC61970_Core_PowerSystemResource_PowerSystemResource)
    [(n_cogenLPSteamRating, VFloat n_0_0); (n_cogenHPSendoutRating, VFloat n_0_0); (n_ratedP, VFloat n_0_0); (n_cogenLPSendoutRating, VFloat n_0_0); (n_cogenHPSteamRating, VFloat n_0_0); (n_ThermalGeneratingUnits, VNone); (n_SteamSendoutSchedule, VNone)]
    [SAttr n_cogenLPSteamRating; SAttr n_cogenHPSendoutRating; SAttr n_ratedP; SAttr n_cogenLPSendoutRating; SAttr n_cogenHPSteamRating; SMany n_ThermalGeneratingUnits; SOne n_SteamSendoutSchedule]
    true true
    [n_cogenLPSteamRating; n_cogenHPSendoutRating; n_ratedP; n_cogenLPSendoutRating; n_cogenHPSteamRating]
    [(n_cogenLPSteamRating, VFloat n_0_0); (n_cogenHPSendoutRating, VFloat n_0_0); (n_ratedP, VFloat n_0_0); (n_cogenLPSendoutRating, VFloat n_0_0); (n_cogenHPSteamRating, VFloat n_0_0)]
    []
    [n_ThermalGeneratingUnits; n_SteamSendoutSchedule]
    [n_ThermalGeneratingUnits]
    [(n_ThermalGeneratingUnits, PManyOne n_CogenerationPlant); (n_SteamSendoutSchedule, POneOne n_CogenerationPlant)];
(* CIM14/IEC61970/Generation/Production/CombinedCyclePlant.py:23-68 *)
  Cls n_CIM14_IEC61970_Generation_Production_CombinedCyclePlant_CombinedCyclePlant n_CombinedCyclePlant (Some n_CIM14_IEC61970_Core_PowerSystemResource_PowerSystemResource)
    [(n_combCyclePlantRating, VFloat n_0_0); (n_ThermalGeneratingUnits, VNone)]
    [SAttr n_combCyclePlantRating; SMany n_ThermalGeneratingUnits]
    true true
    [n_combCyclePlantRating]
    [(n_combCyclePlantRating, VFloat n_0_0)]
    []
    [n_ThermalGeneratingUnits]
    [n_ThermalGeneratingUnits]
    [(n_ThermalGeneratingUnits, PManyOne n_CombinedCyclePlant)];
(* CIM14/IEC61970/Generation/Production/EmissionAccount.py:23-67 *)
  Cls n_CIM14_IEC61970_Generation_Production_EmissionAccount_EmissionAccount n_EmissionAccount (Some n_CIM14_IEC61970_Core_Curve_Curve)
    [(n_emissionType, VStr n_chlorine); (n_emissionValueSource, VStr n_measured); (n_ThermalGeneratingUnit, VNone)]
    [SAttr n_emissionType; SAttr n_emissionValueSource; SOne n_ThermalGeneratingUnit]
    true true
    [n_emissionType; n_emissionValueSource]
    [(n_emissionType, VStr n_chlorine); (n_emissionValueSource, VStr n_measured)]
    [(n_emissionType, n_EmissionType); (n_emissionValueSource, n_EmissionValueSource)]
    [n_ThermalGeneratingUnit]
    []
    [(n_ThermalGeneratingUnit, POneMany n_EmmissionAccounts)];
(* CIM14/IEC61970/Generation/Production/EmissionCurve.py:23-71 *)
  Cls n_CIM14_IEC61970_Generation_Production_EmissionCurve_EmissionCurve n_EmissionCurve (Some n_CIM14_IEC61970_Core_Curve_Curve)
    [(n_emissionType, VStr n_chlorine); (n_isNetGrossP, VBool false); (n_emissionContent, VFloat n_0_0); (n_ThermalGeneratingUnit, VNone)]
    [SAttr n_emissionType; SAttr n_isNetGrossP; SAttr n_emissionContent; SOne n_ThermalGeneratingUnit]
    true true
    [n_emissionType; n_isNetGrossP; n_emissionContent]
    [(n_emissionType, VStr n_chlorine); (n_isNetGrossP, VBool false); (n_emissionContent, VFloat n_0_0)]
    [(n_emissionType, n_EmissionType)]
    [n_ThermalGeneratingUnit]
    []
    [(n_ThermalGeneratingUnit, POneMany n_EmissionCurves)];
(* CIM14/IEC61970/Generation/Production/FossilFuel.py:23-125 *)
  Cls n_CIM14_IEC61970_Generation_Production_FossilFuel_FossilFuel n_FossilFuel (Some n_CIM14_IEC61970_Core_IdentifiedObject_IdentifiedObject)
    [(n_fossilFuelType, VStr n_lignite); (n_fuelSulfur, VFloat n_0_0); (n_fuelMixture, VFloat n_0_0); (n_fuelCost, VFloat n_0_0); (n_fuelHandlingCost, VFloat n_0_0); (n_fuelEffFactor, VFloat n_0_0); (n_fuelHeatContent, VFloat n_0_0); (n_fuelDispatchCost, VFloat n_0_0); (n_lowBreakpointP, VFloat n_0_0); (n_highBreakpointP, VFloat n_0_0); (n_FuelAllocationSchedules, VNone); (n_ThermalGeneratingUnit, VNone)]
    [SAttr n_fossilFuelType; SAttr n_fuelSulfur; SAttr n_fuelMixture; SAttr n_fuelCost; SAttr n_fuelHandlingCost; SAttr n_fuelEffFactor; SAttr n_fuelHeatContent; SAttr n_fuelDispatchCost; SAttr n_lowBreakpointP; SAttr n_highBreakpointP; SMany n_FuelAllocationSchedules; SOne n_ThermalGeneratingUnit]
    true true
    [n_fossilFuelType; n_fuelSulfur; n_fuelMixture; n_fuelCost; n_fuelHandlingCost; n_fuelEffFactor; n_fuelHeatContent; n_fuelDispatchCost; n_lowBreakpointP; n_highBreakpointP]
    [(n_fossilFuelType, VStr n_lignite); (n_fuelSulfur, VFloat n_0_0); (n_fuelMixture, VFloat n_0_0); (n_fuelCost, VFloat n_0_0); (n_fuelHandlingCost, VFloat n_0_0); (n_fuelEffFactor, VFloat n_0_0); (n_fuelHeatContent, VFloat n_0_0); (n_fuelDispatchCost, VFloat n_0_0); (n_lowBreakpointP, VFloat n_0_0); (n_highBreakpointP, VFloat n_0_0)]
    [(n_fossilFuelType, n_FuelType)]
    [n_FuelAllocationSchedules; n_ThermalGeneratingUnit]
    [n_FuelAllocationSchedules]
    [(n_FuelAllocationSchedules, PManyOne n_FossilFuel); (n_ThermalGeneratingUnit, POneMany n_FossilFuels)];
(* CIM14/IEC61970/Generation/Production/FuelAllocationSchedule.py:23-100 *)
  Cls n_CIM14_IEC61970_Generation_Production_FuelAllocationSchedule_FuelAllocationSchedule n_FuelAllocationSchedule (Some n_CIM14_IEC61970_Core_Curve_Curve)
    [(n_fuelType, VStr n_lignite); (n_minFuelAllocation, VFloat n_0_0); (n_fuelAllocationStartDate, VStr n_); (n_maxFuelAllocation, VFloat n_0_0); (n_fuelAllocationEndDate, VStr n_); (n_FossilFuel, VNone); (n_ThermalGeneratingUnit, VNone)]
    [SAttr n_fuelType; SAttr n_minFuelAllocation; SAttr n_fuelAllocationStartDate; SAttr n_maxFuelAllocation; SAttr n_fuelAllocationEndDate; SOne n_FossilFuel; SOne n_ThermalGeneratingUnit]
    true true
    [n_fuelType; n_minFuelAllocation; n_fuelAllocationStartDate; n_maxFuelAllocation; n_fuelAllocationEndDate]
    [(n_fuelType, VStr n_lignite); (n_minFuelAllocation, VFloat n_0_0); (n_fuelAllocationStartDate, VStr n_); (n_maxFuelAllocation, VFloat n_0_0); (n_fuelAllocationEndDate, VStr n_)]
    [(n_fuelType, n_FuelType)]
    [n_FossilFuel; n_ThermalGeneratingUnit]
    []
    [(n_FossilFuel, POneMany n_FuelAllocationSchedules); (n_ThermalGeneratingUnit, POneMany n_FuelAllocationSchedules)];
(* CIM14/IEC61970/Generation/Production/GenUnitOpCostCurve.py:23-63 *)
  Cls n_CIM14_IEC61970_Generation_Production_GenUnitOpCostCurve_GenUnitOpCostCurve n_GenUnitOpCostCurve (Some n_CIM14_IEC61970_Core_Curve_Curve)
    [(n_isNetGrossP, VBool false); (n_GeneratingUnit, VNone)]
    [SAttr n_isNetGrossP; SOne n_GeneratingUnit]
    true true
    [n_isNetGrossP]
    [(n_isNetGrossP, VBool false)]
    []
    [n_GeneratingUnit]
    []
    [(n_GeneratingUnit, POneMany n_GenUnitOpCostCurves)];
(* CIM14/IEC61970/Generation/Production/GenUnitOpSchedule.py:23-58 *)
  Cls n_CIM14_IEC61970_Generation_Production_GenUnitOpSchedule_GenUnitOpSchedule n_GenUnitOpSchedule (Some n_CIM14_IEC61970_Core_RegularIntervalSchedule_RegularIntervalSchedule)
    [(n_GeneratingUnit, VNone)]
    [SOne n_GeneratingUnit]
    true true
    []
    []
    []
    [n_GeneratingUnit]
    []
    [(n_GeneratingUnit, POneOne n_GenUnitOpSchedule)];
(* CIM14/IEC61970/Generation/Production/GeneratingUnit.py:23-334 *)
  Cls n_CIM14_IEC61970_Generation_Production_GeneratingUnit_GeneratingUnit n_GeneratingUnit (Some n_CIM14_IEC61970_Core_Equipment_Equipment)
    [(n_genControlMode, VStr n_setpoint); (n_genOperatingMode, VStr n_fixed); (n_genControlSource, VStr n_unavailable); (n_startupTime, VFloat n_0_0); (n_minimumOffTime, VFloat n_0_0); (n_spinReserveRamp, VFloat n_0_0); (n_controlDeadband, VFloat n_0_0); (n_maxOperatingP, VFloat n_0_0); (n_fastStartFlag, VBool false); (n_lowControlLimit, VFloat n_0_0); (n_baseP, VFloat n_0_0); (n_maxEconomicP, VFloat n_0_0); (n_efficiency, VFloat n_0_0); (n_shortPF, VFloat n_0_0); (n_lowerRampRate, VFloat n_0_0); (n_stepChange, VFloat n_0_0); (n_penaltyFactor, VFloat n_0_0); (n_longPF, VFloat n_0_0); (n_ratedGrossMinP, VFloat n_0_0); (n_ratedGrossMaxP, VFloat n_0_0); (n_dispReserveFlag, VBool false); (n_variableCost, VFloat n_0_0); (n_modelDetail, VInt 0); (n_energyMinP, VFloat n_0_0); (n_maximumAllowableSpinningReserve, VFloat n_0_0); (n_fuelPriority, VInt 0); (n_raiseRampRate, VFloat n_0_0); (n_nominalP, VFloat n_0_0); (n_normalPF, VFloat n_0_0); (n_governorMPL, VFloat n_0_0); (n_ratedNetMaxP, VFloat n_0_0); (n_controlResponseRate, VFloat n_0_0); (n_tieLinePF, VFloat n_0_0); (n_governorSCD, VFloat n_0_0); (n_controlPulseLow, VFloat n_0_0); (n_highControlLimit, VFloat n_0_0); (n_initialP, VFloat n_0_0); (n_minEconomicP, VFloat n_0_0); (n_autoCntrlMarginP, VFloat n_0_0); (n_allocSpinResP, VFloat n_0_0); (n_startupCost, VFloat n_0_0); (n_minOperatingP, VFloat n_0_0); (n_controlPulseHigh, VFloat n_0_0); (n_SynchronousMachines, VNone); (n_GrossToNetActivePowerCurves, VNone); (n_GenUnitOpCostCurves, VNone); (n_GenUnitOpSchedule, VNone); (n_ControlAreaGeneratingUnit, VNone)]
    [SAttr n_genControlMode; SAttr n_genOperatingMode; SAttr n_genControlSource; SAttr n_startupTime; SAttr n_minimumOffTime; SAttr n_spinReserveRamp; SAttr n_controlDeadband; SAttr n_maxOperatingP; SAttr n_fastStartFlag; SAttr n_lowControlLimit; SAttr n_baseP; SAttr n_maxEconomicP; SAttr n_efficiency; SAttr n_shortPF; SAttr n_lowerRampRate; SAttr n_stepChange; SAttr n_penaltyFactor; SAttr n_longPF; SAttr n_ratedGrossMinP; SAttr n_ratedGrossMaxP; SAttr n_dispReserveFlag; SAttr n_variableCost; SAttr n_modelDetail; SAttr n_energyMinP; SAttr n_maximumAllowableSpinningReserve; SAttr n_fuelPriority; SAttr n_raiseRampRate; SAttr n_nominalP; SAttr n_normalPF; SAttr n_governorMPL; SAttr n_ratedNetMaxP; SAttr n_controlResponseRate; SAttr n_tieLinePF; SAttr n_governorSCD; SAttr n_controlPulseLow; SAttr n_highControlLimit; SAttr n_initialP; SAttr n_minEconomicP; SAttr n_autoCntrlMarginP; SAttr n_allocSpinResP; SAttr n_startupCost; SAttr n_minOperatingP; SAttr n_controlPulseHigh; SMany n_SynchronousMachines; SMany n_GrossToNetActivePowerCurves; SMany n_GenUnitOpCostCurves; SOne n_GenUnitOpSchedule; SMany n_ControlAreaGeneratingUnit]
    true true
    [n_genControlMode; n_genOperatingMode; n_genControlSource; n_startupTime; n_minimumOffTime; n_spinReserveRamp; n_controlDeadband; n_maxOperatingP; n_fastStartFlag; n_lowControlLimit; n_baseP; n_maxEconomicP; n_efficiency; n_shortPF; n_lowerRampRate; n_stepChange; n_penaltyFactor; n_longPF; n_ratedGrossMinP; n_ratedGrossMaxP; n_dispReserveFlag; n_variableCost; n_modelDetail; n_energyMinP; n_maximumAllowableSpinningReserve; n_fuelPriority; n_raiseRampRate; n_nominalP; n_normalPF; n_governorMPL; n_ratedNetMaxP; n_controlResponseRate; n_tieLinePF; n_governorSCD; n_controlPulseLow; n_highControlLimit; n_initialP; n_minEconomicP; n_autoCntrlMarginP; n_allocSpinResP; n_startupCost; n_minOperatingP; n_controlPulseHigh]
    [(n_genControlMode, VStr n_setpoint); (n_genOperatingMode, VStr n_fixed); (n_genControlSource, VStr n_unavailable); (n_startupTime, VFloat n_0_0); (n_minimumOffTime, VFloat n_0_0); (n_spinReserveRamp, VFloat n_0_0); (n_controlDeadband, VFloat n_0_0); (n_maxOperatingP, VFloat n_0_0); (n_fastStartFlag, VBool false); (n_lowControlLimit, VFloat n_0_0); (n_baseP, VFloat n_0_0); (n_maxEconomicP, VFloat n_0_0); (n_efficiency, VFloat n_0_0); (n_shortPF, VFloat n_0_0); (n_lowerRampRate, VFloat n_0_0); (n_stepChange, VFloat n_0_0); (n_penaltyFactor, VFloat n_0_0); (n_longPF, VFloat n_0_0); (n_ratedGrossMinP, VFloat n_0_0); (n_ratedGrossMaxP, VFloat n_0_0); (n_dispReserveFlag, VBool false); (n_variableCost, VFloat n_0_0); (n_modelDetail, VInt 0); (n_energyMinP, VFloat n_0_0); (n_maximumAllowableSpinningReserve, VFloat n_0_0); (n_fuelPriority, VInt 0); (n_raiseRampRate, VFloat n_0_0); (n_nominalP, VFloat n_0_0); (n_normalPF, VFloat n_0_0); (n_governorMPL, VFloat n_0_0); (n_ratedNetMaxP, VFloat n_0_0); (n_controlResponseRate, VFloat n_0_0); (n_tieLinePF, VFloat n_0_0); (n_governorSCD, VFloat n_0_0); (n_controlPulseLow, VFloat n_0_0); (n_highControlLimit, VFloat n_0_0); (n_initialP, VFloat n_0_0); (n_minEconomicP, VFloat n_0_0); (n_autoCntrlMarginP, VFloat n_0_0); (n_allocSpinResP, VFloat n_0_0); (n_startupCost, VFloat n_0_0); (n_minOperatingP, VFloat n_0_0); (n_controlPulseHigh, VFloat n_0_0)]
    [(n_genControlMode, n_GeneratorControlMode); (n_genOperatingMode, n_GeneratorOperatingMode); (n_genControlSource, n_GeneratorControlSource)]
    [n_SynchronousMachines; n_GrossToNetActivePowerCurves; n_GenUnitOpCostCurves; n_GenUnitOpSchedule; n_ControlAreaGeneratingUnit]
    [n_SynchronousMachines; n_GrossToNetActivePowerCurves; n_GenUnitOpCostCurves; n_ControlAreaGeneratingUnit]
    [(n_SynchronousMachines, PManyOne n_GeneratingUnit); (n_GrossToNetActivePowerCurves, PManyOne n_GeneratingUnit); (n_GenUnitOpCostCurves, PManyOne n_GeneratingUnit); (n_GenUnitOpSchedule, POneOne n_GeneratingUnit); (n_ControlAreaGeneratingUnit, PManyOne n_GeneratingUnit)];
(* CIM14/IEC61970/Generation/Production/GrossToNetActivePowerCurve.py:23-59 *)
  Cls n_CIM14_IEC61970_Generation_Production_GrossToNetActivePowerCurve_GrossToNetActivePowerCurve n_GrossToNetActivePowerCurve (Some n_CIM14_IEC61970_Core_Curve_Curve)
    [(n_GeneratingUnit, VNone)]
    [SOne n_GeneratingUnit]
    true true
    []
    []
    []
    [n_GeneratingUnit]
    []
    [(n_GeneratingUnit, POneMany n_GrossToNetActivePowerCurves)];
(* CIM14/IEC61970/Generation/Production/HeatInputCurve.py:23-78 *)
  Cls n_CIM14_IEC61970_Generation_Production_HeatInputCurve_HeatInputCurve n_HeatInputCurve (Some n_CIM14_IEC61970_Core_Curve_Curve)
    [(n_heatInputEff, VFloat n_0_0); (n_auxPowerMult, VFloat n_0_0); (n_heatInputOffset, VFloat n_0_0); (n_isNetGrossP, VBool false); (n_auxPowerOffset, VFloat n_0_0); (n_ThermalGeneratingUnit, VNone)]
    [SAttr n_heatInputEff; SAttr n_auxPowerMult; SAttr n_heatInputOffset; SAttr n_isNetGrossP; SAttr n_auxPowerOffset; SOne n_ThermalGeneratingUnit]
    true true
    [n_heatInputEff; n_auxPowerMult; n_heatInputOffset; n_isNetGrossP; n_auxPowerOffset]
    [(n_heatInputEff, VFloat n_0_0); (n_auxPowerMult, VFloat n_0_0); (n_heatInputOffset, VFloat n_0_0); (n_isNetGrossP, VBool false); (n_auxPowerOffset, VFloat n_0_0)]
    []
    [n_ThermalGeneratingUnit]
    []
    [(n_ThermalGeneratingUnit, POneOne n_HeatInputCurve)];
(* CIM14/IEC61970/Generation/Production/HeatRateCurve.py:23-62 *)
  Cls n_CIM14_IEC61970_Generation_Production_HeatRateCurve_HeatRateCurve n_HeatRateCurve (Some n_CIM14_IEC61970_Core_Curve_Curve)
    [(n_isNetGrossP, VBool false); (n_ThermalGeneratingUnit, VNone)]
    [SAttr n_isNetGrossP; SOne n_ThermalGeneratingUnit]
    true true
    [n_isNetGrossP]
    [(n_isNetGrossP, VBool false)]
    []
    [n_ThermalGeneratingUnit]
    []
    [(n_ThermalGeneratingUnit, POneOne n_HeatRateCurve)];
(* CIM14/IEC61970/Generation/Production/HydroGeneratingEfficiencyCurve.py:23-59 *)
  Cls n_CIM14_IEC61970_Generation_Production_HydroGeneratingEfficiencyCurve_HydroGeneratingEfficiencyCurve n_HydroGeneratingEfficiencyCurve (Some n_CIM14_IEC61970_Core_Curve_Curve)
    [(n_HydroGeneratingUnit, VNone)]
    [SOne n_HydroGeneratingUnit]
    true true
    []
    []
    []
    [n_HydroGeneratingUnit]
    []
    [(n_HydroGeneratingUnit, POneMany n_HydroGeneratingEfficiencyCurves)];
(* CIM14/IEC61970/Generation/Production/HydroGeneratingUnit.py:23-139 *)
  Cls n_CIM14_IEC61970_Generation_Production_HydroGeneratingUnit_HydroGeneratingUnit n_HydroGeneratingUnit (Some n_CIM14_IEC61970_Generation_Production_GeneratingUnit_GeneratingUnit)
    [(n_energyConversionCapability, VStr n_generator); (n_hydroUnitWaterCost, VFloat n_0_0); (n_HydroPowerPlant, VNone); (n_PenstockLossCurve, VNone); (n_HydroGeneratingEfficiencyCurves, VNone); (n_TailbayLossCurve, VNone)]
    [SAttr n_energyConversionCapability; SAttr n_hydroUnitWaterCost; SOne n_HydroPowerPlant; SOne n_PenstockLossCurve; SMany n_HydroGeneratingEfficiencyCurves; SMany n_TailbayLossCurve]
    true true
    [n_energyConversionCapability; n_hydroUnitWaterCost]
    [(n_energyConversionCapability, VStr n_generator); (n_hydroUnitWaterCost, VFloat n_0_0)]
    [(n_energyConversionCapability, n_HydroEnergyConversionKind)]
    [n_HydroPowerPlant; n_PenstockLossCurve; n_HydroGeneratingEfficiencyCurves; n_TailbayLossCurve]
    [n_HydroGeneratingEfficiencyCurves; n_TailbayLossCurve]
    [(n_HydroPowerPlant, POneMany n_HydroGeneratingUnits); (n_PenstockLossCurve, POneOne n_HydroGeneratingUnit); (n_HydroGeneratingEfficiencyCurves, PManyOne n_HydroGeneratingUnit); (n_TailbayLossCurve, PManyOne n_HydroGeneratingUnit)];
(* CIM14/IEC61970/Generation/Production/HydroPowerPlant.py:23-168 *)
  Cls n_CIM14_IEC61970_Generation_Production_HydroPowerPlant_HydroPowerPlant n_HydroPowerPlant (Some n_CIM14_IEC61970_Core_PowerSystemResource_PowerSystemResource)
    [(n_hydroPlantType, VStr n_runOfRiver); (n_penstockType, VStr n_); (n_surgeTankCode, VStr n_); (n_plantRatedHead, VFloat n_0_0); (n_plantDischargeCapacity, VFloat n_0_0); (n_surgeTankCrestLevel, VFloat n_0_0); (n_dischargeTravelDelay, VFloat n_0_0); (n_pumpRatedP, VFloat n_0_0); (n_genRatedP, VFloat n_0_0); (n_HydroGeneratingUnits, VNone); (n_HydroPumps, VNone); (n_Reservoir, VNone); (n_GenSourcePumpDischargeReservoir, VNone)]
    [SAttr n_hydroPlantType; SAttr n_penstockType; SAttr n_surgeTankCode; SAttr n_plantRatedHead; SAttr n_plantDischargeCapacity; SAttr n_surgeTankCrestLevel; SAttr n_dischargeTravelDelay; SAttr n_pumpRatedP; SAttr n_genRatedP; SMany n_HydroGeneratingUnits; SMany n_HydroPumps; SOne n_Reservoir; SOne n_GenSourcePumpDischargeReservoir]
    true true
    [n_hydroPlantType; n_penstockType; n_surgeTankCode; n_plantRatedHead; n_plantDischargeCapacity; n_surgeTankCrestLevel; n_dischargeTravelDelay; n_pumpRatedP; n_genRatedP]
    [(n_hydroPlantType, VStr n_runOfRiver); (n_penstockType, VStr n_); (n_surgeTankCode, VStr n_); (n_plantRatedHead, VFloat n_0_0); (n_plantDischargeCapacity, VFloat n_0_0); (n_surgeTankCrestLevel, VFloat n_0_0); (n_dischargeTravelDelay, VFloat n_0_0); (n_pumpRatedP, VFloat n_0_0); (n_genRatedP, VFloat n_0_0)]
    [(n_hydroPlantType, n_HydroPlantType); (n_penstockType, n_PenstockType); (n_surgeTankCode, n_SurgeTankCode)]
    [n_HydroGeneratingUnits; n_HydroPumps; n_Reservoir; n_GenSourcePumpDischargeReservoir]
    [n_HydroGeneratingUnits; n_HydroPumps]
    [(n_HydroGeneratingUnits, PManyOne n_HydroPowerPlant); (n_HydroPumps, PManyOne n_HydroPowerPlant); (n_Reservoir, POneMany n_HydroPowerPlants); (n_GenSourcePumpDischargeReservoir, POneMany n_UpstreamFromHydroPowerPlants)];
(* CIM14/IEC61970/Generation/Production/HydroPump.py:23-115 *)
  Cls n_CIM14_IEC61970_Generation_Production_HydroPump_HydroPump n_HydroPump (Some n_CIM14_IEC61970_Core_PowerSystemResource_PowerSystemResource)
    [(n_pumpPowerAtMaxHead, VFloat n_0_0); (n_pumpPowerAtMinHead, VFloat n_0_0); (n_pumpDischAtMinHead, VFloat n_0_0); (n_pumpDischAtMaxHead, VFloat n_0_0); (n_SynchronousMachine, VNone); (n_HydroPumpOpSchedule, VNone); (n_HydroPowerPlant, VNone)]
    [SAttr n_pumpPowerAtMaxHead; SAttr n_pumpPowerAtMinHead; SAttr n_pumpDischAtMinHead; SAttr n_pumpDischAtMaxHead; SOne n_SynchronousMachine; SOne n_HydroPumpOpSchedule; SOne n_HydroPowerPlant]
    true true
    [n_pumpPowerAtMaxHead; n_pumpPowerAtMinHead; n_pumpDischAtMinHead; n_pumpDischAtMaxHead]
    [(n_pumpPowerAtMaxHead, VFloat n_0_0); (n_pumpPowerAtMinHead, VFloat n_0_0); (n_pumpDischAtMinHead, VFloat n_0_0); (n_pumpDischAtMaxHead, VFloat n_0_0)]
    []
    [n_SynchronousMachine; n_HydroPumpOpSchedule; n_HydroPowerPlant]
    []
    [(n_SynchronousMachine, POneOne n_HydroPump); (n_HydroPumpOpSchedule, POneOne n_HydroPump); (n_HydroPowerPlant, POneMany n_HydroPumps)];
(* CIM14/IEC61970/Generation/Production/HydroPumpOpSchedule.py:23-58 *)
  Cls n_CIM14_IEC61970_Generation_Production_HydroPumpOpSchedule_HydroPumpOpSchedule n_HydroPumpOpSchedule (Some n_CIM14_IEC61970_Core_RegularIntervalSchedule_RegularIntervalSchedule)
    [(n_HydroPump, VNone)]
    [SOne n_HydroPump]
    true true
    []
    []
    []
    [n_HydroPump]
    []
    [(n_HydroPump, POneOne n_HydroPumpOpSchedule)];
(* CIM14/IEC61970/Generation/Production/IncrementalHeatRateCurve.py:23-62 *)
  Cls n_CIM14_IEC61970_Generation_Production_IncrementalHeatRateCurve_IncrementalHeatRateCurve n_IncrementalHeatRateCurve (Some n_CIM14_IEC61970_Core_Curve_Curve)
    [(n_isNetGrossP, VBool false); (n_ThermalGeneratingUnit, VNone)]
    [SAttr n_isNetGrossP; SOne n_ThermalGeneratingUnit]
    true true
    [n_isNetGrossP]
    [(n_isNetGrossP, VBool false)]
    []
    [n_ThermalGeneratingUnit]
    []
    [(n_ThermalGeneratingUnit, POneOne n_IncrementalHeatRateCurve)];
(* CIM14/IEC61970/Generation/Production/InflowForecast.py:23-59 *)
  Cls n_CIM14_IEC61970_Generation_Production_InflowForecast_InflowForecast n_InflowForecast (Some n_CIM14_IEC61970_Core_RegularIntervalSchedule_RegularIntervalSchedule)
    [(n_Reservoir, VNone)]
    [SOne n_Reservoir]
    true true
    []
    []
    []
    [n_Reservoir]
    []
    [(n_Reservoir, POneMany n_InflowForecasts)];
(* CIM14/IEC61970/Generation/Production/LevelVsVolumeCurve.py:23-59 *)
  Cls n_CIM14_IEC61970_Generation_Production_LevelVsVolumeCurve_LevelVsVolumeCurve n_LevelVsVolumeCurve (Some n_CIM14_IEC61970_Core_Curve_Curve)
    [(n_Reservoir, VNone)]
    [SOne n_Reservoir]
    true true
    []
    []
    []
    [n_Reservoir]
    []
    [(n_Reservoir, POneMany n_LevelVsVolumeCurves)];
(* CIM14/IEC61970/Generation/Production/NuclearGeneratingUnit.py:23-38 *)
  Cls n_CIM14_IEC61970_Generation_Production_NuclearGeneratingUnit_NuclearGeneratingUnit n_NuclearGeneratingUnit (Some n_CIM14_IEC61970_Generation_Production_GeneratingUnit_GeneratingUnit)
    []
    []
    true true
    []
    []
    []
    []
    []
    [];
(* CIM14/IEC61970/Generation/Production/PenstockLossCurve.py:23-58 *)
  Cls n_CIM14_IEC61970_Generation_Production_PenstockLossCurve_PenstockLossCurve n_PenstockLossCurve (Some n_CIM14_IEC61970_Core_Curve_Curve)
    [(n_HydroGeneratingUnit, VNone)]
    [SOne n_HydroGeneratingUnit]
    true true
    []
    []
    []
    [n_HydroGeneratingUnit]
    []
    [(n_HydroGeneratingUnit, POneOne n_PenstockLossCurve)];
(* CIM14/IEC61970/Generation/Production/Reservoir.py:23-253 *)
  Cls n_CIM14_IEC61970_Generation_Production_Reservoir_Reservoir n_Reservoir (Some n_CIM14_IEC61970_Core_PowerSystemResource_PowerSystemResource)
    [(n_spillWayGateType, VStr n_); (n_fullSupplyLevel, VFloat n_0_0); (n_spillTravelDelay, VFloat n_0_0); (n_spillwayCrestLength, VFloat n_0_0); (n_grossCapacity, VFloat n_0_0); (n_riverOutletWorks, VStr n_); (n_spillwayCapacity, VFloat n_0_0); (n_spillwayCrestLevel, VFloat n_0_0); (n_normalMinOperateLevel, VFloat n_0_0); (n_energyStorageRating, VFloat n_0_0); (n_activeStorageCapacity, VFloat n_0_0); (n_LevelVsVolumeCurves, VNone); (n_InflowForecasts, VNone); (n_TargetLevelSchedule, VNone); (n_HydroPowerPlants, VNone); (n_UpstreamFromHydroPowerPlants, VNone); (n_SpillsFromReservoir, VNone); (n_SpillsIntoReservoirs, VNone)]
    [SAttr n_spillWayGateType; SAttr n_fullSupplyLevel; SAttr n_spillTravelDelay; SAttr n_spillwayCrestLength; SAttr n_grossCapacity; SAttr n_riverOutletWorks; SAttr n_spillwayCapacity; SAttr n_spillwayCrestLevel; SAttr n_normalMinOperateLevel; SAttr n_energyStorageRating; SAttr n_activeStorageCapacity; SMany n_LevelVsVolumeCurves; SMany n_InflowForecasts; SOne n_TargetLevelSchedule; SMany n_HydroPowerPlants; SMany n_UpstreamFromHydroPowerPlants; SOne n_SpillsFromReservoir; SMany n_SpillsIntoReservoirs]
    true true
    [n_spillWayGateType; n_fullSupplyLevel; n_spillTravelDelay; n_spillwayCrestLength; n_grossCapacity; n_riverOutletWorks; n_spillwayCapacity; n_spillwayCrestLevel; n_normalMinOperateLevel; n_energyStorageRating; n_activeStorageCapacity]
    [(n_spillWayGateType, VStr n_); (n_fullSupplyLevel, VFloat n_0_0); (n_spillTravelDelay, VFloat n_0_0); (n_spillwayCrestLength, VFloat n_0_0); (n_grossCapacity, VFloat n_0_0); (n_riverOutletWorks, VStr n_); (n_spillwayCapacity, VFloat n_0_0); (n_spillwayCrestLevel, VFloat n_0_0); (n_normalMinOperateLevel, VFloat n_0_0); (n_energyStorageRating, VFloat n_0_0); (n_activeStorageCapacity, VFloat n_0_0)]
    [(n_spillWayGateType, n_SpillwayGateType)]
    [n_LevelVsVolumeCurves; n_InflowForecasts; n_TargetLevelSchedule; n_HydroPowerPlants; n_UpstreamFromHydroPowerPlants; n_SpillsFromReservoir; n_SpillsIntoReservoirs]
    [n_LevelVsVolumeCurves; n_InflowForecasts; n_HydroPowerPlants; n_UpstreamFromHydroPowerPlants; n_SpillsIntoReservoirs]
    [(n_LevelVsVolumeCurves, PManyOne n_Reservoir); (n_InflowForecasts, PManyOne n_Reservoir); (n_TargetLevelSchedule, POneOne n_Reservoir); (n_HydroPowerPlants, PManyOne n_Reservoir); (n_UpstreamFromHydroPowerPlants, PManyOne n_GenSourcePumpDischargeReservoir); (n_SpillsFromReservoir, POneMany n_SpillsIntoReservoirs); (n_SpillsIntoReservoirs, PManyOne n_SpillsFromReservoir)];
(* CIM14/IEC61970/Generation/Production/ShutdownCurve.py:23-66 *)
  Cls n_CIM14_IEC61970_Generation_Production_ShutdownCurve_ShutdownCurve n_ShutdownCurve (Some n_CIM14_IEC61970_Core_Curve_Curve)
    [(n_shutdownCost, VFloat n_0_0); (n_shutdownDate, VStr n_); (n_ThermalGeneratingUnit, VNone)]
    [SAttr n_shutdownCost; SAttr n_shutdownDate; SOne n_ThermalGeneratingUnit]
    true true
    [n_shutdownCost; n_shutdownDate]
    [(n_shutdownCost, VFloat n_0_0); (n_shutdownDate, VStr n_)]
    []
    [n_ThermalGeneratingUnit]
    []
    [(n_ThermalGeneratingUnit, POneOne n_ShutdownCurve)];
(* CIM14/IEC61970/Generation/Production/StartIgnFuelCurve.py:23-62 *)
  Cls n_CIM14_IEC61970_Generation_Production_StartIgnFuelCurve_StartIgnFuelCurve n_StartIgnFuelCurve (Some n_CIM14_IEC61970_Core_Curve_Curve)
    [(n_ignitionFuelType, VStr n_lignite); (n_StartupModel, VNone)]
    [SAttr n_ignitionFuelType; SOne n_StartupModel]
    true true
    [n_ignitionFuelType]
    [(n_ignitionFuelType, VStr n_lignite)]
    [(n_ignitionFuelType, n_FuelType)]
    [n_StartupModel]
    []
    [(n_StartupModel, POneOne n_StartIgnFuelCurve)];
(* CIM14/IEC61970/Generation/Production/StartMainFuelCurve.py:23-62 *)
  Cls n_CIM14_IEC61970_Generation_Production_StartMainFuelCurve_StartMainFuelCurve n_StartMainFuelCurve (Some n_CIM14_IEC61970_Core_Curve_Curve)
    [(n_mainFuelType, VStr n_lignite); (n_StartupModel, VNone)]
    [SAttr n_mainFuelType; SOne n_StartupModel]
    true true
    [n_mainFuelType]
    [(n_mainFuelType, VStr n_lignite)]
    [(n_mainFuelType, n_FuelType)]
    [n_StartupModel]
    []
    [(n_StartupModel, POneOne n_StartMainFuelCurve)];
(* CIM14/IEC61970/Generation/Production/StartRampCurve.py:23-62 *)
  Cls n_CIM14_IEC61970_Generation_Production_StartRampCurve_StartRampCurve n_StartRampCurve (Some n_CIM14_IEC61970_Core_Curve_Curve)
    [(n_hotStandbyRamp, VFloat n_0_0); (n_StartupModel, VNone)]
    [SAttr n_hotStandbyRamp; SOne n_StartupModel]
    true true
    [n_hotStandbyRamp]
    [(n_hotStandbyRamp, VFloat n_0_0)]
    []
    [n_StartupModel]
    []
    [(n_StartupModel, POneOne n_StartRampCurve)];
(* CIM14/IEC61970/Generation/Production/StartupModel.py:23-158 *)
  Cls n_CIM14_IEC61970_Generation_Production_StartupModel_StartupModel n_StartupModel (Some n_CIM14_IEC61970_Core_IdentifiedObject_IdentifiedObject)
    [(n_stbyAuxP, VFloat n_0_0); (n_incrementalMaintCost, VFloat n_0_0); (n_hotStandbyHeat, VFloat n_0_0); (n_startupPriority, VInt 0); (n_fixedMaintCost, VFloat n_0_0); (n_startupDate, VStr n_); (n_minimumRunTime, VFloat n_0_0); (n_startupCost, VFloat n_0_0); (n_riskFactorCost, VFloat n_0_0); (n_minimumDownTime, VFloat n_0_0); (n_ThermalGeneratingUnit, VNone); (n_StartRampCurve, VNone); (n_StartMainFuelCurve, VNone); (n_StartIgnFuelCurve, VNone)]
    [SAttr n_stbyAuxP; SAttr n_incrementalMaintCost; SAttr n_hotStandbyHeat; SAttr n_startupPriority; SAttr n_fixedMaintCost; SAttr n_startupDate; SAttr n_minimumRunTime; SAttr n_startupCost; SAttr n_riskFactorCost; SAttr n_minimumDownTime; SOne n_ThermalGeneratingUnit; SOne n_StartRampCurve; SOne n_StartMainFuelCurve; SOne n_StartIgnFuelCurve]
    true true
    [n_stbyAuxP; n_incrementalMaintCost; n_hotStandbyHeat; n_startupPriority; n_fixedMaintCost; n_startupDate; n_minimumRunTime; n_startupCost; n_riskFactorCost; n_minimumDownTime]
    [(n_stbyAuxP, VFloat n_0_0); (n_incrementalMaintCost, VFloat n_0_0); (n_hotStandbyHeat, VFloat n_0_0); (n_startupPriority, VInt 0); (n_fixedMaintCost, VFloat n_0_0); (n_startupDate, VStr n_); (n_minimumRunTime, VFloat n_0_0); (n_startupCost, VFloat n_0_0); (n_riskFactorCost, VFloat n_0_0); (n_minimumDownTime, VFloat n_0_0)]
    []
    [n_ThermalGeneratingUnit; n_StartRampCurve; n_StartMainFuelCurve; n_StartIgnFuelCurve]
    []
    [(n_ThermalGeneratingUnit, POneOne n_StartupModel); (n_StartRampCurve, POneOne n_StartupModel); (n_StartMainFuelCurve, POneOne n_StartupModel); (n_StartIgnFuelCurve, POneOne n_StartupModel)];
(* CIM14/IEC61970/Generation/Production/SteamSendoutSchedule.py:23-58 *)
  Cls n_CIM14_IEC61970_Generation_Production_SteamSendoutSchedule_SteamSendoutSchedule n_SteamSendoutSchedule (Some n_CIM14_IEC61970_Core_RegularIntervalSchedule_RegularIntervalSchedule)
    [(n_CogenerationPlant, VNone)]
    [SOne n_CogenerationPlant]
    true true
    []
    []
    []
    [n_CogenerationPlant]
    []
    [(n_CogenerationPlant, POneOne n_SteamSendoutSchedule)];
(* CIM14/IEC61970/Generation/Production/TailbayLossCurve.py:23-59 *)
  Cls n_CIM14_IEC61970_Generation_Production_TailbayLossCurve_TailbayLossCurve n_TailbayLossCurve (Some n_CIM14_IEC61970_Core_Curve_Curve)
    [(n_HydroGeneratingUnit, VNone)]
    [SOne n_HydroGeneratingUnit]
    true true
    []
    []
    []
    [n_HydroGeneratingUnit]
    []
    [(n_HydroGeneratingUnit, POneMany n_TailbayLossCurve)];
(* CIM14/IEC61970/Generation/Production/TargetLevelSchedule.py:23-66 *)
  Cls n_CIM14_IEC61970_Generation_Production_TargetLevelSchedule_TargetLevelSchedule n_TargetLevelSchedule (Some n_CIM14_IEC61970_Core_Curve_Curve)
    [(n_highLevelLimit, VFloat n_0_0); (n_lowLevelLimit, VFloat n_0_0); (n_Reservoir, VNone)]
    [SAttr n_highLevelLimit; SAttr n_lowLevelLimit; SOne n_Reservoir]
    true true
    [n_highLevelLimit; n_lowLevelLimit]
    [(n_highLevelLimit, VFloat n_0_0); (n_lowLevelLimit, VFloat n_0_0)]
    []
    [n_Reservoir]
    []
    [(n_Reservoir, POneOne n_TargetLevelSchedule)];
(* CIM14/IEC61970/Generation/Production/ThermalGeneratingUnit.py:23-308 *)
  Cls n_CIM14_IEC61970_Generation_Production_ThermalGeneratingUnit_ThermalGeneratingUnit n_ThermalGeneratingUnit (Some n_CIM14_IEC61970_Generation_Production_GeneratingUnit_GeneratingUnit)
    [(n_oMCost, VFloat n_0_0); (n_StartupModel, VNone); (n_EmmissionAccounts, VNone); (n_CombinedCyclePlant, VNone); (n_CogenerationPlant, VNone); (n_EmissionCurves, VNone); (n_HeatRateCurve, VNone); (n_ShutdownCurve, VNone); (n_IncrementalHeatRateCurve, VNone); (n_FuelAllocationSchedules, VNone); (n_FossilFuels, VNone); (n_HeatInputCurve, VNone); (n_CAESPlant, VNone)]
    [SAttr n_oMCost; SOne n_StartupModel; SMany n_EmmissionAccounts; SOne n_CombinedCyclePlant; SOne n_CogenerationPlant; SMany n_EmissionCurves; SOne n_HeatRateCurve; SOne n_ShutdownCurve; SOne n_IncrementalHeatRateCurve; SMany n_FuelAllocationSchedules; SMany n_FossilFuels; SOne n_HeatInputCurve; SOne n_CAESPlant]
    true true
    [n_oMCost]
    [(n_oMCost, VFloat n_0_0)]
    []
    [n_StartupModel; n_EmmissionAccounts; n_CombinedCyclePlant; n_CogenerationPlant; n_EmissionCurves; n_HeatRateCurve; n_ShutdownCurve; n_IncrementalHeatRateCurve; n_FuelAllocationSchedules; n_FossilFuels; n_HeatInputCurve; n_CAESPlant]
    [n_EmmissionAccounts; n_EmissionCurves; n_FuelAllocationSchedules; n_FossilFuels]
    [(n_StartupModel, POneOne n_ThermalGeneratingUnit); (n_EmmissionAccounts, PManyOne n_ThermalGeneratingUnit); (n_CombinedCyclePlant, POneMany n_ThermalGeneratingUnits); (n_CogenerationPlant, POneMany n_ThermalGeneratingUnits); (n_EmissionCurves, PManyOne n_ThermalGeneratingUnit); (n_HeatRateCurve, POneOne n_ThermalGeneratingUnit); (n_ShutdownCurve, POneOne n_ThermalGeneratingUnit); (n_IncrementalHeatRateCurve, POneOne n_ThermalGeneratingUnit); (n_FuelAllocationSchedules, PManyOne n_ThermalGeneratingUnit); (n_FossilFuels, PManyOne n_ThermalGeneratingUnit); (n_HeatInputCurve, POneOne n_ThermalGeneratingUnit); (n_CAESPlant, POneOne n_ThermalGeneratingUnit)];
(* CIM14/IEC61970/Generation/Production/WindGeneratingUnit.py:23-38 *)
  Cls n_CIM14_IEC61970_Generation_Production_WindGeneratingUnit_WindGeneratingUnit n_WindGeneratingUnit (Some n_CIM14_IEC61970_Generation_Production_GeneratingUnit_GeneratingUnit)
    []
    []
    true true
    []
    []
    []
    []
    []
    [];
(* CIM14/IEC61970/IEC61970CIMVersion.py:23-46 *)
  Cls n_CIM14_IEC61970_IEC61970CIMVersion_IEC61970CIMVersion n_IEC61970CIMVersion (Some n_CIM14_Element_Element)
    [(n_version, VStr n_); (n_date, VStr n_)]
    [SAttr n_version; SAttr n_date]
    true true
    [n_version; n_date]
    [(n_version, VStr n_); (n_date, VStr n_)]
    []
    []
    []
    [];
(* CIM14/IEC61970/Informative/InfCore/ModelingAuthority.py:23-64 *)
  Cls n_CIM14_IEC61970_Informative_InfCore_ModelingAuthority_ModelingAuthority n_ModelingAuthority (Some n_CIM14_IEC61970_Core_IdentifiedObject_IdentifiedObject)
    [(n_ModelingAuthoritySets, VNone)]
    [SMany n_ModelingAuthoritySets]
    true true
    []
    []
    []
    [n_ModelingAuthoritySets]
    [n_ModelingAuthoritySets]
    [(n_ModelingAuthoritySets, PManyOne n_ModelingAuthority)];
(* CIM14/IEC61970/Informative/InfCore/ModelingAuthoritySet.py:23-85 *)
  Cls n_CIM14_IEC61970_Informative_InfCore_ModelingAuthoritySet_ModelingAuthoritySet n_ModelingAuthoritySet (Some n_CIM14_IEC61970_Core_IdentifiedObject_IdentifiedObject)
    [(n_ModelingAuthority, VNone); (n_IdentifiedObjects, VNone)]
    [SOne n_ModelingAuthority; SMany n_IdentifiedObjects]
    true true
    []
    []
    []
    [n_ModelingAuthority; n_IdentifiedObjects]
    [n_IdentifiedObjects]
    [(n_ModelingAuthority, POneMany n_ModelingAuthoritySets); (n_IdentifiedObjects, PManyOne n_ModelingAuthoritySet)];
(* CIM14/IEC61970/LoadModel/ConformLoad.py:23-59 *)
  Cls n_CIM14_IEC61970_LoadModel_ConformLoad_ConformLoad n_ConformLoad (Some n_CIM14_IEC61970_Wires_EnergyConsumer_EnergyConsumer)
    [(n_LoadGroup, VNone)]
    [SOne n_LoadGroup]
    true true
    []
    []
    []
    [n_LoadGroup]
    []
    [(n_LoadGroup, POneMany n_EnergyConsumers)];
(* CIM14/IEC61970/LoadModel/ConformLoadGroup.py:23-90 *)
  Cls n_CIM14_IEC61970_LoadModel_ConformLoadGroup_ConformLoadGroup n_ConformLoadGroup (Some n_CIM14_IEC61970_LoadModel_LoadGroup_LoadGroup)
    [(n_ConformLoadSchedules, VNone); (n_EnergyConsumers, VNone)]
    [SMany n_ConformLoadSchedules; SMany n_EnergyConsumers]
    true true
    []
    []
    []
    [n_ConformLoadSchedules; n_EnergyConsumers]
    [n_ConformLoadSchedules; n_EnergyConsumers]
    [(n_ConformLoadSchedules, PManyOne n_ConformLoadGroup); (n_EnergyConsumers, PManyOne n_LoadGroup)];
(* CIM14/IEC61970/LoadModel/ConformLoadSchedule.py:23-59 *)
  Cls n_CIM14_IEC61970_LoadModel_ConformLoadSchedule_ConformLoadSchedule n_ConformLoadSchedule (Some n_CIM14_IEC61970_LoadModel_SeasonDayTypeSchedule_SeasonDayTypeSchedule)
    [(n_ConformLoadGroup, VNone)]
    [SOne n_ConformLoadGroup]
    true true
    []
    []
    []
    [n_ConformLoadGroup]
    []
    [(n_ConformLoadGroup, POneMany n_ConformLoadSchedules)];
(* CIM14/IEC61970/LoadModel/DayType.py:23-64 *)
  Cls n_CIM14_IEC61970_LoadModel_DayType_DayType n_DayType (Some n_CIM14_IEC61970_Core_IdentifiedObject_IdentifiedObject)
    [(n_SeasonDayTypeSchedules, VNone)]
    [SMany n_SeasonDayTypeSchedules]
    true true
    []
    []
    []
    [n_SeasonDayTypeSchedules]
    [n_SeasonDayTypeSchedules]
    [(n_SeasonDayTypeSchedules, PManyOne n_DayType)];
(* CIM14/IEC61970/LoadModel/EnergyArea.py:23-58 *)
  Cls n_CIM14_IEC61970_LoadModel_EnergyArea_EnergyArea n_EnergyArea (Some n_CIM14_IEC61970_Core_IdentifiedObject_IdentifiedObject)
    [(n_ControlArea, VNone)]
    [SOne n_ControlArea]
    true true
    []
    []
    []
    [n_ControlArea]
    []
    [(n_ControlArea, POneOne n_EnergyArea)];
(* CIM14/IEC61970/LoadModel/LoadArea.py:23-64 *)
  Cls n_CIM14_IEC61970_LoadModel_LoadArea_LoadArea n_LoadArea (Some n_CIM14_IEC61970_LoadModel_EnergyArea_EnergyArea)
    [(n_SubLoadAreas, VNone)]
    [SMany n_SubLoadAreas]
    true true
    []
    []
    []
    [n_SubLoadAreas]
    [n_SubLoadAreas]
    [(n_SubLoadAreas, PManyOne n_LoadArea)];
(* CIM14/IEC61970/LoadModel/LoadGroup.py:23-59 *)
  Cls n_CIM14_IEC61970_LoadModel_LoadGroup_LoadGroup n_LoadGroup (Some n_CIM14_IEC61970_Core_IdentifiedObject_IdentifiedObject)
    [(n_SubLoadArea, VNone)]
    [SOne n_SubLoadArea]
    true true
    []
    []
    []
    [n_SubLoadArea]
    []
    [(n_SubLoadArea, POneMany n_LoadGroups)];
(* CIM14/IEC61970/LoadModel/LoadResponseCharacteristic.py:23-108 *)
  Cls n_CIM14_IEC61970_LoadModel_LoadResponseCharacteristic_LoadResponseCharacteristic n_LoadResponseCharacteristic (Some n_CIM14_IEC61970_Core_IdentifiedObject_IdentifiedObject)
    [(n_pFrequencyExponent, VFloat n_0_0); (n_qFrequencyExponent, VFloat n_0_0); (n_pConstantPower, VFloat n_0_0); (n_pConstantCurrent, VFloat n_0_0); (n_pVoltageExponent, VFloat n_0_0); (n_pConstantImpedance, VFloat n_0_0); (n_qConstantImpedance, VFloat n_0_0); (n_qConstantPower, VFloat n_0_0); (n_qVoltageExponent, VFloat n_0_0); (n_exponentModel, VBool false); (n_qConstantCurrent, VFloat n_0_0); (n_EnergyConsumer, VNone)]
    [SAttr n_pFrequencyExponent; SAttr n_qFrequencyExponent; SAttr n_pConstantPower; SAttr n_pConstantCurrent; SAttr n_pVoltageExponent; SAttr n_pConstantImpedance; SAttr n_qConstantImpedance; SAttr n_qConstantPower; SAttr n_qVoltageExponent; SAttr n_exponentModel; SAttr n_qConstantCurrent; SMany n_EnergyConsumer]
    true true
    [n_pFrequencyExponent; n_qFrequencyExponent; n_pConstantPower; n_pConstantCurrent; n_pVoltageExponent; n_pConstantImpedance; n_qConstantImpedance; n_qConstantPower; n_qVoltageExponent; n_exponentModel; n_qConstantCurrent]
    [(n_pFrequencyExponent, VFloat n_0_0); (n_qFrequencyExponent, VFloat n_0_0); (n_pConstantPower, VFloat n_0_0); (n_pConstantCurrent, VFloat n_0_0); (n_pVoltageExponent, VFloat n_0_0); (n_pConstantImpedance, VFloat n_0_0); (n_qConstantImpedance, VFloat n_0_0); (n_qConstantPower, VFloat n_0_0); (n_qVoltageExponent, VFloat n_0_0); (n_exponentModel, VBool false); (n_qConstantCurrent, VFloat n_0_0)]
    []
    [n_EnergyConsumer]
    [n_EnergyConsumer]
    [(n_EnergyConsumer, PManyOne n_LoadResponse)];
(* CIM14/IEC61970/LoadModel/NonConformLoad.py:23-59 *)
  Cls n_CIM14_IEC61970_LoadModel_NonConformLoad_NonConformLoad n_NonConformLoad (Some n_CIM14_IEC61970_Wires_EnergyConsumer_EnergyConsumer)
    [(n_LoadGroup, VNone)]
    [SOne n_LoadGroup]
    true true
    []
    []
    []
    [n_LoadGroup]
    []
    [(n_LoadGroup, POneMany n_EnergyConsumers)];
(* CIM14/IEC61970/LoadModel/NonConformLoadGroup.py:23-90 *)
  Cls n_CIM14_IEC61970_LoadModel_NonConformLoadGroup_NonConformLoadGroup n_NonConformLoadGroup (Some n_CIM14_IEC61970_LoadModel_LoadGroup_LoadGroup)
    [(n_EnergyConsumers, VNone); (n_NonConformLoadSchedules, VNone)]
    [SMany n_EnergyConsumers; SMany n_NonConformLoadSchedules]
    true true
    []
    []
    []
    [n_EnergyConsumers; n_NonConformLoadSchedules]
    [n_EnergyConsumers; n_NonConformLoadSchedules]
    [(n_EnergyConsumers, PManyOne n_LoadGroup); (n_NonConformLoadSchedules, PManyOne n_NonConformLoadGroup)];
(* CIM14/IEC61970/LoadModel/NonConformLoadSchedule.py:23-59 *)
  Cls n_CIM14_IEC61970_LoadModel_NonConformLoadSchedule_NonConformLoadSchedule n_NonConformLoadSchedule (Some n_CIM14_IEC61970_LoadModel_SeasonDayTypeSchedule_SeasonDayTypeSchedule)
    [(n_NonConformLoadGroup, VNone)]
    [SOne n_NonConformLoadGroup]
    true true
    []
    []
    []
    [n_NonConformLoadGroup]
    []
    [(n_NonConformLoadGroup, POneMany n_NonConformLoadSchedules)];
(* CIM14/IEC61970/LoadModel/PowerCutZone.py:23-72 *)
  Cls n_CIM14_IEC61970_LoadModel_PowerCutZone_PowerCutZone n_PowerCutZone (Some n_CIM14_IEC61970_Core_PowerSystemResource_PowerSystemResource)
    [(n_cutLevel1, VFloat n_0_0); (n_cutLevel2, VFloat n_0_0); (n_EnergyConsumers, VNone)]
    [SAttr n_cutLevel1; SAttr n_cutLevel2; SMany n_EnergyConsumers]
    true true
    [n_cutLevel1; n_cutLevel2]
    [(n_cutLevel1, VFloat n_0_0); (n_cutLevel2, VFloat n_0_0)]
    []
    [n_EnergyConsumers]
    [n_EnergyConsumers]
    [(n_EnergyConsumers, PManyOne n_PowerCutZone)];
(* CIM14/IEC61970/LoadModel/Season.py:23-76 *)
  Cls n_CIM14_IEC61970_LoadModel_Season_Season n_Season (Some n_CIM14_Element_Element)
    [(n_name, VStr n_fall); (n_startDate, VStr n_); (n_endDate, VStr n_); (n_SeasonDayTypeSchedules, VNone)]
    [SAttr n_name; SAttr n_startDate; SAttr n_endDate; SMany n_SeasonDayTypeSchedules]
    true true
    [n_name; n_startDate; n_endDate]
    [(n_name, VStr n_fall); (n_startDate, VStr n_); (n_endDate, VStr n_)]
    [(n_name, n_SeasonName)]
    [n_SeasonDayTypeSchedules]
    [n_SeasonDayTypeSchedules]
    [(n_SeasonDayTypeSchedules, PManyOne n_Season)];
(* CIM14/IEC61970/LoadModel/SeasonDayTypeSchedule.py:23-80 *)
  Cls n_CIM14_IEC61970_LoadModel_SeasonDayTypeSchedule_SeasonDayTypeSchedule n_SeasonDayTypeSchedule (Some n_CIM14_IEC61970_Core_RegularIntervalSchedule_RegularIntervalSchedule)
    [(n_Season, VNone); (n_DayType, VNone)]
    [SOne n_Season; SOne n_DayType]
    true true
    []
    []
    []
    [n_Season; n_DayType]
    []
    [(n_Season, POneMany n_SeasonDayTypeSchedules); (n_DayType, POneMany n_SeasonDayTypeSchedules)];
(* CIM14/IEC61970/LoadModel/StationSupply.py:23-38 *)
  Cls n_CIM14_IEC61970_LoadModel_StationSupply_StationSupply n_StationSupply (Some n_CIM14_IEC61970_Wires_EnergyConsumer_EnergyConsumer)
    []
    []
    true true
    []
    []
    []
    []
    []
    [];
(* CIM14/IEC61970/LoadModel/SubLoadArea.py:23-85 *)
  Cls n_CIM14_IEC61970_LoadModel_SubLoadArea_SubLoadArea n_SubLoadArea (Some n_CIM14_IEC61970_LoadModel_EnergyArea_EnergyArea)
    [(n_LoadGroups, VNone); (n_LoadArea, VNone)]
    [SMany n_LoadGroups; SOne n_LoadArea]
    true true
    []
    []
    []
    [n_LoadGroups; n_LoadArea]
    [n_LoadGroups]
    [(n_LoadGroups, PManyOne n_SubLoadArea); (n_LoadArea, POneMany n_SubLoadAreas)];
(* CIM14/IEC61970/Meas/Accumulator.py:23-100 *)
  Cls n_CIM14_IEC61970_Meas_Accumulator_Accumulator n_Accumulator (Some n_CIM14_IEC61970_Meas_Measurement_Measurement)
    [(n_maxValue, VInt 0); (n_LimitSets, VNone); (n_AccumulatorValues, VNone)]
    [SAttr n_maxValue; SMany n_LimitSets; SMany n_AccumulatorValues]
    true true
    [n_maxValue]
    [(n_maxValue, VInt 0)]
    []
    [n_LimitSets; n_AccumulatorValues]
    [n_LimitSets; n_AccumulatorValues]
    [(n_LimitSets, PManyMany n_Measurements); (n_AccumulatorValues, PManyOne n_Accumulator)];
(* CIM14/IEC61970/Meas/AccumulatorLimit.py:23-63 *)
  Cls n_CIM14_IEC61970_Meas_AccumulatorLimit_AccumulatorLimit n_AccumulatorLimit (Some n_CIM14_IEC61970_Meas_Limit_Limit)
    [(n_value, VInt 0); (n_LimitSet, VNone)]
    [SAttr n_value; SOne n_LimitSet]
    true true
    [n_value]
    [(n_value, VInt 0)]
    []
    [n_LimitSet]
    []
    [(n_LimitSet, POneMany n_Limits)];
(* CIM14/IEC61970/Meas/AccumulatorLimitSet.py:23-96 *)
  Cls n_CIM14_IEC61970_Meas_AccumulatorLimitSet_AccumulatorLimitSet n_AccumulatorLimitSet (Some n_CIM14_IEC61970_Meas_LimitSet_LimitSet)
    [(n_Measurements, VNone); (n_Limits, VNone)]
    [SMany n_Measurements; SMany n_Limits]
    true true
    []
    []
    []
    [n_Measurements; n_Limits]
    [n_Measurements; n_Limits]
    [(n_Measurements, PManyMany n_LimitSets); (n_Limits, PManyOne n_LimitSet)];
(* CIM14/IEC61970/Meas/AccumulatorValue.py:23-63 *)
  Cls n_CIM14_IEC61970_Meas_AccumulatorValue_AccumulatorValue n_AccumulatorValue (Some n_CIM14_IEC61970_Meas_MeasurementValue_MeasurementValue)
    [(n_value, VInt 0); (n_Accumulator, VNone)]
    [SAttr n_value; SOne n_Accumulator]
    true true
    [n_value]
    [(n_value, VInt 0)]
    []
    [n_Accumulator]
    []
    [(n_Accumulator, POneMany n_AccumulatorValues)];
(* CIM14/IEC61970/Meas/Analog.py:23-132 *)
  Cls n_CIM14_IEC61970_Meas_Analog_Analog n_Analog (Some n_CIM14_IEC61970_Meas_Measurement_Measurement)
    [(n_positiveFlowIn, VBool false); (n_minValue, VFloat n_0_0); (n_maxValue, VFloat n_0_0); (n_normalValue, VFloat n_0_0); (n_LimitSets, VNone); (n_SetPoint, VNone); (n_AnalogValues, VNone)]
    [SAttr n_positiveFlowIn; SAttr n_minValue; SAttr n_maxValue; SAttr n_normalValue; SMany n_LimitSets; SOne n_SetPoint; SMany n_AnalogValues]
    true true
    [n_positiveFlowIn; n_minValue; n_maxValue; n_normalValue]
    [(n_positiveFlowIn, VBool false); (n_minValue, VFloat n_0_0); (n_maxValue, VFloat n_0_0); (n_normalValue, VFloat n_0_0)]
    []
    [n_LimitSets; n_SetPoint; n_AnalogValues]
    [n_LimitSets; n_AnalogValues]
    [(n_LimitSets, PManyMany n_Measurements); (n_SetPoint, POneOne n_Analog); (n_AnalogValues, PManyOne n_Analog)];
(* CIM14/IEC61970/Meas/AnalogLimit.py:23-63 *)
  Cls n_CIM14_IEC61970_Meas_AnalogLimit_AnalogLimit n_AnalogLimit (Some n_CIM14_IEC61970_Meas_Limit_Limit)
    [(n_value, VFloat n_0_0); (n_LimitSet, VNone)]
    [SAttr n_value; SOne n_LimitSet]
    true true
    [n_value]
    [(n_value, VFloat n_0_0)]
    []
    [n_LimitSet]
    []
    [(n_LimitSet, POneMany n_Limits)];
(* CIM14/IEC61970/Meas/AnalogLimitSet.py:23-96 *)
  Cls n_CIM14_IEC61970_Meas_AnalogLimitSet_AnalogLimitSet n_AnalogLimitSet (Some n_CIM14_IEC61970_Meas_LimitSet_LimitSet)
    [(n_Measurements, VNone); (n_Limits, VNone)]
    [SMany n_Measurements; SMany n_Limits]
    true true
    []
    []
    []
    [n_Measurements; n_Limits]
    [n_Measurements; n_Limits]
    [(n_Measurements, PManyMany n_LimitSets); (n_Limits, PManyOne n_LimitSet)];
(* CIM14/IEC61970/Meas/AnalogValue.py:23-115 *)
  Cls n_CIM14_IEC61970_Meas_AnalogValue_AnalogValue n_AnalogValue (Some n_CIM14_IEC61970_Meas_MeasurementValue_MeasurementValue)
    [(n_value, VFloat n_0_0); (n_AltTieMeas, VNone); (n_Analog, VNone); (n_AltGeneratingUnit, VNone)]
    [SAttr n_value; SMany n_AltTieMeas; SOne n_Analog; SMany n_AltGeneratingUnit]
    true true
    [n_value]
    [(n_value, VFloat n_0_0)]
    []
    [n_AltTieMeas; n_Analog; n_AltGeneratingUnit]
    [n_AltTieMeas; n_AltGeneratingUnit]
    [(n_AltTieMeas, PManyOne n_AnalogValue); (n_Analog, POneMany n_AnalogValues); (n_AltGeneratingUnit, PManyOne n_AnalogValue)];
(* CIM14/IEC61970/Meas/Command.py:23-87 *)
  Cls n_CIM14_IEC61970_Meas_Command_Command n_Command (Some n_CIM14_IEC61970_Meas_Control_Control)
    [(n_value, VInt 0); (n_normalValue, VInt 0); (n_ValueAliasSet, VNone); (n_Discrete, VNone)]
    [SAttr n_value; SAttr n_normalValue; SOne n_ValueAliasSet; SOne n_Discrete]
    true true
    [n_value; n_normalValue]
    [(n_value, VInt 0); (n_normalValue, VInt 0)]
    []
    [n_ValueAliasSet; n_Discrete]
    []
    [(n_ValueAliasSet, POneMany n_Commands); (n_Discrete, POneOne n_Command)];
(* CIM14/IEC61970/Meas/Control.py:23-129 *)
  Cls n_CIM14_IEC61970_Meas_Control_Control n_Control (Some n_CIM14_IEC61970_Core_IdentifiedObject_IdentifiedObject)
    [(n_timeStamp, VStr n_); (n_operationInProgress, VBool false); (n_Unit, VNone); (n_RegulatingCondEq, VNone); (n_ControlType, VNone); (n_RemoteControl, VNone)]
    [SAttr n_timeStamp; SAttr n_operationInProgress; SOne n_Unit; SOne n_RegulatingCondEq; SOne n_ControlType; SOne n_RemoteControl]
    true true
    [n_timeStamp; n_operationInProgress]
    [(n_timeStamp, VStr n_); (n_operationInProgress, VBool false)]
    []
    [n_Unit; n_RegulatingCondEq; n_ControlType; n_RemoteControl]
    []
    [(n_Unit, POneMany n_Controls); (n_RegulatingCondEq, POneMany n_Controls); (n_ControlType, POneMany n_Controls); (n_RemoteControl, POneOne n_Control)];
(* CIM14/IEC61970/Meas/ControlType.py:23-64 *)
  Cls n_CIM14_IEC61970_Meas_ControlType_ControlType n_ControlType (Some n_CIM14_IEC61970_Core_IdentifiedObject_IdentifiedObject)
    [(n_Controls, VNone)]
    [SMany n_Controls]
    true true
    []
    []
    []
    [n_Controls]
    [n_Controls]
    [(n_Controls, PManyOne n_ControlType)];
(* CIM14/IEC61970/Meas/CurrentTransformer.py:23-62 *)
  Cls n_CIM14_IEC61970_Meas_CurrentTransformer_CurrentTransformer n_CurrentTransformer (Some n_CIM14_IEC61970_Core_Equipment_Equipment)
    [(n_maxRatio, VFloat n_0_0); (n_accuracyClass, VStr n_); (n_coreCount, VInt 0); (n_ctClass, VStr n_); (n_usage, VStr n_); (n_accuracyLimit, VStr n_)]
    [SAttr n_maxRatio; SAttr n_accuracyClass; SAttr n_coreCount; SAttr n_ctClass; SAttr n_usage; SAttr n_accuracyLimit]
    true true
    [n_maxRatio; n_accuracyClass; n_coreCount; n_ctClass; n_usage; n_accuracyLimit]
    [(n_maxRatio, VFloat n_0_0); (n_accuracyClass, VStr n_); (n_coreCount, VInt 0); (n_ctClass, VStr n_); (n_usage, VStr n_); (n_accuracyLimit, VStr n_)]
    []
    []
    []
    [];
(* CIM14/IEC61970/Meas/Discrete.py:23-117 *)
  Cls n_CIM14_IEC61970_Meas_Discrete_Discrete n_Discrete (Some n_CIM14_IEC61970_Meas_Measurement_Measurement)
    [(n_normalValue, VInt 0); (n_minValue, VInt 0); (n_maxValue, VInt 0); (n_Command, VNone); (n_DiscreteValues, VNone); (n_ValueAliasSet, VNone)]
    [SAttr n_normalValue; SAttr n_minValue; SAttr n_maxValue; SOne n_Command; SMany n_DiscreteValues; SOne n_ValueAliasSet]
    true true
    [n_normalValue; n_minValue; n_maxValue]
    [(n_normalValue, VInt 0); (n_minValue, VInt 0); (n_maxValue, VInt 0)]
    []
    [n_Command; n_DiscreteValues; n_ValueAliasSet]
    [n_DiscreteValues]
    [(n_Command, POneOne n_Discrete); (n_DiscreteValues, PManyOne n_Discrete); (n_ValueAliasSet, POneMany n_Discretes)];
(* CIM14/IEC61970/Meas/DiscreteValue.py:23-63 *)
  Cls n_CIM14_IEC61970_Meas_DiscreteValue_DiscreteValue n_DiscreteValue (Some n_CIM14_IEC61970_Meas_MeasurementValue_MeasurementValue)
    [(n_value, VInt 0); (n_Discrete, VNone)]
    [SAttr n_value; SOne n_Discrete]
    true true
    [n_value]
    [(n_value, VInt 0)]
    []
    [n_Discrete]
    []
    [(n_Discrete, POneMany n_DiscreteValues)];
(* CIM14/IEC61970/Meas/Limit.py:23-38 *)
  Cls n_CIM14_IEC61970_Meas_Limit_Limit n_Limit (Some n_CIM14_IEC61970_Core_IdentifiedObject_IdentifiedObject)
    []
    []
    true true
    []
    []
    []
    []
    []
    [];
(* CIM14/IEC61970/Meas/LimitSet.py:23-42 *)
  Cls n_CIM14_IEC61970_Meas_LimitSet_LimitSet n_LimitSet (Some n_CIM14_IEC61970_Core_IdentifiedObject_IdentifiedObject)
    [(n_isPercentageLimits, VBool false)]
    [SAttr n_isPercentageLimits]
    true true
    [n_isPercentageLimits]
    [(n_isPercentageLimits, VBool false)]
    []
    []
    []
    [];
(* CIM14/IEC61970/Meas/Measurement.py:23-213 *)
  Cls n_CIM14_IEC61970_Meas_Measurement_Measurement n_Measurement (Some n_CIM14_IEC61970_Core_IdentifiedObject_IdentifiedObject)
    [(n_measurementType, VStr n_); (n_PowerSystemResource, VNone); (n_Locations, VNone); (n_Terminal, VNone); (n_Unit, VNone); (n_tieToMeasurement0, VNone); (n_Asset, VNone); (n_Documents, VNone)]
    [SAttr n_measurementType; SOne n_PowerSystemResource; SMany n_Locations; SOne n_Terminal; SOne n_Unit; SMany n_tieToMeasurement0; SOne n_Asset; SMany n_Documents]
    true true
    [n_measurementType]
    [(n_measurementType, VStr n_)]
    []
    [n_PowerSystemResource; n_Locations; n_Terminal; n_Unit; n_tieToMeasurement0; n_Asset; n_Documents]
    [n_Locations; n_tieToMeasurement0; n_Documents]
    [(n_PowerSystemResource, POneMany n_Measurements); (n_Locations, PManyMany n_Measurements); (n_Terminal, POneMany n_Measurements); (n_Unit, POneMany n_Measurements); (n_tieToMeasurement0, PManyOne n_measurement0); (n_Asset, POneMany n_Measurements); (n_Documents, PManyMany n_Measurements)];
(* CIM14/IEC61970/Meas/MeasurementValue.py:23-107 *)
  Cls n_CIM14_IEC61970_Meas_MeasurementValue_MeasurementValue n_MeasurementValue (Some n_CIM14_IEC61970_Core_IdentifiedObject_IdentifiedObject)
    [(n_sensorAccuracy, VFloat n_0_0); (n_timeStamp, VStr n_); (n_MeasurementValueSource, VNone); (n_RemoteSource, VNone); (n_MeasurementValueQuality, VNone)]
    [SAttr n_sensorAccuracy; SAttr n_timeStamp; SOne n_MeasurementValueSource; SOne n_RemoteSource; SOne n_MeasurementValueQuality]
    true true
    [n_sensorAccuracy; n_timeStamp]
    [(n_sensorAccuracy, VFloat n_0_0); (n_timeStamp, VStr n_)]
    []
    [n_MeasurementValueSource; n_RemoteSource; n_MeasurementValueQuality]
    []
    [(n_MeasurementValueSource, POneMany n_MeasurementValues); (n_RemoteSource, POneOne n_MeasurementValue); (n_MeasurementValueQuality, POneOne n_MeasurementValue)];
(* CIM14/IEC61970/Meas/MeasurementValueQuality.py:23-58 *)
  Cls n_CIM14_IEC61970_Meas_MeasurementValueQuality_MeasurementValueQuality n_MeasurementValueQuality (Some n_CIM14_IEC61970_Meas_Quality61850_Quality61850)
    [(n_MeasurementValue, VNone)]
    [SOne n_MeasurementValue]
    true true
    []
    []
    []
    [n_MeasurementValue]
    []
    [(n_MeasurementValue, POneOne n_MeasurementValueQuality)];
(* CIM14/IEC61970/Meas/MeasurementValueSource.py:23-64 *)
  Cls n_CIM14_IEC61970_Meas_MeasurementValueSource_MeasurementValueSource n_MeasurementValueSource (Some n_CIM14_IEC61970_Core_IdentifiedObject_IdentifiedObject)
    [(n_MeasurementValues, VNone)]
    [SMany n_MeasurementValues]
    true true
    []
    []
    []
    [n_MeasurementValues]
    [n_MeasurementValues]
    [(n_MeasurementValues, PManyOne n_MeasurementValueSource)];
(* CIM14/IEC61970/Meas/PotentialTransformer.py:23-50 *)
  Cls n_CIM14_IEC61970_Meas_PotentialTransformer_PotentialTransformer n_PotentialTransformer (Some n_CIM14_IEC61970_Core_Equipment_Equipment)
    [(n_ptClass, VStr n_); (n_accuracyClass, VStr n_); (n_nominalRatio, VFloat n_0_0)]
    [SAttr n_ptClass; SAttr n_accuracyClass; SAttr n_nominalRatio]
    true true
    [n_ptClass; n_accuracyClass; n_nominalRatio]
    [(n_ptClass, VStr n_); (n_accuracyClass, VStr n_); (n_nominalRatio, VFloat n_0_0)]
    []
    []
    []
    [];
(* CIM14/IEC61970/Meas/Quality61850.py:23-86 *)
  Cls n_CIM14_IEC61970_Meas_Quality61850_Quality61850 n_Quality61850 (Some n_CIM14_Element_Element)
    [(n_validity, VStr n_QUESTIONABLE); (n_source, VStr n_SUBSTITUTED); (n_failure, VBool false); (n_suspect, VBool false); (n_oldData, VBool false); (n_badReference, VBool false); (n_test, VBool false); (n_outOfRange, VBool false); (n_estimatorReplaced, VBool false); (n_oscillatory, VBool false); (n_operatorBlocked, VBool false); (n_overFlow, VBool false)]
    [SAttr n_validity; SAttr n_source; SAttr n_failure; SAttr n_suspect; SAttr n_oldData; SAttr n_badReference; SAttr n_test; SAttr n_outOfRange; SAttr n_estimatorReplaced; SAttr n_oscillatory; SAttr n_operatorBlocked; SAttr n_overFlow]
    true true
    [n_validity; n_source; n_failure; n_suspect; n_oldData; n_badReference; n_test; n_outOfRange; n_estimatorReplaced; n_oscillatory; n_operatorBlocked; n_overFlow]
    [(n_validity, VStr n_QUESTIONABLE); (n_source, VStr n_SUBSTITUTED); (n_failure, VBool false); (n_suspect, VBool false); (n_oldData, VBool false); (n_badReference, VBool false); (n_test, VBool false); (n_outOfRange, VBool false); (n_estimatorReplaced, VBool false); (n_oscillatory, VBool false); (n_operatorBlocked, VBool false); (n_overFlow, VBool false)]
    [(n_validity, n_Validity); (n_source, n_Source)]
    []
    []
    [];
(* CIM14/IEC61970/Meas/SetPoint.py:23-74 *)
  Cls n_CIM14_IEC61970_Meas_SetPoint_SetPoint n_SetPoint (Some n_CIM14_IEC61970_Meas_Control_Control)
    [(n_minValue, VFloat n_0_0); (n_value, VFloat n_0_0); (n_maxValue, VFloat n_0_0); (n_normalValue, VFloat n_0_0); (n_Analog, VNone)]
    [SAttr n_minValue; SAttr n_value; SAttr n_maxValue; SAttr n_normalValue; SOne n_Analog]
    true true
    [n_minValue; n_value; n_maxValue; n_normalValue]
    [(n_minValue, VFloat n_0_0); (n_value, VFloat n_0_0); (n_maxValue, VFloat n_0_0); (n_normalValue, VFloat n_0_0)]
    []
    [n_Analog]
    []
    [(n_Analog, POneOne n_SetPoint)];
(* CIM14/IEC61970/Meas/StringMeasurement.py:23-64 *)
  Cls n_CIM14_IEC61970_Meas_StringMeasurement_StringMeasurement n_StringMeasurement (Some n_CIM14_IEC61970_Meas_Measurement_Measurement)
    [(n_StringMeasurementValues, VNone)]
    [SMany n_StringMeasurementValues]
    true true
    []
    []
    []
    [n_StringMeasurementValues]
    [n_StringMeasurementValues]
    [(n_StringMeasurementValues, PManyOne n_StringMeasurement)];
(* CIM14/IEC61970/Meas/StringMeasurementValue.py:23-63 *)
  Cls n_CIM14_IEC61970_Meas_StringMeasurementValue_StringMeasurementValue n_StringMeasurementValue (Some n_CIM14_IEC61970_Meas_MeasurementValue_MeasurementValue)
    [(n_value, VStr n_); (n_StringMeasurement, VNone)]
    [SAttr n_value; SOne n_StringMeasurement]
    true true
    [n_value]
    [(n_value, VStr n_)]
    []
    [n_StringMeasurement]
    []
    [(n_StringMeasurement, POneMany n_StringMeasurementValues)];
(* CIM14/IEC61970/Meas/ValueAliasSet.py:23-116 *)
  Cls n_CIM14_IEC61970_Meas_ValueAliasSet_ValueAliasSet n_ValueAliasSet (Some n_CIM14_IEC61970_Core_IdentifiedObject_IdentifiedObject)
    [(n_Commands, VNone); (n_Values, VNone); (n_Discretes, VNone)]
    [SMany n_Commands; SMany n_Values; SMany n_Discretes]
    true true
    []
    []
    []
    [n_Commands; n_Values; n_Discretes]
    [n_Commands; n_Values; n_Discretes]
    [(n_Commands, PManyOne n_ValueAliasSet); (n_Values, PManyOne n_ValueAliasSet); (n_Discretes, PManyOne n_ValueAliasSet)];
(* CIM14/IEC61970/Meas/ValueToAlias.py:23-63 *)
  Cls n_CIM14_IEC61970_Meas_ValueToAlias_ValueToAlias n_ValueToAlias (Some n_CIM14_IEC61970_Core_IdentifiedObject_IdentifiedObject)
    [(n_value, VInt 0); (n_ValueAliasSet, VNone)]
    [SAttr n_value; SOne n_ValueAliasSet]
    true true
    [n_value]
    [(n_value, VInt 0)]
    []
    [n_ValueAliasSet]
    []
    [(n_ValueAliasSet, POneMany n_Values)];
(* CIM14/IEC61970/OperationalLimits/ActivePowerLimit.py:23-42 *)
  Cls n_CIM14_IEC61970_OperationalLimits_ActivePowerLimit_ActivePowerLimit n_ActivePowerLimit (Some n_CIM14_IEC61970_OperationalLimits_OperationalLimit_OperationalLimit)
    [(n_value, VFloat n_0_0)]
    [SAttr n_value]
    true true
    [n_value]
    [(n_value, VFloat n_0_0)]
    []
    []
    []
    [];
(* CIM14/IEC61970/OperationalLimits/ApparentPowerLimit.py:23-42 *)
  Cls n_CIM14_IEC61970_OperationalLimits_ApparentPowerLimit_ApparentPowerLimit n_ApparentPowerLimit (Some n_CIM14_IEC61970_OperationalLimits_OperationalLimit_OperationalLimit)
    [(n_value, VFloat n_0_0)]
    [SAttr n_value]
    true true
    [n_value]
    [(n_value, VFloat n_0_0)]
    []
    []
    []
    [];
(* CIM14/IEC61970/OperationalLimits/BranchGroup.py:23-88 *)
  Cls n_CIM14_IEC61970_OperationalLimits_BranchGroup_BranchGroup n_BranchGroup (Some n_CIM14_IEC61970_Core_IdentifiedObject_IdentifiedObject)
    [(n_minimumReactivePower, VFloat n_0_0); (n_monitorActivePower, VBool false); (n_minimumActivePower, VFloat n_0_0); (n_maximumReactivePower, VFloat n_0_0); (n_maximumActivePower, VFloat n_0_0); (n_monitorReactivePower, VBool false); (n_BranchGroupTerminal, VNone)]
    [SAttr n_minimumReactivePower; SAttr n_monitorActivePower; SAttr n_minimumActivePower; SAttr n_maximumReactivePower; SAttr n_maximumActivePower; SAttr n_monitorReactivePower; SMany n_BranchGroupTerminal]
    true true
    [n_minimumReactivePower; n_monitorActivePower; n_minimumActivePower; n_maximumReactivePower; n_maximumActivePower; n_monitorReactivePower]
    [(n_minimumReactivePower, VFloat n_0_0); (n_monitorActivePower, VBool false); (n_minimumActivePower, VFloat n_0_0); (n_maximumReactivePower, VFloat n_0_0); (n_maximumActivePower, VFloat n_0_0); (n_monitorReactivePower, VBool false)]
    []
    [n_BranchGroupTerminal]
    [n_BranchGroupTerminal]
    [(n_BranchGroupTerminal, PManyOne n_BranchGroup)];
(* CIM14/IEC61970/OperationalLimits/BranchGroupTerminal.py:23-84 *)
  Cls n_CIM14_IEC61970_OperationalLimits_BranchGroupTerminal_BranchGroupTerminal n_BranchGroupTerminal (Some n_CIM14_Element_Element)
    [(n_positiveFlowIn, VBool false); (n_BranchGroup, VNone); (n_Terminal, VNone)]
    [SAttr n_positiveFlowIn; SOne n_BranchGroup; SOne n_Terminal]
    true true
    [n_positiveFlowIn]
    [(n_positiveFlowIn, VBool false)]
    []
    [n_BranchGroup; n_Terminal]
    []
    [(n_BranchGroup, POneMany n_BranchGroupTerminal); (n_Terminal, POneMany n_BranchGroupTerminal)];
(* CIM14/IEC61970/OperationalLimits/CurrentLimit.py:23-42 *)
  Cls n_CIM14_IEC61970_OperationalLimits_CurrentLimit_CurrentLimit n_CurrentLimit (Some n_CIM14_IEC61970_OperationalLimits_OperationalLimit_OperationalLimit)
    [(n_value, VFloat n_0_0)]
    [SAttr n_value]
    true true
    [n_value]
    [(n_value, VFloat n_0_0)]
    []
    []
    []
    [];
(* CIM14/IEC61970/OperationalLimits/OperationalLimit.py:23-84 *)
  Cls n_CIM14_IEC61970_OperationalLimits_OperationalLimit_OperationalLimit n_OperationalLimit (Some n_CIM14_IEC61970_Core_IdentifiedObject_IdentifiedObject)
    [(n_type, VStr n_); (n_OperationalLimitType, VNone); (n_OperationalLimitSet, VNone)]
    [SAttr n_type; SOne n_OperationalLimitType; SOne n_OperationalLimitSet]
    true true
    [n_type]
    [(n_type, VStr n_)]
    []
    [n_OperationalLimitType; n_OperationalLimitSet]
    []
    [(n_OperationalLimitType, POneMany n_OperationalLimit); (n_OperationalLimitSet, POneMany n_OperationalLimitValue)];
(* CIM14/IEC61970/OperationalLimits/OperationalLimitSet.py:23-106 *)
  Cls n_CIM14_IEC61970_OperationalLimits_OperationalLimitSet_OperationalLimitSet n_OperationalLimitSet (Some n_CIM14_IEC61970_Core_IdentifiedObject_IdentifiedObject)
    [(n_Equipment, VNone); (n_Terminal, VNone); (n_OperationalLimitValue, VNone)]
    [SOne n_Equipment; SOne n_Terminal; SMany n_OperationalLimitValue]
    true true
    []
    []
    []
    [n_Equipment; n_Terminal; n_OperationalLimitValue]
    [n_OperationalLimitValue]
    [(n_Equipment, POneMany n_OperationalLimitSet); (n_Terminal, POneMany n_OperationalLimitSet); (n_OperationalLimitValue, PManyOne n_OperationalLimitSet)];
(* CIM14/IEC61970/OperationalLimits/OperationalLimitType.py:23-72 *)
  Cls n_CIM14_IEC61970_OperationalLimits_OperationalLimitType_OperationalLimitType n_OperationalLimitType (Some n_CIM14_IEC61970_Core_IdentifiedObject_IdentifiedObject)
    [(n_direction, VStr n_low); (n_acceptableDuration, VFloat n_0_0); (n_OperationalLimit, VNone)]
    [SAttr n_direction; SAttr n_acceptableDuration; SMany n_OperationalLimit]
    true true
    [n_direction; n_acceptableDuration]
    [(n_direction, VStr n_low); (n_acceptableDuration, VFloat n_0_0)]
    [(n_direction, n_OperationalLimitDirectionKind)]
    [n_OperationalLimit]
    [n_OperationalLimit]
    [(n_OperationalLimit, PManyOne n_OperationalLimitType)];
(* CIM14/IEC61970/OperationalLimits/VoltageLimit.py:23-42 *)
  Cls n_CIM14_IEC61970_OperationalLimits_VoltageLimit_VoltageLimit n_VoltageLimit (Some n_CIM14_IEC61970_OperationalLimits_OperationalLimit_OperationalLimit)
    [(n_value, VFloat n_0_0)]
    [SAttr n_value]
    true true
    [n_value]
    [(n_value, VFloat n_0_0)]
    []
    []
    []
    [];
(* CIM14/IEC61970/Outage/ClearanceTag.py:23-112 *)
  Cls n_CIM14_IEC61970_Outage_ClearanceTag_ClearanceTag n_ClearanceTag (Some n_CIM14_IEC61970_Core_IdentifiedObject_IdentifiedObject)
    [(n_workStartTime, VStr n_); (n_workDescription, VStr n_); (n_workEndTime, VStr n_); (n_authorityName, VStr n_); (n_deenergizeReqFlag, VBool false); (n_groundReqFlag, VBool false); (n_tagIssueTime, VStr n_); (n_phaseCheckReqFlag, VBool false); (n_ClearanceTagType, VNone); (n_ConductingEquipment, VNone)]
    [SAttr n_workStartTime; SAttr n_workDescription; SAttr n_workEndTime; SAttr n_authorityName; SAttr n_deenergizeReqFlag; SAttr n_groundReqFlag; SAttr n_tagIssueTime; SAttr n_phaseCheckReqFlag; SOne n_ClearanceTagType; SOne n_ConductingEquipment]
    true true
    [n_workStartTime; n_workDescription; n_workEndTime; n_authorityName; n_deenergizeReqFlag; n_groundReqFlag; n_tagIssueTime; n_phaseCheckReqFlag]
    [(n_workStartTime, VStr n_); (n_workDescription, VStr n_); (n_workEndTime, VStr n_); (n_authorityName, VStr n_); (n_deenergizeReqFlag, VBool false); (n_groundReqFlag, VBool false); (n_tagIssueTime, VStr n_); (n_phaseCheckReqFlag, VBool false)]
    []
    [n_ClearanceTagType; n_ConductingEquipment]
    []
    [(n_ClearanceTagType, POneMany n_ClearanceTags); (n_ConductingEquipment, POneMany n_ClearanceTags)];
(* CIM14/IEC61970/Outage/ClearanceTagType.py:23-64 *)
  Cls n_CIM14_IEC61970_Outage_ClearanceTagType_ClearanceTagType n_ClearanceTagType (Some n_CIM14_IEC61970_Core_IdentifiedObject_IdentifiedObject)
    [(n_ClearanceTags, VNone)]
    [SMany n_ClearanceTags]
    true true
    []
    []
    []
    [n_ClearanceTags]
    [n_ClearanceTags]
    [(n_ClearanceTags, PManyOne n_ClearanceTagType)];
(* CIM14/IEC61970/Outage/OutageSchedule.py:23-84 *)
  Cls n_CIM14_IEC61970_Outage_OutageSchedule_OutageSchedule n_OutageSchedule (Some n_CIM14_IEC61970_Core_IrregularIntervalSchedule_IrregularIntervalSchedule)
    [(n_SwitchingOperations, VNone); (n_PowerSystemResource, VNone)]
    [SMany n_SwitchingOperations; SOne n_PowerSystemResource]
    true true
    []
    []
    []
    [n_SwitchingOperations; n_PowerSystemResource]
    [n_SwitchingOperations]
    [(n_SwitchingOperations, PManyOne n_OutageSchedule); (n_PowerSystemResource, POneOne n_OutageSchedule)];
(* CIM14/IEC61970/Outage/SwitchingOperation.py:23-99 *)
  Cls n_CIM14_IEC61970_Outage_SwitchingOperation_SwitchingOperation n_SwitchingOperation (Some n_CIM14_IEC61970_Core_IdentifiedObject_IdentifiedObject)
    [(n_newState, VStr n_open); (n_operationTime, VStr n_); (n_Switches, VNone); (n_OutageSchedule, VNone)]
    [SAttr n_newState; SAttr n_operationTime; SMany n_Switches; SOne n_OutageSchedule]
    true true
    [n_newState; n_operationTime]
    [(n_newState, VStr n_open); (n_operationTime, VStr n_)]
    [(n_newState, n_SwitchState)]
    [n_Switches; n_OutageSchedule]
    [n_Switches]
    [(n_Switches, PManyMany n_SwitchingOperations); (n_OutageSchedule, POneMany n_SwitchingOperations)];
(* CIM14/IEC61970/Protection/CurrentRelay.py:23-66 *)
  Cls n_CIM14_IEC61970_Protection_CurrentRelay_CurrentRelay n_CurrentRelay (Some n_CIM14_IEC61970_Protection_ProtectionEquipment_ProtectionEquipment)
    [(n_currentLimit1, VFloat n_0_0); (n_timeDelay3, VFloat n_0_0); (n_timeDelay2, VFloat n_0_0); (n_currentLimit3, VFloat n_0_0); (n_currentLimit2, VFloat n_0_0); (n_inverseTimeFlag, VBool false); (n_timeDelay1, VFloat n_0_0)]
    [SAttr n_currentLimit1; SAttr n_timeDelay3; SAttr n_timeDelay2; SAttr n_currentLimit3; SAttr n_currentLimit2; SAttr n_inverseTimeFlag; SAttr n_timeDelay1]
    true true
    [n_currentLimit1; n_timeDelay3; n_timeDelay2; n_currentLimit3; n_currentLimit2; n_inverseTimeFlag; n_timeDelay1]
    [(n_currentLimit1, VFloat n_0_0); (n_timeDelay3, VFloat n_0_0); (n_timeDelay2, VFloat n_0_0); (n_currentLimit3, VFloat n_0_0); (n_currentLimit2, VFloat n_0_0); (n_inverseTimeFlag, VBool false); (n_timeDelay1, VFloat n_0_0)]
    []
    []
    []
    [];
(* CIM14/IEC61970/Protection/FaultIndicator.py:23-38 *)
  Cls n_CIM14_IEC61970_Protection_FaultIndicator_FaultIndicator n_FaultIndicator (Some n_CIM14_IEC61970_Core_Equipment_Equipment)
    []
    []
    true true
    []
    []
    []
    []
    []
    [];
(* CIM14/IEC61970/Protection/ProtectionEquipment.py:23-118 *)
  Cls n_CIM14_IEC61970_Protection_ProtectionEquipment_ProtectionEquipment n_ProtectionEquipment (Some n_CIM14_IEC61970_Core_Equipment_Equipment)
    [(n_lowLimit, VFloat n_0_0); (n_powerDirectionFlag, VBool false); (n_highLimit, VFloat n_0_0); (n_relayDelayTime, VFloat n_0_0); (n_ProtectedSwitches, VNone); (n_Unit, VNone); (n_ConductingEquipments, VNone)]
    [SAttr n_lowLimit; SAttr n_powerDirectionFlag; SAttr n_highLimit; SAttr n_relayDelayTime; SPlainMany n_ProtectedSwitches; SOne n_Unit; SMany n_ConductingEquipments]
    true true
    [n_lowLimit; n_powerDirectionFlag; n_highLimit; n_relayDelayTime]
    [(n_lowLimit, VFloat n_0_0); (n_powerDirectionFlag, VBool false); (n_highLimit, VFloat n_0_0); (n_relayDelayTime, VFloat n_0_0)]
    []
    [n_ProtectedSwitches; n_Unit; n_ConductingEquipments]
    [n_ProtectedSwitches; n_ConductingEquipments]
    [(n_Unit, POneMany n_ProtectionEquipments); (n_ConductingEquipments, PManyMany n_ProtectionEquipments)];
(* CIM14/IEC61970/Protection/RecloseSequence.py:23-67 *)
  Cls n_CIM14_IEC61970_Protection_RecloseSequence_RecloseSequence n_RecloseSequence (Some n_CIM14_IEC61970_Core_IdentifiedObject_IdentifiedObject)
    [(n_recloseDelay, VFloat n_0_0); (n_recloseStep, VInt 0); (n_ProtectedSwitch, VNone)]
    [SAttr n_recloseDelay; SAttr n_recloseStep; SOne n_ProtectedSwitch]
    true true
    [n_recloseDelay; n_recloseStep]
    [(n_recloseDelay, VFloat n_0_0); (n_recloseStep, VInt 0)]
    []
    [n_ProtectedSwitch]
    []
    [(n_ProtectedSwitch, POneMany n_RecloseSequences)];
(* CIM14/IEC61970/Protection/SurgeProtector.py:23-38 *)
  Cls n_CIM14_IEC61970_Protection_SurgeProtector_SurgeProtector n_SurgeProtector (Some n_CIM14_IEC61970_Core_Equipment_Equipment)
    []
    []
    true true
    []
    []
    []
    []
    []
    [];
(* CIM14/IEC61970/Protection/SynchrocheckRelay.py:23-50 *)
  Cls n_CIM14_IEC61970_Protection_SynchrocheckRelay_SynchrocheckRelay n_SynchrocheckRelay (Some n_CIM14_IEC61970_Protection_ProtectionEquipment_ProtectionEquipment)
    [(n_maxFreqDiff, VFloat n_0_0); (n_maxVoltDiff, VFloat n_0_0); (n_maxAngleDiff, VFloat n_0_0)]
    [SAttr n_maxFreqDiff; SAttr n_maxVoltDiff; SAttr n_maxAngleDiff]
    true true
    [n_maxFreqDiff; n_maxVoltDiff; n_maxAngleDiff]
    [(n_maxFreqDiff, VFloat n_0_0); (n_maxVoltDiff, VFloat n_0_0); (n_maxAngleDiff, VFloat n_0_0)]
    []
    []
    []
    [];
(* CIM14/IEC61970/SCADA/CommunicationLink.py:23-70 *)
  Cls n_CIM14_IEC61970_SCADA_CommunicationLink_CommunicationLink n_CommunicationLink (Some n_CIM14_IEC61970_Core_PowerSystemResource_PowerSystemResource)
    [(n_RemoteUnits, VNone)]
    [SMany n_RemoteUnits]
    true true
    []
    []
    []
    [n_RemoteUnits]
    [n_RemoteUnits]
    [(n_RemoteUnits, PManyMany n_CommunicationLinks)];
(* CIM14/IEC61970/SCADA/RemoteControl.py:23-70 *)
  Cls n_CIM14_IEC61970_SCADA_RemoteControl_RemoteControl n_RemoteControl (Some n_CIM14_IEC61970_SCADA_RemotePoint_RemotePoint)
    [(n_actuatorMinimum, VFloat n_0_0); (n_remoteControlled, VBool false); (n_actuatorMaximum, VFloat n_0_0); (n_Control, VNone)]
    [SAttr n_actuatorMinimum; SAttr n_remoteControlled; SAttr n_actuatorMaximum; SOne n_Control]
    true true
    [n_actuatorMinimum; n_remoteControlled; n_actuatorMaximum]
    [(n_actuatorMinimum, VFloat n_0_0); (n_remoteControlled, VBool false); (n_actuatorMaximum, VFloat n_0_0)]
    []
    [n_Control]
    []
    [(n_Control, POneOne n_RemoteControl)];
(* CIM14/IEC61970/SCADA/RemotePoint.py:23-59 *)
  Cls n_CIM14_IEC61970_SCADA_RemotePoint_RemotePoint n_RemotePoint (Some n_CIM14_IEC61970_Core_IdentifiedObject_IdentifiedObject)
    [(n_RemoteUnit, VNone)]
    [SOne n_RemoteUnit]
    true true
    []
    []
    []
    [n_RemoteUnit]
    []
    [(n_RemoteUnit, POneMany n_RemotePoints)];
(* CIM14/IEC61970/SCADA/RemoteSource.py:23-74 *)
  Cls n_CIM14_IEC61970_SCADA_RemoteSource_RemoteSource n_RemoteSource (Some n_CIM14_IEC61970_SCADA_RemotePoint_RemotePoint)
    [(n_scanInterval, VFloat n_0_0); (n_sensorMaximum, VFloat n_0_0); (n_deadband, VFloat n_0_0); (n_sensorMinimum, VFloat n_0_0); (n_MeasurementValue, VNone)]
    [SAttr n_scanInterval; SAttr n_sensorMaximum; SAttr n_deadband; SAttr n_sensorMinimum; SOne n_MeasurementValue]
    true true
    [n_scanInterval; n_sensorMaximum; n_deadband; n_sensorMinimum]
    [(n_scanInterval, VFloat n_0_0); (n_sensorMaximum, VFloat n_0_0); (n_deadband, VFloat n_0_0); (n_sensorMinimum, VFloat n_0_0)]
    []
    [n_MeasurementValue]
    []
    [(n_MeasurementValue, POneOne n_RemoteSource)];
(* CIM14/IEC61970/SCADA/RemoteUnit.py:23-100 *)
  Cls n_CIM14_IEC61970_SCADA_RemoteUnit_RemoteUnit n_RemoteUnit (Some n_CIM14_IEC61970_Core_PowerSystemResource_PowerSystemResource)
    [(n_remoteUnitType, VStr n_IED); (n_CommunicationLinks, VNone); (n_RemotePoints, VNone)]
    [SAttr n_remoteUnitType; SMany n_CommunicationLinks; SMany n_RemotePoints]
    true true
    [n_remoteUnitType]
    [(n_remoteUnitType, VStr n_IED)]
    [(n_remoteUnitType, n_RemoteUnitType)]
    [n_CommunicationLinks; n_RemotePoints]
    [n_CommunicationLinks; n_RemotePoints]
    [(n_CommunicationLinks, PManyMany n_RemoteUnits); (n_RemotePoints, PManyOne n_RemoteUnit)];
(* CIM14/IEC61970/StateVariables/StateVariable.py:23-38 *)
  Cls n_CIM14_IEC61970_StateVariables_StateVariable_StateVariable n_StateVariable (Some n_CIM14_Element_Element)
    []
    []
    true true
    []
    []
    []
    []
    []
    [];
(* CIM14/IEC61970/StateVariables/SvInjection.py:23-66 *)
  Cls n_CIM14_IEC61970_StateVariables_SvInjection_SvInjection n_SvInjection (Some n_CIM14_IEC61970_StateVariables_StateVariable_StateVariable)
    [(n_pNetInjection, VFloat n_0_0); (n_qNetInjection, VFloat n_0_0); (n_TopologicalNode, VNone)]
    [SAttr n_pNetInjection; SAttr n_qNetInjection; SOne n_TopologicalNode]
    true true
    [n_pNetInjection; n_qNetInjection]
    [(n_pNetInjection, VFloat n_0_0); (n_qNetInjection, VFloat n_0_0)]
    []
    [n_TopologicalNode]
    []
    [(n_TopologicalNode, POneOne n_SvInjection)];
(* CIM14/IEC61970/StateVariables/SvPowerFlow.py:23-66 *)
  Cls n_CIM14_IEC61970_StateVariables_SvPowerFlow_SvPowerFlow n_SvPowerFlow (Some n_CIM14_IEC61970_StateVariables_StateVariable_StateVariable)
    [(n_q, VFloat n_0_0); (n_p, VFloat n_0_0); (n_Terminal, VNone)]
    [SAttr n_q; SAttr n_p; SOne n_Terminal]
    true true
    [n_q; n_p]
    [(n_q, VFloat n_0_0); (n_p, VFloat n_0_0)]
    []
    [n_Terminal]
    []
    [(n_Terminal, POneOne n_SvPowerFlow)];
(* CIM14/IEC61970/StateVariables/SvShortCircuit.py:23-74 *)
  Cls n_CIM14_IEC61970_StateVariables_SvShortCircuit_SvShortCircuit n_SvShortCircuit (Some n_CIM14_IEC61970_StateVariables_StateVariable_StateVariable)
    [(n_x0PerX, VFloat n_0_0); (n_sShortCircuit, VFloat n_0_0); (n_r0PerR, VFloat n_0_0); (n_xPerR, VFloat n_0_0); (n_TopologicalNode, VNone)]
    [SAttr n_x0PerX; SAttr n_sShortCircuit; SAttr n_r0PerR; SAttr n_xPerR; SOne n_TopologicalNode]
    true true
    [n_x0PerX; n_sShortCircuit; n_r0PerR; n_xPerR]
    [(n_x0PerX, VFloat n_0_0); (n_sShortCircuit, VFloat n_0_0); (n_r0PerR, VFloat n_0_0); (n_xPerR, VFloat n_0_0)]
    []
    [n_TopologicalNode]
    []
    [(n_TopologicalNode, POneOne n_SvShortCircuit)];
(* CIM14/IEC61970/StateVariables/SvShuntCompensatorSections.py:23-66 *)
  Cls n_CIM14_IEC61970_StateVariables_SvShuntCompensatorSections_SvShuntCompensatorSections n_SvShuntCompensatorSections (Some n_CIM14_IEC61970_StateVariables_StateVariable_StateVariable)
    [(n_continuousSections, VFloat n_0_0); (n_sections, VInt 0); (n_ShuntCompensator, VNone)]
    [SAttr n_continuousSections; SAttr n_sections; SOne n_ShuntCompensator]
    true true
    [n_continuousSections; n_sections]
    [(n_continuousSections, VFloat n_0_0); (n_sections, VInt 0)]
    []
    [n_ShuntCompensator]
    []
    [(n_ShuntCompensator, POneOne n_SvShuntCompensatorSections)];
(* CIM14/IEC61970/StateVariables/SvStatus.py:23-62 *)
  Cls n_CIM14_IEC61970_StateVariables_SvStatus_SvStatus n_SvStatus (Some n_CIM14_IEC61970_StateVariables_StateVariable_StateVariable)
    [(n_inService, VBool false); (n_ConductingEquipment, VNone)]
    [SAttr n_inService; SOne n_ConductingEquipment]
    true true
    [n_inService]
    [(n_inService, VBool false)]
    []
    [n_ConductingEquipment]
    []
    [(n_ConductingEquipment, POneOne n_SvStatus)];
(* CIM14/IEC61970/StateVariables/SvTapStep.py:23-66 *)
  Cls n_CIM14_IEC61970_StateVariables_SvTapStep_SvTapStep n_SvTapStep (Some n_CIM14_IEC61970_StateVariables_StateVariable_StateVariable)
    [(n_continuousPosition, VFloat n_0_0); (n_position, VInt 0); (n_TapChanger, VNone)]
    [SAttr n_continuousPosition; SAttr n_position; SOne n_TapChanger]
    true true
    [n_continuousPosition; n_position]
    [(n_continuousPosition, VFloat n_0_0); (n_position, VInt 0)]
    []
    [n_TapChanger]
    []
    [(n_TapChanger, POneOne n_SvTapStep)];
(* CIM14/IEC61970/StateVariables/SvVoltage.py:23-66 *)
  Cls n_CIM14_IEC61970_StateVariables_SvVoltage_SvVoltage n_SvVoltage (Some n_CIM14_IEC61970_StateVariables_StateVariable_StateVariable)
    [(n_angle, VFloat n_0_0); (n_v, VFloat n_0_0); (n_TopologicalNode, VNone)]
    [SAttr n_angle; SAttr n_v; SOne n_TopologicalNode]
    true true
    [n_angle; n_v]
    [(n_angle, VFloat n_0_0); (n_v, VFloat n_0_0)]
    []
    [n_TopologicalNode]
    []
    [(n_TopologicalNode, POneOne n_SvVoltage)];
(* CIM14/IEC61970/StateVariables/TopologicalIsland.py:23-84 *)
  Cls n_CIM14_IEC61970_StateVariables_TopologicalIsland_TopologicalIsland n_TopologicalIsland (Some n_CIM14_IEC61970_Core_IdentifiedObject_IdentifiedObject)
    [(n_TopologicalNodes, VNone); (n_AngleRef_TopologicalNode, VNone)]
    [SMany n_TopologicalNodes; SOne n_AngleRef_TopologicalNode]
    true true
    []
    []
    []
    [n_TopologicalNodes; n_AngleRef_TopologicalNode]
    [n_TopologicalNodes]
    [(n_TopologicalNodes, PManyOne n_TopologicalIsland); (n_AngleRef_TopologicalNode, POneOne n_AngleRef_TopologicalIsland)];
(* CIM14/IEC61970/Topology/BusNameMarker.py:23-85 *)
  Cls n_CIM14_IEC61970_Topology_BusNameMarker_BusNameMarker n_BusNameMarker (Some n_CIM14_IEC61970_Core_IdentifiedObject_IdentifiedObject)
    [(n_ReportingGroup, VNone); (n_ConnectivityNode, VNone)]
    [SOne n_ReportingGroup; SMany n_ConnectivityNode]
    true true
    []
    []
    []
    [n_ReportingGroup; n_ConnectivityNode]
    [n_ConnectivityNode]
    [(n_ReportingGroup, POneMany n_BusNameMarker); (n_ConnectivityNode, PManyOne n_BusNameMarker)];
(* CIM14/IEC61970/Topology/TopologicalNode.py:23-254 *)
  Cls n_CIM14_IEC61970_Topology_TopologicalNode_TopologicalNode n_TopologicalNode (Some n_CIM14_IEC61970_Core_IdentifiedObject_IdentifiedObject)
    [(n_Terminal, VNone); (n_TopologicalIsland, VNone); (n_ReportingGroup, VNone); (n_ConnectivityNodes, VNone); (n_SvInjection, VNone); (n_SvVoltage, VNone); (n_SvShortCircuit, VNone); (n_BaseVoltage, VNone); (n_ConnectivityNodeContainer, VNone); (n_AngleRef_TopologicalIsland, VNone)]
    [SMany n_Terminal; SOne n_TopologicalIsland; SOne n_ReportingGroup; SMany n_ConnectivityNodes; SOne n_SvInjection; SOne n_SvVoltage; SOne n_SvShortCircuit; SOne n_BaseVoltage; SOne n_ConnectivityNodeContainer; SOne n_AngleRef_TopologicalIsland]
    true true
    []
    []
    []
    [n_Terminal; n_TopologicalIsland; n_ReportingGroup; n_ConnectivityNodes; n_SvInjection; n_SvVoltage; n_SvShortCircuit; n_BaseVoltage; n_ConnectivityNodeContainer; n_AngleRef_TopologicalIsland]
    [n_Terminal; n_ConnectivityNodes]
    [(n_Terminal, PManyOne n_TopologicalNode); (n_TopologicalIsland, POneMany n_TopologicalNodes); (n_ReportingGroup, POneMany n_TopologicalNode); (n_ConnectivityNodes, PManyOne n_TopologicalNode); (n_SvInjection, POneOne n_TopologicalNode); (n_SvVoltage, POneOne n_TopologicalNode); (n_SvShortCircuit, POneOne n_TopologicalNode); (n_BaseVoltage, POneMany n_TopologicalNode); (n_ConnectivityNodeContainer, POneMany n_TopologicalNode); (n_AngleRef_TopologicalIsland, POneOne n_AngleRef_TopologicalNode)];
(* CIM14/IEC61970/Wires/ACLineSegment.py:23-70 *)
  Cls n_CIM14_IEC61970_Wires_ACLineSegment_ACLineSegment n_ACLineSegment (Some n_CIM14_IEC61970_Wires_Conductor_Conductor)
    [(n_gch, VFloat n_0_0); (n_r, VFloat n_0_0); (n_x0, VFloat n_0_0); (n_bch, VFloat n_0_0); (n_x, VFloat n_0_0); (n_r0, VFloat n_0_0); (n_g0ch, VFloat n_0_0); (n_b0ch, VFloat n_0_0)]
    [SAttr n_gch; SAttr n_r; SAttr n_x0; SAttr n_bch; SAttr n_x; SAttr n_r0; SAttr n_g0ch; SAttr n_b0ch]
    true true
    [n_gch; n_r; n_x0; n_bch; n_x; n_r0; n_g0ch; n_b0ch]
    [(n_gch, VFloat n_0_0); (n_r, VFloat n_0_0); (n_x0, VFloat n_0_0); (n_bch, VFloat n_0_0); (n_x, VFloat n_0_0); (n_r0, VFloat n_0_0); (n_g0ch, VFloat n_0_0); (n_b0ch, VFloat n_0_0)]
    []
    []
    []
    [];
(* CIM14/IEC61970/Wires/Breaker.py:23-46 *)
  Cls n_CIM14_IEC61970_Wires_Breaker_Breaker n_Breaker (Some n_CIM14_IEC61970_Wires_ProtectedSwitch_ProtectedSwitch)
    [(n_inTransitTime, VFloat n_0_0); (n_ratedCurrent, VFloat n_0_0)]
    [SAttr n_inTransitTime; SAttr n_ratedCurrent]
    true true
    [n_inTransitTime; n_ratedCurrent]
    [(n_inTransitTime, VFloat n_0_0); (n_ratedCurrent, VFloat n_0_0)]
    []
    []
    []
    [];
(* CIM14/IEC61970/Wires/BusbarSection.py:23-58 *)
  Cls n_CIM14_IEC61970_Wires_BusbarSection_BusbarSection n_BusbarSection (Some n_CIM14_IEC61970_Wires_Connector_Connector)
    [(n_VoltageControlZone, VNone)]
    [SOne n_VoltageControlZone]
    true true
    []
    []
    []
    [n_VoltageControlZone]
    []
    [(n_VoltageControlZone, POneOne n_BusbarSection)];
(* CIM14/IEC61970/Wires/CompositeSwitch.py:23-68 *)
  Cls n_CIM14_IEC61970_Wires_CompositeSwitch_CompositeSwitch n_CompositeSwitch (Some n_CIM14_IEC61970_Core_Equipment_Equipment)
    [(n_compositeSwitchType, VStr n_); (n_Switches, VNone)]
    [SAttr n_compositeSwitchType; SMany n_Switches]
    true true
    [n_compositeSwitchType]
    [(n_compositeSwitchType, VStr n_)]
    []
    [n_Switches]
    [n_Switches]
    [(n_Switches, PManyOne n_CompositeSwitch)];
(* CIM14/IEC61970/Wires/Conductor.py:23-42 *)
  Cls n_CIM14_IEC61970_Wires_Conductor_Conductor n_Conductor (Some n_CIM14_IEC61970_Core_ConductingEquipment_ConductingEquipment)
    [(n_length, VFloat n_0_0)]
    [SAttr n_length]
    true true
    [n_length]
    [(n_length, VFloat n_0_0)]
    []
    []
    []
    [];
(* CIM14/IEC61970/Wires/Connector.py:23-38 *)
  Cls n_CIM14_IEC61970_Wires_Connector_Connector n_Connector (Some n_CIM14_IEC61970_Core_ConductingEquipment_ConductingEquipment)
    []
    []
    true true
    []
    []
    []
    []
    []
    [];
(* CIM14/IEC61970/Wires/DCLineSegment.py:23-46 *)
  Cls n_CIM14_IEC61970_Wires_DCLineSegment_DCLineSegment n_DCLineSegment (Some n_CIM14_IEC61970_Wires_Conductor_Conductor)
    [(n_dcSegmentInductance, VFloat n_0_0); (n_dcSegmentResistance, VFloat n_0_0)]
    [SAttr n_dcSegmentInductance; SAttr n_dcSegmentResistance]
    true true
    [n_dcSegmentInductance; n_dcSegmentResistance]
    [(n_dcSegmentInductance, VFloat n_0_0); (n_dcSegmentResistance, VFloat n_0_0)]
    []
    []
    []
    [];
(* CIM14/IEC61970/Wires/Disconnector.py:23-38 *)
  Cls n_CIM14_IEC61970_Wires_Disconnector_Disconnector n_Disconnector (Some n_CIM14_IEC61970_Wires_Switch_Switch)
    []
    []
    true true
    []
    []
    []
    []
    []
    [];
(* CIM14/IEC61970/Wires/EnergyConsumer.py:23-156 *)
  Cls n_CIM14_IEC61970_Wires_EnergyConsumer_EnergyConsumer n_EnergyConsumer (Some n_CIM14_IEC61970_Core_ConductingEquipment_ConductingEquipment)
    [(n_customerCount, VInt 0); (n_qfixedPct, VFloat n_0_0); (n_pfixed, VFloat n_0_0); (n_pfixedPct, VFloat n_0_0); (n_qfixed, VFloat n_0_0); (n_aggregateLoad0, VNone); (n_PowerCutZone, VNone); (n_ServiceDeliveryPoints, VNone); (n_LoadResponse, VNone)]
    [SAttr n_customerCount; SAttr n_qfixedPct; SAttr n_pfixed; SAttr n_pfixedPct; SAttr n_qfixed; SMany n_aggregateLoad0; SOne n_PowerCutZone; SMany n_ServiceDeliveryPoints; SOne n_LoadResponse]
    true true
    [n_customerCount; n_qfixedPct; n_pfixed; n_pfixedPct; n_qfixed]
    [(n_customerCount, VInt 0); (n_qfixedPct, VFloat n_0_0); (n_pfixed, VFloat n_0_0); (n_pfixedPct, VFloat n_0_0); (n_qfixed, VFloat n_0_0)]
    []
    [n_aggregateLoad0; n_PowerCutZone; n_ServiceDeliveryPoints; n_LoadResponse]
    [n_aggregateLoad0; n_ServiceDeliveryPoints]
    [(n_aggregateLoad0, PManyMany n_energyConsumer0); (n_PowerCutZone, POneMany n_EnergyConsumers); (n_ServiceDeliveryPoints, PManyOne n_EnergyConsumer); (n_LoadResponse, POneMany n_EnergyConsumer)];
(* CIM14/IEC61970/Wires/EnergySource.py:23-78 *)
  Cls n_CIM14_IEC61970_Wires_EnergySource_EnergySource n_EnergySource (Some n_CIM14_IEC61970_Core_ConductingEquipment_ConductingEquipment)
    [(n_x, VFloat n_0_0); (n_activePower, VFloat n_0_0); (n_r, VFloat n_0_0); (n_nominalVoltage, VFloat n_0_0); (n_voltageMagnitude, VFloat n_0_0); (n_xn, VFloat n_0_0); (n_x0, VFloat n_0_0); (n_rn, VFloat n_0_0); (n_voltageAngle, VFloat n_0_0); (n_r0, VFloat n_0_0)]
    [SAttr n_x; SAttr n_activePower; SAttr n_r; SAttr n_nominalVoltage; SAttr n_voltageMagnitude; SAttr n_xn; SAttr n_x0; SAttr n_rn; SAttr n_voltageAngle; SAttr n_r0]
    true true
    [n_x; n_activePower; n_r; n_nominalVoltage; n_voltageMagnitude; n_xn; n_x0; n_rn; n_voltageAngle; n_r0]
    [(n_x, VFloat n_0_0); (n_activePower, VFloat n_0_0); (n_r, VFloat n_0_0); (n_nominalVoltage, VFloat n_0_0); (n_voltageMagnitude, VFloat n_0_0); (n_xn, VFloat n_0_0); (n_x0, VFloat n_0_0); (n_rn, VFloat n_0_0); (n_voltageAngle, VFloat n_0_0); (n_r0, VFloat n_0_0)]
    []
    []
    []
    [];
(* CIM14/IEC61970/Wires/FrequencyConverter.py:23-62 *)
  Cls n_CIM14_IEC61970_Wires_FrequencyConverter_FrequencyConverter n_FrequencyConverter (Some n_CIM14_IEC61970_Wires_RegulatingCondEq_RegulatingCondEq)
    [(n_minU, VFloat n_0_0); (n_maxU, VFloat n_0_0); (n_maxP, VFloat n_0_0); (n_minP, VFloat n_0_0); (n_frequency, VFloat n_0_0); (n_operatingMode, VStr n_)]
    [SAttr n_minU; SAttr n_maxU; SAttr n_maxP; SAttr n_minP; SAttr n_frequency; SAttr n_operatingMode]
    true true
    [n_minU; n_maxU; n_maxP; n_minP; n_frequency; n_operatingMode]
    [(n_minU, VFloat n_0_0); (n_maxU, VFloat n_0_0); (n_maxP, VFloat n_0_0); (n_minP, VFloat n_0_0); (n_frequency, VFloat n_0_0); (n_operatingMode, VStr n_)]
    []
    []
    []
    [];
(* CIM14/IEC61970/Wires/Fuse.py:23-42 *)
  Cls n_CIM14_IEC61970_Wires_Fuse_Fuse n_Fuse (Some n_CIM14_IEC61970_Wires_Switch_Switch)
    [(n_ratingCurrent, VFloat n_0_0)]
    [SAttr n_ratingCurrent]
    true true
    [n_ratingCurrent]
    [(n_ratingCurrent, VFloat n_0_0)]
    []
    []
    []
    [];
(* CIM14/IEC61970/Wires/Ground.py:23-38 *)
  Cls n_CIM14_IEC61970_Wires_Ground_Ground n_Ground (Some n_CIM14_IEC61970_Core_ConductingEquipment_ConductingEquipment)
    []
    []
    true true
    []
    []
    []
    []
    []
    [];
(* CIM14/IEC61970/Wires/GroundDisconnector.py:23-38 *)
  Cls n_CIM14_IEC61970_Wires_GroundDisconnector_GroundDisconnector n_GroundDisconnector (Some n_CIM14_IEC61970_Wires_Switch_Switch)
    []
    []
    true true
    []
    []
    []
    []
    []
    [];
(* CIM14/IEC61970/Wires/HeatExchanger.py:23-58 *)
  Cls n_CIM14_IEC61970_Wires_HeatExchanger_HeatExchanger n_HeatExchanger (Some n_CIM14_IEC61970_Core_Equipment_Equipment)
    [(n_PowerTransformer, VNone)]
    [SOne n_PowerTransformer]
    true true
    []
    []
    []
    [n_PowerTransformer]
    []
    [(n_PowerTransformer, POneOne n_HeatExchanger)];
(* CIM14/IEC61970/Wires/ImpedanceVariationCurve.py:23-58 *)
  Cls n_CIM14_IEC61970_Wires_ImpedanceVariationCurve_ImpedanceVariationCurve n_ImpedanceVariationCurve (Some n_CIM14_IEC61970_Core_Curve_Curve)
    [(n_TapChanger, VNone)]
    [SOne n_TapChanger]
    true true
    []
    []
    []
    [n_TapChanger]
    []
    [(n_TapChanger, POneOne n_ImpedanceVariationCurve)];
(* CIM14/IEC61970/Wires/Jumper.py:23-38 *)
  Cls n_CIM14_IEC61970_Wires_Jumper_Jumper n_Jumper (Some n_CIM14_IEC61970_Wires_Switch_Switch)
    []
    []
    true true
    []
    []
    []
    []
    []
    [];
(* CIM14/IEC61970/Wires/Junction.py:23-38 *)
  Cls n_CIM14_IEC61970_Wires_Junction_Junction n_Junction (Some n_CIM14_IEC61970_Wires_Connector_Connector)
    []
    []
    true true
    []
    []
    []
    []
    []
    [];
(* CIM14/IEC61970/Wires/Line.py:23-59 *)
  Cls n_CIM14_IEC61970_Wires_Line_Line n_Line (Some n_CIM14_IEC61970_Core_EquipmentContainer_EquipmentContainer)
    [(n_Region, VNone)]
    [SOne n_Region]
    true true
    []
    []
    []
    [n_Region]
    []
    [(n_Region, POneMany n_Lines)];
(* CIM14/IEC61970/Wires/LoadBreakSwitch.py:23-42 *)
  Cls n_CIM14_IEC61970_Wires_LoadBreakSwitch_LoadBreakSwitch n_LoadBreakSwitch (Some n_CIM14_IEC61970_Wires_ProtectedSwitch_ProtectedSwitch)
    [(n_ratedCurrent, VFloat n_0_0)]
    [SAttr n_ratedCurrent]
    true true
    [n_ratedCurrent]
    [(n_ratedCurrent, VFloat n_0_0)]
    []
    []
    []
    [];
(* CIM14/IEC61970/Wires/MutualCoupling.py:23-112 *)
  Cls n_CIM14_IEC61970_Wires_MutualCoupling_MutualCoupling n_MutualCoupling (Some n_CIM14_IEC61970_Core_IdentifiedObject_IdentifiedObject)
    [(n_distance22, VFloat n_0_0); (n_g0ch, VFloat n_0_0); (n_distance12, VFloat n_0_0); (n_distance21, VFloat n_0_0); (n_x0, VFloat n_0_0); (n_b0ch, VFloat n_0_0); (n_r0, VFloat n_0_0); (n_distance11, VFloat n_0_0); (n_Second_Terminal, VNone); (n_First_Terminal, VNone)]
    [SAttr n_distance22; SAttr n_g0ch; SAttr n_distance12; SAttr n_distance21; SAttr n_x0; SAttr n_b0ch; SAttr n_r0; SAttr n_distance11; SOne n_Second_Terminal; SOne n_First_Terminal]
    true true
    [n_distance22; n_g0ch; n_distance12; n_distance21; n_x0; n_b0ch; n_r0; n_distance11]
    [(n_distance22, VFloat n_0_0); (n_g0ch, VFloat n_0_0); (n_distance12, VFloat n_0_0); (n_distance21, VFloat n_0_0); (n_x0, VFloat n_0_0); (n_b0ch, VFloat n_0_0); (n_r0, VFloat n_0_0); (n_distance11, VFloat n_0_0)]
    []
    [n_Second_Terminal; n_First_Terminal]
    []
    [(n_Second_Terminal, POneMany n_HasSecond_MutualCoupling); (n_First_Terminal, POneMany n_HasFirst_MutualCoupling)];
(* CIM14/IEC61970/Wires/PhaseTapChanger.py:23-126 *)
  Cls n_CIM14_IEC61970_Wires_PhaseTapChanger_PhaseTapChanger n_PhaseTapChanger (Some n_CIM14_IEC61970_Wires_TapChanger_TapChanger)
    [(n_phaseTapChangerType, VStr n_asymmetrical); (n_nominalVoltageOutOfPhase, VFloat n_0_0); (n_xStepMin, VFloat n_0_0); (n_stepPhaseShiftIncrement, VFloat n_0_0); (n_windingConnectionAngle, VFloat n_0_0); (n_xStepMax, VFloat n_0_0); (n_voltageStepIncrementOutOfPhase, VFloat n_0_0); (n_PhaseVariationCurve, VNone); (n_Winding, VNone); (n_TransformerWinding, VNone)]
    [SAttr n_phaseTapChangerType; SAttr n_nominalVoltageOutOfPhase; SAttr n_xStepMin; SAttr n_stepPhaseShiftIncrement; SAttr n_windingConnectionAngle; SAttr n_xStepMax; SAttr n_voltageStepIncrementOutOfPhase; SOne n_PhaseVariationCurve; SOne n_Winding; SOne n_TransformerWinding]
    true true
    [n_phaseTapChangerType; n_nominalVoltageOutOfPhase; n_xStepMin; n_stepPhaseShiftIncrement; n_windingConnectionAngle; n_xStepMax; n_voltageStepIncrementOutOfPhase]
    [(n_phaseTapChangerType, VStr n_asymmetrical); (n_nominalVoltageOutOfPhase, VFloat n_0_0); (n_xStepMin, VFloat n_0_0); (n_stepPhaseShiftIncrement, VFloat n_0_0); (n_windingConnectionAngle, VFloat n_0_0); (n_xStepMax, VFloat n_0_0); (n_voltageStepIncrementOutOfPhase, VFloat n_0_0)]
    [(n_phaseTapChangerType, n_PhaseTapChangerKind)]
    [n_PhaseVariationCurve; n_Winding; n_TransformerWinding]
    []
    [(n_PhaseVariationCurve, POneOne n_PhaseTapChanger); (n_Winding, POneOne n_PhaseTapChanger); (n_TransformerWinding, POneOne n_PhaseTapChanger)];
(* CIM14/IEC61970/Wires/PhaseVariationCurve.py:23-58 *)
  Cls n_CIM14_IEC61970_Wires_PhaseVariationCurve_PhaseVariationCurve n_PhaseVariationCurve (Some n_CIM14_IEC61970_Core_Curve_Curve)
    [(n_PhaseTapChanger, VNone)]
    [SOne n_PhaseTapChanger]
    true true
    []
    []
    []
    [n_PhaseTapChanger]
    []
    [(n_PhaseTapChanger, POneOne n_PhaseVariationCurve)];
(* CIM14/IEC61970/Wires/Plant.py:23-38 *)
  Cls n_CIM14_IEC61970_Wires_Plant_Plant n_Plant (Some n_CIM14_IEC61970_Core_EquipmentContainer_EquipmentContainer)
    []
    []
    true true
    []
    []
    []
    []
    []
    [];
(* CIM14/IEC61970/Wires/PowerTransformer.py:23-96 *)
  Cls n_CIM14_IEC61970_Wires_PowerTransformer_PowerTransformer n_PowerTransformer (Some n_CIM14_IEC61970_Core_Equipment_Equipment)
    [(n_magSatFlux, VFloat n_0_0); (n_magBaseU, VFloat n_0_0); (n_bmagSat, VFloat n_0_0); (n_TransformerWindings, VNone); (n_HeatExchanger, VNone)]
    [SAttr n_magSatFlux; SAttr n_magBaseU; SAttr n_bmagSat; SMany n_TransformerWindings; SOne n_HeatExchanger]
    true true
    [n_magSatFlux; n_magBaseU; n_bmagSat]
    [(n_magSatFlux, VFloat n_0_0); (n_magBaseU, VFloat n_0_0); (n_bmagSat, VFloat n_0_0)]
    []
    [n_TransformerWindings; n_HeatExchanger]
    [n_TransformerWindings]
    [(n_TransformerWindings, PManyOne n_PowerTransformer); (n_HeatExchanger, POneOne n_PowerTransformer)];
(* CIM14/IEC61970/Wires/ProtectedSwitch.py:23-64 *)
  Cls n_CIM14_IEC61970_Wires_ProtectedSwitch_ProtectedSwitch n_ProtectedSwitch (Some n_CIM14_IEC61970_Wires_Switch_Switch)
    [(n_RecloseSequences, VNone)]
    [SMany n_RecloseSequences]
    true true
    []
    []
    []
    [n_RecloseSequences]
    [n_RecloseSequences]
    [(n_RecloseSequences, PManyOne n_ProtectedSwitch)];
(* CIM14/IEC61970/Wires/RatioTapChanger.py:23-102 *)
  Cls n_CIM14_IEC61970_Wires_RatioTapChanger_RatioTapChanger n_RatioTapChanger (Some n_CIM14_IEC61970_Wires_TapChanger_TapChanger)
    [(n_tculControlMode, VStr n_volt); (n_Winding, VNone); (n_TransformerWinding, VNone); (n_RatioVariationCurve, VNone)]
    [SAttr n_tculControlMode; SOne n_Winding; SOne n_TransformerWinding; SOne n_RatioVariationCurve]
    true true
    [n_tculControlMode]
    [(n_tculControlMode, VStr n_volt)]
    [(n_tculControlMode, n_TransformerControlMode)]
    [n_Winding; n_TransformerWinding; n_RatioVariationCurve]
    []
    [(n_Winding, POneOne n_RatioTapChanger); (n_TransformerWinding, POneOne n_RatioTapChanger); (n_RatioVariationCurve, POneOne n_RatioTapChanger)];
(* CIM14/IEC61970/Wires/RatioVariationCurve.py:23-58 *)
  Cls n_CIM14_IEC61970_Wires_RatioVariationCurve_RatioVariationCurve n_RatioVariationCurve (Some n_CIM14_IEC61970_Core_Curve_Curve)
    [(n_RatioTapChanger, VNone)]
    [SOne n_RatioTapChanger]
    true true
    []
    []
    []
    [n_RatioTapChanger]
    []
    [(n_RatioTapChanger, POneOne n_RatioVariationCurve)];
(* CIM14/IEC61970/Wires/ReactiveCapabilityCurve.py:23-104 *)
  Cls n_CIM14_IEC61970_Wires_ReactiveCapabilityCurve_ReactiveCapabilityCurve n_ReactiveCapabilityCurve (Some n_CIM14_IEC61970_Core_Curve_Curve)
    [(n_coolantTemperature, VFloat n_0_0); (n_hydrogenPressure, VFloat n_0_0); (n_InitiallyUsedBySynchronousMachines, VNone); (n_SynchronousMachines, VNone)]
    [SAttr n_coolantTemperature; SAttr n_hydrogenPressure; SMany n_InitiallyUsedBySynchronousMachines; SMany n_SynchronousMachines]
    true true
    [n_coolantTemperature; n_hydrogenPressure]
    [(n_coolantTemperature, VFloat n_0_0); (n_hydrogenPressure, VFloat n_0_0)]
    []
    [n_InitiallyUsedBySynchronousMachines; n_SynchronousMachines]
    [n_InitiallyUsedBySynchronousMachines; n_SynchronousMachines]
    [(n_InitiallyUsedBySynchronousMachines, PManyOne n_InitialReactiveCapabilityCurve); (n_SynchronousMachines, PManyMany n_ReactiveCapabilityCurves)];
(* CIM14/IEC61970/Wires/RectifierInverter.py:23-86 *)
  Cls n_CIM14_IEC61970_Wires_RectifierInverter_RectifierInverter n_RectifierInverter (Some n_CIM14_IEC61970_Core_ConductingEquipment_ConductingEquipment)
    [(n_ratedU, VFloat n_0_0); (n_compoundResistance, VFloat n_0_0); (n_frequency, VFloat n_0_0); (n_minCompoundVoltage, VFloat n_0_0); (n_minP, VFloat n_0_0); (n_maxP, VFloat n_0_0); (n_operatingMode, VStr n_); (n_commutatingResistance, VFloat n_0_0); (n_bridges, VInt 0); (n_maxU, VFloat n_0_0); (n_commutatingReactance, VFloat n_0_0); (n_minU, VFloat n_0_0)]
    [SAttr n_ratedU; SAttr n_compoundResistance; SAttr n_frequency; SAttr n_minCompoundVoltage; SAttr n_minP; SAttr n_maxP; SAttr n_operatingMode; SAttr n_commutatingResistance; SAttr n_bridges; SAttr n_maxU; SAttr n_commutatingReactance; SAttr n_minU]
    true true
    [n_ratedU; n_compoundResistance; n_frequency; n_minCompoundVoltage; n_minP; n_maxP; n_operatingMode; n_commutatingResistance; n_bridges; n_maxU; n_commutatingReactance; n_minU]
    [(n_ratedU, VFloat n_0_0); (n_compoundResistance, VFloat n_0_0); (n_frequency, VFloat n_0_0); (n_minCompoundVoltage, VFloat n_0_0); (n_minP, VFloat n_0_0); (n_maxP, VFloat n_0_0); (n_operatingMode, VStr n_); (n_commutatingResistance, VFloat n_0_0); (n_bridges, VInt 0); (n_maxU, VFloat n_0_0); (n_commutatingReactance, VFloat n_0_0); (n_minU, VFloat n_0_0)]
    []
    []
    []
    [];
(* CIM14/IEC61970/Wires/RegulatingCondEq.py:23-85 *)
  Cls n_CIM14_IEC61970_Wires_RegulatingCondEq_RegulatingCondEq n_RegulatingCondEq (Some n_CIM14_IEC61970_Core_ConductingEquipment_ConductingEquipment)
    [(n_Controls, VNone); (n_RegulatingControl, VNone)]
    [SMany n_Controls; SOne n_RegulatingControl]
    true true
    []
    []
    []
    [n_Controls; n_RegulatingControl]
    [n_Controls]
    [(n_Controls, PManyOne n_RegulatingCondEq); (n_RegulatingControl, POneMany n_RegulatingCondEq)];
(* CIM14/IEC61970/Wires/RegulatingControl.py:23-153 *)
  Cls n_CIM14_IEC61970_Wires_RegulatingControl_RegulatingControl n_RegulatingControl (Some n_CIM14_IEC61970_Core_PowerSystemResource_PowerSystemResource)
    [(n_mode, VStr n_fixed); (n_targetRange, VFloat n_0_0); (n_discrete, VBool false); (n_targetValue, VFloat n_0_0); (n_RegulationSchedule, VNone); (n_Terminal, VNone); (n_TapChanger, VNone); (n_RegulatingCondEq, VNone)]
    [SAttr n_mode; SAttr n_targetRange; SAttr n_discrete; SAttr n_targetValue; SMany n_RegulationSchedule; SOne n_Terminal; SMany n_TapChanger; SMany n_RegulatingCondEq]
    true true
    [n_mode; n_targetRange; n_discrete; n_targetValue]
    [(n_mode, VStr n_fixed); (n_targetRange, VFloat n_0_0); (n_discrete, VBool false); (n_targetValue, VFloat n_0_0)]
    [(n_mode, n_RegulatingControlModeKind)]
    [n_RegulationSchedule; n_Terminal; n_TapChanger; n_RegulatingCondEq]
    [n_RegulationSchedule; n_TapChanger; n_RegulatingCondEq]
    [(n_RegulationSchedule, PManyOne n_RegulatingControl); (n_Terminal, POneMany n_RegulatingControl); (n_TapChanger, PManyOne n_RegulatingControl); (n_RegulatingCondEq, PManyOne n_RegulatingControl)];
(* CIM14/IEC61970/Wires/RegulationSchedule.py:23-97 *)
  Cls n_CIM14_IEC61970_Wires_RegulationSchedule_RegulationSchedule n_RegulationSchedule (Some n_CIM14_IEC61970_LoadModel_SeasonDayTypeSchedule_SeasonDayTypeSchedule)
    [(n_lineDropX, VFloat n_0_0); (n_lineDropR, VFloat n_0_0); (n_lineDropCompensation, VBool false); (n_RegulatingControl, VNone); (n_VoltageControlZones, VNone)]
    [SAttr n_lineDropX; SAttr n_lineDropR; SAttr n_lineDropCompensation; SOne n_RegulatingControl; SMany n_VoltageControlZones]
    true true
    [n_lineDropX; n_lineDropR; n_lineDropCompensation]
    [(n_lineDropX, VFloat n_0_0); (n_lineDropR, VFloat n_0_0); (n_lineDropCompensation, VBool false)]
    []
    [n_RegulatingControl; n_VoltageControlZones]
    [n_VoltageControlZones]
    [(n_RegulatingControl, POneMany n_RegulationSchedule); (n_VoltageControlZones, PManyOne n_RegulationSchedule)];
(* CIM14/IEC61970/Wires/Resistor.py:23-38 *)
  Cls n_CIM14_IEC61970_Wires_Resistor_Resistor n_Resistor (Some n_CIM14_IEC61970_Core_ConductingEquipment_ConductingEquipment)
    []
    []
    true true
    []
    []
    []
    []
    []
    [];
(* CIM14/IEC61970/Wires/SeriesCompensator.py:23-46 *)
  Cls n_CIM14_IEC61970_Wires_SeriesCompensator_SeriesCompensator n_SeriesCompensator (Some n_CIM14_IEC61970_Core_ConductingEquipment_ConductingEquipment)
    [(n_r, VFloat n_0_0); (n_x, VFloat n_0_0)]
    [SAttr n_r; SAttr n_x]
    true true
    [n_r; n_x]
    [(n_r, VFloat n_0_0); (n_x, VFloat n_0_0)]
    []
    []
    []
    [];
(* CIM14/IEC61970/Wires/ShuntCompensator.py:23-118 *)
  Cls n_CIM14_IEC61970_Wires_ShuntCompensator_ShuntCompensator n_ShuntCompensator (Some n_CIM14_IEC61970_Wires_RegulatingCondEq_RegulatingCondEq)
    [(n_maxU, VFloat n_0_0); (n_reactivePerSection, VFloat n_0_0); (n_aVRDelay, VFloat n_0_0); (n_voltageSensitivity, VFloat n_0_0); (n_normalSections, VInt 0); (n_g0PerSection, VFloat n_0_0); (n_maximumSections, VInt 0); (n_bPerSection, VFloat n_0_0); (n_nomQ, VFloat n_0_0); (n_switchOnCount, VInt 0); (n_minU, VFloat n_0_0); (n_b0PerSection, VFloat n_0_0); (n_switchOnDate, VStr n_); (n_nomU, VFloat n_0_0); (n_gPerSection, VFloat n_0_0); (n_SvShuntCompensatorSections, VNone)]
    [SAttr n_maxU; SAttr n_reactivePerSection; SAttr n_aVRDelay; SAttr n_voltageSensitivity; SAttr n_normalSections; SAttr n_g0PerSection; SAttr n_maximumSections; SAttr n_bPerSection; SAttr n_nomQ; SAttr n_switchOnCount; SAttr n_minU; SAttr n_b0PerSection; SAttr n_switchOnDate; SAttr n_nomU; SAttr n_gPerSection; SOne n_SvShuntCompensatorSections]
    true true
    [n_maxU; n_reactivePerSection; n_aVRDelay; n_voltageSensitivity; n_normalSections; n_g0PerSection; n_maximumSections; n_bPerSection; n_nomQ; n_switchOnCount; n_minU; n_b0PerSection; n_switchOnDate; n_nomU; n_gPerSection]
    [(n_maxU, VFloat n_0_0); (n_reactivePerSection, VFloat n_0_0); (n_aVRDelay, VFloat n_0_0); (n_voltageSensitivity, VFloat n_0_0); (n_normalSections, VInt 0); (n_g0PerSection, VFloat n_0_0); (n_maximumSections, VInt 0); (n_bPerSection, VFloat n_0_0); (n_nomQ, VFloat n_0_0); (n_switchOnCount, VInt 0); (n_minU, VFloat n_0_0); (n_b0PerSection, VFloat n_0_0); (n_switchOnDate, VStr n_); (n_nomU, VFloat n_0_0); (n_gPerSection, VFloat n_0_0)]
    []
    [n_SvShuntCompensatorSections]
    []
    [(n_SvShuntCompensatorSections, POneOne n_ShuntCompensator)];
(* CIM14/IEC61970/Wires/StaticVarCompensator.py:23-58 *)
  Cls n_CIM14_IEC61970_Wires_StaticVarCompensator_StaticVarCompensator n_StaticVarCompensator (Some n_CIM14_IEC61970_Wires_RegulatingCondEq_RegulatingCondEq)
    [(n_sVCControlMode, VStr n_reactivePower); (n_voltageSetPoint, VFloat n_0_0); (n_capacitiveRating, VFloat n_0_0); (n_inductiveRating, VFloat n_0_0); (n_slope, VFloat n_0_0)]
    [SAttr n_sVCControlMode; SAttr n_voltageSetPoint; SAttr n_capacitiveRating; SAttr n_inductiveRating; SAttr n_slope]
    true true
    [n_sVCControlMode; n_voltageSetPoint; n_capacitiveRating; n_inductiveRating; n_slope]
    [(n_sVCControlMode, VStr n_reactivePower); (n_voltageSetPoint, VFloat n_0_0); (n_capacitiveRating, VFloat n_0_0); (n_inductiveRating, VFloat n_0_0); (n_slope, VFloat n_0_0)]
    [(n_sVCControlMode, n_SVCControlMode)]
    []
    []
    [];
(* CIM14/IEC61970/Wires/Switch.py:23-164 *)
  Cls n_CIM14_IEC61970_Wires_Switch_Switch n_Switch (Some n_CIM14_IEC61970_Core_ConductingEquipment_ConductingEquipment)
    [(n_switchOnCount, VInt 0); (n_switchOnDate, VStr n_); (n_retained, VBool false); (n_normalOpen, VBool false); (n_SwitchingOperations, VNone); (n_CompositeSwitch, VNone); (n_ConnectDisconnectFunctions, VNone); (n_SwitchSchedules, VNone)]
    [SAttr n_switchOnCount; SAttr n_switchOnDate; SAttr n_retained; SAttr n_normalOpen; SMany n_SwitchingOperations; SOne n_CompositeSwitch; SMany n_ConnectDisconnectFunctions; SMany n_SwitchSchedules]
    true true
    [n_switchOnCount; n_switchOnDate; n_retained; n_normalOpen]
    [(n_switchOnCount, VInt 0); (n_switchOnDate, VStr n_); (n_retained, VBool false); (n_normalOpen, VBool false)]
    []
    [n_SwitchingOperations; n_CompositeSwitch; n_ConnectDisconnectFunctions; n_SwitchSchedules]
    [n_SwitchingOperations; n_ConnectDisconnectFunctions; n_SwitchSchedules]
    [(n_SwitchingOperations, PManyMany n_Switches); (n_CompositeSwitch, POneMany n_Switches); (n_ConnectDisconnectFunctions, PManyMany n_Switches); (n_SwitchSchedules, PManyOne n_Switch)];
(* CIM14/IEC61970/Wires/SwitchSchedule.py:23-59 *)
  Cls n_CIM14_IEC61970_Wires_SwitchSchedule_SwitchSchedule n_SwitchSchedule (Some n_CIM14_IEC61970_LoadModel_SeasonDayTypeSchedule_SeasonDayTypeSchedule)
    [(n_Switch, VNone)]
    [SOne n_Switch]
    true true
    []
    []
    []
    [n_Switch]
    []
    [(n_Switch, POneMany n_SwitchSchedules)];
(* CIM14/IEC61970/Wires/SynchronousMachine.py:23-373 *)
  Cls n_CIM14_IEC61970_Wires_SynchronousMachine_SynchronousMachine n_SynchronousMachine (Some n_CIM14_IEC61970_Dynamics_RotatingMachine_RotatingMachine)
    [(n_operatingMode, VStr n_condenser); (n_type, VStr n_generator_or_condenser); (n_coolantType, VStr n_air); (n_xQuadTrans, VFloat n_0_0); (n_condenserP, VFloat n_0_0); (n_referencePriority, VInt 0); (n_damping, VFloat n_0_0); (n_x0, VFloat n_0_0); (n_r2, VFloat n_0_0); (n_minQ, VFloat n_0_0); (n_xDirectSync, VFloat n_0_0); (n_maxQ, VFloat n_0_0); (n_r0, VFloat n_0_0); (n_aVRToManualLead, VFloat n_0_0); (n_x, VFloat n_0_0); (n_inertia, VFloat n_0_0); (n_coolantCondition, VFloat n_0_0); (n_manualToAVR, VFloat n_0_0); (n_r, VFloat n_0_0); (n_maxU, VFloat n_0_0); (n_xQuadSync, VFloat n_0_0); (n_qPercent, VFloat n_0_0); (n_xQuadSubtrans, VFloat n_0_0); (n_minU, VFloat n_0_0); (n_aVRToManualLag, VFloat n_0_0); (n_baseQ, VFloat n_0_0); (n_xDirectTrans, VFloat n_0_0); (n_x2, VFloat n_0_0); (n_xDirectSubtrans, VFloat n_0_0); (n_genLoad0, VNone); (n_HydroPump, VNone); (n_GeneratingUnit, VNone); (n_govHydro10, VNone); (n_PrimeMovers, VNone); (n_InitialReactiveCapabilityCurve, VNone); (n_genEquiv0, VNone); (n_ReactiveCapabilityCurves, VNone)]
    [SAttr n_operatingMode; SAttr n_type; SAttr n_coolantType; SAttr n_xQuadTrans; SAttr n_condenserP; SAttr n_referencePriority; SAttr n_damping; SAttr n_x0; SAttr n_r2; SAttr n_minQ; SAttr n_xDirectSync; SAttr n_maxQ; SAttr n_r0; SAttr n_aVRToManualLead; SAttr n_x; SAttr n_inertia; SAttr n_coolantCondition; SAttr n_manualToAVR; SAttr n_r; SAttr n_maxU; SAttr n_xQuadSync; SAttr n_qPercent; SAttr n_xQuadSubtrans; SAttr n_minU; SAttr n_aVRToManualLag; SAttr n_baseQ; SAttr n_xDirectTrans; SAttr n_x2; SAttr n_xDirectSubtrans; SMany n_genLoad0; SOne n_HydroPump; SOne n_GeneratingUnit; SMany n_govHydro10; SMany n_PrimeMovers; SOne n_InitialReactiveCapabilityCurve; SMany n_genEquiv0; SMany n_ReactiveCapabilityCurves]
    true true
    [n_operatingMode; n_type; n_coolantType; n_xQuadTrans; n_condenserP; n_referencePriority; n_damping; n_x0; n_r2; n_minQ; n_xDirectSync; n_maxQ; n_r0; n_aVRToManualLead; n_x; n_inertia; n_coolantCondition; n_manualToAVR; n_r; n_maxU; n_xQuadSync; n_qPercent; n_xQuadSubtrans; n_minU; n_aVRToManualLag; n_baseQ; n_xDirectTrans; n_x2; n_xDirectSubtrans]
    [(n_operatingMode, VStr n_condenser); (n_type, VStr n_generator_or_condenser); (n_coolantType, VStr n_air); (n_xQuadTrans, VFloat n_0_0); (n_condenserP, VFloat n_0_0); (n_referencePriority, VInt 0); (n_damping, VFloat n_0_0); (n_x0, VFloat n_0_0); (n_r2, VFloat n_0_0); (n_minQ, VFloat n_0_0); (n_xDirectSync, VFloat n_0_0); (n_maxQ, VFloat n_0_0); (n_r0, VFloat n_0_0); (n_aVRToManualLead, VFloat n_0_0); (n_x, VFloat n_0_0); (n_inertia, VFloat n_0_0); (n_coolantCondition, VFloat n_0_0); (n_manualToAVR, VFloat n_0_0); (n_r, VFloat n_0_0); (n_maxU, VFloat n_0_0); (n_xQuadSync, VFloat n_0_0); (n_qPercent, VFloat n_0_0); (n_xQuadSubtrans, VFloat n_0_0); (n_minU, VFloat n_0_0); (n_aVRToManualLag, VFloat n_0_0); (n_baseQ, VFloat n_0_0); (n_xDirectTrans, VFloat n_0_0); (n_x2, VFloat n_0_0); (n_xDirectSubtrans, VFloat n_0_0)]
    [(n_operatingMode, n_SynchronousMachineOperatingMode); (n_type, n_SynchronousMachineType); (n_coolantType, n_CoolantType)]
    [n_genLoad0; n_HydroPump; n_GeneratingUnit; n_govHydro10; n_PrimeMovers; n_InitialReactiveCapabilityCurve; n_genEquiv0; n_ReactiveCapabilityCurves]
    [n_genLoad0; n_govHydro10; n_PrimeMovers; n_genEquiv0; n_ReactiveCapabilityCurves]
    [(n_genLoad0, PManyMany n_synchronousMachine0); (n_HydroPump, POneOne n_SynchronousMachine); (n_GeneratingUnit, POneMany n_SynchronousMachines); (n_govHydro10, PManyMany n_synchronousMachine0); (n_PrimeMovers, PManyMany n_SynchronousMachines); (n_InitialReactiveCapabilityCurve, POneMany n_InitiallyUsedBySynchronousMachines); (n_genEquiv0, PManyMany n_synchronousMachine0); (n_ReactiveCapabilityCurves, PManyMany n_SynchronousMachines)];
(* CIM14/IEC61970/Wires/TapChanger.py:23-164 *)
  Cls n_CIM14_IEC61970_Wires_TapChanger_TapChanger n_TapChanger (Some n_CIM14_IEC61970_Core_PowerSystemResource_PowerSystemResource)
    [(n_stepVoltageIncrement, VFloat n_0_0); (n_normalStep, VInt 0); (n_neutralStep, VInt 0); (n_subsequentDelay, VFloat n_0_0); (n_regulationStatus, VBool false); (n_ltcFlag, VBool false); (n_highStep, VInt 0); (n_initialDelay, VFloat n_0_0); (n_lowStep, VInt 0); (n_neutralU, VFloat n_0_0); (n_SvTapStep, VNone); (n_ImpedanceVariationCurve, VNone); (n_TapSchedules, VNone); (n_RegulatingControl, VNone)]
    [SAttr n_stepVoltageIncrement; SAttr n_normalStep; SAttr n_neutralStep; SAttr n_subsequentDelay; SAttr n_regulationStatus; SAttr n_ltcFlag; SAttr n_highStep; SAttr n_initialDelay; SAttr n_lowStep; SAttr n_neutralU; SOne n_SvTapStep; SOne n_ImpedanceVariationCurve; SMany n_TapSchedules; SOne n_RegulatingControl]
    true true
    [n_stepVoltageIncrement; n_normalStep; n_neutralStep; n_subsequentDelay; n_regulationStatus; n_ltcFlag; n_highStep; n_initialDelay; n_lowStep; n_neutralU]
    [(n_stepVoltageIncrement, VFloat n_0_0); (n_normalStep, VInt 0); (n_neutralStep, VInt 0); (n_subsequentDelay, VFloat n_0_0); (n_regulationStatus, VBool false); (n_ltcFlag, VBool false); (n_highStep, VInt 0); (n_initialDelay, VFloat n_0_0); (n_lowStep, VInt 0); (n_neutralU, VFloat n_0_0)]
    []
    [n_SvTapStep; n_ImpedanceVariationCurve; n_TapSchedules; n_RegulatingControl]
    [n_TapSchedules]
    [(n_SvTapStep, POneOne n_TapChanger); (n_ImpedanceVariationCurve, POneOne n_TapChanger); (n_TapSchedules, PManyOne n_TapChanger); (n_RegulatingControl, POneMany n_TapChanger)];
(* CIM14/IEC61970/Wires/TapSchedule.py:23-71 *)
  Cls n_CIM14_IEC61970_Wires_TapSchedule_TapSchedule n_TapSchedule (Some n_CIM14_IEC61970_LoadModel_SeasonDayTypeSchedule_SeasonDayTypeSchedule)
    [(n_lineDropCompensation, VBool false); (n_lineDropR, VFloat n_0_0); (n_lineDropX, VFloat n_0_0); (n_TapChanger, VNone)]
    [SAttr n_lineDropCompensation; SAttr n_lineDropR; SAttr n_lineDropX; SOne n_TapChanger]
    true true
    [n_lineDropCompensation; n_lineDropR; n_lineDropX]
    [(n_lineDropCompensation, VBool false); (n_lineDropR, VFloat n_0_0); (n_lineDropX, VFloat n_0_0)]
    []
    [n_TapChanger]
    []
    [(n_TapChanger, POneMany n_TapSchedules)];
(* CIM14/IEC61970/Wires/TransformerWinding.py:23-223 *)
  Cls n_CIM14_IEC61970_Wires_TransformerWinding_TransformerWinding n_TransformerWinding (Some n_CIM14_IEC61970_Core_ConductingEquipment_ConductingEquipment)
    [(n_connectionType, VStr n_Yn); (n_windingType, VStr n_primary); (n_x, VFloat n_0_0); (n_grounded, VBool false); (n_g, VFloat n_0_0); (n_r, VFloat n_0_0); (n_x0, VFloat n_0_0); (n_ratedU, VFloat n_0_0); (n_ratedS, VFloat n_0_0); (n_emergencyS, VFloat n_0_0); (n_rground, VFloat n_0_0); (n_shortTermS, VFloat n_0_0); (n_r0, VFloat n_0_0); (n_g0, VFloat n_0_0); (n_insulationU, VFloat n_0_0); (n_b, VFloat n_0_0); (n_b0, VFloat n_0_0); (n_xground, VFloat n_0_0); (n_From_WindingTest, VNone); (n_To_WindingTest, VNone); (n_RatioTapChanger, VNone); (n_PowerTransformer, VNone); (n_PhaseTapChanger, VNone)]
    [SAttr n_connectionType; SAttr n_windingType; SAttr n_x; SAttr n_grounded; SAttr n_g; SAttr n_r; SAttr n_x0; SAttr n_ratedU; SAttr n_ratedS; SAttr n_emergencyS; SAttr n_rground; SAttr n_shortTermS; SAttr n_r0; SAttr n_g0; SAttr n_insulationU; SAttr n_b; SAttr n_b0; SAttr n_xground; SMany n_From_WindingTest; SMany n_To_WindingTest; SOne n_RatioTapChanger; SOne n_PowerTransformer; SOne n_PhaseTapChanger]
    true true
    [n_connectionType; n_windingType; n_x; n_grounded; n_g; n_r; n_x0; n_ratedU; n_ratedS; n_emergencyS; n_rground; n_shortTermS; n_r0; n_g0; n_insulationU; n_b; n_b0; n_xground]
    [(n_connectionType, VStr n_Yn); (n_windingType, VStr n_primary); (n_x, VFloat n_0_0); (n_grounded, VBool false); (n_g, VFloat n_0_0); (n_r, VFloat n_0_0); (n_x0, VFloat n_0_0); (n_ratedU, VFloat n_0_0); (n_ratedS, VFloat n_0_0); (n_emergencyS, VFloat n_0_0); (n_rground, VFloat n_0_0); (n_shortTermS, VFloat n_0_0); (n_r0, VFloat n_0_0); (n_g0, VFloat n_0_0); (n_insulationU, VFloat n_0_0); (n_b, VFloat n_0_0); (n_b0, VFloat n_0_0); (n_xground, VFloat n_0_0)]
    [(n_connectionType, n_WindingConnection); (n_windingType, n_WindingType)]
    [n_From_WindingTest; n_To_WindingTest; n_RatioTapChanger; n_PowerTransformer; n_PhaseTapChanger]
    [n_From_WindingTest; n_To_WindingTest]
    [(n_From_WindingTest, PManyOne n_From_TransformerWinding); (n_To_WindingTest, PManyOne n_To_TransformerWinding); (n_RatioTapChanger, POneOne n_TransformerWinding); (n_PowerTransformer, POneMany n_TransformerWindings); (n_PhaseTapChanger, POneOne n_TransformerWinding)];
(* CIM14/IEC61970/Wires/VoltageControlZone.py:23-79 *)
  Cls n_CIM14_IEC61970_Wires_VoltageControlZone_VoltageControlZone n_VoltageControlZone (Some n_CIM14_IEC61970_Core_PowerSystemResource_PowerSystemResource)
    [(n_RegulationSchedule, VNone); (n_BusbarSection, VNone)]
    [SOne n_RegulationSchedule; SOne n_BusbarSection]
    true true
    []
    []
    []
    [n_RegulationSchedule; n_BusbarSection]
    []
    [(n_RegulationSchedule, POneMany n_VoltageControlZones); (n_BusbarSection, POneOne n_VoltageControlZone)];
(* CIM14/IEC61970/Wires/WindingTest.py:23-112 *)
  Cls n_CIM14_IEC61970_Wires_WindingTest_WindingTest n_WindingTest (Some n_CIM14_IEC61970_Core_IdentifiedObject_IdentifiedObject)
    [(n_fromTapStep, VInt 0); (n_leakageImpedance, VFloat n_0_0); (n_noLoadLoss, VFloat n_0_0); (n_phaseShift, VFloat n_0_0); (n_excitingCurrent, VFloat n_0_0); (n_loadLoss, VFloat n_0_0); (n_toTapStep, VInt 0); (n_voltage, VFloat n_0_0); (n_From_TransformerWinding, VNone); (n_To_TransformerWinding, VNone)]
    [SAttr n_fromTapStep; SAttr n_leakageImpedance; SAttr n_noLoadLoss; SAttr n_phaseShift; SAttr n_excitingCurrent; SAttr n_loadLoss; SAttr n_toTapStep; SAttr n_voltage; SOne n_From_TransformerWinding; SOne n_To_TransformerWinding]
    true true
    [n_fromTapStep; n_leakageImpedance; n_noLoadLoss; n_phaseShift; n_excitingCurrent; n_loadLoss; n_toTapStep; n_voltage]
    [(n_fromTapStep, VInt 0); (n_leakageImpedance, VFloat n_0_0); (n_noLoadLoss, VFloat n_0_0); (n_phaseShift, VFloat n_0_0); (n_excitingCurrent, VFloat n_0_0); (n_loadLoss, VFloat n_0_0); (n_toTapStep, VInt 0); (n_voltage, VFloat n_0_0)]
    []
    [n_From_TransformerWinding; n_To_TransformerWinding]
    []
    [(n_From_TransformerWinding, POneMany n_From_WindingTest); (n_To_TransformerWinding, POneMany n_To_WindingTest)]
].

(** packageMap, CIM14/__init__.py:30-502: tag to the class that the package exports under that name. *)
Definition cim14_map : list (name * name) := [
  (n_CombinedVersion, n_CIM14_CombinedVersion_CombinedVersion);
  (n_Element, n_CIM14_Element_Element);
  (n_IEC61970CIMVersion, n_CIM14_IEC61970_IEC61970CIMVersion_IEC61970CIMVersion);
  (n_IdentifiedObject, n_CIM14_IEC61970_Core_IdentifiedObject_IdentifiedObject);
  (n_PowerSystemResource, n_CIM14_IEC61970_Core_PowerSystemResource_PowerSystemResource);
  (n_Equipment, n_CIM14_IEC61970_Core_Equipment_Equipment);
  (n_ConductingEquipment, n_CIM14_IEC61970_Core_ConductingEquipment_ConductingEquipment);
  (n_Curve, n_CIM14_IEC61970_Core_Curve_Curve);
  (n_BasicIntervalSchedule, n_CIM14_IEC61970_Core_BasicIntervalSchedule_BasicIntervalSchedule);
  (n_IrregularIntervalSchedule, n_CIM14_IEC61970_Core_IrregularIntervalSchedule_IrregularIntervalSchedule);
  (n_RegularIntervalSchedule, n_CIM14_IEC61970_Core_RegularIntervalSchedule_RegularIntervalSchedule);
  (n_ConnectivityNodeContainer, n_CIM14_IEC61970_Core_ConnectivityNodeContainer_ConnectivityNodeContainer);
  (n_EquipmentContainer, n_CIM14_IEC61970_Core_EquipmentContainer_EquipmentContainer);
  (n_CurveData, n_CIM14_IEC61970_Core_CurveData_CurveData);
  (n_Bay, n_CIM14_IEC61970_Core_Bay_Bay);
  (n_PSRType, n_CIM14_IEC61970_Core_PSRType_PSRType);
  (n_GeographicalRegion, n_CIM14_IEC61970_Core_GeographicalRegion_GeographicalRegion);
  (n_Terminal, n_CIM14_IEC61970_Core_Terminal_Terminal);
  (n_OperatingParticipant, n_CIM14_IEC61970_Core_OperatingParticipant_OperatingParticipant);
  (n_VoltageLevel, n_CIM14_IEC61970_Core_VoltageLevel_VoltageLevel);
  (n_ConnectivityNode, n_CIM14_IEC61970_Core_ConnectivityNode_ConnectivityNode);
  (n_BasePower, n_CIM14_IEC61970_Core_BasePower_BasePower);
  (n_Unit, n_CIM14_IEC61970_Core_Unit_Unit);
  (n_BaseVoltage, n_CIM14_IEC61970_Core_BaseVoltage_BaseVoltage);
  (n_SubGeographicalRegion, n_CIM14_IEC61970_Core_SubGeographicalRegion_SubGeographicalRegion);
  (n_PsrList, n_CIM14_IEC61970_Core_PsrList_PsrList);
  (n_Substation, n_CIM14_IEC61970_Core_Substation_Substation);
  (n_ReportingGroup, n_CIM14_IEC61970_Core_ReportingGroup_ReportingGroup);
  (n_ReportingSuperGroup, n_CIM14_IEC61970_Core_ReportingSuperGroup_ReportingSuperGroup);
  (n_RegularTimePoint, n_CIM14_IEC61970_Core_RegularTimePoint_RegularTimePoint);
  (n_IrregularTimePoint, n_CIM14_IEC61970_Core_IrregularTimePoint_IrregularTimePoint);
  (n_OperatingShare, n_CIM14_IEC61970_Core_OperatingShare_OperatingShare);
  (n_PowerTransformer, n_CIM14_IEC61970_Wires_PowerTransformer_PowerTransformer);
  (n_RegulatingCondEq, n_CIM14_IEC61970_Wires_RegulatingCondEq_RegulatingCondEq);
  (n_FrequencyConverter, n_CIM14_IEC61970_Wires_FrequencyConverter_FrequencyConverter);
  (n_ShuntCompensator, n_CIM14_IEC61970_Wires_ShuntCompensator_ShuntCompensator);
  (n_HeatExchanger, n_CIM14_IEC61970_Wires_HeatExchanger_HeatExchanger);
  (n_RegulatingControl, n_CIM14_IEC61970_Wires_RegulatingControl_RegulatingControl);
  (n_ReactiveCapabilityCurve, n_CIM14_IEC61970_Wires_ReactiveCapabilityCurve_ReactiveCapabilityCurve);
  (n_Line, n_CIM14_IEC61970_Wires_Line_Line);
  (n_Connector, n_CIM14_IEC61970_Wires_Connector_Connector);
  (n_Junction, n_CIM14_IEC61970_Wires_Junction_Junction);
  (n_Ground, n_CIM14_IEC61970_Wires_Ground_Ground);
  (n_Conductor, n_CIM14_IEC61970_Wires_Conductor_Conductor);
  (n_TransformerWinding, n_CIM14_IEC61970_Wires_TransformerWinding_TransformerWinding);
  (n_SynchronousMachine, n_CIM14_IEC61970_Wires_SynchronousMachine_SynchronousMachine);
  (n_EnergyConsumer, n_CIM14_IEC61970_Wires_EnergyConsumer_EnergyConsumer);
  (n_TapChanger, n_CIM14_IEC61970_Wires_TapChanger_TapChanger);
  (n_RatioTapChanger, n_CIM14_IEC61970_Wires_RatioTapChanger_RatioTapChanger);
  (n_Switch, n_CIM14_IEC61970_Wires_Switch_Switch);
  (n_ProtectedSwitch, n_CIM14_IEC61970_Wires_ProtectedSwitch_ProtectedSwitch);
  (n_LoadBreakSwitch, n_CIM14_IEC61970_Wires_LoadBreakSwitch_LoadBreakSwitch);
  (n_ACLineSegment, n_CIM14_IEC61970_Wires_ACLineSegment_ACLineSegment);
  (n_Plant, n_CIM14_IEC61970_Wires_Plant_Plant);
  (n_RegulationSchedule, n_CIM14_IEC61970_Wires_RegulationSchedule_RegulationSchedule);
  (n_WindingTest, n_CIM14_IEC61970_Wires_WindingTest_WindingTest);
  (n_PhaseVariationCurve, n_CIM14_IEC61970_Wires_PhaseVariationCurve_PhaseVariationCurve);
  (n_MutualCoupling, n_CIM14_IEC61970_Wires_MutualCoupling_MutualCoupling);
  (n_Disconnector, n_CIM14_IEC61970_Wires_Disconnector_Disconnector);
  (n_SeriesCompensator, n_CIM14_IEC61970_Wires_SeriesCompensator_SeriesCompensator);
  (n_GroundDisconnector, n_CIM14_IEC61970_Wires_GroundDisconnector_GroundDisconnector);
  (n_RatioVariationCurve, n_CIM14_IEC61970_Wires_RatioVariationCurve_RatioVariationCurve);
  (n_Resistor, n_CIM14_IEC61970_Wires_Resistor_Resistor);
  (n_CompositeSwitch, n_CIM14_IEC61970_Wires_CompositeSwitch_CompositeSwitch);
  (n_PhaseTapChanger, n_CIM14_IEC61970_Wires_PhaseTapChanger_PhaseTapChanger);
  (n_RectifierInverter, n_CIM14_IEC61970_Wires_RectifierInverter_RectifierInverter);
  (n_StaticVarCompensator, n_CIM14_IEC61970_Wires_StaticVarCompensator_StaticVarCompensator);
  (n_TapSchedule, n_CIM14_IEC61970_Wires_TapSchedule_TapSchedule);
  (n_VoltageControlZone, n_CIM14_IEC61970_Wires_VoltageControlZone_VoltageControlZone);
  (n_EnergySource, n_CIM14_IEC61970_Wires_EnergySource_EnergySource);
  (n_Fuse, n_CIM14_IEC61970_Wires_Fuse_Fuse);
  (n_Jumper, n_CIM14_IEC61970_Wires_Jumper_Jumper);
  (n_ImpedanceVariationCurve, n_CIM14_IEC61970_Wires_ImpedanceVariationCurve_ImpedanceVariationCurve);
  (n_DCLineSegment, n_CIM14_IEC61970_Wires_DCLineSegment_DCLineSegment);
  (n_SwitchSchedule, n_CIM14_IEC61970_Wires_SwitchSchedule_SwitchSchedule);
  (n_Breaker, n_CIM14_IEC61970_Wires_Breaker_Breaker);
  (n_BusbarSection, n_CIM14_IEC61970_Wires_BusbarSection_BusbarSection);
  (n_TopologicalIsland, n_CIM14_IEC61970_StateVariables_TopologicalIsland_TopologicalIsland);
  (n_StateVariable, n_CIM14_IEC61970_StateVariables_StateVariable_StateVariable);
  (n_SvVoltage, n_CIM14_IEC61970_StateVariables_SvVoltage_SvVoltage);
  (n_SvShortCircuit, n_CIM14_IEC61970_StateVariables_SvShortCircuit_SvShortCircuit);
  (n_SvShuntCompensatorSections, n_CIM14_IEC61970_StateVariables_SvShuntCompensatorSections_SvShuntCompensatorSections);
  (n_SvPowerFlow, n_CIM14_IEC61970_StateVariables_SvPowerFlow_SvPowerFlow);
  (n_SvStatus, n_CIM14_IEC61970_StateVariables_SvStatus_SvStatus);
  (n_SvTapStep, n_CIM14_IEC61970_StateVariables_SvTapStep_SvTapStep);
  (n_SvInjection, n_CIM14_IEC61970_StateVariables_SvInjection_SvInjection);
  (n_ClearanceTag, n_CIM14_IEC61970_Outage_ClearanceTag_ClearanceTag);
  (n_ClearanceTagType, n_CIM14_IEC61970_Outage_ClearanceTagType_ClearanceTagType);
  (n_OutageSchedule, n_CIM14_IEC61970_Outage_OutageSchedule_OutageSchedule);
  (n_SwitchingOperation, n_CIM14_IEC61970_Outage_SwitchingOperation_SwitchingOperation);
  (n_SteamSupply, n_CIM14_IEC61970_Generation_GenerationDynamics_SteamSupply_SteamSupply);
  (n_FossilSteamSupply, n_CIM14_IEC61970_Generation_GenerationDynamics_FossilSteamSupply_FossilSteamSupply);
  (n_HeatRecoveryBoiler, n_CIM14_IEC61970_Generation_GenerationDynamics_HeatRecoveryBoiler_HeatRecoveryBoiler);
  (n_PWRSteamSupply, n_CIM14_IEC61970_Generation_GenerationDynamics_PWRSteamSupply_PWRSteamSupply);
  (n_PrimeMover, n_CIM14_IEC61970_Generation_GenerationDynamics_PrimeMover_PrimeMover);
  (n_Supercritical, n_CIM14_IEC61970_Generation_GenerationDynamics_Supercritical_Supercritical);
  (n_CombustionTurbine, n_CIM14_IEC61970_Generation_GenerationDynamics_CombustionTurbine_CombustionTurbine);
  (n_HydroTurbine, n_CIM14_IEC61970_Generation_GenerationDynamics_HydroTurbine_HydroTurbine);
  (n_Subcritical, n_CIM14_IEC61970_Generation_GenerationDynamics_Subcritical_Subcritical);
  (n_CTTempActivePowerCurve, n_CIM14_IEC61970_Generation_GenerationDynamics_CTTempActivePowerCurve_CTTempActivePowerCurve);
  (n_SteamTurbine, n_CIM14_IEC61970_Generation_GenerationDynamics_SteamTurbine_SteamTurbine);
  (n_DrumBoiler, n_CIM14_IEC61970_Generation_GenerationDynamics_DrumBoiler_DrumBoiler);
  (n_BWRSteamSupply, n_CIM14_IEC61970_Generation_GenerationDynamics_BWRSteamSupply_BWRSteamSupply);
  (n_LevelVsVolumeCurve, n_CIM14_IEC61970_Generation_Production_LevelVsVolumeCurve_LevelVsVolumeCurve);
  (n_FossilFuel, n_CIM14_IEC61970_Generation_Production_FossilFuel_FossilFuel);
  (n_SteamSendoutSchedule, n_CIM14_IEC61970_Generation_Production_SteamSendoutSchedule_SteamSendoutSchedule);
  (n_EmissionCurve, n_CIM14_IEC61970_Generation_Production_EmissionCurve_EmissionCurve);
  (n_CombinedCyclePlant, n_CIM14_IEC61970_Generation_Production_CombinedCyclePlant_CombinedCyclePlant);
  (n_StartIgnFuelCurve, n_CIM14_IEC61970_Generation_Production_StartIgnFuelCurve_StartIgnFuelCurve);
  (n_HydroGeneratingEfficiencyCurve, n_CIM14_IEC61970_Generation_Production_HydroGeneratingEfficiencyCurve_HydroGeneratingEfficiencyCurve);
  (n_StartRampCurve, n_CIM14_IEC61970_Generation_Production_StartRampCurve_StartRampCurve);
  (n_GeneratingUnit, n_CIM14_IEC61970_Generation_Production_GeneratingUnit_GeneratingUnit);
  (n_NuclearGeneratingUnit, n_CIM14_IEC61970_Generation_Production_NuclearGeneratingUnit_NuclearGeneratingUnit);
  (n_WindGeneratingUnit, n_CIM14_IEC61970_Generation_Production_WindGeneratingUnit_WindGeneratingUnit);
  (n_StartMainFuelCurve, n_CIM14_IEC61970_Generation_Production_StartMainFuelCurve_StartMainFuelCurve);
  (n_StartupModel, n_CIM14_IEC61970_Generation_Production_StartupModel_StartupModel);
  (n_AirCompressor, n_CIM14_IEC61970_Generation_Production_AirCompressor_AirCompressor);
  (n_HeatInputCurve, n_CIM14_IEC61970_Generation_Production_HeatInputCurve_HeatInputCurve);
  (n_CogenerationPlant, n_CIM14_IEC61970_Generation_Production_CogenerationPlant_CogenerationPlant);
  (n_ShutdownCurve, n_CIM14_IEC61970_Generation_Production_ShutdownCurve_ShutdownCurve);
  (n_InflowForecast, n_CIM14_IEC61970_Generation_Production_InflowForecast_InflowForecast);
  (n_HydroGeneratingUnit, n_CIM14_IEC61970_Generation_Production_HydroGeneratingUnit_HydroGeneratingUnit);
  (n_TargetLevelSchedule, n_CIM14_IEC61970_Generation_Production_TargetLevelSchedule_TargetLevelSchedule);
  (n_EmissionAccount, n_CIM14_IEC61970_Generation_Production_EmissionAccount_EmissionAccount);
  (n_GrossToNetActivePowerCurve, n_CIM14_IEC61970_Generation_Production_GrossToNetActivePowerCurve_GrossToNetActivePowerCurve);
  (n_HydroPumpOpSchedule, n_CIM14_IEC61970_Generation_Production_HydroPumpOpSchedule_HydroPumpOpSchedule);
  (n_Reservoir, n_CIM14_IEC61970_Generation_Production_Reservoir_Reservoir);
  (n_CAESPlant, n_CIM14_IEC61970_Generation_Production_CAESPlant_CAESPlant);
  (n_GenUnitOpCostCurve, n_CIM14_IEC61970_Generation_Production_GenUnitOpCostCurve_GenUnitOpCostCurve);
  (n_PenstockLossCurve, n_CIM14_IEC61970_Generation_Production_PenstockLossCurve_PenstockLossCurve);
  (n_HydroPump, n_CIM14_IEC61970_Generation_Production_HydroPump_HydroPump);
  (n_GenUnitOpSchedule, n_CIM14_IEC61970_Generation_Production_GenUnitOpSchedule_GenUnitOpSchedule);
  (n_FuelAllocationSchedule, n_CIM14_IEC61970_Generation_Production_FuelAllocationSchedule_FuelAllocationSchedule);
  (n_HeatRateCurve, n_CIM14_IEC61970_Generation_Production_HeatRateCurve_HeatRateCurve);
  (n_IncrementalHeatRateCurve, n_CIM14_IEC61970_Generation_Production_IncrementalHeatRateCurve_IncrementalHeatRateCurve);
  (n_ThermalGeneratingUnit, n_CIM14_IEC61970_Generation_Production_ThermalGeneratingUnit_ThermalGeneratingUnit);
  (n_TailbayLossCurve, n_CIM14_IEC61970_Generation_Production_TailbayLossCurve_TailbayLossCurve);
  (n_HydroPowerPlant, n_CIM14_IEC61970_Generation_Production_HydroPowerPlant_HydroPowerPlant);
  (n_PowerCutZone, n_CIM14_IEC61970_LoadModel_PowerCutZone_PowerCutZone);
  (n_LoadResponseCharacteristic, n_CIM14_IEC61970_LoadModel_LoadResponseCharacteristic_LoadResponseCharacteristic);
  (n_EnergyArea, n_CIM14_IEC61970_LoadModel_EnergyArea_EnergyArea);
  (n_LoadArea, n_CIM14_IEC61970_LoadModel_LoadArea_LoadArea);
  (n_StationSupply, n_CIM14_IEC61970_LoadModel_StationSupply_StationSupply);
  (n_SubLoadArea, n_CIM14_IEC61970_LoadModel_SubLoadArea_SubLoadArea);
  (n_LoadGroup, n_CIM14_IEC61970_LoadModel_LoadGroup_LoadGroup);
  (n_NonConformLoadGroup, n_CIM14_IEC61970_LoadModel_NonConformLoadGroup_NonConformLoadGroup);
  (n_SeasonDayTypeSchedule, n_CIM14_IEC61970_LoadModel_SeasonDayTypeSchedule_SeasonDayTypeSchedule);
  (n_Season, n_CIM14_IEC61970_LoadModel_Season_Season);
  (n_ConformLoadSchedule, n_CIM14_IEC61970_LoadModel_ConformLoadSchedule_ConformLoadSchedule);
  (n_NonConformLoad, n_CIM14_IEC61970_LoadModel_NonConformLoad_NonConformLoad);
  (n_ConformLoad, n_CIM14_IEC61970_LoadModel_ConformLoad_ConformLoad);
  (n_NonConformLoadSchedule, n_CIM14_IEC61970_LoadModel_NonConformLoadSchedule_NonConformLoadSchedule);
  (n_DayType, n_CIM14_IEC61970_LoadModel_DayType_DayType);
  (n_ConformLoadGroup, n_CIM14_IEC61970_LoadModel_ConformLoadGroup_ConformLoadGroup);
  (n_OperationalLimit, n_CIM14_IEC61970_OperationalLimits_OperationalLimit_OperationalLimit);
  (n_CurrentLimit, n_CIM14_IEC61970_OperationalLimits_CurrentLimit_CurrentLimit);
  (n_BranchGroup, n_CIM14_IEC61970_OperationalLimits_BranchGroup_BranchGroup);
  (n_BranchGroupTerminal, n_CIM14_IEC61970_OperationalLimits_BranchGroupTerminal_BranchGroupTerminal);
  (n_ApparentPowerLimit, n_CIM14_IEC61970_OperationalLimits_ApparentPowerLimit_ApparentPowerLimit);
  (n_OperationalLimitSet, n_CIM14_IEC61970_OperationalLimits_OperationalLimitSet_OperationalLimitSet);
  (n_VoltageLimit, n_CIM14_IEC61970_OperationalLimits_VoltageLimit_VoltageLimit);
  (n_ActivePowerLimit, n_CIM14_IEC61970_OperationalLimits_ActivePowerLimit_ActivePowerLimit);
  (n_OperationalLimitType, n_CIM14_IEC61970_OperationalLimits_OperationalLimitType_OperationalLimitType);
  (n_MeasurementValue, n_CIM14_IEC61970_Meas_MeasurementValue_MeasurementValue);
  (n_Control, n_CIM14_IEC61970_Meas_Control_Control);
  (n_Measurement, n_CIM14_IEC61970_Meas_Measurement_Measurement);
  (n_StringMeasurement, n_CIM14_IEC61970_Meas_StringMeasurement_StringMeasurement);
  (n_Discrete, n_CIM14_IEC61970_Meas_Discrete_Discrete);
  (n_CurrentTransformer, n_CIM14_IEC61970_Meas_CurrentTransformer_CurrentTransformer);
  (n_ValueAliasSet, n_CIM14_IEC61970_Meas_ValueAliasSet_ValueAliasSet);
  (n_DiscreteValue, n_CIM14_IEC61970_Meas_DiscreteValue_DiscreteValue);
  (n_Limit, n_CIM14_IEC61970_Meas_Limit_Limit);
  (n_AnalogLimit, n_CIM14_IEC61970_Meas_AnalogLimit_AnalogLimit);
  (n_LimitSet, n_CIM14_IEC61970_Meas_LimitSet_LimitSet);
  (n_AccumulatorLimitSet, n_CIM14_IEC61970_Meas_AccumulatorLimitSet_AccumulatorLimitSet);
  (n_SetPoint, n_CIM14_IEC61970_Meas_SetPoint_SetPoint);
  (n_Command, n_CIM14_IEC61970_Meas_Command_Command);
  (n_StringMeasurementValue, n_CIM14_IEC61970_Meas_StringMeasurementValue_StringMeasurementValue);
  (n_PotentialTransformer, n_CIM14_IEC61970_Meas_PotentialTransformer_PotentialTransformer);
  (n_ValueToAlias, n_CIM14_IEC61970_Meas_ValueToAlias_ValueToAlias);
  (n_ControlType, n_CIM14_IEC61970_Meas_ControlType_ControlType);
  (n_Accumulator, n_CIM14_IEC61970_Meas_Accumulator_Accumulator);
  (n_AnalogLimitSet, n_CIM14_IEC61970_Meas_AnalogLimitSet_AnalogLimitSet);
  (n_AccumulatorLimit, n_CIM14_IEC61970_Meas_AccumulatorLimit_AccumulatorLimit);
  (n_MeasurementValueSource, n_CIM14_IEC61970_Meas_MeasurementValueSource_MeasurementValueSource);
  (n_AnalogValue, n_CIM14_IEC61970_Meas_AnalogValue_AnalogValue);
  (n_Analog, n_CIM14_IEC61970_Meas_Analog_Analog);
  (n_Quality61850, n_CIM14_IEC61970_Meas_Quality61850_Quality61850);
  (n_MeasurementValueQuality, n_CIM14_IEC61970_Meas_MeasurementValueQuality_MeasurementValueQuality);
  (n_AccumulatorValue, n_CIM14_IEC61970_Meas_AccumulatorValue_AccumulatorValue);
  (n_RemotePoint, n_CIM14_IEC61970_SCADA_RemotePoint_RemotePoint);
  (n_RemoteControl, n_CIM14_IEC61970_SCADA_RemoteControl_RemoteControl);
  (n_RemoteUnit, n_CIM14_IEC61970_SCADA_RemoteUnit_RemoteUnit);
  (n_CommunicationLink, n_CIM14_IEC61970_SCADA_CommunicationLink_CommunicationLink);
  (n_RemoteSource, n_CIM14_IEC61970_SCADA_RemoteSource_RemoteSource);
  (n_EquivalentEquipment, n_CIM14_IEC61970_Equivalents_EquivalentEquipment_EquivalentEquipment);
  (n_EquivalentShunt, n_CIM14_IEC61970_Equivalents_EquivalentShunt_EquivalentShunt);
  (n_EquivalentBranch, n_CIM14_IEC61970_Equivalents_EquivalentBranch_EquivalentBranch);
  (n_EquivalentInjection, n_CIM14_IEC61970_Equivalents_EquivalentInjection_EquivalentInjection);
  (n_EquivalentNetwork, n_CIM14_IEC61970_Equivalents_EquivalentNetwork_EquivalentNetwork);
  (n_ContingencyElement, n_CIM14_IEC61970_Contingency_ContingencyElement_ContingencyElement);
  (n_ContingencyEquipment, n_CIM14_IEC61970_Contingency_ContingencyEquipment_ContingencyEquipment);
  (n_Contingency, n_CIM14_IEC61970_Contingency_Contingency_Contingency);
  (n_RecloseSequence, n_CIM14_IEC61970_Protection_RecloseSequence_RecloseSequence);
  (n_ProtectionEquipment, n_CIM14_IEC61970_Protection_ProtectionEquipment_ProtectionEquipment);
  (n_CurrentRelay, n_CIM14_IEC61970_Protection_CurrentRelay_CurrentRelay);
  (n_SurgeProtector, n_CIM14_IEC61970_Protection_SurgeProtector_SurgeProtector);
  (n_FaultIndicator, n_CIM14_IEC61970_Protection_FaultIndicator_FaultIndicator);
  (n_SynchrocheckRelay, n_CIM14_IEC61970_Protection_SynchrocheckRelay_SynchrocheckRelay);
  (n_AltTieMeas, n_CIM14_IEC61970_ControlArea_AltTieMeas_AltTieMeas);
  (n_AltGeneratingUnitMeas, n_CIM14_IEC61970_ControlArea_AltGeneratingUnitMeas_AltGeneratingUnitMeas);
  (n_ControlArea, n_CIM14_IEC61970_ControlArea_ControlArea_ControlArea);
  (n_TieFlow, n_CIM14_IEC61970_ControlArea_TieFlow_TieFlow);
  (n_ControlAreaGeneratingUnit, n_CIM14_IEC61970_ControlArea_ControlAreaGeneratingUnit_ControlAreaGeneratingUnit);
  (n_ModelingAuthority, n_CIM14_IEC61970_Informative_InfCore_ModelingAuthority_ModelingAuthority);
  (n_ModelingAuthoritySet, n_CIM14_IEC61970_Informative_InfCore_ModelingAuthoritySet_ModelingAuthoritySet);
  (n_TopologicalNode, n_CIM14_IEC61970_Topology_TopologicalNode_TopologicalNode);
  (n_BusNameMarker, n_CIM14_IEC61970_Topology_BusNameMarker_BusNameMarker);
  (n_BlockConnection, n_CIM14_IEC61970_Dynamics_BlockConnection_BlockConnection);
  (n_RotatingMachine, n_CIM14_IEC61970_Dynamics_RotatingMachine_RotatingMachine);
  (n_AsynchronousMachine, n_CIM14_IEC61970_Dynamics_AsynchronousMachine_AsynchronousMachine);
  (n_BlockUsageInputReference, n_CIM14_IEC61970_Dynamics_BlockUsageInputReference_BlockUsageInputReference);
  (n_MetaBlockConnectable, n_CIM14_IEC61970_Dynamics_MetaBlockConnectable_MetaBlockConnectable);
  (n_MetaBlockOutput, n_CIM14_IEC61970_Dynamics_MetaBlockOutput_MetaBlockOutput);
  (n_MetaBlockConOutput, n_CIM14_IEC61970_Dynamics_MetaBlockConOutput_MetaBlockConOutput);
  (n_MetaBlock, n_CIM14_IEC61970_Dynamics_MetaBlock_MetaBlock);
  (n_MetaBlockInput, n_CIM14_IEC61970_Dynamics_MetaBlockInput_MetaBlockInput);
  (n_SlotReference, n_CIM14_IEC61970_Dynamics_SlotReference_SlotReference);
  (n_MetaBlockInputReference, n_CIM14_IEC61970_Dynamics_MetaBlockInputReference_MetaBlockInputReference);
  (n_MetaBlockParameter, n_CIM14_IEC61970_Dynamics_MetaBlockParameter_MetaBlockParameter);
  (n_MetaBlockParameterReference, n_CIM14_IEC61970_Dynamics_MetaBlockParameterReference_MetaBlockParameterReference);
  (n_CompositeModel, n_CIM14_IEC61970_Dynamics_CompositeModel_CompositeModel);
  (n_BlockInputType, n_CIM14_IEC61970_Dynamics_BlockInputType_BlockInputType);
  (n_BlockConnectivity, n_CIM14_IEC61970_Dynamics_BlockConnectivity_BlockConnectivity);
  (n_SlotInput, n_CIM14_IEC61970_Dynamics_SlotInput_SlotInput);
  (n_MetaBlockSignal, n_CIM14_IEC61970_Dynamics_MetaBlockSignal_MetaBlockSignal);
  (n_MetaBlockStateReference, n_CIM14_IEC61970_Dynamics_MetaBlockStateReference_MetaBlockStateReference);
  (n_BlockConstant, n_CIM14_IEC61970_Dynamics_BlockConstant_BlockConstant);
  (n_SourceModels, n_CIM14_IEC61970_Dynamics_SourceModels_SourceModels);
  (n_SlotConnection, n_CIM14_IEC61970_Dynamics_SlotConnection_SlotConnection);
  (n_Block, n_CIM14_IEC61970_Dynamics_Block_Block);
  (n_ConnectionFrame, n_CIM14_IEC61970_Dynamics_ConnectionFrame_ConnectionFrame);
  (n_MetaBlockConInput, n_CIM14_IEC61970_Dynamics_MetaBlockConInput_MetaBlockConInput);
  (n_StaticVarDevice, n_CIM14_IEC61970_Dynamics_StaticVarDevice_StaticVarDevice);
  (n_AttributeBlockParameter, n_CIM14_IEC61970_Dynamics_AttributeBlockParameter_AttributeBlockParameter);
  (n_UserBlockParameter, n_CIM14_IEC61970_Dynamics_UserBlockParameter_UserBlockParameter);
  (n_MetaBlockConnection, n_CIM14_IEC61970_Dynamics_MetaBlockConnection_MetaBlockConnection);
  (n_Slot, n_CIM14_IEC61970_Dynamics_Slot_Slot);
  (n_MetaBlockReference, n_CIM14_IEC61970_Dynamics_MetaBlockReference_MetaBlockReference);
  (n_BlockInputReference, n_CIM14_IEC61970_Dynamics_BlockInputReference_BlockInputReference);
  (n_BlockParameter, n_CIM14_IEC61970_Dynamics_BlockParameter_BlockParameter);
  (n_MetaBlockConSignal, n_CIM14_IEC61970_Dynamics_MetaBlockConSignal_MetaBlockConSignal);
  (n_BlockOutputReference, n_CIM14_IEC61970_Dynamics_BlockOutputReference_BlockOutputReference);
  (n_ExcitationSystemLimiter, n_CIM14_IEC61970_Dynamics_ExcitationSystemLimiter_ExcitationSystemLimiter);
  (n_BlockType, n_CIM14_IEC61970_Dynamics_BlockType_BlockType);
  (n_SlotOutput, n_CIM14_IEC61970_Dynamics_SlotOutput_SlotOutput);
  (n_ProtectiveDevice, n_CIM14_IEC61970_Dynamics_ProtectiveDevice_ProtectiveDevice);
  (n_MetaBlockState, n_CIM14_IEC61970_Dynamics_MetaBlockState_MetaBlockState);
  (n_BlockUsageOutputReference, n_CIM14_IEC61970_Dynamics_BlockUsageOutputReference_BlockUsageOutputReference);
  (n_TieToMeasurement, n_CIM14_IEC61970_Dynamics_TieToMeasurement_TieToMeasurement);
  (n_MetaBlockConnectivity, n_CIM14_IEC61970_Dynamics_MetaBlockConnectivity_MetaBlockConnectivity);
  (n_MetaBlockOutputReference, n_CIM14_IEC61970_Dynamics_MetaBlockOutputReference_MetaBlockOutputReference);
  (n_BlockOutputType, n_CIM14_IEC61970_Dynamics_BlockOutputType_BlockOutputType);
  (n_MechanicalLoad, n_CIM14_IEC61970_Dynamics_Motors_MechanicalLoad_MechanicalLoad);
  (n_MotorSync, n_CIM14_IEC61970_Dynamics_Motors_MotorSync_MotorSync);
  (n_MechLoad1, n_CIM14_IEC61970_Dynamics_Motors_MechLoad1_MechLoad1);
  (n_MotorAsync, n_CIM14_IEC61970_Dynamics_Motors_MotorAsync_MotorAsync);
  (n_ExcitationSystem, n_CIM14_IEC61970_Dynamics_ExcitationSystems_ExcitationSystem_ExcitationSystem);
  (n_ExcDC4B, n_CIM14_IEC61970_Dynamics_ExcitationSystems_ExcDC4B_ExcDC4B);
  (n_ExcAC1A, n_CIM14_IEC61970_Dynamics_ExcitationSystems_ExcAC1A_ExcAC1A);
  (n_ExcSEXS, n_CIM14_IEC61970_Dynamics_ExcitationSystems_ExcSEXS_ExcSEXS);
  (n_ExcAC6A, n_CIM14_IEC61970_Dynamics_ExcitationSystems_ExcAC6A_ExcAC6A);
  (n_ExcDC3A, n_CIM14_IEC61970_Dynamics_ExcitationSystems_ExcDC3A_ExcDC3A);
  (n_ExcBBC, n_CIM14_IEC61970_Dynamics_ExcitationSystems_ExcBBC_ExcBBC);
  (n_ExcST7B, n_CIM14_IEC61970_Dynamics_ExcitationSystems_ExcST7B_ExcST7B);
  (n_ExcSCRX, n_CIM14_IEC61970_Dynamics_ExcitationSystems_ExcSCRX_ExcSCRX);
  (n_ExcAC5A, n_CIM14_IEC61970_Dynamics_ExcitationSystems_ExcAC5A_ExcAC5A);
  (n_ExcREXS, n_CIM14_IEC61970_Dynamics_ExcitationSystems_ExcREXS_ExcREXS);
  (n_ExcELIN1, n_CIM14_IEC61970_Dynamics_ExcitationSystems_ExcELIN1_ExcELIN1);
  (n_ExcST3A, n_CIM14_IEC61970_Dynamics_ExcitationSystems_ExcST3A_ExcST3A);
  (n_ExcSK2, n_CIM14_IEC61970_Dynamics_ExcitationSystems_ExcSK2_ExcSK2);
  (n_ExcPIC, n_CIM14_IEC61970_Dynamics_ExcitationSystems_ExcPIC_ExcPIC);
  (n_ExcST5B, n_CIM14_IEC61970_Dynamics_ExcitationSystems_ExcST5B_ExcST5B);
  (n_ExcCZ, n_CIM14_IEC61970_Dynamics_ExcitationSystems_ExcCZ_ExcCZ);
  (n_ExcST1A, n_CIM14_IEC61970_Dynamics_ExcitationSystems_ExcST1A_ExcST1A);
  (n_ExcDC1A, n_CIM14_IEC61970_Dynamics_ExcitationSystems_ExcDC1A_ExcDC1A);
  (n_ExcAC3A, n_CIM14_IEC61970_Dynamics_ExcitationSystems_ExcAC3A_ExcAC3A);
  (n_ExcAC4A, n_CIM14_IEC61970_Dynamics_ExcitationSystems_ExcAC4A_ExcAC4A);
  (n_ExcAC2A, n_CIM14_IEC61970_Dynamics_ExcitationSystems_ExcAC2A_ExcAC2A);
  (n_ExcWT2E, n_CIM14_IEC61970_Dynamics_ExcitationSystems_ExcWT2E_ExcWT2E);
  (n_ExcDC2A, n_CIM14_IEC61970_Dynamics_ExcitationSystems_ExcDC2A_ExcDC2A);
  (n_ExcAC8B, n_CIM14_IEC61970_Dynamics_ExcitationSystems_ExcAC8B_ExcAC8B);
  (n_ExcST2A, n_CIM14_IEC61970_Dynamics_ExcitationSystems_ExcST2A_ExcST2A);
  (n_ExcHU, n_CIM14_IEC61970_Dynamics_ExcitationSystems_ExcHU_ExcHU);
  (n_ExcBAS, n_CIM14_IEC61970_Dynamics_ExcitationSystems_ExcBAS_ExcBAS);
  (n_ExcSK, n_CIM14_IEC61970_Dynamics_ExcitationSystems_ExcSK_ExcSK);
  (n_ExcWT3E, n_CIM14_IEC61970_Dynamics_ExcitationSystems_ExcWT3E_ExcWT3E);
  (n_ExcST6B, n_CIM14_IEC61970_Dynamics_ExcitationSystems_ExcST6B_ExcST6B);
  (n_ExcELIN2, n_CIM14_IEC61970_Dynamics_ExcitationSystems_ExcELIN2_ExcELIN2);
  (n_ExcST4B, n_CIM14_IEC61970_Dynamics_ExcitationSystems_ExcST4B_ExcST4B);
  (n_ExcAC7B, n_CIM14_IEC61970_Dynamics_ExcitationSystems_ExcAC7B_ExcAC7B);
  (n_ExcWT4E, n_CIM14_IEC61970_Dynamics_ExcitationSystems_ExcWT4E_ExcWT4E);
  (n_TurbineGovernor, n_CIM14_IEC61970_Dynamics_TurbineGovernors_TurbineGovernor_TurbineGovernor);
  (n_GovSteamFV2, n_CIM14_IEC61970_Dynamics_TurbineGovernors_GovSteamFV2_GovSteamFV2);
  (n_GovWT3P, n_CIM14_IEC61970_Dynamics_TurbineGovernors_GovWT3P_GovWT3P);
  (n_GovSteamSGO, n_CIM14_IEC61970_Dynamics_TurbineGovernors_GovSteamSGO_GovSteamSGO);
  (n_GovGASM, n_CIM14_IEC61970_Dynamics_TurbineGovernors_GovGASM_GovGASM);
  (n_GovHydroR, n_CIM14_IEC61970_Dynamics_TurbineGovernors_GovHydroR_GovHydroR);
  (n_GovWT4T, n_CIM14_IEC61970_Dynamics_TurbineGovernors_GovWT4T_GovWT4T);
  (n_GovGAST2, n_CIM14_IEC61970_Dynamics_TurbineGovernors_GovGAST2_GovGAST2);
  (n_GovSteamCC, n_CIM14_IEC61970_Dynamics_TurbineGovernors_GovSteamCC_GovSteamCC);
  (n_GovRAV, n_CIM14_IEC61970_Dynamics_TurbineGovernors_GovRAV_GovRAV);
  (n_GovSteam1, n_CIM14_IEC61970_Dynamics_TurbineGovernors_GovSteam1_GovSteam1);
  (n_TLCFB1, n_CIM14_IEC61970_Dynamics_TurbineGovernors_TLCFB1_TLCFB1);
  (n_GovHydro4, n_CIM14_IEC61970_Dynamics_TurbineGovernors_GovHydro4_GovHydro4);
  (n_GovCT2, n_CIM14_IEC61970_Dynamics_TurbineGovernors_GovCT2_GovCT2);
  (n_GovHydro1, n_CIM14_IEC61970_Dynamics_TurbineGovernors_GovHydro1_GovHydro1);
  (n_GovGAST, n_CIM14_IEC61970_Dynamics_TurbineGovernors_GovGAST_GovGAST);
  (n_GovWT3T, n_CIM14_IEC61970_Dynamics_TurbineGovernors_GovWT3T_GovWT3T);
  (n_GovHydroWPID, n_CIM14_IEC61970_Dynamics_TurbineGovernors_GovHydroWPID_GovHydroWPID);
  (n_GovWT1T, n_CIM14_IEC61970_Dynamics_TurbineGovernors_GovWT1T_GovWT1T);
  (n_GovWT2T, n_CIM14_IEC61970_Dynamics_TurbineGovernors_GovWT2T_GovWT2T);
  (n_Class1, n_CIM14_IEC61970_Dynamics_TurbineGovernors_Class1_Class1);
  (n_GovWT4P, n_CIM14_IEC61970_Dynamics_TurbineGovernors_GovWT4P_GovWT4P);
  (n_GovHydroPID, n_CIM14_IEC61970_Dynamics_TurbineGovernors_GovHydroPID_GovHydroPID);
  (n_GovHydroWEH, n_CIM14_IEC61970_Dynamics_TurbineGovernors_GovHydroWEH_GovHydroWEH);
  (n_GovHydroDD, n_CIM14_IEC61970_Dynamics_TurbineGovernors_GovHydroDD_GovHydroDD);
  (n_GovWT1P, n_CIM14_IEC61970_Dynamics_TurbineGovernors_GovWT1P_GovWT1P);
  (n_GovWT2P, n_CIM14_IEC61970_Dynamics_TurbineGovernors_GovWT2P_GovWT2P);
  (n_GovSteamEU, n_CIM14_IEC61970_Dynamics_TurbineGovernors_GovSteamEU_GovSteamEU);
  (n_GovHydro3, n_CIM14_IEC61970_Dynamics_TurbineGovernors_GovHydro3_GovHydro3);
  (n_GovSteam0, n_CIM14_IEC61970_Dynamics_TurbineGovernors_GovSteam0_GovSteam0);
  (n_GovHydroPID2, n_CIM14_IEC61970_Dynamics_TurbineGovernors_GovHydroPID2_GovHydroPID2);
  (n_GovHydro2, n_CIM14_IEC61970_Dynamics_TurbineGovernors_GovHydro2_GovHydro2);
  (n_GovCT1, n_CIM14_IEC61970_Dynamics_TurbineGovernors_GovCT1_GovCT1);
  (n_GovHydro0, n_CIM14_IEC61970_Dynamics_TurbineGovernors_GovHydro0_GovHydro0);
  (n_GovGASTWD, n_CIM14_IEC61970_Dynamics_TurbineGovernors_GovGASTWD_GovGASTWD);
  (n_GovSteamFV3, n_CIM14_IEC61970_Dynamics_TurbineGovernors_GovSteamFV3_GovSteamFV3);
  (n_GovDUM, n_CIM14_IEC61970_Dynamics_TurbineGovernors_GovDUM_GovDUM);
  (n_GenLoad, n_CIM14_IEC61970_Dynamics_Generators_GenLoad_GenLoad);
  (n_GenEquiv, n_CIM14_IEC61970_Dynamics_Generators_GenEquiv_GenEquiv);
  (n_GenAsync, n_CIM14_IEC61970_Dynamics_Generators_GenAsync_GenAsync);
  (n_PowerSystemStabilizer, n_CIM14_IEC61970_Dynamics_PowerSystemStabilizers_PowerSystemStabilizer_PowerSystemStabilizer);
  (n_PssIEEE3B, n_CIM14_IEC61970_Dynamics_PowerSystemStabilizers_PssIEEE3B_PssIEEE3B);
  (n_PssSK, n_CIM14_IEC61970_Dynamics_PowerSystemStabilizers_PssSK_PssSK);
  (n_PssIEEE4B, n_CIM14_IEC61970_Dynamics_PowerSystemStabilizers_PssIEEE4B_PssIEEE4B);
  (n_PssIEEE1A, n_CIM14_IEC61970_Dynamics_PowerSystemStabilizers_PssIEEE1A_PssIEEE1A);
  (n_PssPTIST1, n_CIM14_IEC61970_Dynamics_PowerSystemStabilizers_PssPTIST1_PssPTIST1);
  (n_PssIEEE2B, n_CIM14_IEC61970_Dynamics_PowerSystemStabilizers_PssIEEE2B_PssIEEE2B);
  (n_PssSB, n_CIM14_IEC61970_Dynamics_PowerSystemStabilizers_PssSB_PssSB);
  (n_PssSB4, n_CIM14_IEC61970_Dynamics_PowerSystemStabilizers_PssSB4_PssSB4);
  (n_PssSH, n_CIM14_IEC61970_Dynamics_PowerSystemStabilizers_PssSH_PssSH);
  (n_PssPTIST3, n_CIM14_IEC61970_Dynamics_PowerSystemStabilizers_PssPTIST3_PssPTIST3);
  (n_PssWSCC, n_CIM14_IEC61970_Dynamics_PowerSystemStabilizers_PssWSCC_PssWSCC);
  (n_AggregateLoad, n_CIM14_IEC61970_Dynamics_Loads_AggregateLoad_AggregateLoad);
  (n_LoadStatic, n_CIM14_IEC61970_Dynamics_Loads_LoadStatic_LoadStatic);
  (n_LoadStaticSystem, n_CIM14_IEC61970_Dynamics_Loads_LoadStaticSystem_LoadStaticSystem);
  (n_LoadStaticOwner, n_CIM14_IEC61970_Dynamics_Loads_LoadStaticOwner_LoadStaticOwner);
  (n_LoadStaticZone, n_CIM14_IEC61970_Dynamics_Loads_LoadStaticZone_LoadStaticZone);
  (n_LoadStaticBus, n_CIM14_IEC61970_Dynamics_Loads_LoadStaticBus_LoadStaticBus);
  (n_LoadStaticArea, n_CIM14_IEC61970_Dynamics_Loads_LoadStaticArea_LoadStaticArea);
  (n_LoadMotor, n_CIM14_IEC61970_Dynamics_Loads_LoadMotor_LoadMotor);
  (n_VoltageCompensator, n_CIM14_IEC61970_Dynamics_VoltageCompensator_VoltageCompensator_VoltageCompensator);
  (n_VcompCross, n_CIM14_IEC61970_Dynamics_VoltageCompensator_VcompCross_VcompCross);
  (n_VcompIEEE, n_CIM14_IEC61970_Dynamics_VoltageCompensator_VcompIEEE_VcompIEEE);
  (n_IEC61968CIMVersion, n_CIM14_IEC61968_IEC61968CIMVersion_IEC61968CIMVersion);
  (n_AssetFunction, n_CIM14_IEC61968_Assets_AssetFunction_AssetFunction);
  (n_Asset, n_CIM14_IEC61968_Assets_Asset_Asset);
  (n_AssetContainer, n_CIM14_IEC61968_Assets_AssetContainer_AssetContainer);
  (n_AcceptanceTest, n_CIM14_IEC61968_Assets_AcceptanceTest_AcceptanceTest);
  (n_Seal, n_CIM14_IEC61968_Assets_Seal_Seal);
  (n_ComMediaAsset, n_CIM14_IEC61968_Assets_ComMediaAsset_ComMediaAsset);
  (n_DeviceFunction, n_CIM14_IEC61968_Metering_DeviceFunction_DeviceFunction);
  (n_ComFunction, n_CIM14_IEC61968_Metering_ComFunction_ComFunction);
  (n_Register, n_CIM14_IEC61968_Metering_Register_Register);
  (n_EndDeviceControl, n_CIM14_IEC61968_Metering_EndDeviceControl_EndDeviceControl);
  (n_Reading, n_CIM14_IEC61968_Metering_Reading_Reading);
  (n_EndDeviceAsset, n_CIM14_IEC61968_Metering_EndDeviceAsset_EndDeviceAsset);
  (n_MeterAsset, n_CIM14_IEC61968_Metering_MeterAsset_MeterAsset);
  (n_ElectricMeteringFunction, n_CIM14_IEC61968_Metering_ElectricMeteringFunction_ElectricMeteringFunction);
  (n_EndDeviceGroup, n_CIM14_IEC61968_Metering_EndDeviceGroup_EndDeviceGroup);
  (n_Pending, n_CIM14_IEC61968_Metering_Pending_Pending);
  (n_IntervalReading, n_CIM14_IEC61968_Metering_IntervalReading_IntervalReading);
  (n_MeterReading, n_CIM14_IEC61968_Metering_MeterReading_MeterReading);
  (n_DemandResponseProgram, n_CIM14_IEC61968_Metering_DemandResponseProgram_DemandResponseProgram);
  (n_EndDeviceEvent, n_CIM14_IEC61968_Metering_EndDeviceEvent_EndDeviceEvent);
  (n_DynamicDemand, n_CIM14_IEC61968_Metering_DynamicDemand_DynamicDemand);
  (n_MeterServiceWork, n_CIM14_IEC61968_Metering_MeterServiceWork_MeterServiceWork);
  (n_ServiceDeliveryPoint, n_CIM14_IEC61968_Metering_ServiceDeliveryPoint_ServiceDeliveryPoint);
  (n_ReadingType, n_CIM14_IEC61968_Metering_ReadingType_ReadingType);
  (n_SDPLocation, n_CIM14_IEC61968_Metering_SDPLocation_SDPLocation);
  (n_ReadingQuality, n_CIM14_IEC61968_Metering_ReadingQuality_ReadingQuality);
  (n_IntervalBlock, n_CIM14_IEC61968_Metering_IntervalBlock_IntervalBlock);
  (n_AssetModel, n_CIM14_IEC61968_AssetModels_AssetModel_AssetModel);
  (n_EndDeviceModel, n_CIM14_IEC61968_AssetModels_EndDeviceModel_EndDeviceModel);
  (n_WireArrangement, n_CIM14_IEC61968_AssetModels_WireArrangement_WireArrangement);
  (n_DistributionWindingTest, n_CIM14_IEC61968_AssetModels_DistributionWindingTest_DistributionWindingTest);
  (n_ShortCircuitTest, n_CIM14_IEC61968_AssetModels_ShortCircuitTest_ShortCircuitTest);
  (n_TransformerInfo, n_CIM14_IEC61968_AssetModels_TransformerInfo_TransformerInfo);
  (n_WireType, n_CIM14_IEC61968_AssetModels_WireType_WireType);
  (n_OpenCircuitTest, n_CIM14_IEC61968_AssetModels_OpenCircuitTest_OpenCircuitTest);
  (n_ConductorInfo, n_CIM14_IEC61968_AssetModels_ConductorInfo_ConductorInfo);
  (n_OverheadConductorInfo, n_CIM14_IEC61968_AssetModels_OverheadConductorInfo_OverheadConductorInfo);
  (n_CableInfo, n_CIM14_IEC61968_AssetModels_CableInfo_CableInfo);
  (n_TapeShieldCableInfo, n_CIM14_IEC61968_AssetModels_TapeShieldCableInfo_TapeShieldCableInfo);
  (n_WindingInfo, n_CIM14_IEC61968_AssetModels_WindingInfo_WindingInfo);
  (n_ToWindingSpec, n_CIM14_IEC61968_AssetModels_ToWindingSpec_ToWindingSpec);
  (n_ConcentricNeutralCableInfo, n_CIM14_IEC61968_AssetModels_ConcentricNeutralCableInfo_ConcentricNeutralCableInfo);
  (n_Organisation, n_CIM14_IEC61968_Common_Organisation_Organisation);
  (n_Status, n_CIM14_IEC61968_Common_Status_Status);
  (n_Document, n_CIM14_IEC61968_Common_Document_Document);
  (n_TimeSchedule, n_CIM14_IEC61968_Common_TimeSchedule_TimeSchedule);
  (n_TownDetail, n_CIM14_IEC61968_Common_TownDetail_TownDetail);
  (n_Location, n_CIM14_IEC61968_Common_Location_Location);
  (n_PostalAddress, n_CIM14_IEC61968_Common_PostalAddress_PostalAddress);
  (n_PositionPoint, n_CIM14_IEC61968_Common_PositionPoint_PositionPoint);
  (n_ActivityRecord, n_CIM14_IEC61968_Common_ActivityRecord_ActivityRecord);
  (n_StreetAddress, n_CIM14_IEC61968_Common_StreetAddress_StreetAddress);
  (n_TimePoint, n_CIM14_IEC61968_Common_TimePoint_TimePoint);
  (n_Agreement, n_CIM14_IEC61968_Common_Agreement_Agreement);
  (n_DateTimeInterval, n_CIM14_IEC61968_Common_DateTimeInterval_DateTimeInterval);
  (n_StreetDetail, n_CIM14_IEC61968_Common_StreetDetail_StreetDetail);
  (n_ElectronicAddress, n_CIM14_IEC61968_Common_ElectronicAddress_ElectronicAddress);
  (n_TelephoneNumber, n_CIM14_IEC61968_Common_TelephoneNumber_TelephoneNumber);
  (n_UserAttribute, n_CIM14_IEC61968_Common_UserAttribute_UserAttribute);
  (n_CoordinateSystem, n_CIM14_IEC61968_Common_CoordinateSystem_CoordinateSystem);
  (n_ServiceSupplier, n_CIM14_IEC61968_PaymentMetering_ServiceSupplier_ServiceSupplier);
  (n_Shift, n_CIM14_IEC61968_PaymentMetering_Shift_Shift);
  (n_Tender, n_CIM14_IEC61968_PaymentMetering_Tender_Tender);
  (n_TariffProfile, n_CIM14_IEC61968_PaymentMetering_TariffProfile_TariffProfile);
  (n_ConsumptionTariffInterval, n_CIM14_IEC61968_PaymentMetering_ConsumptionTariffInterval_ConsumptionTariffInterval);
  (n_BankAccountDetail, n_CIM14_IEC61968_PaymentMetering_BankAccountDetail_BankAccountDetail);
  (n_Cheque, n_CIM14_IEC61968_PaymentMetering_Cheque_Cheque);
  (n_CashierShift, n_CIM14_IEC61968_PaymentMetering_CashierShift_CashierShift);
  (n_Due, n_CIM14_IEC61968_PaymentMetering_Due_Due);
  (n_AccountingUnit, n_CIM14_IEC61968_PaymentMetering_AccountingUnit_AccountingUnit);
  (n_Card, n_CIM14_IEC61968_PaymentMetering_Card_Card);
  (n_AuxiliaryAccount, n_CIM14_IEC61968_PaymentMetering_AuxiliaryAccount_AuxiliaryAccount);
  (n_MerchantAgreement, n_CIM14_IEC61968_PaymentMetering_MerchantAgreement_MerchantAgreement);
  (n_LineDetail, n_CIM14_IEC61968_PaymentMetering_LineDetail_LineDetail);
  (n_Transactor, n_CIM14_IEC61968_PaymentMetering_Transactor_Transactor);
  (n_MerchantAccount, n_CIM14_IEC61968_PaymentMetering_MerchantAccount_MerchantAccount);
  (n_Vendor, n_CIM14_IEC61968_PaymentMetering_Vendor_Vendor);
  (n_Transaction, n_CIM14_IEC61968_PaymentMetering_Transaction_Transaction);
  (n_Charge, n_CIM14_IEC61968_PaymentMetering_Charge_Charge);
  (n_VendorShift, n_CIM14_IEC61968_PaymentMetering_VendorShift_VendorShift);
  (n_TimeTariffInterval, n_CIM14_IEC61968_PaymentMetering_TimeTariffInterval_TimeTariffInterval);
  (n_Cashier, n_CIM14_IEC61968_PaymentMetering_Cashier_Cashier);
  (n_PointOfSale, n_CIM14_IEC61968_PaymentMetering_PointOfSale_PointOfSale);
  (n_Receipt, n_CIM14_IEC61968_PaymentMetering_Receipt_Receipt);
  (n_AuxiliaryAgreement, n_CIM14_IEC61968_PaymentMetering_AuxiliaryAgreement_AuxiliaryAgreement);
  (n_AccountMovement, n_CIM14_IEC61968_PaymentMetering_AccountMovement_AccountMovement);
  (n_TransformerBank, n_CIM14_IEC61968_WiresExt_TransformerBank_TransformerBank);
  (n_PhaseImpedanceData, n_CIM14_IEC61968_WiresExt_PhaseImpedanceData_PhaseImpedanceData);
  (n_DistributionTapChanger, n_CIM14_IEC61968_WiresExt_DistributionTapChanger_DistributionTapChanger);
  (n_PerLengthPhaseImpedance, n_CIM14_IEC61968_WiresExt_PerLengthPhaseImpedance_PerLengthPhaseImpedance);
  (n_PerLengthSequenceImpedance, n_CIM14_IEC61968_WiresExt_PerLengthSequenceImpedance_PerLengthSequenceImpedance);
  (n_WindingPiImpedance, n_CIM14_IEC61968_WiresExt_WindingPiImpedance_WindingPiImpedance);
  (n_DistributionLineSegment, n_CIM14_IEC61968_WiresExt_DistributionLineSegment_DistributionLineSegment);
  (n_DistributionTransformer, n_CIM14_IEC61968_WiresExt_DistributionTransformer_DistributionTransformer);
  (n_DistributionTransformerWinding, n_CIM14_IEC61968_WiresExt_DistributionTransformerWinding_DistributionTransformerWinding);
  (n_Customer, n_CIM14_IEC61968_Customers_Customer_Customer);
  (n_CustomerAccount, n_CIM14_IEC61968_Customers_CustomerAccount_CustomerAccount);
  (n_ServiceCategory, n_CIM14_IEC61968_Customers_ServiceCategory_ServiceCategory);
  (n_PricingStructure, n_CIM14_IEC61968_Customers_PricingStructure_PricingStructure);
  (n_ServiceLocation, n_CIM14_IEC61968_Customers_ServiceLocation_ServiceLocation);
  (n_CustomerAgreement, n_CIM14_IEC61968_Customers_CustomerAgreement_CustomerAgreement);
  (n_Tariff, n_CIM14_IEC61968_Customers_Tariff_Tariff);
  (n_Work, n_CIM14_IEC61968_Work_Work_Work);
  (n_RemoteConnectDisconnectInfo, n_CIM14_IEC61968_LoadControl_RemoteConnectDisconnectInfo_RemoteConnectDisconnectInfo);
  (n_ConnectDisconnectFunction, n_CIM14_IEC61968_LoadControl_ConnectDisconnectFunction_ConnectDisconnectFunction)
].

(** nsURI and nsPrefix, CIM14/__init__.py. *)
Definition cim14_uri : name := n_http___iec_ch_TC57_2009_CIM_schema_cim14.
Definition cim14_prefix : name := n_cim.

