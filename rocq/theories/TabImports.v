(** Generated by tools/gen_imports.py from CIM14 and CIM15: do not edit. *)
From Coq Require Import String PArith.
From stdpp Require Import prelude.
From Verif Require Import PyStr PyHeap Schema Names Imports.

(* CIM14, CIM15 *)
Definition i_AbsoluteDate : name := Eval vm_compute in u "AbsoluteDate".
(* CIM14, CIM15 *)
Definition i_ActivePower : name := Eval vm_compute in u "ActivePower".
(* CIM14, CIM15 *)
Definition i_ActivePowerChangeRate : name := Eval vm_compute in u "ActivePowerChangeRate".
(* CIM14, CIM15 *)
Definition i_AngleDegrees : name := Eval vm_compute in u "AngleDegrees".
(* CIM14, CIM15 *)
Definition i_AngleRadians : name := Eval vm_compute in u "AngleRadians".
(* CIM14, CIM15 *)
Definition i_ApparentPower : name := Eval vm_compute in u "ApparentPower".
(* CIM14, CIM15 *)
Definition i_AssetModels : name := Eval vm_compute in u "AssetModels".
(* CIM14, CIM15 *)
Definition i_Balanced : name := Eval vm_compute in u "Balanced".
(* CIM14, CIM15 *)
Definition i_CDPSM : name := Eval vm_compute in u "CDPSM".
(* CIM14, CIM15 *)
Definition i_CIM14 : name := Eval vm_compute in u "CIM14".
(* CIM14, CIM15 *)
Definition i_CIM15 : name := Eval vm_compute in u "CIM15".
(* CIM14, CIM15 *)
Definition i_CIMDate : name := Eval vm_compute in u "CIMDate".
(* CIM14, CIM15 *)
Definition i_CIMDateTime : name := Eval vm_compute in u "CIMDateTime".
(* CIM14, CIM15 *)
Definition i_CIMDuration : name := Eval vm_compute in u "CIMDuration".
(* CIM14, CIM15 *)
Definition i_CIMGDay : name := Eval vm_compute in u "CIMGDay".
(* CIM14, CIM15 *)
Definition i_CIMGMonth : name := Eval vm_compute in u "CIMGMonth".
(* CIM14, CIM15 *)
Definition i_CIMGMonthDay : name := Eval vm_compute in u "CIMGMonthDay".
(* CIM14, CIM15 *)
Definition i_CIMGYear : name := Eval vm_compute in u "CIMGYear".
(* CIM14, CIM15 *)
Definition i_CIMGYearMonth : name := Eval vm_compute in u "CIMGYearMonth".
(* CIM14, CIM15 *)
Definition i_CIMTime : name := Eval vm_compute in u "CIMTime".
(* CIM14, CIM15 *)
Definition i_CPSM : name := Eval vm_compute in u "CPSM".
(* CIM14, CIM15 *)
Definition i_Capacitance : name := Eval vm_compute in u "Capacitance".
(* CIM14, CIM15 *)
Definition i_Classification : name := Eval vm_compute in u "Classification".
(* CIM14, CIM15 *)
Definition i_Common : name := Eval vm_compute in u "Common".
(* CIM14, CIM15 *)
Definition i_CompanyType : name := Eval vm_compute in u "CompanyType".
(* CIM14, CIM15 *)
Definition i_CompositeSwitchType : name := Eval vm_compute in u "CompositeSwitchType".
(* CIM14, CIM15 *)
Definition i_Conductance : name := Eval vm_compute in u "Conductance".
(* CIM14, CIM15 *)
Definition i_ConductancePerLength : name := Eval vm_compute in u "ConductancePerLength".
(* CIM14, CIM15 *)
Definition i_Connectivity : name := Eval vm_compute in u "Connectivity".
(* CIM14, CIM15 *)
Definition i_Core : name := Eval vm_compute in u "Core".
(* CIM14, CIM15 *)
Definition i_CostPerEnergyUnit : name := Eval vm_compute in u "CostPerEnergyUnit".
(* CIM14, CIM15 *)
Definition i_CostPerHeatUnit : name := Eval vm_compute in u "CostPerHeatUnit".
(* CIM14, CIM15 *)
Definition i_CostPerVolume : name := Eval vm_compute in u "CostPerVolume".
(* CIM14, CIM15 *)
Definition i_CostRate : name := Eval vm_compute in u "CostRate".
(* CIM14, CIM15 *)
Definition i_CreditKind : name := Eval vm_compute in u "CreditKind".
(* CIM14, CIM15 *)
Definition i_CurrentFlow : name := Eval vm_compute in u "CurrentFlow".
(* CIM14, CIM15 *)
Definition i_CutsJumpers : name := Eval vm_compute in u "CutsJumpers".
(* CIM14, CIM15 *)
Definition i_Damping : name := Eval vm_compute in u "Damping".
(* CIM14, CIM15 *)
Definition i_Displacement : name := Eval vm_compute in u "Displacement".
(* CIM14, CIM15 *)
Definition i_Domain : name := Eval vm_compute in u "Domain".
(* CIM14, CIM15 *)
Definition i_Dynamics : name := Eval vm_compute in u "Dynamics".
(* CIM14, CIM15 *)
Definition i_ENTSOE : name := Eval vm_compute in u "ENTSOE".
(* CIM14, CIM15 *)
Definition i_Emission : name := Eval vm_compute in u "Emission".
(* CIM14, CIM15 *)
Definition i_Equivalents : name := Eval vm_compute in u "Equivalents".
(* CIM14, CIM15 *)
Definition i_ExcitationSystems : name := Eval vm_compute in u "ExcitationSystems".
(* CIM14, CIM15 *)
Definition i_FacilityKind : name := Eval vm_compute in u "FacilityKind".
(* CIM14, CIM15 *)
Definition i_FloatQuantity : name := Eval vm_compute in u "FloatQuantity".
(* CIM14, CIM15 *)
Definition i_Frequency : name := Eval vm_compute in u "Frequency".
(* CIM14, CIM15 *)
Definition i_GIS_Connectivity : name := Eval vm_compute in u "GIS_Connectivity".
(* CIM14, CIM15 *)
Definition i_Generation : name := Eval vm_compute in u "Generation".
(* CIM14, CIM15 *)
Definition i_GenerationDynamics : name := Eval vm_compute in u "GenerationDynamics".
(* CIM14, CIM15 *)
Definition i_Generators : name := Eval vm_compute in u "Generators".
(* CIM14, CIM15 *)
Definition i_Geographical : name := Eval vm_compute in u "Geographical".
(* CIM14, CIM15 *)
Definition i_Graphics : name := Eval vm_compute in u "Graphics".
(* CIM14, CIM15 *)
Definition i_HeatRate : name := Eval vm_compute in u "HeatRate".
(* CIM14, CIM15 *)
Definition i_Hours : name := Eval vm_compute in u "Hours".
(* CIM14, CIM15 *)
Definition i_IEC61968 : name := Eval vm_compute in u "IEC61968".
(* CIM14, CIM15 *)
Definition i_IEC61970 : name := Eval vm_compute in u "IEC61970".
(* CIM14, CIM15 *)
Definition i_IEC62325 : name := Eval vm_compute in u "IEC62325".
(* CIM14, CIM15 *)
Definition i_IfdBaseType : name := Eval vm_compute in u "IfdBaseType".
(* CIM14, CIM15 *)
Definition i_Impedance : name := Eval vm_compute in u "Impedance".
(* CIM14, CIM15 *)
Definition i_Inductance : name := Eval vm_compute in u "Inductance".
(* CIM14, CIM15 *)
Definition i_InfAssetModels : name := Eval vm_compute in u "InfAssetModels".
(* CIM14, CIM15 *)
Definition i_InfAssets : name := Eval vm_compute in u "InfAssets".
(* CIM14, CIM15 *)
Definition i_InfCommon : name := Eval vm_compute in u "InfCommon".
(* CIM14, CIM15 *)
Definition i_InfCore : name := Eval vm_compute in u "InfCore".
(* CIM14, CIM15 *)
Definition i_InfCustomers : name := Eval vm_compute in u "InfCustomers".
(* CIM14, CIM15 *)
Definition i_InfERPSupport : name := Eval vm_compute in u "InfERPSupport".
(* CIM14, CIM15 *)
Definition i_InfGMLSupport : name := Eval vm_compute in u "InfGMLSupport".
(* CIM14, CIM15 *)
Definition i_InfLoadControl : name := Eval vm_compute in u "InfLoadControl".
(* CIM14, CIM15 *)
Definition i_InfLocations : name := Eval vm_compute in u "InfLocations".
(* CIM14, CIM15 *)
Definition i_InfMetering : name := Eval vm_compute in u "InfMetering".
(* CIM14, CIM15 *)
Definition i_InfOperations : name := Eval vm_compute in u "InfOperations".
(* CIM14, CIM15 *)
Definition i_InfTypeAsset : name := Eval vm_compute in u "InfTypeAsset".
(* CIM14, CIM15 *)
Definition i_InfWork : name := Eval vm_compute in u "InfWork".
(* CIM14, CIM15 *)
Definition i_Informative : name := Eval vm_compute in u "Informative".
(* CIM14, CIM15 *)
Definition i_InputSignalCodeJ : name := Eval vm_compute in u "InputSignalCodeJ".
(* CIM14, CIM15 *)
Definition i_IntegerQuantity : name := Eval vm_compute in u "IntegerQuantity".
(* CIM14, CIM15 *)
Definition i_KWActivePower : name := Eval vm_compute in u "KWActivePower".
(* CIM14, CIM15 *)
Definition i_Length : name := Eval vm_compute in u "Length".
(* CIM14, CIM15 *)
Definition i_LoadControl : name := Eval vm_compute in u "LoadControl".
(* CIM14, CIM15 *)
Definition i_LoadModel : name := Eval vm_compute in u "LoadModel".
(* CIM14, CIM15 *)
Definition i_Loads : name := Eval vm_compute in u "Loads".
(* CIM14, CIM15 *)
Definition i_Meas : name := Eval vm_compute in u "Meas".
(* CIM14, CIM15 *)
Definition i_Metering : name := Eval vm_compute in u "Metering".
(* CIM14, CIM15 *)
Definition i_Minutes : name := Eval vm_compute in u "Minutes".
(* CIM14, CIM15 *)
Definition i_MonetaryAmountPerEnergyUnit : name := Eval vm_compute in u "MonetaryAmountPerEnergyUnit".
(* CIM14, CIM15 *)
Definition i_MonetaryAmountPerHeatUnit : name := Eval vm_compute in u "MonetaryAmountPerHeatUnit".
(* CIM14, CIM15 *)
Definition i_MonetaryAmountRate : name := Eval vm_compute in u "MonetaryAmountRate".
(* CIM14, CIM15 *)
Definition i_Money : name := Eval vm_compute in u "Money".
(* CIM14, CIM15 *)
Definition i_Motors : name := Eval vm_compute in u "Motors".
(* CIM14, CIM15 *)
Definition i_OperatingMode : name := Eval vm_compute in u "OperatingMode".
(* CIM14, CIM15 *)
Definition i_OperationalLimits : name := Eval vm_compute in u "OperationalLimits".
(* CIM14, CIM15 *)
Definition i_Outage : name := Eval vm_compute in u "Outage".
(* CIM14, CIM15 *)
Definition i_PU : name := Eval vm_compute in u "PU".
(* CIM14, CIM15 *)
Definition i_PackageDependencies : name := Eval vm_compute in u "PackageDependencies".
(* CIM14, CIM15 *)
Definition i_PaymentMetering : name := Eval vm_compute in u "PaymentMetering".
(* CIM14, CIM15 *)
Definition i_PerCent : name := Eval vm_compute in u "PerCent".
(* CIM14, CIM15 *)
Definition i_PowerSystemStabilizers : name := Eval vm_compute in u "PowerSystemStabilizers".
(* CIM14, CIM15 *)
Definition i_Pressure : name := Eval vm_compute in u "Pressure".
(* CIM14, CIM15 *)
Definition i_Production : name := Eval vm_compute in u "Production".
(* CIM14, CIM15 *)
Definition i_Protection : name := Eval vm_compute in u "Protection".
(* CIM14, CIM15 *)
Definition i_Reactance : name := Eval vm_compute in u "Reactance".
(* CIM14, CIM15 *)
Definition i_ReactancePerLength : name := Eval vm_compute in u "ReactancePerLength".
(* CIM14, CIM15 *)
Definition i_ReactivePower : name := Eval vm_compute in u "ReactivePower".
(* CIM14, CIM15 *)
Definition i_RealEnergy : name := Eval vm_compute in u "RealEnergy".
(* CIM14, CIM15 *)
Definition i_Resistance : name := Eval vm_compute in u "Resistance".
(* CIM14, CIM15 *)
Definition i_ResistancePerLength : name := Eval vm_compute in u "ResistancePerLength".
(* CIM14, CIM15 *)
Definition i_RotationSpeed : name := Eval vm_compute in u "RotationSpeed".
(* CIM14, CIM15 *)
Definition i_SCADA : name := Eval vm_compute in u "SCADA".
(* CIM14, CIM15 *)
Definition i_Seconds : name := Eval vm_compute in u "Seconds".
(* CIM14, CIM15 *)
Definition i_StateVariables : name := Eval vm_compute in u "StateVariables".
(* CIM14, CIM15 *)
Definition i_StringQuantity : name := Eval vm_compute in u "StringQuantity".
(* CIM14, CIM15 *)
Definition i_Susceptance : name := Eval vm_compute in u "Susceptance".
(* CIM14, CIM15 *)
Definition i_SusceptancePerLength : name := Eval vm_compute in u "SusceptancePerLength".
(* CIM14, CIM15 *)
Definition i_SynchronousGeneratorType : name := Eval vm_compute in u "SynchronousGeneratorType".
(* CIM14, CIM15 *)
Definition i_TapChangerKind : name := Eval vm_compute in u "TapChangerKind".
(* CIM14, CIM15 *)
Definition i_Temperature : name := Eval vm_compute in u "Temperature".
(* CIM14, CIM15 *)
Definition i_Topology : name := Eval vm_compute in u "Topology".
(* CIM14, CIM15 *)
Definition i_TurbineGovernors : name := Eval vm_compute in u "TurbineGovernors".
(* CIM14, CIM15 *)
Definition i_Unbalanced : name := Eval vm_compute in u "Unbalanced".
(* CIM14, CIM15 *)
Definition i_Voltage : name := Eval vm_compute in u "Voltage".
(* CIM14, CIM15 *)
Definition i_VoltagePerReactivePower : name := Eval vm_compute in u "VoltagePerReactivePower".
(* CIM14, CIM15 *)
Definition i_Volume : name := Eval vm_compute in u "Volume".
(* CIM14, CIM15 *)
Definition i_VolumeFlowRate : name := Eval vm_compute in u "VolumeFlowRate".
(* CIM14, CIM15 *)
Definition i_WaterLevel : name := Eval vm_compute in u "WaterLevel".
(* CIM14, CIM15 *)
Definition i_Weight : name := Eval vm_compute in u "Weight".
(* CIM14, CIM15 *)
Definition i_Wires : name := Eval vm_compute in u "Wires".
(* CIM14, CIM15 *)
Definition i_WiresExt : name := Eval vm_compute in u "WiresExt".
(* CIM14, CIM15 *)
Definition i_WiresPhaseModel : name := Eval vm_compute in u "WiresPhaseModel".
(* CIM14, CIM15 *)
Definition i_nsPrefix : name := Eval vm_compute in u "nsPrefix".
(* CIM14, CIM15 *)
Definition i_nsURI : name := Eval vm_compute in u "nsURI".
(* CIM14, CIM15 *)
Definition i_packageMap : name := Eval vm_compute in u "packageMap".

Local Open Scope positive_scope.
(** The 1893 modules: the last component of the name, the packages it is in
    (nearest first), whether it is a package, and its statements. *)
Definition modules : list (positive * module) := [
  (1, Mod i_CIM14 [] true [SFrom 360 n_CombinedVersion; SFrom 581 n_Element; SAssign i_nsURI; SAssign i_nsPrefix; SAssign i_packageMap])(* CIM14/__init__.py:24-30 *);
  (2, Mod i_CDPSM [1] true [SAssign i_nsURI; SAssign i_nsPrefix])(* CIM14/CDPSM/__init__.py:23-24 *);
  (3, Mod i_Balanced [2; 1] true [SFrom 4 n_Element; SAssign i_nsURI; SAssign i_nsPrefix; SAssign i_packageMap; SClass i_ApparentPower None; SClass i_Conductance None; SClass i_Impedance None; SClass i_Susceptance None; SClass i_ReactivePower None; SClass i_CurrentFlow None; SClass i_AngleDegrees None; SClass i_ActivePower None; SClass i_KWActivePower None; SClass i_Voltage None; SClass i_Length None; SClass i_Resistance None; SClass i_AngleRadians None; SClass i_PerCent None; SClass i_Reactance None; SClass i_Seconds None; SClass i_Temperature None; SClass i_CIMTime None; SClass i_CIMDateTime None; SClass i_CIMDuration None; SClass i_CIMGYear None; SClass i_CIMDate None; SClass i_CIMGMonthDay None; SClass i_CIMGMonth None; SClass i_CIMGDay None; SClass i_CIMGYearMonth None])(* CIM14/CDPSM/Balanced/__init__.py:24-203 *);
  (4, Mod n_Element [3; 2; 1] false [SClass n_Element None])(* CIM14/CDPSM/Balanced/Element.py:22-22 *);
  (5, Mod i_IEC61968 [3; 2; 1] true [SAssign i_nsURI; SAssign i_nsPrefix])(* CIM14/CDPSM/Balanced/IEC61968/__init__.py:26-27 *);
  (6, Mod i_AssetModels [5; 3; 2; 1] true [SFrom 16 n_TransformerInfo; SFrom 15 n_ToWindingSpec; SFrom 18 n_WireArrangement; SFrom 7 n_CableInfo; SFrom 11 n_OpenCircuitTest; SFrom 8 n_ConcentricNeutralCableInfo; SFrom 9 n_ConductorInfo; SFrom 10 n_DistributionWindingTest; SFrom 19 n_WireType; SFrom 17 n_WindingInfo; SFrom 12 n_OverheadConductorInfo; SFrom 14 n_TapeShieldCableInfo; SFrom 13 n_ShortCircuitTest; SAssign i_nsURI; SAssign i_nsPrefix; SClass n_CableOuterJacketKind None; SClass n_CableShieldMaterialKind None; SClass n_ConductorInsulationKind None; SClass n_ConductorMaterialKind None; SClass n_ConductorUsageKind None; SClass n_CableConstructionKind None])(* CIM14/CDPSM/Balanced/IEC61968/AssetModels/__init__.py:24-67 *);
  (7, Mod n_CableInfo [6; 5; 3; 2; 1] false [SFrom 9 n_ConductorInfo; SClass n_CableInfo (Some n_ConductorInfo)])(* CIM14/CDPSM/Balanced/IEC61968/AssetModels/CableInfo.py:21-23 *);
  (8, Mod n_ConcentricNeutralCableInfo [6; 5; 3; 2; 1] false [SFrom 7 n_CableInfo; SClass n_ConcentricNeutralCableInfo (Some n_CableInfo)])(* CIM14/CDPSM/Balanced/IEC61968/AssetModels/ConcentricNeutralCableInfo.py:21-23 *);
  (9, Mod n_ConductorInfo [6; 5; 3; 2; 1] false [SFrom 43 n_IdentifiedObject; SClass n_ConductorInfo (Some n_IdentifiedObject)])(* CIM14/CDPSM/Balanced/IEC61968/AssetModels/ConductorInfo.py:21-23 *);
  (10, Mod n_DistributionWindingTest [6; 5; 3; 2; 1] false [SFrom 43 n_IdentifiedObject; SClass n_DistributionWindingTest (Some n_IdentifiedObject)])(* CIM14/CDPSM/Balanced/IEC61968/AssetModels/DistributionWindingTest.py:21-23 *);
  (11, Mod n_OpenCircuitTest [6; 5; 3; 2; 1] false [SFrom 10 n_DistributionWindingTest; SClass n_OpenCircuitTest (Some n_DistributionWindingTest)])(* CIM14/CDPSM/Balanced/IEC61968/AssetModels/OpenCircuitTest.py:21-23 *);
  (12, Mod n_OverheadConductorInfo [6; 5; 3; 2; 1] false [SFrom 9 n_ConductorInfo; SClass n_OverheadConductorInfo (Some n_ConductorInfo)])(* CIM14/CDPSM/Balanced/IEC61968/AssetModels/OverheadConductorInfo.py:21-23 *);
  (13, Mod n_ShortCircuitTest [6; 5; 3; 2; 1] false [SFrom 10 n_DistributionWindingTest; SClass n_ShortCircuitTest (Some n_DistributionWindingTest)])(* CIM14/CDPSM/Balanced/IEC61968/AssetModels/ShortCircuitTest.py:21-23 *);
  (14, Mod n_TapeShieldCableInfo [6; 5; 3; 2; 1] false [SFrom 7 n_CableInfo; SClass n_TapeShieldCableInfo (Some n_CableInfo)])(* CIM14/CDPSM/Balanced/IEC61968/AssetModels/TapeShieldCableInfo.py:21-23 *);
  (15, Mod n_ToWindingSpec [6; 5; 3; 2; 1] false [SFrom 43 n_IdentifiedObject; SClass n_ToWindingSpec (Some n_IdentifiedObject)])(* CIM14/CDPSM/Balanced/IEC61968/AssetModels/ToWindingSpec.py:21-23 *);
  (16, Mod n_TransformerInfo [6; 5; 3; 2; 1] false [SFrom 43 n_IdentifiedObject; SClass n_TransformerInfo (Some n_IdentifiedObject)])(* CIM14/CDPSM/Balanced/IEC61968/AssetModels/TransformerInfo.py:21-23 *);
  (17, Mod n_WindingInfo [6; 5; 3; 2; 1] false [SFrom 43 n_IdentifiedObject; SClass n_WindingInfo (Some n_IdentifiedObject)])(* CIM14/CDPSM/Balanced/IEC61968/AssetModels/WindingInfo.py:21-23 *);
  (18, Mod n_WireArrangement [6; 5; 3; 2; 1] false [SFrom 43 n_IdentifiedObject; SClass n_WireArrangement (Some n_IdentifiedObject)])(* CIM14/CDPSM/Balanced/IEC61968/AssetModels/WireArrangement.py:21-23 *);
  (19, Mod n_WireType [6; 5; 3; 2; 1] false [SFrom 43 n_IdentifiedObject; SClass n_WireType (Some n_IdentifiedObject)])(* CIM14/CDPSM/Balanced/IEC61968/AssetModels/WireType.py:21-23 *);
  (20, Mod i_Common [5; 3; 2; 1] true [SFrom 21 n_GeoLocation; SFrom 22 n_Location; SFrom 23 n_PositionPoint; SAssign i_nsURI; SAssign i_nsPrefix])(* CIM14/CDPSM/Balanced/IEC61968/Common/__init__.py:24-29 *);
  (21, Mod n_GeoLocation [20; 5; 3; 2; 1] false [SFrom 22 n_Location; SClass n_GeoLocation (Some n_Location)])(* CIM14/CDPSM/Balanced/IEC61968/Common/GeoLocation.py:21-23 *);
  (22, Mod n_Location [20; 5; 3; 2; 1] false [SFrom 43 n_IdentifiedObject; SClass n_Location (Some n_IdentifiedObject)])(* CIM14/CDPSM/Balanced/IEC61968/Common/Location.py:21-23 *);
  (23, Mod n_PositionPoint [20; 5; 3; 2; 1] false [SFrom 4 n_Element; SClass n_PositionPoint (Some n_Element)])(* CIM14/CDPSM/Balanced/IEC61968/Common/PositionPoint.py:21-23 *);
  (24, Mod i_WiresExt [5; 3; 2; 1] true [SFrom 28 n_DistributionTransformerWinding; SFrom 25 n_DistributionLineSegment; SFrom 33 n_WindingPiImpedance; SFrom 26 n_DistributionTapChanger; SFrom 30 n_PerLengthSequenceImpedance; SFrom 32 n_TransformerBank; SFrom 29 n_PerLengthPhaseImpedance; SFrom 27 n_DistributionTransformer; SFrom 31 n_PhaseImpedanceData; SAssign i_nsURI; SAssign i_nsPrefix])(* CIM14/CDPSM/Balanced/IEC61968/WiresExt/__init__.py:24-35 *);
  (25, Mod n_DistributionLineSegment [24; 5; 3; 2; 1] false [SFrom 61 n_ACLineSegment; SClass n_DistributionLineSegment (Some n_ACLineSegment)])(* CIM14/CDPSM/Balanced/IEC61968/WiresExt/DistributionLineSegment.py:21-23 *);
  (26, Mod n_DistributionTapChanger [24; 5; 3; 2; 1] false [SFrom 72 n_RatioTapChanger; SClass n_DistributionTapChanger (Some n_RatioTapChanger)])(* CIM14/CDPSM/Balanced/IEC61968/WiresExt/DistributionTapChanger.py:21-23 *);
  (27, Mod n_DistributionTransformer [24; 5; 3; 2; 1] false [SFrom 40 n_Equipment; SClass n_DistributionTransformer (Some n_Equipment)])(* CIM14/CDPSM/Balanced/IEC61968/WiresExt/DistributionTransformer.py:21-23 *);
  (28, Mod n_DistributionTransformerWinding [24; 5; 3; 2; 1] false [SFrom 38 n_ConductingEquipment; SClass n_DistributionTransformerWinding (Some n_ConductingEquipment)])(* CIM14/CDPSM/Balanced/IEC61968/WiresExt/DistributionTransformerWinding.py:21-23 *);
  (29, Mod n_PerLengthPhaseImpedance [24; 5; 3; 2; 1] false [SFrom 43 n_IdentifiedObject; SClass n_PerLengthPhaseImpedance (Some n_IdentifiedObject)])(* CIM14/CDPSM/Balanced/IEC61968/WiresExt/PerLengthPhaseImpedance.py:21-23 *);
  (30, Mod n_PerLengthSequenceImpedance [24; 5; 3; 2; 1] false [SFrom 43 n_IdentifiedObject; SClass n_PerLengthSequenceImpedance (Some n_IdentifiedObject)])(* CIM14/CDPSM/Balanced/IEC61968/WiresExt/PerLengthSequenceImpedance.py:21-23 *);
  (31, Mod n_PhaseImpedanceData [24; 5; 3; 2; 1] false [SFrom 4 n_Element; SClass n_PhaseImpedanceData (Some n_Element)])(* CIM14/CDPSM/Balanced/IEC61968/WiresExt/PhaseImpedanceData.py:21-23 *);
  (32, Mod n_TransformerBank [24; 5; 3; 2; 1] false [SFrom 40 n_Equipment; SClass n_TransformerBank (Some n_Equipment)])(* CIM14/CDPSM/Balanced/IEC61968/WiresExt/TransformerBank.py:21-23 *);
  (33, Mod n_WindingPiImpedance [24; 5; 3; 2; 1] false [SFrom 43 n_IdentifiedObject; SClass n_WindingPiImpedance (Some n_IdentifiedObject)])(* CIM14/CDPSM/Balanced/IEC61968/WiresExt/WindingPiImpedance.py:21-23 *);
  (34, Mod i_IEC61970 [3; 2; 1] true [SFrom 53 n_IEC61970CIMVersion; SAssign i_nsURI; SAssign i_nsPrefix])(* CIM14/CDPSM/Balanced/IEC61970/__init__.py:22-25 *);
  (35, Mod i_Core [34; 3; 2; 1] true [SFrom 39 n_ConnectivityNodeContainer; SFrom 49 n_VoltageLevel; SFrom 37 n_Bay; SFrom 40 n_Equipment; SFrom 36 n_BaseVoltage; SFrom 44 n_PSRType; SFrom 41 n_EquipmentContainer; SFrom 43 n_IdentifiedObject; SFrom 47 n_Substation; SFrom 38 n_ConductingEquipment; SFrom 46 n_SubGeographicalRegion; SFrom 48 n_Terminal; SFrom 42 n_GeographicalRegion; SFrom 45 n_PowerSystemResource; SAssign i_nsURI; SAssign i_nsPrefix; SClass n_PhaseCode None])(* CIM14/CDPSM/Balanced/IEC61970/Core/__init__.py:24-43 *);
  (36, Mod n_BaseVoltage [35; 34; 3; 2; 1] false [SFrom 43 n_IdentifiedObject; SClass n_BaseVoltage (Some n_IdentifiedObject)])(* CIM14/CDPSM/Balanced/IEC61970/Core/BaseVoltage.py:21-23 *);
  (37, Mod n_Bay [35; 34; 3; 2; 1] false [SFrom 41 n_EquipmentContainer; SClass n_Bay (Some n_EquipmentContainer)])(* CIM14/CDPSM/Balanced/IEC61970/Core/Bay.py:21-23 *);
  (38, Mod n_ConductingEquipment [35; 34; 3; 2; 1] false [SFrom 40 n_Equipment; SClass n_ConductingEquipment (Some n_Equipment)])(* CIM14/CDPSM/Balanced/IEC61970/Core/ConductingEquipment.py:21-23 *);
  (39, Mod n_ConnectivityNodeContainer [35; 34; 3; 2; 1] false [SFrom 45 n_PowerSystemResource; SClass n_ConnectivityNodeContainer (Some n_PowerSystemResource)])(* CIM14/CDPSM/Balanced/IEC61970/Core/ConnectivityNodeContainer.py:21-23 *);
  (40, Mod n_Equipment [35; 34; 3; 2; 1] false [SFrom 45 n_PowerSystemResource; SClass n_Equipment (Some n_PowerSystemResource)])(* CIM14/CDPSM/Balanced/IEC61970/Core/Equipment.py:21-23 *);
  (41, Mod n_EquipmentContainer [35; 34; 3; 2; 1] false [SFrom 39 n_ConnectivityNodeContainer; SClass n_EquipmentContainer (Some n_ConnectivityNodeContainer)])(* CIM14/CDPSM/Balanced/IEC61970/Core/EquipmentContainer.py:21-23 *);
  (42, Mod n_GeographicalRegion [35; 34; 3; 2; 1] false [SFrom 43 n_IdentifiedObject; SClass n_GeographicalRegion (Some n_IdentifiedObject)])(* CIM14/CDPSM/Balanced/IEC61970/Core/GeographicalRegion.py:21-23 *);
  (43, Mod n_IdentifiedObject [35; 34; 3; 2; 1] false [SFrom 4 n_Element; SClass n_IdentifiedObject (Some n_Element)])(* CIM14/CDPSM/Balanced/IEC61970/Core/IdentifiedObject.py:21-23 *);
  (44, Mod n_PSRType [35; 34; 3; 2; 1] false [SFrom 43 n_IdentifiedObject; SClass n_PSRType (Some n_IdentifiedObject)])(* CIM14/CDPSM/Balanced/IEC61970/Core/PSRType.py:21-23 *);
  (45, Mod n_PowerSystemResource [35; 34; 3; 2; 1] false [SFrom 43 n_IdentifiedObject; SClass n_PowerSystemResource (Some n_IdentifiedObject)])(* CIM14/CDPSM/Balanced/IEC61970/Core/PowerSystemResource.py:21-23 *);
  (46, Mod n_SubGeographicalRegion [35; 34; 3; 2; 1] false [SFrom 43 n_IdentifiedObject; SClass n_SubGeographicalRegion (Some n_IdentifiedObject)])(* CIM14/CDPSM/Balanced/IEC61970/Core/SubGeographicalRegion.py:21-23 *);
  (47, Mod n_Substation [35; 34; 3; 2; 1] false [SFrom 41 n_EquipmentContainer; SClass n_Substation (Some n_EquipmentContainer)])(* CIM14/CDPSM/Balanced/IEC61970/Core/Substation.py:21-23 *);
  (48, Mod n_Terminal [35; 34; 3; 2; 1] false [SFrom 43 n_IdentifiedObject; SClass n_Terminal (Some n_IdentifiedObject)])(* CIM14/CDPSM/Balanced/IEC61970/Core/Terminal.py:21-23 *);
  (49, Mod n_VoltageLevel [35; 34; 3; 2; 1] false [SFrom 41 n_EquipmentContainer; SClass n_VoltageLevel (Some n_EquipmentContainer)])(* CIM14/CDPSM/Balanced/IEC61970/Core/VoltageLevel.py:21-23 *);
  (50, Mod i_Generation [34; 3; 2; 1] true [SAssign i_nsURI; SAssign i_nsPrefix])(* CIM14/CDPSM/Balanced/IEC61970/Generation/__init__.py:25-26 *);
  (51, Mod i_Production [50; 34; 3; 2; 1] true [SFrom 52 n_GeneratingUnit; SAssign i_nsURI; SAssign i_nsPrefix; SClass n_GeneratorControlSource None])(* CIM14/CDPSM/Balanced/IEC61970/Generation/Production/__init__.py:24-30 *);
  (52, Mod n_GeneratingUnit [51; 50; 34; 3; 2; 1] false [SFrom 40 n_Equipment; SClass n_GeneratingUnit (Some n_Equipment)])(* CIM14/CDPSM/Balanced/IEC61970/Generation/Production/GeneratingUnit.py:21-23 *);
  (53, Mod n_IEC61970CIMVersion [34; 3; 2; 1] false [SFrom 4 n_Element; SClass n_IEC61970CIMVersion (Some n_Element)])(* CIM14/CDPSM/Balanced/IEC61970/IEC61970CIMVersion.py:21-23 *);
  (54, Mod i_LoadModel [34; 3; 2; 1] true [SFrom 55 n_LoadResponseCharacteristic; SAssign i_nsURI; SAssign i_nsPrefix])(* CIM14/CDPSM/Balanced/IEC61970/LoadModel/__init__.py:26-29 *);
  (55, Mod n_LoadResponseCharacteristic [54; 34; 3; 2; 1] false [SFrom 43 n_IdentifiedObject; SClass n_LoadResponseCharacteristic (Some n_IdentifiedObject)])(* CIM14/CDPSM/Balanced/IEC61970/LoadModel/LoadResponseCharacteristic.py:21-23 *);
  (56, Mod i_StateVariables [34; 3; 2; 1] true [SFrom 57 n_SvTapStep; SAssign i_nsURI; SAssign i_nsPrefix])(* CIM14/CDPSM/Balanced/IEC61970/StateVariables/__init__.py:24-27 *);
  (57, Mod n_SvTapStep [56; 34; 3; 2; 1] false [SFrom 4 n_Element; SClass n_SvTapStep (Some n_Element)])(* CIM14/CDPSM/Balanced/IEC61970/StateVariables/SvTapStep.py:21-23 *);
  (58, Mod i_Topology [34; 3; 2; 1] true [SFrom 59 n_ConnectivityNode; SAssign i_nsURI; SAssign i_nsPrefix])(* CIM14/CDPSM/Balanced/IEC61970/Topology/__init__.py:24-27 *);
  (59, Mod n_ConnectivityNode [58; 34; 3; 2; 1] false [SFrom 43 n_IdentifiedObject; SClass n_ConnectivityNode (Some n_IdentifiedObject)])(* CIM14/CDPSM/Balanced/IEC61970/Topology/ConnectivityNode.py:21-23 *);
  (60, Mod i_Wires [34; 3; 2; 1] true [SFrom 63 n_BusbarSection; SFrom 71 n_LoadBreakSwitch; SFrom 76 n_TapChanger; SFrom 68 n_Fuse; SFrom 69 n_Junction; SFrom 61 n_ACLineSegment; SFrom 65 n_Disconnector; SFrom 67 n_EnergySource; SFrom 75 n_SynchronousMachine; SFrom 72 n_RatioTapChanger; SFrom 66 n_EnergyConsumer; SFrom 74 n_Switch; SFrom 70 n_Line; SFrom 73 n_ShuntCompensator; SFrom 62 n_Breaker; SFrom 64 n_Conductor; SAssign i_nsURI; SAssign i_nsPrefix; SClass n_TransformerControlMode None; SClass n_WindingConnection None; SClass n_SynchronousMachineType None; SClass n_SynchronousMachineOperatingMode None])(* CIM14/CDPSM/Balanced/IEC61970/Wires/__init__.py:24-60 *);
  (61, Mod n_ACLineSegment [60; 34; 3; 2; 1] false [SFrom 64 n_Conductor; SClass n_ACLineSegment (Some n_Conductor)])(* CIM14/CDPSM/Balanced/IEC61970/Wires/ACLineSegment.py:21-23 *);
  (62, Mod n_Breaker [60; 34; 3; 2; 1] false [SFrom 74 n_Switch; SClass n_Breaker (Some n_Switch)])(* CIM14/CDPSM/Balanced/IEC61970/Wires/Breaker.py:21-23 *);
  (63, Mod n_BusbarSection [60; 34; 3; 2; 1] false [SFrom 38 n_ConductingEquipment; SClass n_BusbarSection (Some n_ConductingEquipment)])(* CIM14/CDPSM/Balanced/IEC61970/Wires/BusbarSection.py:21-23 *);
  (64, Mod n_Conductor [60; 34; 3; 2; 1] false [SFrom 38 n_ConductingEquipment; SClass n_Conductor (Some n_ConductingEquipment)])(* CIM14/CDPSM/Balanced/IEC61970/Wires/Conductor.py:21-23 *);
  (65, Mod n_Disconnector [60; 34; 3; 2; 1] false [SFrom 74 n_Switch; SClass n_Disconnector (Some n_Switch)])(* CIM14/CDPSM/Balanced/IEC61970/Wires/Disconnector.py:21-23 *);
  (66, Mod n_EnergyConsumer [60; 34; 3; 2; 1] false [SFrom 38 n_ConductingEquipment; SClass n_EnergyConsumer (Some n_ConductingEquipment)])(* CIM14/CDPSM/Balanced/IEC61970/Wires/EnergyConsumer.py:21-23 *);
  (67, Mod n_EnergySource [60; 34; 3; 2; 1] false [SFrom 38 n_ConductingEquipment; SClass n_EnergySource (Some n_ConductingEquipment)])(* CIM14/CDPSM/Balanced/IEC61970/Wires/EnergySource.py:21-23 *);
  (68, Mod n_Fuse [60; 34; 3; 2; 1] false [SFrom 74 n_Switch; SClass n_Fuse (Some n_Switch)])(* CIM14/CDPSM/Balanced/IEC61970/Wires/Fuse.py:21-23 *);
  (69, Mod n_Junction [60; 34; 3; 2; 1] false [SFrom 38 n_ConductingEquipment; SClass n_Junction (Some n_ConductingEquipment)])(* CIM14/CDPSM/Balanced/IEC61970/Wires/Junction.py:21-23 *);
  (70, Mod n_Line [60; 34; 3; 2; 1] false [SFrom 41 n_EquipmentContainer; SClass n_Line (Some n_EquipmentContainer)])(* CIM14/CDPSM/Balanced/IEC61970/Wires/Line.py:21-23 *);
  (71, Mod n_LoadBreakSwitch [60; 34; 3; 2; 1] false [SFrom 74 n_Switch; SClass n_LoadBreakSwitch (Some n_Switch)])(* CIM14/CDPSM/Balanced/IEC61970/Wires/LoadBreakSwitch.py:21-23 *);
  (72, Mod n_RatioTapChanger [60; 34; 3; 2; 1] false [SFrom 76 n_TapChanger; SClass n_RatioTapChanger (Some n_TapChanger)])(* CIM14/CDPSM/Balanced/IEC61970/Wires/RatioTapChanger.py:21-23 *);
  (73, Mod n_ShuntCompensator [60; 34; 3; 2; 1] false [SFrom 38 n_ConductingEquipment; SClass n_ShuntCompensator (Some n_ConductingEquipment)])(* CIM14/CDPSM/Balanced/IEC61970/Wires/ShuntCompensator.py:21-23 *);
  (74, Mod n_Switch [60; 34; 3; 2; 1] false [SFrom 38 n_ConductingEquipment; SClass n_Switch (Some n_ConductingEquipment)])(* CIM14/CDPSM/Balanced/IEC61970/Wires/Switch.py:21-23 *);
  (75, Mod n_SynchronousMachine [60; 34; 3; 2; 1] false [SFrom 38 n_ConductingEquipment; SClass n_SynchronousMachine (Some n_ConductingEquipment)])(* CIM14/CDPSM/Balanced/IEC61970/Wires/SynchronousMachine.py:21-23 *);
  (76, Mod n_TapChanger [60; 34; 3; 2; 1] false [SFrom 45 n_PowerSystemResource; SClass n_TapChanger (Some n_PowerSystemResource)])(* CIM14/CDPSM/Balanced/IEC61970/Wires/TapChanger.py:21-23 *);
  (77, Mod i_GIS_Connectivity [2; 1] true [SFrom 78 n_Element; SAssign i_nsURI; SAssign i_nsPrefix; SAssign i_packageMap; SClass i_ApparentPower None; SClass i_Conductance None; SClass i_Impedance None; SClass i_Susceptance None; SClass i_ReactivePower None; SClass i_CurrentFlow None; SClass i_AngleDegrees None; SClass i_ActivePower None; SClass i_KWActivePower None; SClass i_Voltage None; SClass i_Length None; SClass i_Resistance None; SClass i_AngleRadians None; SClass i_PerCent None; SClass i_Reactance None; SClass i_Seconds None; SClass i_Temperature None; SClass i_CIMTime None; SClass i_CIMDateTime None; SClass i_CIMDuration None; SClass i_CIMGYear None; SClass i_CIMDate None; SClass i_CIMGMonthDay None; SClass i_CIMGMonth None; SClass i_CIMGDay None; SClass i_CIMGYearMonth None])(* CIM14/CDPSM/GIS_Connectivity/__init__.py:24-203 *);
  (78, Mod n_Element [77; 2; 1] false [SClass n_Element None])(* CIM14/CDPSM/GIS_Connectivity/Element.py:22-22 *);
  (79, Mod i_IEC61968 [77; 2; 1] true [SAssign i_nsURI; SAssign i_nsPrefix])(* CIM14/CDPSM/GIS_Connectivity/IEC61968/__init__.py:26-27 *);
  (80, Mod i_AssetModels [79; 77; 2; 1] true [SFrom 90 n_TransformerInfo; SFrom 89 n_ToWindingSpec; SFrom 92 n_WireArrangement; SFrom 81 n_CableInfo; SFrom 85 n_OpenCircuitTest; SFrom 82 n_ConcentricNeutralCableInfo; SFrom 83 n_ConductorInfo; SFrom 84 n_DistributionWindingTest; SFrom 93 n_WireType; SFrom 91 n_WindingInfo; SFrom 86 n_OverheadConductorInfo; SFrom 88 n_TapeShieldCableInfo; SFrom 87 n_ShortCircuitTest; SAssign i_nsURI; SAssign i_nsPrefix; SClass n_CableOuterJacketKind None; SClass n_CableShieldMaterialKind None; SClass n_ConductorInsulationKind None; SClass n_ConductorMaterialKind None; SClass n_ConductorUsageKind None; SClass n_CableConstructionKind None])(* CIM14/CDPSM/GIS_Connectivity/IEC61968/AssetModels/__init__.py:24-67 *);
  (81, Mod n_CableInfo [80; 79; 77; 2; 1] false [SFrom 83 n_ConductorInfo; SClass n_CableInfo (Some n_ConductorInfo)])(* CIM14/CDPSM/GIS_Connectivity/IEC61968/AssetModels/CableInfo.py:21-23 *);
  (82, Mod n_ConcentricNeutralCableInfo [80; 79; 77; 2; 1] false [SFrom 81 n_CableInfo; SClass n_ConcentricNeutralCableInfo (Some n_CableInfo)])(* CIM14/CDPSM/GIS_Connectivity/IEC61968/AssetModels/ConcentricNeutralCableInfo.py:21-23 *);
  (83, Mod n_ConductorInfo [80; 79; 77; 2; 1] false [SFrom 117 n_IdentifiedObject; SClass n_ConductorInfo (Some n_IdentifiedObject)])(* CIM14/CDPSM/GIS_Connectivity/IEC61968/AssetModels/ConductorInfo.py:21-23 *);
  (84, Mod n_DistributionWindingTest [80; 79; 77; 2; 1] false [SFrom 117 n_IdentifiedObject; SClass n_DistributionWindingTest (Some n_IdentifiedObject)])(* CIM14/CDPSM/GIS_Connectivity/IEC61968/AssetModels/DistributionWindingTest.py:21-23 *);
  (85, Mod n_OpenCircuitTest [80; 79; 77; 2; 1] false [SFrom 84 n_DistributionWindingTest; SClass n_OpenCircuitTest (Some n_DistributionWindingTest)])(* CIM14/CDPSM/GIS_Connectivity/IEC61968/AssetModels/OpenCircuitTest.py:21-23 *);
  (86, Mod n_OverheadConductorInfo [80; 79; 77; 2; 1] false [SFrom 83 n_ConductorInfo; SClass n_OverheadConductorInfo (Some n_ConductorInfo)])(* CIM14/CDPSM/GIS_Connectivity/IEC61968/AssetModels/OverheadConductorInfo.py:21-23 *);
  (87, Mod n_ShortCircuitTest [80; 79; 77; 2; 1] false [SFrom 84 n_DistributionWindingTest; SClass n_ShortCircuitTest (Some n_DistributionWindingTest)])(* CIM14/CDPSM/GIS_Connectivity/IEC61968/AssetModels/ShortCircuitTest.py:21-23 *);
  (88, Mod n_TapeShieldCableInfo [80; 79; 77; 2; 1] false [SFrom 81 n_CableInfo; SClass n_TapeShieldCableInfo (Some n_CableInfo)])(* CIM14/CDPSM/GIS_Connectivity/IEC61968/AssetModels/TapeShieldCableInfo.py:21-23 *);
  (89, Mod n_ToWindingSpec [80; 79; 77; 2; 1] false [SFrom 117 n_IdentifiedObject; SClass n_ToWindingSpec (Some n_IdentifiedObject)])(* CIM14/CDPSM/GIS_Connectivity/IEC61968/AssetModels/ToWindingSpec.py:21-23 *);
  (90, Mod n_TransformerInfo [80; 79; 77; 2; 1] false [SFrom 117 n_IdentifiedObject; SClass n_TransformerInfo (Some n_IdentifiedObject)])(* CIM14/CDPSM/GIS_Connectivity/IEC61968/AssetModels/TransformerInfo.py:21-23 *);
  (91, Mod n_WindingInfo [80; 79; 77; 2; 1] false [SFrom 117 n_IdentifiedObject; SClass n_WindingInfo (Some n_IdentifiedObject)])(* CIM14/CDPSM/GIS_Connectivity/IEC61968/AssetModels/WindingInfo.py:21-23 *);
  (92, Mod n_WireArrangement [80; 79; 77; 2; 1] false [SFrom 117 n_IdentifiedObject; SClass n_WireArrangement (Some n_IdentifiedObject)])(* CIM14/CDPSM/GIS_Connectivity/IEC61968/AssetModels/WireArrangement.py:21-23 *);
  (93, Mod n_WireType [80; 79; 77; 2; 1] false [SFrom 117 n_IdentifiedObject; SClass n_WireType (Some n_IdentifiedObject)])(* CIM14/CDPSM/GIS_Connectivity/IEC61968/AssetModels/WireType.py:21-23 *);
  (94, Mod i_Common [79; 77; 2; 1] true [SFrom 95 n_GeoLocation; SFrom 96 n_Location; SFrom 97 n_PositionPoint; SAssign i_nsURI; SAssign i_nsPrefix])(* CIM14/CDPSM/GIS_Connectivity/IEC61968/Common/__init__.py:24-29 *);
  (95, Mod n_GeoLocation [94; 79; 77; 2; 1] false [SFrom 96 n_Location; SClass n_GeoLocation (Some n_Location)])(* CIM14/CDPSM/GIS_Connectivity/IEC61968/Common/GeoLocation.py:21-23 *);
  (96, Mod n_Location [94; 79; 77; 2; 1] false [SFrom 117 n_IdentifiedObject; SClass n_Location (Some n_IdentifiedObject)])(* CIM14/CDPSM/GIS_Connectivity/IEC61968/Common/Location.py:21-23 *);
  (97, Mod n_PositionPoint [94; 79; 77; 2; 1] false [SFrom 78 n_Element; SClass n_PositionPoint (Some n_Element)])(* CIM14/CDPSM/GIS_Connectivity/IEC61968/Common/PositionPoint.py:21-23 *);
  (98, Mod i_WiresExt [79; 77; 2; 1] true [SFrom 102 n_DistributionTransformerWinding; SFrom 99 n_DistributionLineSegment; SFrom 107 n_WindingPiImpedance; SFrom 100 n_DistributionTapChanger; SFrom 104 n_PerLengthSequenceImpedance; SFrom 106 n_TransformerBank; SFrom 103 n_PerLengthPhaseImpedance; SFrom 101 n_DistributionTransformer; SFrom 105 n_PhaseImpedanceData; SAssign i_nsURI; SAssign i_nsPrefix])(* CIM14/CDPSM/GIS_Connectivity/IEC61968/WiresExt/__init__.py:24-35 *);
  (99, Mod n_DistributionLineSegment [98; 79; 77; 2; 1] false [SFrom 135 n_ACLineSegment; SClass n_DistributionLineSegment (Some n_ACLineSegment)])(* CIM14/CDPSM/GIS_Connectivity/IEC61968/WiresExt/DistributionLineSegment.py:21-23 *);
  (100, Mod n_DistributionTapChanger [98; 79; 77; 2; 1] false [SFrom 146 n_RatioTapChanger; SClass n_DistributionTapChanger (Some n_RatioTapChanger)])(* CIM14/CDPSM/GIS_Connectivity/IEC61968/WiresExt/DistributionTapChanger.py:21-23 *);
  (101, Mod n_DistributionTransformer [98; 79; 77; 2; 1] false [SFrom 114 n_Equipment; SClass n_DistributionTransformer (Some n_Equipment)])(* CIM14/CDPSM/GIS_Connectivity/IEC61968/WiresExt/DistributionTransformer.py:21-23 *);
  (102, Mod n_DistributionTransformerWinding [98; 79; 77; 2; 1] false [SFrom 112 n_ConductingEquipment; SClass n_DistributionTransformerWinding (Some n_ConductingEquipment)])(* CIM14/CDPSM/GIS_Connectivity/IEC61968/WiresExt/DistributionTransformerWinding.py:21-23 *);
  (103, Mod n_PerLengthPhaseImpedance [98; 79; 77; 2; 1] false [SFrom 117 n_IdentifiedObject; SClass n_PerLengthPhaseImpedance (Some n_IdentifiedObject)])(* CIM14/CDPSM/GIS_Connectivity/IEC61968/WiresExt/PerLengthPhaseImpedance.py:21-23 *);
  (104, Mod n_PerLengthSequenceImpedance [98; 79; 77; 2; 1] false [SFrom 117 n_IdentifiedObject; SClass n_PerLengthSequenceImpedance (Some n_IdentifiedObject)])(* CIM14/CDPSM/GIS_Connectivity/IEC61968/WiresExt/PerLengthSequenceImpedance.py:21-23 *);
  (105, Mod n_PhaseImpedanceData [98; 79; 77; 2; 1] false [SFrom 78 n_Element; SClass n_PhaseImpedanceData (Some n_Element)])(* CIM14/CDPSM/GIS_Connectivity/IEC61968/WiresExt/PhaseImpedanceData.py:21-23 *);
  (106, Mod n_TransformerBank [98; 79; 77; 2; 1] false [SFrom 114 n_Equipment; SClass n_TransformerBank (Some n_Equipment)])(* CIM14/CDPSM/GIS_Connectivity/IEC61968/WiresExt/TransformerBank.py:21-23 *);
  (107, Mod n_WindingPiImpedance [98; 79; 77; 2; 1] false [SFrom 117 n_IdentifiedObject; SClass n_WindingPiImpedance (Some n_IdentifiedObject)])(* CIM14/CDPSM/GIS_Connectivity/IEC61968/WiresExt/WindingPiImpedance.py:21-23 *);
  (108, Mod i_IEC61970 [77; 2; 1] true [SFrom 127 n_IEC61970CIMVersion; SAssign i_nsURI; SAssign i_nsPrefix])(* CIM14/CDPSM/GIS_Connectivity/IEC61970/__init__.py:22-25 *);
  (109, Mod i_Core [108; 77; 2; 1] true [SFrom 113 n_ConnectivityNodeContainer; SFrom 123 n_VoltageLevel; SFrom 111 n_Bay; SFrom 114 n_Equipment; SFrom 110 n_BaseVoltage; SFrom 118 n_PSRType; SFrom 115 n_EquipmentContainer; SFrom 117 n_IdentifiedObject; SFrom 121 n_Substation; SFrom 112 n_ConductingEquipment; SFrom 120 n_SubGeographicalRegion; SFrom 122 n_Terminal; SFrom 116 n_GeographicalRegion; SFrom 119 n_PowerSystemResource; SAssign i_nsURI; SAssign i_nsPrefix; SClass n_PhaseCode None])(* CIM14/CDPSM/GIS_Connectivity/IEC61970/Core/__init__.py:24-43 *);
  (110, Mod n_BaseVoltage [109; 108; 77; 2; 1] false [SFrom 117 n_IdentifiedObject; SClass n_BaseVoltage (Some n_IdentifiedObject)])(* CIM14/CDPSM/GIS_Connectivity/IEC61970/Core/BaseVoltage.py:21-23 *);
  (111, Mod n_Bay [109; 108; 77; 2; 1] false [SFrom 115 n_EquipmentContainer; SClass n_Bay (Some n_EquipmentContainer)])(* CIM14/CDPSM/GIS_Connectivity/IEC61970/Core/Bay.py:21-23 *);
  (112, Mod n_ConductingEquipment [109; 108; 77; 2; 1] false [SFrom 114 n_Equipment; SClass n_ConductingEquipment (Some n_Equipment)])(* CIM14/CDPSM/GIS_Connectivity/IEC61970/Core/ConductingEquipment.py:21-23 *);
  (113, Mod n_ConnectivityNodeContainer [109; 108; 77; 2; 1] false [SFrom 119 n_PowerSystemResource; SClass n_ConnectivityNodeContainer (Some n_PowerSystemResource)])(* CIM14/CDPSM/GIS_Connectivity/IEC61970/Core/ConnectivityNodeContainer.py:21-23 *);
  (114, Mod n_Equipment [109; 108; 77; 2; 1] false [SFrom 119 n_PowerSystemResource; SClass n_Equipment (Some n_PowerSystemResource)])(* CIM14/CDPSM/GIS_Connectivity/IEC61970/Core/Equipment.py:21-23 *);
  (115, Mod n_EquipmentContainer [109; 108; 77; 2; 1] false [SFrom 113 n_ConnectivityNodeContainer; SClass n_EquipmentContainer (Some n_ConnectivityNodeContainer)])(* CIM14/CDPSM/GIS_Connectivity/IEC61970/Core/EquipmentContainer.py:21-23 *);
  (116, Mod n_GeographicalRegion [109; 108; 77; 2; 1] false [SFrom 117 n_IdentifiedObject; SClass n_GeographicalRegion (Some n_IdentifiedObject)])(* CIM14/CDPSM/GIS_Connectivity/IEC61970/Core/GeographicalRegion.py:21-23 *);
  (117, Mod n_IdentifiedObject [109; 108; 77; 2; 1] false [SFrom 78 n_Element; SClass n_IdentifiedObject (Some n_Element)])(* CIM14/CDPSM/GIS_Connectivity/IEC61970/Core/IdentifiedObject.py:21-23 *);
  (118, Mod n_PSRType [109; 108; 77; 2; 1] false [SFrom 117 n_IdentifiedObject; SClass n_PSRType (Some n_IdentifiedObject)])(* CIM14/CDPSM/GIS_Connectivity/IEC61970/Core/PSRType.py:21-23 *);
  (119, Mod n_PowerSystemResource [109; 108; 77; 2; 1] false [SFrom 117 n_IdentifiedObject; SClass n_PowerSystemResource (Some n_IdentifiedObject)])(* CIM14/CDPSM/GIS_Connectivity/IEC61970/Core/PowerSystemResource.py:21-23 *);
  (120, Mod n_SubGeographicalRegion [109; 108; 77; 2; 1] false [SFrom 117 n_IdentifiedObject; SClass n_SubGeographicalRegion (Some n_IdentifiedObject)])(* CIM14/CDPSM/GIS_Connectivity/IEC61970/Core/SubGeographicalRegion.py:21-23 *);
  (121, Mod n_Substation [109; 108; 77; 2; 1] false [SFrom 115 n_EquipmentContainer; SClass n_Substation (Some n_EquipmentContainer)])(* CIM14/CDPSM/GIS_Connectivity/IEC61970/Core/Substation.py:21-23 *);
  (122, Mod n_Terminal [109; 108; 77; 2; 1] false [SFrom 117 n_IdentifiedObject; SClass n_Terminal (Some n_IdentifiedObject)])(* CIM14/CDPSM/GIS_Connectivity/IEC61970/Core/Terminal.py:21-23 *);
  (123, Mod n_VoltageLevel [109; 108; 77; 2; 1] false [SFrom 115 n_EquipmentContainer; SClass n_VoltageLevel (Some n_EquipmentContainer)])(* CIM14/CDPSM/GIS_Connectivity/IEC61970/Core/VoltageLevel.py:21-23 *);
  (124, Mod i_Generation [108; 77; 2; 1] true [SAssign i_nsURI; SAssign i_nsPrefix])(* CIM14/CDPSM/GIS_Connectivity/IEC61970/Generation/__init__.py:25-26 *);
  (125, Mod i_Production [124; 108; 77; 2; 1] true [SFrom 126 n_GeneratingUnit; SAssign i_nsURI; SAssign i_nsPrefix; SClass n_GeneratorControlSource None])(* CIM14/CDPSM/GIS_Connectivity/IEC61970/Generation/Production/__init__.py:24-30 *);
  (126, Mod n_GeneratingUnit [125; 124; 108; 77; 2; 1] false [SFrom 114 n_Equipment; SClass n_GeneratingUnit (Some n_Equipment)])(* CIM14/CDPSM/GIS_Connectivity/IEC61970/Generation/Production/GeneratingUnit.py:21-23 *);
  (127, Mod n_IEC61970CIMVersion [108; 77; 2; 1] false [SFrom 78 n_Element; SClass n_IEC61970CIMVersion (Some n_Element)])(* CIM14/CDPSM/GIS_Connectivity/IEC61970/IEC61970CIMVersion.py:21-23 *);
  (128, Mod i_LoadModel [108; 77; 2; 1] true [SFrom 129 n_LoadResponseCharacteristic; SAssign i_nsURI; SAssign i_nsPrefix])(* CIM14/CDPSM/GIS_Connectivity/IEC61970/LoadModel/__init__.py:26-29 *);
  (129, Mod n_LoadResponseCharacteristic [128; 108; 77; 2; 1] false [SFrom 117 n_IdentifiedObject; SClass n_LoadResponseCharacteristic (Some n_IdentifiedObject)])(* CIM14/CDPSM/GIS_Connectivity/IEC61970/LoadModel/LoadResponseCharacteristic.py:21-23 *);
  (130, Mod i_StateVariables [108; 77; 2; 1] true [SFrom 131 n_SvTapStep; SAssign i_nsURI; SAssign i_nsPrefix])(* CIM14/CDPSM/GIS_Connectivity/IEC61970/StateVariables/__init__.py:24-27 *);
  (131, Mod n_SvTapStep [130; 108; 77; 2; 1] false [SFrom 78 n_Element; SClass n_SvTapStep (Some n_Element)])(* CIM14/CDPSM/GIS_Connectivity/IEC61970/StateVariables/SvTapStep.py:21-23 *);
  (132, Mod i_Topology [108; 77; 2; 1] true [SFrom 133 n_ConnectivityNode; SAssign i_nsURI; SAssign i_nsPrefix])(* CIM14/CDPSM/GIS_Connectivity/IEC61970/Topology/__init__.py:24-27 *);
  (133, Mod n_ConnectivityNode [132; 108; 77; 2; 1] false [SFrom 117 n_IdentifiedObject; SClass n_ConnectivityNode (Some n_IdentifiedObject)])(* CIM14/CDPSM/GIS_Connectivity/IEC61970/Topology/ConnectivityNode.py:21-23 *);
  (134, Mod i_Wires [108; 77; 2; 1] true [SFrom 137 n_BusbarSection; SFrom 145 n_LoadBreakSwitch; SFrom 150 n_TapChanger; SFrom 142 n_Fuse; SFrom 143 n_Junction; SFrom 135 n_ACLineSegment; SFrom 139 n_Disconnector; SFrom 141 n_EnergySource; SFrom 149 n_SynchronousMachine; SFrom 146 n_RatioTapChanger; SFrom 140 n_EnergyConsumer; SFrom 148 n_Switch; SFrom 144 n_Line; SFrom 147 n_ShuntCompensator; SFrom 136 n_Breaker; SFrom 138 n_Conductor; SAssign i_nsURI; SAssign i_nsPrefix; SClass n_TransformerControlMode None; SClass n_WindingConnection None; SClass n_SynchronousMachineType None; SClass n_SynchronousMachineOperatingMode None])(* CIM14/CDPSM/GIS_Connectivity/IEC61970/Wires/__init__.py:24-60 *);
  (135, Mod n_ACLineSegment [134; 108; 77; 2; 1] false [SFrom 138 n_Conductor; SClass n_ACLineSegment (Some n_Conductor)])(* CIM14/CDPSM/GIS_Connectivity/IEC61970/Wires/ACLineSegment.py:21-23 *);
  (136, Mod n_Breaker [134; 108; 77; 2; 1] false [SFrom 148 n_Switch; SClass n_Breaker (Some n_Switch)])(* CIM14/CDPSM/GIS_Connectivity/IEC61970/Wires/Breaker.py:21-23 *);
  (137, Mod n_BusbarSection [134; 108; 77; 2; 1] false [SFrom 112 n_ConductingEquipment; SClass n_BusbarSection (Some n_ConductingEquipment)])(* CIM14/CDPSM/GIS_Connectivity/IEC61970/Wires/BusbarSection.py:21-23 *);
  (138, Mod n_Conductor [134; 108; 77; 2; 1] false [SFrom 112 n_ConductingEquipment; SClass n_Conductor (Some n_ConductingEquipment)])(* CIM14/CDPSM/GIS_Connectivity/IEC61970/Wires/Conductor.py:21-23 *);
  (139, Mod n_Disconnector [134; 108; 77; 2; 1] false [SFrom 148 n_Switch; SClass n_Disconnector (Some n_Switch)])(* CIM14/CDPSM/GIS_Connectivity/IEC61970/Wires/Disconnector.py:21-23 *);
  (140, Mod n_EnergyConsumer [134; 108; 77; 2; 1] false [SFrom 112 n_ConductingEquipment; SClass n_EnergyConsumer (Some n_ConductingEquipment)])(* CIM14/CDPSM/GIS_Connectivity/IEC61970/Wires/EnergyConsumer.py:21-23 *);
  (141, Mod n_EnergySource [134; 108; 77; 2; 1] false [SFrom 112 n_ConductingEquipment; SClass n_EnergySource (Some n_ConductingEquipment)])(* CIM14/CDPSM/GIS_Connectivity/IEC61970/Wires/EnergySource.py:21-23 *);
  (142, Mod n_Fuse [134; 108; 77; 2; 1] false [SFrom 148 n_Switch; SClass n_Fuse (Some n_Switch)])(* CIM14/CDPSM/GIS_Connectivity/IEC61970/Wires/Fuse.py:21-23 *);
  (143, Mod n_Junction [134; 108; 77; 2; 1] false [SFrom 112 n_ConductingEquipment; SClass n_Junction (Some n_ConductingEquipment)])(* CIM14/CDPSM/GIS_Connectivity/IEC61970/Wires/Junction.py:21-23 *);
  (144, Mod n_Line [134; 108; 77; 2; 1] false [SFrom 115 n_EquipmentContainer; SClass n_Line (Some n_EquipmentContainer)])(* CIM14/CDPSM/GIS_Connectivity/IEC61970/Wires/Line.py:21-23 *);
  (145, Mod n_LoadBreakSwitch [134; 108; 77; 2; 1] false [SFrom 148 n_Switch; SClass n_LoadBreakSwitch (Some n_Switch)])(* CIM14/CDPSM/GIS_Connectivity/IEC61970/Wires/LoadBreakSwitch.py:21-23 *);
  (146, Mod n_RatioTapChanger [134; 108; 77; 2; 1] false [SFrom 150 n_TapChanger; SClass n_RatioTapChanger (Some n_TapChanger)])(* CIM14/CDPSM/GIS_Connectivity/IEC61970/Wires/RatioTapChanger.py:21-23 *);
  (147, Mod n_ShuntCompensator [134; 108; 77; 2; 1] false [SFrom 112 n_ConductingEquipment; SClass n_ShuntCompensator (Some n_ConductingEquipment)])(* CIM14/CDPSM/GIS_Connectivity/IEC61970/Wires/ShuntCompensator.py:21-23 *);
  (148, Mod n_Switch [134; 108; 77; 2; 1] false [SFrom 112 n_ConductingEquipment; SClass n_Switch (Some n_ConductingEquipment)])(* CIM14/CDPSM/GIS_Connectivity/IEC61970/Wires/Switch.py:21-23 *);
  (149, Mod n_SynchronousMachine [134; 108; 77; 2; 1] false [SFrom 112 n_ConductingEquipment; SClass n_SynchronousMachine (Some n_ConductingEquipment)])(* CIM14/CDPSM/GIS_Connectivity/IEC61970/Wires/SynchronousMachine.py:21-23 *);
  (150, Mod n_TapChanger [134; 108; 77; 2; 1] false [SFrom 119 n_PowerSystemResource; SClass n_TapChanger (Some n_PowerSystemResource)])(* CIM14/CDPSM/GIS_Connectivity/IEC61970/Wires/TapChanger.py:21-23 *);
  (151, Mod i_Unbalanced [2; 1] true [SFrom 152 n_Element; SAssign i_nsURI; SAssign i_nsPrefix; SAssign i_packageMap; SClass i_ApparentPower None; SClass i_Conductance None; SClass i_Impedance None; SClass i_Susceptance None; SClass i_ReactivePower None; SClass i_CurrentFlow None; SClass i_AngleDegrees None; SClass i_ActivePower None; SClass i_KWActivePower None; SClass i_Voltage None; SClass i_Length None; SClass i_Resistance None; SClass i_AngleRadians None; SClass i_PerCent None; SClass i_Reactance None; SClass i_Seconds None; SClass i_Temperature None; SClass i_CIMTime None; SClass i_CIMDateTime None; SClass i_CIMDuration None; SClass i_CIMGYear None; SClass i_CIMDate None; SClass i_CIMGMonthDay None; SClass i_CIMGMonth None; SClass i_CIMGDay None; SClass i_CIMGYearMonth None])(* CIM14/CDPSM/Unbalanced/__init__.py:24-203 *);
  (152, Mod n_Element [151; 2; 1] false [SClass n_Element None])(* CIM14/CDPSM/Unbalanced/Element.py:22-22 *);
  (153, Mod i_IEC61968 [151; 2; 1] true [SAssign i_nsURI; SAssign i_nsPrefix])(* CIM14/CDPSM/Unbalanced/IEC61968/__init__.py:26-27 *);
  (154, Mod i_AssetModels [153; 151; 2; 1] true [SFrom 164 n_TransformerInfo; SFrom 163 n_ToWindingSpec; SFrom 166 n_WireArrangement; SFrom 155 n_CableInfo; SFrom 159 n_OpenCircuitTest; SFrom 156 n_ConcentricNeutralCableInfo; SFrom 157 n_ConductorInfo; SFrom 158 n_DistributionWindingTest; SFrom 167 n_WireType; SFrom 165 n_WindingInfo; SFrom 160 n_OverheadConductorInfo; SFrom 162 n_TapeShieldCableInfo; SFrom 161 n_ShortCircuitTest; SAssign i_nsURI; SAssign i_nsPrefix; SClass n_CableOuterJacketKind None; SClass n_CableShieldMaterialKind None; SClass n_ConductorInsulationKind None; SClass n_ConductorMaterialKind None; SClass n_ConductorUsageKind None; SClass n_CableConstructionKind None])(* CIM14/CDPSM/Unbalanced/IEC61968/AssetModels/__init__.py:24-67 *);
  (155, Mod n_CableInfo [154; 153; 151; 2; 1] false [SFrom 157 n_ConductorInfo; SClass n_CableInfo (Some n_ConductorInfo)])(* CIM14/CDPSM/Unbalanced/IEC61968/AssetModels/CableInfo.py:21-23 *);
  (156, Mod n_ConcentricNeutralCableInfo [154; 153; 151; 2; 1] false [SFrom 155 n_CableInfo; SClass n_ConcentricNeutralCableInfo (Some n_CableInfo)])(* CIM14/CDPSM/Unbalanced/IEC61968/AssetModels/ConcentricNeutralCableInfo.py:21-23 *);
  (157, Mod n_ConductorInfo [154; 153; 151; 2; 1] false [SFrom 191 n_IdentifiedObject; SClass n_ConductorInfo (Some n_IdentifiedObject)])(* CIM14/CDPSM/Unbalanced/IEC61968/AssetModels/ConductorInfo.py:21-23 *);
  (158, Mod n_DistributionWindingTest [154; 153; 151; 2; 1] false [SFrom 191 n_IdentifiedObject; SClass n_DistributionWindingTest (Some n_IdentifiedObject)])(* CIM14/CDPSM/Unbalanced/IEC61968/AssetModels/DistributionWindingTest.py:21-23 *);
  (159, Mod n_OpenCircuitTest [154; 153; 151; 2; 1] false [SFrom 158 n_DistributionWindingTest; SClass n_OpenCircuitTest (Some n_DistributionWindingTest)])(* CIM14/CDPSM/Unbalanced/IEC61968/AssetModels/OpenCircuitTest.py:21-23 *);
  (160, Mod n_OverheadConductorInfo [154; 153; 151; 2; 1] false [SFrom 157 n_ConductorInfo; SClass n_OverheadConductorInfo (Some n_ConductorInfo)])(* CIM14/CDPSM/Unbalanced/IEC61968/AssetModels/OverheadConductorInfo.py:21-23 *);
  (161, Mod n_ShortCircuitTest [154; 153; 151; 2; 1] false [SFrom 158 n_DistributionWindingTest; SClass n_ShortCircuitTest (Some n_DistributionWindingTest)])(* CIM14/CDPSM/Unbalanced/IEC61968/AssetModels/ShortCircuitTest.py:21-23 *);
  (162, Mod n_TapeShieldCableInfo [154; 153; 151; 2; 1] false [SFrom 155 n_CableInfo; SClass n_TapeShieldCableInfo (Some n_CableInfo)])(* CIM14/CDPSM/Unbalanced/IEC61968/AssetModels/TapeShieldCableInfo.py:21-23 *);
  (163, Mod n_ToWindingSpec [154; 153; 151; 2; 1] false [SFrom 191 n_IdentifiedObject; SClass n_ToWindingSpec (Some n_IdentifiedObject)])(* CIM14/CDPSM/Unbalanced/IEC61968/AssetModels/ToWindingSpec.py:21-23 *);
  (164, Mod n_TransformerInfo [154; 153; 151; 2; 1] false [SFrom 191 n_IdentifiedObject; SClass n_TransformerInfo (Some n_IdentifiedObject)])(* CIM14/CDPSM/Unbalanced/IEC61968/AssetModels/TransformerInfo.py:21-23 *);
  (165, Mod n_WindingInfo [154; 153; 151; 2; 1] false [SFrom 191 n_IdentifiedObject; SClass n_WindingInfo (Some n_IdentifiedObject)])(* CIM14/CDPSM/Unbalanced/IEC61968/AssetModels/WindingInfo.py:21-23 *);
  (166, Mod n_WireArrangement [154; 153; 151; 2; 1] false [SFrom 191 n_IdentifiedObject; SClass n_WireArrangement (Some n_IdentifiedObject)])(* CIM14/CDPSM/Unbalanced/IEC61968/AssetModels/WireArrangement.py:21-23 *);
  (167, Mod n_WireType [154; 153; 151; 2; 1] false [SFrom 191 n_IdentifiedObject; SClass n_WireType (Some n_IdentifiedObject)])(* CIM14/CDPSM/Unbalanced/IEC61968/AssetModels/WireType.py:21-23 *);
  (168, Mod i_Common [153; 151; 2; 1] true [SFrom 169 n_GeoLocation; SFrom 170 n_Location; SFrom 171 n_PositionPoint; SAssign i_nsURI; SAssign i_nsPrefix])(* CIM14/CDPSM/Unbalanced/IEC61968/Common/__init__.py:24-29 *);
  (169, Mod n_GeoLocation [168; 153; 151; 2; 1] false [SFrom 170 n_Location; SClass n_GeoLocation (Some n_Location)])(* CIM14/CDPSM/Unbalanced/IEC61968/Common/GeoLocation.py:21-23 *);
  (170, Mod n_Location [168; 153; 151; 2; 1] false [SFrom 191 n_IdentifiedObject; SClass n_Location (Some n_IdentifiedObject)])(* CIM14/CDPSM/Unbalanced/IEC61968/Common/Location.py:21-23 *);
  (171, Mod n_PositionPoint [168; 153; 151; 2; 1] false [SFrom 152 n_Element; SClass n_PositionPoint (Some n_Element)])(* CIM14/CDPSM/Unbalanced/IEC61968/Common/PositionPoint.py:21-23 *);
  (172, Mod i_WiresExt [153; 151; 2; 1] true [SFrom 176 n_DistributionTransformerWinding; SFrom 173 n_DistributionLineSegment; SFrom 181 n_WindingPiImpedance; SFrom 174 n_DistributionTapChanger; SFrom 178 n_PerLengthSequenceImpedance; SFrom 180 n_TransformerBank; SFrom 177 n_PerLengthPhaseImpedance; SFrom 175 n_DistributionTransformer; SFrom 179 n_PhaseImpedanceData; SAssign i_nsURI; SAssign i_nsPrefix])(* CIM14/CDPSM/Unbalanced/IEC61968/WiresExt/__init__.py:24-35 *);
  (173, Mod n_DistributionLineSegment [172; 153; 151; 2; 1] false [SFrom 209 n_ACLineSegment; SClass n_DistributionLineSegment (Some n_ACLineSegment)])(* CIM14/CDPSM/Unbalanced/IEC61968/WiresExt/DistributionLineSegment.py:21-23 *);
  (174, Mod n_DistributionTapChanger [172; 153; 151; 2; 1] false [SFrom 220 n_RatioTapChanger; SClass n_DistributionTapChanger (Some n_RatioTapChanger)])(* CIM14/CDPSM/Unbalanced/IEC61968/WiresExt/DistributionTapChanger.py:21-23 *);
  (175, Mod n_DistributionTransformer [172; 153; 151; 2; 1] false [SFrom 188 n_Equipment; SClass n_DistributionTransformer (Some n_Equipment)])(* CIM14/CDPSM/Unbalanced/IEC61968/WiresExt/DistributionTransformer.py:21-23 *);
  (176, Mod n_DistributionTransformerWinding [172; 153; 151; 2; 1] false [SFrom 186 n_ConductingEquipment; SClass n_DistributionTransformerWinding (Some n_ConductingEquipment)])(* CIM14/CDPSM/Unbalanced/IEC61968/WiresExt/DistributionTransformerWinding.py:21-23 *);
  (177, Mod n_PerLengthPhaseImpedance [172; 153; 151; 2; 1] false [SFrom 191 n_IdentifiedObject; SClass n_PerLengthPhaseImpedance (Some n_IdentifiedObject)])(* CIM14/CDPSM/Unbalanced/IEC61968/WiresExt/PerLengthPhaseImpedance.py:21-23 *);
  (178, Mod n_PerLengthSequenceImpedance [172; 153; 151; 2; 1] false [SFrom 191 n_IdentifiedObject; SClass n_PerLengthSequenceImpedance (Some n_IdentifiedObject)])(* CIM14/CDPSM/Unbalanced/IEC61968/WiresExt/PerLengthSequenceImpedance.py:21-23 *);
  (179, Mod n_PhaseImpedanceData [172; 153; 151; 2; 1] false [SFrom 152 n_Element; SClass n_PhaseImpedanceData (Some n_Element)])(* CIM14/CDPSM/Unbalanced/IEC61968/WiresExt/PhaseImpedanceData.py:21-23 *);
  (180, Mod n_TransformerBank [172; 153; 151; 2; 1] false [SFrom 188 n_Equipment; SClass n_TransformerBank (Some n_Equipment)])(* CIM14/CDPSM/Unbalanced/IEC61968/WiresExt/TransformerBank.py:21-23 *);
  (181, Mod n_WindingPiImpedance [172; 153; 151; 2; 1] false [SFrom 191 n_IdentifiedObject; SClass n_WindingPiImpedance (Some n_IdentifiedObject)])(* CIM14/CDPSM/Unbalanced/IEC61968/WiresExt/WindingPiImpedance.py:21-23 *);
  (182, Mod i_IEC61970 [151; 2; 1] true [SFrom 201 n_IEC61970CIMVersion; SAssign i_nsURI; SAssign i_nsPrefix])(* CIM14/CDPSM/Unbalanced/IEC61970/__init__.py:22-25 *);
  (183, Mod i_Core [182; 151; 2; 1] true [SFrom 187 n_ConnectivityNodeContainer; SFrom 197 n_VoltageLevel; SFrom 185 n_Bay; SFrom 188 n_Equipment; SFrom 184 n_BaseVoltage; SFrom 192 n_PSRType; SFrom 189 n_EquipmentContainer; SFrom 191 n_IdentifiedObject; SFrom 195 n_Substation; SFrom 186 n_ConductingEquipment; SFrom 194 n_SubGeographicalRegion; SFrom 196 n_Terminal; SFrom 190 n_GeographicalRegion; SFrom 193 n_PowerSystemResource; SAssign i_nsURI; SAssign i_nsPrefix; SClass n_PhaseCode None])(* CIM14/CDPSM/Unbalanced/IEC61970/Core/__init__.py:24-43 *);
  (184, Mod n_BaseVoltage [183; 182; 151; 2; 1] false [SFrom 191 n_IdentifiedObject; SClass n_BaseVoltage (Some n_IdentifiedObject)])(* CIM14/CDPSM/Unbalanced/IEC61970/Core/BaseVoltage.py:21-23 *);
  (185, Mod n_Bay [183; 182; 151; 2; 1] false [SFrom 189 n_EquipmentContainer; SClass n_Bay (Some n_EquipmentContainer)])(* CIM14/CDPSM/Unbalanced/IEC61970/Core/Bay.py:21-23 *);
  (186, Mod n_ConductingEquipment [183; 182; 151; 2; 1] false [SFrom 188 n_Equipment; SClass n_ConductingEquipment (Some n_Equipment)])(* CIM14/CDPSM/Unbalanced/IEC61970/Core/ConductingEquipment.py:21-23 *);
  (187, Mod n_ConnectivityNodeContainer [183; 182; 151; 2; 1] false [SFrom 193 n_PowerSystemResource; SClass n_ConnectivityNodeContainer (Some n_PowerSystemResource)])(* CIM14/CDPSM/Unbalanced/IEC61970/Core/ConnectivityNodeContainer.py:21-23 *);
  (188, Mod n_Equipment [183; 182; 151; 2; 1] false [SFrom 193 n_PowerSystemResource; SClass n_Equipment (Some n_PowerSystemResource)])(* CIM14/CDPSM/Unbalanced/IEC61970/Core/Equipment.py:21-23 *);
  (189, Mod n_EquipmentContainer [183; 182; 151; 2; 1] false [SFrom 187 n_ConnectivityNodeContainer; SClass n_EquipmentContainer (Some n_ConnectivityNodeContainer)])(* CIM14/CDPSM/Unbalanced/IEC61970/Core/EquipmentContainer.py:21-23 *);
  (190, Mod n_GeographicalRegion [183; 182; 151; 2; 1] false [SFrom 191 n_IdentifiedObject; SClass n_GeographicalRegion (Some n_IdentifiedObject)])(* CIM14/CDPSM/Unbalanced/IEC61970/Core/GeographicalRegion.py:21-23 *);
  (191, Mod n_IdentifiedObject [183; 182; 151; 2; 1] false [SFrom 152 n_Element; SClass n_IdentifiedObject (Some n_Element)])(* CIM14/CDPSM/Unbalanced/IEC61970/Core/IdentifiedObject.py:21-23 *);
  (192, Mod n_PSRType [183; 182; 151; 2; 1] false [SFrom 191 n_IdentifiedObject; SClass n_PSRType (Some n_IdentifiedObject)])(* CIM14/CDPSM/Unbalanced/IEC61970/Core/PSRType.py:21-23 *);
  (193, Mod n_PowerSystemResource [183; 182; 151; 2; 1] false [SFrom 191 n_IdentifiedObject; SClass n_PowerSystemResource (Some n_IdentifiedObject)])(* CIM14/CDPSM/Unbalanced/IEC61970/Core/PowerSystemResource.py:21-23 *);
  (194, Mod n_SubGeographicalRegion [183; 182; 151; 2; 1] false [SFrom 191 n_IdentifiedObject; SClass n_SubGeographicalRegion (Some n_IdentifiedObject)])(* CIM14/CDPSM/Unbalanced/IEC61970/Core/SubGeographicalRegion.py:21-23 *);
  (195, Mod n_Substation [183; 182; 151; 2; 1] false [SFrom 189 n_EquipmentContainer; SClass n_Substation (Some n_EquipmentContainer)])(* CIM14/CDPSM/Unbalanced/IEC61970/Core/Substation.py:21-23 *);
  (196, Mod n_Terminal [183; 182; 151; 2; 1] false [SFrom 191 n_IdentifiedObject; SClass n_Terminal (Some n_IdentifiedObject)])(* CIM14/CDPSM/Unbalanced/IEC61970/Core/Terminal.py:21-23 *);
  (197, Mod n_VoltageLevel [183; 182; 151; 2; 1] false [SFrom 189 n_EquipmentContainer; SClass n_VoltageLevel (Some n_EquipmentContainer)])(* CIM14/CDPSM/Unbalanced/IEC61970/Core/VoltageLevel.py:21-23 *);
  (198, Mod i_Generation [182; 151; 2; 1] true [SAssign i_nsURI; SAssign i_nsPrefix])(* CIM14/CDPSM/Unbalanced/IEC61970/Generation/__init__.py:25-26 *);
  (199, Mod i_Production [198; 182; 151; 2; 1] true [SFrom 200 n_GeneratingUnit; SAssign i_nsURI; SAssign i_nsPrefix; SClass n_GeneratorControlSource None])(* CIM14/CDPSM/Unbalanced/IEC61970/Generation/Production/__init__.py:24-30 *);
  (200, Mod n_GeneratingUnit [199; 198; 182; 151; 2; 1] false [SFrom 188 n_Equipment; SClass n_GeneratingUnit (Some n_Equipment)])(* CIM14/CDPSM/Unbalanced/IEC61970/Generation/Production/GeneratingUnit.py:21-23 *);
  (201, Mod n_IEC61970CIMVersion [182; 151; 2; 1] false [SFrom 152 n_Element; SClass n_IEC61970CIMVersion (Some n_Element)])(* CIM14/CDPSM/Unbalanced/IEC61970/IEC61970CIMVersion.py:21-23 *);
  (202, Mod i_LoadModel [182; 151; 2; 1] true [SFrom 203 n_LoadResponseCharacteristic; SAssign i_nsURI; SAssign i_nsPrefix])(* CIM14/CDPSM/Unbalanced/IEC61970/LoadModel/__init__.py:26-29 *);
  (203, Mod n_LoadResponseCharacteristic [202; 182; 151; 2; 1] false [SFrom 191 n_IdentifiedObject; SClass n_LoadResponseCharacteristic (Some n_IdentifiedObject)])(* CIM14/CDPSM/Unbalanced/IEC61970/LoadModel/LoadResponseCharacteristic.py:21-23 *);
  (204, Mod i_StateVariables [182; 151; 2; 1] true [SFrom 205 n_SvTapStep; SAssign i_nsURI; SAssign i_nsPrefix])(* CIM14/CDPSM/Unbalanced/IEC61970/StateVariables/__init__.py:24-27 *);
  (205, Mod n_SvTapStep [204; 182; 151; 2; 1] false [SFrom 152 n_Element; SClass n_SvTapStep (Some n_Element)])(* CIM14/CDPSM/Unbalanced/IEC61970/StateVariables/SvTapStep.py:21-23 *);
  (206, Mod i_Topology [182; 151; 2; 1] true [SFrom 207 n_ConnectivityNode; SAssign i_nsURI; SAssign i_nsPrefix])(* CIM14/CDPSM/Unbalanced/IEC61970/Topology/__init__.py:24-27 *);
  (207, Mod n_ConnectivityNode [206; 182; 151; 2; 1] false [SFrom 191 n_IdentifiedObject; SClass n_ConnectivityNode (Some n_IdentifiedObject)])(* CIM14/CDPSM/Unbalanced/IEC61970/Topology/ConnectivityNode.py:21-23 *);
  (208, Mod i_Wires [182; 151; 2; 1] true [SFrom 211 n_BusbarSection; SFrom 219 n_LoadBreakSwitch; SFrom 224 n_TapChanger; SFrom 216 n_Fuse; SFrom 217 n_Junction; SFrom 209 n_ACLineSegment; SFrom 213 n_Disconnector; SFrom 215 n_EnergySource; SFrom 223 n_SynchronousMachine; SFrom 220 n_RatioTapChanger; SFrom 214 n_EnergyConsumer; SFrom 222 n_Switch; SFrom 218 n_Line; SFrom 221 n_ShuntCompensator; SFrom 210 n_Breaker; SFrom 212 n_Conductor; SAssign i_nsURI; SAssign i_nsPrefix; SClass n_TransformerControlMode None; SClass n_WindingConnection None; SClass n_SynchronousMachineType None; SClass n_SynchronousMachineOperatingMode None])(* CIM14/CDPSM/Unbalanced/IEC61970/Wires/__init__.py:24-60 *);
  (209, Mod n_ACLineSegment [208; 182; 151; 2; 1] false [SFrom 212 n_Conductor; SClass n_ACLineSegment (Some n_Conductor)])(* CIM14/CDPSM/Unbalanced/IEC61970/Wires/ACLineSegment.py:21-23 *);
  (210, Mod n_Breaker [208; 182; 151; 2; 1] false [SFrom 222 n_Switch; SClass n_Breaker (Some n_Switch)])(* CIM14/CDPSM/Unbalanced/IEC61970/Wires/Breaker.py:21-23 *);
  (211, Mod n_BusbarSection [208; 182; 151; 2; 1] false [SFrom 186 n_ConductingEquipment; SClass n_BusbarSection (Some n_ConductingEquipment)])(* CIM14/CDPSM/Unbalanced/IEC61970/Wires/BusbarSection.py:21-23 *);
  (212, Mod n_Conductor [208; 182; 151; 2; 1] false [SFrom 186 n_ConductingEquipment; SClass n_Conductor (Some n_ConductingEquipment)])(* CIM14/CDPSM/Unbalanced/IEC61970/Wires/Conductor.py:21-23 *);
  (213, Mod n_Disconnector [208; 182; 151; 2; 1] false [SFrom 222 n_Switch; SClass n_Disconnector (Some n_Switch)])(* CIM14/CDPSM/Unbalanced/IEC61970/Wires/Disconnector.py:21-23 *);
  (214, Mod n_EnergyConsumer [208; 182; 151; 2; 1] false [SFrom 186 n_ConductingEquipment; SClass n_EnergyConsumer (Some n_ConductingEquipment)])(* CIM14/CDPSM/Unbalanced/IEC61970/Wires/EnergyConsumer.py:21-23 *);
  (215, Mod n_EnergySource [208; 182; 151; 2; 1] false [SFrom 186 n_ConductingEquipment; SClass n_EnergySource (Some n_ConductingEquipment)])(* CIM14/CDPSM/Unbalanced/IEC61970/Wires/EnergySource.py:21-23 *);
  (216, Mod n_Fuse [208; 182; 151; 2; 1] false [SFrom 222 n_Switch; SClass n_Fuse (Some n_Switch)])(* CIM14/CDPSM/Unbalanced/IEC61970/Wires/Fuse.py:21-23 *);
  (217, Mod n_Junction [208; 182; 151; 2; 1] false [SFrom 186 n_ConductingEquipment; SClass n_Junction (Some n_ConductingEquipment)])(* CIM14/CDPSM/Unbalanced/IEC61970/Wires/Junction.py:21-23 *);
  (218, Mod n_Line [208; 182; 151; 2; 1] false [SFrom 189 n_EquipmentContainer; SClass n_Line (Some n_EquipmentContainer)])(* CIM14/CDPSM/Unbalanced/IEC61970/Wires/Line.py:21-23 *);
  (219, Mod n_LoadBreakSwitch [208; 182; 151; 2; 1] false [SFrom 222 n_Switch; SClass n_LoadBreakSwitch (Some n_Switch)])(* CIM14/CDPSM/Unbalanced/IEC61970/Wires/LoadBreakSwitch.py:21-23 *);
  (220, Mod n_RatioTapChanger [208; 182; 151; 2; 1] false [SFrom 224 n_TapChanger; SClass n_RatioTapChanger (Some n_TapChanger)])(* CIM14/CDPSM/Unbalanced/IEC61970/Wires/RatioTapChanger.py:21-23 *);
  (221, Mod n_ShuntCompensator [208; 182; 151; 2; 1] false [SFrom 186 n_ConductingEquipment; SClass n_ShuntCompensator (Some n_ConductingEquipment)])(* CIM14/CDPSM/Unbalanced/IEC61970/Wires/ShuntCompensator.py:21-23 *);
  (222, Mod n_Switch [208; 182; 151; 2; 1] false [SFrom 186 n_ConductingEquipment; SClass n_Switch (Some n_ConductingEquipment)])(* CIM14/CDPSM/Unbalanced/IEC61970/Wires/Switch.py:21-23 *);
  (223, Mod n_SynchronousMachine [208; 182; 151; 2; 1] false [SFrom 186 n_ConductingEquipment; SClass n_SynchronousMachine (Some n_ConductingEquipment)])(* CIM14/CDPSM/Unbalanced/IEC61970/Wires/SynchronousMachine.py:21-23 *);
  (224, Mod n_TapChanger [208; 182; 151; 2; 1] false [SFrom 193 n_PowerSystemResource; SClass n_TapChanger (Some n_PowerSystemResource)])(* CIM14/CDPSM/Unbalanced/IEC61970/Wires/TapChanger.py:21-23 *);
  (225, Mod i_CPSM [1] true [SAssign i_nsURI; SAssign i_nsPrefix])(* CIM14/CPSM/__init__.py:23-24 *);
  (226, Mod n_Equipment [225; 1] true [SFrom 253 n_Element; SFrom 270 n_IEC61970CIMVersion; SAssign i_nsURI; SAssign i_nsPrefix; SAssign i_packageMap; SClass i_CIMTime None; SClass i_CIMDateTime None; SClass i_CIMDuration None; SClass i_CIMGYear None; SClass i_CIMDate None; SClass i_CIMGMonthDay None; SClass i_CIMGMonth None; SClass i_CIMGDay None; SClass i_CIMGYearMonth None])(* CIM14/CPSM/Equipment/__init__.py:24-155 *);
  (227, Mod n_ControlArea [226; 225; 1] true [SFrom 229 n_ControlAreaGeneratingUnit; SFrom 230 n_TieFlow; SFrom 228 n_ControlArea; SAssign i_nsURI; SAssign i_nsPrefix; SClass n_ControlAreaTypeKind None])(* CIM14/CPSM/Equipment/ControlArea/__init__.py:24-32 *);
  (228, Mod n_ControlArea [227; 226; 225; 1] false [SFrom 244 n_PowerSystemResource; SClass n_ControlArea (Some n_PowerSystemResource)])(* CIM14/CPSM/Equipment/ControlArea/ControlArea.py:21-23 *);
  (229, Mod n_ControlAreaGeneratingUnit [227; 226; 225; 1] false [SFrom 253 n_Element; SClass n_ControlAreaGeneratingUnit (Some n_Element)])(* CIM14/CPSM/Equipment/ControlArea/ControlAreaGeneratingUnit.py:21-23 *);
  (230, Mod n_TieFlow [227; 226; 225; 1] false [SFrom 253 n_Element; SClass n_TieFlow (Some n_Element)])(* CIM14/CPSM/Equipment/ControlArea/TieFlow.py:21-23 *);
  (231, Mod i_Core [226; 225; 1] true [SFrom 237 n_ConnectivityNodeContainer; SFrom 245 n_RegularIntervalSchedule; SFrom 246 n_RegularTimePoint; SFrom 234 n_Bay; SFrom 240 n_Equipment; SFrom 241 n_EquipmentContainer; SFrom 243 n_IdentifiedObject; SFrom 247 n_SubGeographicalRegion; SFrom 244 n_PowerSystemResource; SFrom 233 n_BasicIntervalSchedule; SFrom 238 n_Curve; SFrom 251 n_VoltageLevel; SFrom 250 n_Unit; SFrom 232 n_BaseVoltage; SFrom 236 n_ConnectivityNode; SFrom 248 n_Substation; SFrom 235 n_ConductingEquipment; SFrom 249 n_Terminal; SFrom 242 n_GeographicalRegion; SFrom 239 n_CurveData; SAssign i_nsURI; SAssign i_nsPrefix; SClass n_CurveStyle None])(* CIM14/CPSM/Equipment/Core/__init__.py:24-49 *);
  (232, Mod n_BaseVoltage [231; 226; 225; 1] false [SFrom 243 n_IdentifiedObject; SClass n_BaseVoltage (Some n_IdentifiedObject)])(* CIM14/CPSM/Equipment/Core/BaseVoltage.py:21-23 *);
  (233, Mod n_BasicIntervalSchedule [231; 226; 225; 1] false [SFrom 243 n_IdentifiedObject; SClass n_BasicIntervalSchedule (Some n_IdentifiedObject)])(* CIM14/CPSM/Equipment/Core/BasicIntervalSchedule.py:21-23 *);
  (234, Mod n_Bay [231; 226; 225; 1] false [SFrom 241 n_EquipmentContainer; SClass n_Bay (Some n_EquipmentContainer)])(* CIM14/CPSM/Equipment/Core/Bay.py:21-23 *);
  (235, Mod n_ConductingEquipment [231; 226; 225; 1] false [SFrom 240 n_Equipment; SClass n_ConductingEquipment (Some n_Equipment)])(* CIM14/CPSM/Equipment/Core/ConductingEquipment.py:21-23 *);
  (236, Mod n_ConnectivityNode [231; 226; 225; 1] false [SFrom 243 n_IdentifiedObject; SClass n_ConnectivityNode (Some n_IdentifiedObject)])(* CIM14/CPSM/Equipment/Core/ConnectivityNode.py:21-23 *);
  (237, Mod n_ConnectivityNodeContainer [231; 226; 225; 1] false [SFrom 244 n_PowerSystemResource; SClass n_ConnectivityNodeContainer (Some n_PowerSystemResource)])(* CIM14/CPSM/Equipment/Core/ConnectivityNodeContainer.py:21-23 *);
  (238, Mod n_Curve [231; 226; 225; 1] false [SFrom 243 n_IdentifiedObject; SClass n_Curve (Some n_IdentifiedObject)])(* CIM14/CPSM/Equipment/Core/Curve.py:21-23 *);
  (239, Mod n_CurveData [231; 226; 225; 1] false [SFrom 253 n_Element; SClass n_CurveData (Some n_Element)])(* CIM14/CPSM/Equipment/Core/CurveData.py:21-23 *);
  (240, Mod n_Equipment [231; 226; 225; 1] false [SFrom 244 n_PowerSystemResource; SClass n_Equipment (Some n_PowerSystemResource)])(* CIM14/CPSM/Equipment/Core/Equipment.py:21-23 *);
  (241, Mod n_EquipmentContainer [231; 226; 225; 1] false [SFrom 237 n_ConnectivityNodeContainer; SClass n_EquipmentContainer (Some n_ConnectivityNodeContainer)])(* CIM14/CPSM/Equipment/Core/EquipmentContainer.py:21-23 *);
  (242, Mod n_GeographicalRegion [231; 226; 225; 1] false [SFrom 243 n_IdentifiedObject; SClass n_GeographicalRegion (Some n_IdentifiedObject)])(* CIM14/CPSM/Equipment/Core/GeographicalRegion.py:21-23 *);
  (243, Mod n_IdentifiedObject [231; 226; 225; 1] false [SFrom 253 n_Element; SClass n_IdentifiedObject (Some n_Element)])(* CIM14/CPSM/Equipment/Core/IdentifiedObject.py:21-23 *);
  (244, Mod n_PowerSystemResource [231; 226; 225; 1] false [SFrom 243 n_IdentifiedObject; SClass n_PowerSystemResource (Some n_IdentifiedObject)])(* CIM14/CPSM/Equipment/Core/PowerSystemResource.py:21-23 *);
  (245, Mod n_RegularIntervalSchedule [231; 226; 225; 1] false [SFrom 233 n_BasicIntervalSchedule; SClass n_RegularIntervalSchedule (Some n_BasicIntervalSchedule)])(* CIM14/CPSM/Equipment/Core/RegularIntervalSchedule.py:21-23 *);
  (246, Mod n_RegularTimePoint [231; 226; 225; 1] false [SFrom 253 n_Element; SClass n_RegularTimePoint (Some n_Element)])(* CIM14/CPSM/Equipment/Core/RegularTimePoint.py:21-23 *);
  (247, Mod n_SubGeographicalRegion [231; 226; 225; 1] false [SFrom 243 n_IdentifiedObject; SClass n_SubGeographicalRegion (Some n_IdentifiedObject)])(* CIM14/CPSM/Equipment/Core/SubGeographicalRegion.py:21-23 *);
  (248, Mod n_Substation [231; 226; 225; 1] false [SFrom 241 n_EquipmentContainer; SClass n_Substation (Some n_EquipmentContainer)])(* CIM14/CPSM/Equipment/Core/Substation.py:21-23 *);
  (249, Mod n_Terminal [231; 226; 225; 1] false [SFrom 243 n_IdentifiedObject; SClass n_Terminal (Some n_IdentifiedObject)])(* CIM14/CPSM/Equipment/Core/Terminal.py:21-23 *);
  (250, Mod n_Unit [231; 226; 225; 1] false [SFrom 243 n_IdentifiedObject; SClass n_Unit (Some n_IdentifiedObject)])(* CIM14/CPSM/Equipment/Core/Unit.py:21-23 *);
  (251, Mod n_VoltageLevel [231; 226; 225; 1] false [SFrom 241 n_EquipmentContainer; SClass n_VoltageLevel (Some n_EquipmentContainer)])(* CIM14/CPSM/Equipment/Core/VoltageLevel.py:21-23 *);
  (252, Mod i_Domain [226; 225; 1] true [SAssign i_nsURI; SAssign i_nsPrefix; SClass n_UnitSymbol None; SClass i_Money None; SClass i_ApparentPower None; SClass i_Resistance None; SClass i_ActivePower None; SClass i_Susceptance None; SClass i_CurrentFlow None; SClass i_Conductance None; SClass i_Length None; SClass i_Reactance None; SClass i_Seconds None; SClass i_VoltagePerReactivePower None; SClass i_Voltage None; SClass i_ReactivePower None; SClass i_AngleDegrees None; SClass i_PerCent None])(* CIM14/CPSM/Equipment/Domain/__init__.py:25-104 *);
  (253, Mod n_Element [226; 225; 1] false [SClass n_Element None])(* CIM14/CPSM/Equipment/Element.py:22-22 *);
  (254, Mod i_Equivalents [226; 225; 1] true [SFrom 259 n_EquivalentShunt; SFrom 255 n_EquivalentBranch; SFrom 257 n_EquivalentInjection; SFrom 256 n_EquivalentEquipment; SFrom 258 n_EquivalentNetwork; SAssign i_nsURI; SAssign i_nsPrefix])(* CIM14/CPSM/Equipment/Equivalents/__init__.py:24-31 *);
  (255, Mod n_EquivalentBranch [254; 226; 225; 1] false [SFrom 256 n_EquivalentEquipment; SClass n_EquivalentBranch (Some n_EquivalentEquipment)])(* CIM14/CPSM/Equipment/Equivalents/EquivalentBranch.py:21-23 *);
  (256, Mod n_EquivalentEquipment [254; 226; 225; 1] false [SFrom 235 n_ConductingEquipment; SClass n_EquivalentEquipment (Some n_ConductingEquipment)])(* CIM14/CPSM/Equipment/Equivalents/EquivalentEquipment.py:21-23 *);
  (257, Mod n_EquivalentInjection [254; 226; 225; 1] false [SFrom 256 n_EquivalentEquipment; SClass n_EquivalentInjection (Some n_EquivalentEquipment)])(* CIM14/CPSM/Equipment/Equivalents/EquivalentInjection.py:21-23 *);
  (258, Mod n_EquivalentNetwork [254; 226; 225; 1] false [SFrom 237 n_ConnectivityNodeContainer; SClass n_EquivalentNetwork (Some n_ConnectivityNodeContainer)])(* CIM14/CPSM/Equipment/Equivalents/EquivalentNetwork.py:21-23 *);
  (259, Mod n_EquivalentShunt [254; 226; 225; 1] false [SFrom 256 n_EquivalentEquipment; SClass n_EquivalentShunt (Some n_EquivalentEquipment)])(* CIM14/CPSM/Equipment/Equivalents/EquivalentShunt.py:21-23 *);
  (260, Mod i_Generation [226; 225; 1] true [SAssign i_nsURI; SAssign i_nsPrefix])(* CIM14/CPSM/Equipment/Generation/__init__.py:25-26 *);
  (261, Mod i_Production [260; 226; 225; 1] true [SFrom 262 n_FossilFuel; SFrom 265 n_HydroGeneratingUnit; SFrom 264 n_GrossToNetActivePowerCurve; SFrom 268 n_ThermalGeneratingUnit; SFrom 266 n_HydroPump; SFrom 269 n_WindGeneratingUnit; SFrom 263 n_GeneratingUnit; SFrom 267 n_NuclearGeneratingUnit; SAssign i_nsURI; SAssign i_nsPrefix; SClass n_FuelType None; SClass n_GeneratorControlSource None])(* CIM14/CPSM/Equipment/Generation/Production/__init__.py:24-42 *);
  (262, Mod n_FossilFuel [261; 260; 226; 225; 1] false [SFrom 243 n_IdentifiedObject; SClass n_FossilFuel (Some n_IdentifiedObject)])(* CIM14/CPSM/Equipment/Generation/Production/FossilFuel.py:21-23 *);
  (263, Mod n_GeneratingUnit [261; 260; 226; 225; 1] false [SFrom 240 n_Equipment; SClass n_GeneratingUnit (Some n_Equipment)])(* CIM14/CPSM/Equipment/Generation/Production/GeneratingUnit.py:21-23 *);
  (264, Mod n_GrossToNetActivePowerCurve [261; 260; 226; 225; 1] false [SFrom 238 n_Curve; SClass n_GrossToNetActivePowerCurve (Some n_Curve)])(* CIM14/CPSM/Equipment/Generation/Production/GrossToNetActivePowerCurve.py:21-23 *);
  (265, Mod n_HydroGeneratingUnit [261; 260; 226; 225; 1] false [SFrom 263 n_GeneratingUnit; SClass n_HydroGeneratingUnit (Some n_GeneratingUnit)])(* CIM14/CPSM/Equipment/Generation/Production/HydroGeneratingUnit.py:21-23 *);
  (266, Mod n_HydroPump [261; 260; 226; 225; 1] false [SFrom 244 n_PowerSystemResource; SClass n_HydroPump (Some n_PowerSystemResource)])(* CIM14/CPSM/Equipment/Generation/Production/HydroPump.py:21-23 *);
  (267, Mod n_NuclearGeneratingUnit [261; 260; 226; 225; 1] false [SFrom 263 n_GeneratingUnit; SClass n_NuclearGeneratingUnit (Some n_GeneratingUnit)])(* CIM14/CPSM/Equipment/Generation/Production/NuclearGeneratingUnit.py:21-23 *);
  (268, Mod n_ThermalGeneratingUnit [261; 260; 226; 225; 1] false [SFrom 263 n_GeneratingUnit; SClass n_ThermalGeneratingUnit (Some n_GeneratingUnit)])(* CIM14/CPSM/Equipment/Generation/Production/ThermalGeneratingUnit.py:21-23 *);
  (269, Mod n_WindGeneratingUnit [261; 260; 226; 225; 1] false [SFrom 263 n_GeneratingUnit; SClass n_WindGeneratingUnit (Some n_GeneratingUnit)])(* CIM14/CPSM/Equipment/Generation/Production/WindGeneratingUnit.py:21-23 *);
  (270, Mod n_IEC61970CIMVersion [226; 225; 1] false [SFrom 253 n_Element; SClass n_IEC61970CIMVersion (Some n_Element)])(* CIM14/CPSM/Equipment/IEC61970CIMVersion.py:21-23 *);
  (271, Mod i_LoadModel [226; 225; 1] true [SFrom 276 n_EnergyArea; SFrom 283 n_Season; SFrom 286 n_SubLoadArea; SFrom 282 n_NonConformLoadSchedule; SFrom 279 n_LoadResponseCharacteristic; SFrom 274 n_ConformLoadSchedule; SFrom 281 n_NonConformLoadGroup; SFrom 273 n_ConformLoadGroup; SFrom 272 n_ConformLoad; SFrom 280 n_NonConformLoad; SFrom 285 n_StationSupply; SFrom 284 n_SeasonDayTypeSchedule; SFrom 277 n_LoadArea; SFrom 275 n_DayType; SFrom 278 n_LoadGroup; SAssign i_nsURI; SAssign i_nsPrefix; SClass n_SeasonName None])(* CIM14/CPSM/Equipment/LoadModel/__init__.py:24-44 *);
  (272, Mod n_ConformLoad [271; 226; 225; 1] false [SFrom 311 n_EnergyConsumer; SClass n_ConformLoad (Some n_EnergyConsumer)])(* CIM14/CPSM/Equipment/LoadModel/ConformLoad.py:21-23 *);
  (273, Mod n_ConformLoadGroup [271; 226; 225; 1] false [SFrom 278 n_LoadGroup; SClass n_ConformLoadGroup (Some n_LoadGroup)])(* CIM14/CPSM/Equipment/LoadModel/ConformLoadGroup.py:21-23 *);
  (274, Mod n_ConformLoadSchedule [271; 226; 225; 1] false [SFrom 284 n_SeasonDayTypeSchedule; SClass n_ConformLoadSchedule (Some n_SeasonDayTypeSchedule)])(* CIM14/CPSM/Equipment/LoadModel/ConformLoadSchedule.py:21-23 *);
  (275, Mod n_DayType [271; 226; 225; 1] false [SFrom 243 n_IdentifiedObject; SClass n_DayType (Some n_IdentifiedObject)])(* CIM14/CPSM/Equipment/LoadModel/DayType.py:21-23 *);
  (276, Mod n_EnergyArea [271; 226; 225; 1] false [SFrom 243 n_IdentifiedObject; SClass n_EnergyArea (Some n_IdentifiedObject)])(* CIM14/CPSM/Equipment/LoadModel/EnergyArea.py:21-23 *);
  (277, Mod n_LoadArea [271; 226; 225; 1] false [SFrom 276 n_EnergyArea; SClass n_LoadArea (Some n_EnergyArea)])(* CIM14/CPSM/Equipment/LoadModel/LoadArea.py:21-23 *);
  (278, Mod n_LoadGroup [271; 226; 225; 1] false [SFrom 243 n_IdentifiedObject; SClass n_LoadGroup (Some n_IdentifiedObject)])(* CIM14/CPSM/Equipment/LoadModel/LoadGroup.py:21-23 *);
  (279, Mod n_LoadResponseCharacteristic [271; 226; 225; 1] false [SFrom 243 n_IdentifiedObject; SClass n_LoadResponseCharacteristic (Some n_IdentifiedObject)])(* CIM14/CPSM/Equipment/LoadModel/LoadResponseCharacteristic.py:21-23 *);
  (280, Mod n_NonConformLoad [271; 226; 225; 1] false [SFrom 311 n_EnergyConsumer; SClass n_NonConformLoad (Some n_EnergyConsumer)])(* CIM14/CPSM/Equipment/LoadModel/NonConformLoad.py:21-23 *);
  (281, Mod n_NonConformLoadGroup [271; 226; 225; 1] false [SFrom 278 n_LoadGroup; SClass n_NonConformLoadGroup (Some n_LoadGroup)])(* CIM14/CPSM/Equipment/LoadModel/NonConformLoadGroup.py:21-23 *);
  (282, Mod n_NonConformLoadSchedule [271; 226; 225; 1] false [SFrom 284 n_SeasonDayTypeSchedule; SClass n_NonConformLoadSchedule (Some n_SeasonDayTypeSchedule)])(* CIM14/CPSM/Equipment/LoadModel/NonConformLoadSchedule.py:21-23 *);
  (283, Mod n_Season [271; 226; 225; 1] false [SFrom 253 n_Element; SClass n_Season (Some n_Element)])(* CIM14/CPSM/Equipment/LoadModel/Season.py:21-23 *);
  (284, Mod n_SeasonDayTypeSchedule [271; 226; 225; 1] false [SFrom 245 n_RegularIntervalSchedule; SClass n_SeasonDayTypeSchedule (Some n_RegularIntervalSchedule)])(* CIM14/CPSM/Equipment/LoadModel/SeasonDayTypeSchedule.py:21-23 *);
  (285, Mod n_StationSupply [271; 226; 225; 1] false [SFrom 311 n_EnergyConsumer; SClass n_StationSupply (Some n_EnergyConsumer)])(* CIM14/CPSM/Equipment/LoadModel/StationSupply.py:21-23 *);
  (286, Mod n_SubLoadArea [271; 226; 225; 1] false [SFrom 276 n_EnergyArea; SClass n_SubLoadArea (Some n_EnergyArea)])(* CIM14/CPSM/Equipment/LoadModel/SubLoadArea.py:21-23 *);
  (287, Mod i_Meas [226; 225; 1] true [SFrom 289 n_AccumulatorValue; SFrom 288 n_Accumulator; SFrom 292 n_Discrete; SFrom 291 n_AnalogValue; SFrom 290 n_Analog; SFrom 296 n_MeasurementValueSource; SFrom 294 n_Measurement; SFrom 293 n_DiscreteValue; SFrom 295 n_MeasurementValue; SAssign i_nsURI; SAssign i_nsPrefix])(* CIM14/CPSM/Equipment/Meas/__init__.py:24-35 *);
  (288, Mod n_Accumulator [287; 226; 225; 1] false [SFrom 294 n_Measurement; SClass n_Accumulator (Some n_Measurement)])(* CIM14/CPSM/Equipment/Meas/Accumulator.py:21-23 *);
  (289, Mod n_AccumulatorValue [287; 226; 225; 1] false [SFrom 295 n_MeasurementValue; SClass n_AccumulatorValue (Some n_MeasurementValue)])(* CIM14/CPSM/Equipment/Meas/AccumulatorValue.py:21-23 *);
  (290, Mod n_Analog [287; 226; 225; 1] false [SFrom 294 n_Measurement; SClass n_Analog (Some n_Measurement)])(* CIM14/CPSM/Equipment/Meas/Analog.py:21-23 *);
  (291, Mod n_AnalogValue [287; 226; 225; 1] false [SFrom 295 n_MeasurementValue; SClass n_AnalogValue (Some n_MeasurementValue)])(* CIM14/CPSM/Equipment/Meas/AnalogValue.py:21-23 *);
  (292, Mod n_Discrete [287; 226; 225; 1] false [SFrom 294 n_Measurement; SClass n_Discrete (Some n_Measurement)])(* CIM14/CPSM/Equipment/Meas/Discrete.py:21-23 *);
  (293, Mod n_DiscreteValue [287; 226; 225; 1] false [SFrom 295 n_MeasurementValue; SClass n_DiscreteValue (Some n_MeasurementValue)])(* CIM14/CPSM/Equipment/Meas/DiscreteValue.py:21-23 *);
  (294, Mod n_Measurement [287; 226; 225; 1] false [SFrom 243 n_IdentifiedObject; SClass n_Measurement (Some n_IdentifiedObject)])(* CIM14/CPSM/Equipment/Meas/Measurement.py:21-23 *);
  (295, Mod n_MeasurementValue [287; 226; 225; 1] false [SFrom 243 n_IdentifiedObject; SClass n_MeasurementValue (Some n_IdentifiedObject)])(* CIM14/CPSM/Equipment/Meas/MeasurementValue.py:21-23 *);
  (296, Mod n_MeasurementValueSource [287; 226; 225; 1] false [SFrom 243 n_IdentifiedObject; SClass n_MeasurementValueSource (Some n_IdentifiedObject)])(* CIM14/CPSM/Equipment/Meas/MeasurementValueSource.py:21-23 *);
  (297, Mod i_OperationalLimits [226; 225; 1] true [SFrom 299 n_ApparentPowerLimit; SFrom 301 n_OperationalLimit; SFrom 300 n_CurrentLimit; SFrom 304 n_VoltageLimit; SFrom 298 n_ActivePowerLimit; SFrom 302 n_OperationalLimitSet; SFrom 303 n_OperationalLimitType; SAssign i_nsURI; SAssign i_nsPrefix; SClass n_OperationalLimitDirectionKind None])(* CIM14/CPSM/Equipment/OperationalLimits/__init__.py:24-36 *);
  (298, Mod n_ActivePowerLimit [297; 226; 225; 1] false [SFrom 301 n_OperationalLimit; SClass n_ActivePowerLimit (Some n_OperationalLimit)])(* CIM14/CPSM/Equipment/OperationalLimits/ActivePowerLimit.py:21-23 *);
  (299, Mod n_ApparentPowerLimit [297; 226; 225; 1] false [SFrom 301 n_OperationalLimit; SClass n_ApparentPowerLimit (Some n_OperationalLimit)])(* CIM14/CPSM/Equipment/OperationalLimits/ApparentPowerLimit.py:21-23 *);
  (300, Mod n_CurrentLimit [297; 226; 225; 1] false [SFrom 301 n_OperationalLimit; SClass n_CurrentLimit (Some n_OperationalLimit)])(* CIM14/CPSM/Equipment/OperationalLimits/CurrentLimit.py:21-23 *);
  (301, Mod n_OperationalLimit [297; 226; 225; 1] false [SFrom 243 n_IdentifiedObject; SClass n_OperationalLimit (Some n_IdentifiedObject)])(* CIM14/CPSM/Equipment/OperationalLimits/OperationalLimit.py:21-23 *);
  (302, Mod n_OperationalLimitSet [297; 226; 225; 1] false [SFrom 243 n_IdentifiedObject; SClass n_OperationalLimitSet (Some n_IdentifiedObject)])(* CIM14/CPSM/Equipment/OperationalLimits/OperationalLimitSet.py:21-23 *);
  (303, Mod n_OperationalLimitType [297; 226; 225; 1] false [SFrom 243 n_IdentifiedObject; SClass n_OperationalLimitType (Some n_IdentifiedObject)])(* CIM14/CPSM/Equipment/OperationalLimits/OperationalLimitType.py:21-23 *);
  (304, Mod n_VoltageLimit [297; 226; 225; 1] false [SFrom 301 n_OperationalLimit; SClass n_VoltageLimit (Some n_OperationalLimit)])(* CIM14/CPSM/Equipment/OperationalLimits/VoltageLimit.py:21-23 *);
  (305, Mod i_Wires [226; 225; 1] true [SFrom 314 n_LoadBreakSwitch; SFrom 333 n_TransformerWinding; SFrom 329 n_SwitchSchedule; SFrom 317 n_PhaseVariationCurve; SFrom 323 n_RegulatingControl; SFrom 306 n_ACLineSegment; SFrom 316 n_PhaseTapChanger; SFrom 325 n_SeriesCompensator; SFrom 318 n_PowerTransformer; SFrom 311 n_EnergyConsumer; SFrom 328 n_Switch; SFrom 324 n_RegulationSchedule; SFrom 326 n_ShuntCompensator; SFrom 309 n_Conductor; SFrom 308 n_BusbarSection; SFrom 331 n_TapChanger; SFrom 312 n_ImpedanceVariationCurve; SFrom 321 n_ReactiveCapabilityCurve; SFrom 310 n_Disconnector; SFrom 320 n_RatioVariationCurve; SFrom 332 n_TapSchedule; SFrom 315 n_MutualCoupling; SFrom 330 n_SynchronousMachine; SFrom 319 n_RatioTapChanger; SFrom 322 n_RegulatingCondEq; SFrom 313 n_Line; SFrom 327 n_StaticVarCompensator; SFrom 307 n_Breaker; SAssign i_nsURI; SAssign i_nsPrefix; SClass n_WindingType None; SClass n_WindingConnection None; SClass n_TransformerControlMode None; SClass n_RegulatingControlModeKind None; SClass n_SVCControlMode None; SClass n_SynchronousMachineType None; SClass n_SynchronousMachineOperatingMode None; SClass n_PhaseTapChangerKind None])(* CIM14/CPSM/Equipment/Wires/__init__.py:24-92 *);
  (306, Mod n_ACLineSegment [305; 226; 225; 1] false [SFrom 309 n_Conductor; SClass n_ACLineSegment (Some n_Conductor)])(* CIM14/CPSM/Equipment/Wires/ACLineSegment.py:21-23 *);
  (307, Mod n_Breaker [305; 226; 225; 1] false [SFrom 328 n_Switch; SClass n_Breaker (Some n_Switch)])(* CIM14/CPSM/Equipment/Wires/Breaker.py:21-23 *);
  (308, Mod n_BusbarSection [305; 226; 225; 1] false [SFrom 235 n_ConductingEquipment; SClass n_BusbarSection (Some n_ConductingEquipment)])(* CIM14/CPSM/Equipment/Wires/BusbarSection.py:21-23 *);
  (309, Mod n_Conductor [305; 226; 225; 1] false [SFrom 235 n_ConductingEquipment; SClass n_Conductor (Some n_ConductingEquipment)])(* CIM14/CPSM/Equipment/Wires/Conductor.py:21-23 *);
  (310, Mod n_Disconnector [305; 226; 225; 1] false [SFrom 328 n_Switch; SClass n_Disconnector (Some n_Switch)])(* CIM14/CPSM/Equipment/Wires/Disconnector.py:21-23 *);
  (311, Mod n_EnergyConsumer [305; 226; 225; 1] false [SFrom 235 n_ConductingEquipment; SClass n_EnergyConsumer (Some n_ConductingEquipment)])(* CIM14/CPSM/Equipment/Wires/EnergyConsumer.py:21-23 *);
  (312, Mod n_ImpedanceVariationCurve [305; 226; 225; 1] false [SFrom 238 n_Curve; SClass n_ImpedanceVariationCurve (Some n_Curve)])(* CIM14/CPSM/Equipment/Wires/ImpedanceVariationCurve.py:21-23 *);
  (313, Mod n_Line [305; 226; 225; 1] false [SFrom 241 n_EquipmentContainer; SClass n_Line (Some n_EquipmentContainer)])(* CIM14/CPSM/Equipment/Wires/Line.py:21-23 *);
  (314, Mod n_LoadBreakSwitch [305; 226; 225; 1] false [SFrom 328 n_Switch; SClass n_LoadBreakSwitch (Some n_Switch)])(* CIM14/CPSM/Equipment/Wires/LoadBreakSwitch.py:21-23 *);
  (315, Mod n_MutualCoupling [305; 226; 225; 1] false [SFrom 243 n_IdentifiedObject; SClass n_MutualCoupling (Some n_IdentifiedObject)])(* CIM14/CPSM/Equipment/Wires/MutualCoupling.py:21-23 *);
  (316, Mod n_PhaseTapChanger [305; 226; 225; 1] false [SFrom 331 n_TapChanger; SClass n_PhaseTapChanger (Some n_TapChanger)])(* CIM14/CPSM/Equipment/Wires/PhaseTapChanger.py:21-23 *);
  (317, Mod n_PhaseVariationCurve [305; 226; 225; 1] false [SFrom 238 n_Curve; SClass n_PhaseVariationCurve (Some n_Curve)])(* CIM14/CPSM/Equipment/Wires/PhaseVariationCurve.py:21-23 *);
  (318, Mod n_PowerTransformer [305; 226; 225; 1] false [SFrom 240 n_Equipment; SClass n_PowerTransformer (Some n_Equipment)])(* CIM14/CPSM/Equipment/Wires/PowerTransformer.py:21-23 *);
  (319, Mod n_RatioTapChanger [305; 226; 225; 1] false [SFrom 331 n_TapChanger; SClass n_RatioTapChanger (Some n_TapChanger)])(* CIM14/CPSM/Equipment/Wires/RatioTapChanger.py:21-23 *);
  (320, Mod n_RatioVariationCurve [305; 226; 225; 1] false [SFrom 238 n_Curve; SClass n_RatioVariationCurve (Some n_Curve)])(* CIM14/CPSM/Equipment/Wires/RatioVariationCurve.py:21-23 *);
  (321, Mod n_ReactiveCapabilityCurve [305; 226; 225; 1] false [SFrom 238 n_Curve; SClass n_ReactiveCapabilityCurve (Some n_Curve)])(* CIM14/CPSM/Equipment/Wires/ReactiveCapabilityCurve.py:21-23 *);
  (322, Mod n_RegulatingCondEq [305; 226; 225; 1] false [SFrom 235 n_ConductingEquipment; SClass n_RegulatingCondEq (Some n_ConductingEquipment)])(* CIM14/CPSM/Equipment/Wires/RegulatingCondEq.py:21-23 *);
  (323, Mod n_RegulatingControl [305; 226; 225; 1] false [SFrom 244 n_PowerSystemResource; SClass n_RegulatingControl (Some n_PowerSystemResource)])(* CIM14/CPSM/Equipment/Wires/RegulatingControl.py:21-23 *);
  (324, Mod n_RegulationSchedule [305; 226; 225; 1] false [SFrom 284 n_SeasonDayTypeSchedule; SClass n_RegulationSchedule (Some n_SeasonDayTypeSchedule)])(* CIM14/CPSM/Equipment/Wires/RegulationSchedule.py:21-23 *);
  (325, Mod n_SeriesCompensator [305; 226; 225; 1] false [SFrom 235 n_ConductingEquipment; SClass n_SeriesCompensator (Some n_ConductingEquipment)])(* CIM14/CPSM/Equipment/Wires/SeriesCompensator.py:21-23 *);
  (326, Mod n_ShuntCompensator [305; 226; 225; 1] false [SFrom 322 n_RegulatingCondEq; SClass n_ShuntCompensator (Some n_RegulatingCondEq)])(* CIM14/CPSM/Equipment/Wires/ShuntCompensator.py:21-23 *);
  (327, Mod n_StaticVarCompensator [305; 226; 225; 1] false [SFrom 322 n_RegulatingCondEq; SClass n_StaticVarCompensator (Some n_RegulatingCondEq)])(* CIM14/CPSM/Equipment/Wires/StaticVarCompensator.py:21-23 *);
  (328, Mod n_Switch [305; 226; 225; 1] false [SFrom 235 n_ConductingEquipment; SClass n_Switch (Some n_ConductingEquipment)])(* CIM14/CPSM/Equipment/Wires/Switch.py:21-23 *);
  (329, Mod n_SwitchSchedule [305; 226; 225; 1] false [SFrom 284 n_SeasonDayTypeSchedule; SClass n_SwitchSchedule (Some n_SeasonDayTypeSchedule)])(* CIM14/CPSM/Equipment/Wires/SwitchSchedule.py:21-23 *);
  (330, Mod n_SynchronousMachine [305; 226; 225; 1] false [SFrom 322 n_RegulatingCondEq; SClass n_SynchronousMachine (Some n_RegulatingCondEq)])(* CIM14/CPSM/Equipment/Wires/SynchronousMachine.py:21-23 *);
  (331, Mod n_TapChanger [305; 226; 225; 1] false [SFrom 244 n_PowerSystemResource; SClass n_TapChanger (Some n_PowerSystemResource)])(* CIM14/CPSM/Equipment/Wires/TapChanger.py:21-23 *);
  (332, Mod n_TapSchedule [305; 226; 225; 1] false [SFrom 284 n_SeasonDayTypeSchedule; SClass n_TapSchedule (Some n_SeasonDayTypeSchedule)])(* CIM14/CPSM/Equipment/Wires/TapSchedule.py:21-23 *);
  (333, Mod n_TransformerWinding [305; 226; 225; 1] false [SFrom 235 n_ConductingEquipment; SClass n_TransformerWinding (Some n_ConductingEquipment)])(* CIM14/CPSM/Equipment/Wires/TransformerWinding.py:21-23 *);
  (334, Mod i_StateVariables [225; 1] true [SFrom 337 n_Element; SAssign i_nsURI; SAssign i_nsPrefix; SAssign i_packageMap; SClass i_ApparentPower None; SClass i_Voltage None; SClass i_ReactivePower None; SClass i_AngleRadians None; SClass i_ActivePower None; SClass i_CIMTime None; SClass i_CIMDateTime None; SClass i_CIMDuration None; SClass i_CIMGYear None; SClass i_CIMDate None; SClass i_CIMGMonthDay None; SClass i_CIMGMonth None; SClass i_CIMGDay None; SClass i_CIMGYearMonth None])(* CIM14/CPSM/StateVariables/__init__.py:24-94 *);
  (335, Mod i_Core [334; 225; 1] true [SFrom 336 n_Terminal; SAssign i_nsURI; SAssign i_nsPrefix])(* CIM14/CPSM/StateVariables/Core/__init__.py:24-27 *);
  (336, Mod n_Terminal [335; 334; 225; 1] false [SFrom 337 n_Element; SClass n_Terminal (Some n_Element)])(* CIM14/CPSM/StateVariables/Core/Terminal.py:21-23 *);
  (337, Mod n_Element [334; 225; 1] false [SClass n_Element None])(* CIM14/CPSM/StateVariables/Element.py:22-22 *);
  (338, Mod i_StateVariables [334; 225; 1] true [SFrom 343 n_SvTapStep; SFrom 339 n_SvInjection; SFrom 344 n_SvVoltage; SFrom 345 n_TopologicalIsland; SFrom 340 n_SvPowerFlow; SFrom 341 n_SvShortCircuit; SFrom 342 n_SvShuntCompensatorSections; SAssign i_nsURI; SAssign i_nsPrefix])(* CIM14/CPSM/StateVariables/StateVariables/__init__.py:24-33 *);
  (339, Mod n_SvInjection [338; 334; 225; 1] false [SFrom 337 n_Element; SClass n_SvInjection (Some n_Element)])(* CIM14/CPSM/StateVariables/StateVariables/SvInjection.py:21-23 *);
  (340, Mod n_SvPowerFlow [338; 334; 225; 1] false [SFrom 337 n_Element; SClass n_SvPowerFlow (Some n_Element)])(* CIM14/CPSM/StateVariables/StateVariables/SvPowerFlow.py:21-23 *);
  (341, Mod n_SvShortCircuit [338; 334; 225; 1] false [SFrom 337 n_Element; SClass n_SvShortCircuit (Some n_Element)])(* CIM14/CPSM/StateVariables/StateVariables/SvShortCircuit.py:21-23 *);
  (342, Mod n_SvShuntCompensatorSections [338; 334; 225; 1] false [SFrom 337 n_Element; SClass n_SvShuntCompensatorSections (Some n_Element)])(* CIM14/CPSM/StateVariables/StateVariables/SvShuntCompensatorSections.py:21-23 *);
  (343, Mod n_SvTapStep [338; 334; 225; 1] false [SFrom 337 n_Element; SClass n_SvTapStep (Some n_Element)])(* CIM14/CPSM/StateVariables/StateVariables/SvTapStep.py:21-23 *);
  (344, Mod n_SvVoltage [338; 334; 225; 1] false [SFrom 337 n_Element; SClass n_SvVoltage (Some n_Element)])(* CIM14/CPSM/StateVariables/StateVariables/SvVoltage.py:21-23 *);
  (345, Mod n_TopologicalIsland [338; 334; 225; 1] false [SFrom 337 n_Element; SClass n_TopologicalIsland (Some n_Element)])(* CIM14/CPSM/StateVariables/StateVariables/TopologicalIsland.py:21-23 *);
  (346, Mod i_Topology [334; 225; 1] true [SFrom 347 n_TopologicalNode; SAssign i_nsURI; SAssign i_nsPrefix])(* CIM14/CPSM/StateVariables/Topology/__init__.py:24-27 *);
  (347, Mod n_TopologicalNode [346; 334; 225; 1] false [SFrom 337 n_Element; SClass n_TopologicalNode (Some n_Element)])(* CIM14/CPSM/StateVariables/Topology/TopologicalNode.py:21-23 *);
  (348, Mod i_Wires [334; 225; 1] true [SFrom 349 n_ShuntCompensator; SFrom 350 n_TapChanger; SAssign i_nsURI; SAssign i_nsPrefix])(* CIM14/CPSM/StateVariables/Wires/__init__.py:24-28 *);
  (349, Mod n_ShuntCompensator [348; 334; 225; 1] false [SFrom 337 n_Element; SClass n_ShuntCompensator (Some n_Element)])(* CIM14/CPSM/StateVariables/Wires/ShuntCompensator.py:21-23 *);
  (350, Mod n_TapChanger [348; 334; 225; 1] false [SFrom 337 n_Element; SClass n_TapChanger (Some n_Element)])(* CIM14/CPSM/StateVariables/Wires/TapChanger.py:21-23 *);
  (351, Mod i_Topology [225; 1] true [SFrom 357 n_Element; SAssign i_nsURI; SAssign i_nsPrefix; SAssign i_packageMap; SClass i_CIMTime None; SClass i_CIMDateTime None; SClass i_CIMDuration None; SClass i_CIMGYear None; SClass i_CIMDate None; SClass i_CIMGMonthDay None; SClass i_CIMGMonth None; SClass i_CIMGDay None; SClass i_CIMGYearMonth None])(* CIM14/CPSM/Topology/__init__.py:24-63 *);
  (352, Mod i_Core [351; 225; 1] true [SFrom 354 n_ConnectivityNode; SFrom 356 n_Terminal; SFrom 355 n_IdentifiedObject; SFrom 353 n_BaseVoltage; SAssign i_nsURI; SAssign i_nsPrefix])(* CIM14/CPSM/Topology/Core/__init__.py:24-30 *);
  (353, Mod n_BaseVoltage [352; 351; 225; 1] false [SFrom 355 n_IdentifiedObject; SClass n_BaseVoltage (Some n_IdentifiedObject)])(* CIM14/CPSM/Topology/Core/BaseVoltage.py:21-23 *);
  (354, Mod n_ConnectivityNode [352; 351; 225; 1] false [SFrom 355 n_IdentifiedObject; SClass n_ConnectivityNode (Some n_IdentifiedObject)])(* CIM14/CPSM/Topology/Core/ConnectivityNode.py:21-23 *);
  (355, Mod n_IdentifiedObject [352; 351; 225; 1] false [SFrom 357 n_Element; SClass n_IdentifiedObject (Some n_Element)])(* CIM14/CPSM/Topology/Core/IdentifiedObject.py:21-23 *);
  (356, Mod n_Terminal [352; 351; 225; 1] false [SFrom 355 n_IdentifiedObject; SClass n_Terminal (Some n_IdentifiedObject)])(* CIM14/CPSM/Topology/Core/Terminal.py:21-23 *);
  (357, Mod n_Element [351; 225; 1] false [SClass n_Element None])(* CIM14/CPSM/Topology/Element.py:22-22 *);
  (358, Mod i_Topology [351; 225; 1] true [SFrom 359 n_TopologicalNode; SAssign i_nsURI; SAssign i_nsPrefix])(* CIM14/CPSM/Topology/Topology/__init__.py:24-27 *);
  (359, Mod n_TopologicalNode [358; 351; 225; 1] false [SFrom 355 n_IdentifiedObject; SClass n_TopologicalNode (Some n_IdentifiedObject)])(* CIM14/CPSM/Topology/Topology/TopologicalNode.py:21-23 *);
  (360, Mod n_CombinedVersion [1] false [SFrom 581 n_Element; SClass n_CombinedVersion (Some n_Element)])(* CIM14/CombinedVersion.py:21-23 *);
  (361, Mod i_ENTSOE [1] true [SAssign i_nsURI; SAssign i_nsPrefix])(* CIM14/ENTSOE/__init__.py:23-24 *);
  (362, Mod i_Dynamics [361; 1] true [SFrom 363 n_Element; SFrom 470 n_Thing; SAssign i_nsURI; SAssign i_nsPrefix; SAssign i_packageMap; SClass i_Frequency None; SClass i_ApparentPower None; SClass i_ActivePower None; SClass i_Seconds None; SClass i_Voltage None; SClass i_Resistance None; SClass i_Reactance None; SClass i_CIMTime None; SClass i_CIMDateTime None; SClass i_CIMDuration None; SClass i_CIMGYear None; SClass i_CIMDate None; SClass i_CIMGMonthDay None; SClass i_CIMGMonth None; SClass i_CIMGDay None; SClass i_CIMGYearMonth None])(* CIM14/ENTSOE/Dynamics/__init__.py:24-164 *);
  (363, Mod n_Element [362; 361; 1] false [SClass n_Element None])(* CIM14/ENTSOE/Dynamics/Element.py:22-22 *);
  (364, Mod i_IEC61968 [362; 361; 1] true [SAssign i_nsURI; SAssign i_nsPrefix])(* CIM14/ENTSOE/Dynamics/IEC61968/__init__.py:23-24 *);
  (365, Mod n_Assets [364; 362; 361; 1] true [SFrom 366 n_AssetsAsset; SAssign i_nsURI; SAssign i_nsPrefix])(* CIM14/ENTSOE/Dynamics/IEC61968/Assets/__init__.py:22-25 *);
  (366, Mod n_AssetsAsset [365; 364; 362; 361; 1] false [SFrom 379 n_CoreIdentifiedObject; SClass n_AssetsAsset (Some n_CoreIdentifiedObject)])(* CIM14/ENTSOE/Dynamics/IEC61968/Assets/AssetsAsset.py:21-23 *);
  (367, Mod i_Common [364; 362; 361; 1] true [SFrom 368 n_CommonLocation; SAssign i_nsURI; SAssign i_nsPrefix])(* CIM14/ENTSOE/Dynamics/IEC61968/Common/__init__.py:22-25 *);
  (368, Mod n_CommonLocation [367; 364; 362; 361; 1] false [SFrom 379 n_CoreIdentifiedObject; SClass n_CommonLocation (Some n_CoreIdentifiedObject)])(* CIM14/ENTSOE/Dynamics/IEC61968/Common/CommonLocation.py:21-23 *);
  (369, Mod n_Customers [364; 362; 361; 1] true [SFrom 370 n_CustomersCustomerAgreement; SAssign i_nsURI; SAssign i_nsPrefix])(* CIM14/ENTSOE/Dynamics/IEC61968/Customers/__init__.py:22-25 *);
  (370, Mod n_CustomersCustomerAgreement [369; 364; 362; 361; 1] false [SFrom 379 n_CoreIdentifiedObject; SClass n_CustomersCustomerAgreement (Some n_CoreIdentifiedObject)])(* CIM14/ENTSOE/Dynamics/IEC61968/Customers/CustomersCustomerAgreement.py:21-23 *);
  (371, Mod i_IEC61970 [362; 361; 1] true [SAssign i_nsURI; SAssign i_nsPrefix])(* CIM14/ENTSOE/Dynamics/IEC61970/__init__.py:23-24 *);
  (372, Mod n_Contingency [371; 362; 361; 1] true [SFrom 373 n_ContingencyContingencyEquipment; SAssign i_nsURI; SAssign i_nsPrefix])(* CIM14/ENTSOE/Dynamics/IEC61970/Contingency/__init__.py:22-25 *);
  (373, Mod n_ContingencyContingencyEquipment [372; 371; 362; 361; 1] false [SFrom 379 n_CoreIdentifiedObject; SClass n_ContingencyContingencyEquipment (Some n_CoreIdentifiedObject)])(* CIM14/ENTSOE/Dynamics/IEC61970/Contingency/ContingencyContingencyEquipment.py:21-23 *);
  (374, Mod i_Core [371; 362; 361; 1] true [SFrom 377 n_CoreEquipment; SFrom 379 n_CoreIdentifiedObject; SFrom 381 n_CorePSRType; SFrom 375 n_CoreBaseVoltage; SFrom 378 n_CoreEquipmentContainer; SFrom 385 n_CoreTerminal; SFrom 382 n_CorePowerSystemResource; SFrom 380 n_CoreOperatingShare; SFrom 384 n_CoreReportingGroup; SFrom 376 n_CoreConductingEquipment; SFrom 383 n_CorePsrList; SAssign i_nsURI; SAssign i_nsPrefix; SClass n_CorePhaseCode None])(* CIM14/ENTSOE/Dynamics/IEC61970/Core/__init__.py:22-38 *);
  (375, Mod n_CoreBaseVoltage [374; 371; 362; 361; 1] false [SFrom 379 n_CoreIdentifiedObject; SClass n_CoreBaseVoltage (Some n_CoreIdentifiedObject)])(* CIM14/ENTSOE/Dynamics/IEC61970/Core/CoreBaseVoltage.py:21-23 *);
  (376, Mod n_CoreConductingEquipment [374; 371; 362; 361; 1] false [SFrom 377 n_CoreEquipment; SClass n_CoreConductingEquipment (Some n_CoreEquipment)])(* CIM14/ENTSOE/Dynamics/IEC61970/Core/CoreConductingEquipment.py:21-23 *);
  (377, Mod n_CoreEquipment [374; 371; 362; 361; 1] false [SFrom 382 n_CorePowerSystemResource; SClass n_CoreEquipment (Some n_CorePowerSystemResource)])(* CIM14/ENTSOE/Dynamics/IEC61970/Core/CoreEquipment.py:21-23 *);
  (378, Mod n_CoreEquipmentContainer [374; 371; 362; 361; 1] false [SFrom 382 n_CorePowerSystemResource; SClass n_CoreEquipmentContainer (Some n_CorePowerSystemResource)])(* CIM14/ENTSOE/Dynamics/IEC61970/Core/CoreEquipmentContainer.py:21-23 *);
  (379, Mod n_CoreIdentifiedObject [374; 371; 362; 361; 1] false [SFrom 363 n_Element; SClass n_CoreIdentifiedObject (Some n_Element)])(* CIM14/ENTSOE/Dynamics/IEC61970/Core/CoreIdentifiedObject.py:21-23 *);
  (380, Mod n_CoreOperatingShare [374; 371; 362; 361; 1] false [SFrom 363 n_Element; SClass n_CoreOperatingShare (Some n_Element)])(* CIM14/ENTSOE/Dynamics/IEC61970/Core/CoreOperatingShare.py:21-23 *);
  (381, Mod n_CorePSRType [374; 371; 362; 361; 1] false [SFrom 379 n_CoreIdentifiedObject; SClass n_CorePSRType (Some n_CoreIdentifiedObject)])(* CIM14/ENTSOE/Dynamics/IEC61970/Core/CorePSRType.py:21-23 *);
  (382, Mod n_CorePowerSystemResource [374; 371; 362; 361; 1] false [SFrom 379 n_CoreIdentifiedObject; SClass n_CorePowerSystemResource (Some n_CoreIdentifiedObject)])(* CIM14/ENTSOE/Dynamics/IEC61970/Core/CorePowerSystemResource.py:21-23 *);
  (383, Mod n_CorePsrList [374; 371; 362; 361; 1] false [SFrom 379 n_CoreIdentifiedObject; SClass n_CorePsrList (Some n_CoreIdentifiedObject)])(* CIM14/ENTSOE/Dynamics/IEC61970/Core/CorePsrList.py:21-23 *);
  (384, Mod n_CoreReportingGroup [374; 371; 362; 361; 1] false [SFrom 379 n_CoreIdentifiedObject; SClass n_CoreReportingGroup (Some n_CoreIdentifiedObject)])(* CIM14/ENTSOE/Dynamics/IEC61970/Core/CoreReportingGroup.py:21-23 *);
  (385, Mod n_CoreTerminal [374; 371; 362; 361; 1] false [SFrom 379 n_CoreIdentifiedObject; SClass n_CoreTerminal (Some n_CoreIdentifiedObject)])(* CIM14/ENTSOE/Dynamics/IEC61970/Core/CoreTerminal.py:21-23 *);
  (386, Mod i_Dynamics [371; 362; 361; 1] true [SFrom 408 n_DynamicsMetaBlockState; SFrom 396 n_DynamicsMetaBlockConSignal; SFrom 406 n_DynamicsMetaBlockReference; SFrom 407 n_DynamicsMetaBlockSignal; SFrom 388 n_DynamicsAttributeBlockParameter; SFrom 398 n_DynamicsMetaBlockConnection; SFrom 395 n_DynamicsMetaBlockConOutput; SFrom 400 n_DynamicsMetaBlockInput; SFrom 403 n_DynamicsMetaBlockOutputReference; SFrom 409 n_DynamicsMetaBlockStateReference; SFrom 390 n_DynamicsBlockConnection; SFrom 399 n_DynamicsMetaBlockConnectivity; SFrom 393 n_DynamicsMetaBlock; SFrom 394 n_DynamicsMetaBlockConInput; SFrom 404 n_DynamicsMetaBlockParameter; SFrom 397 n_DynamicsMetaBlockConnectable; SFrom 401 n_DynamicsMetaBlockInputReference; SFrom 410 n_DynamicsRotatingMachine; SFrom 391 n_DynamicsBlockConnectivity; SFrom 405 n_DynamicsMetaBlockParameterReference; SFrom 387 n_DynamicsAsynchronousMachine; SFrom 392 n_DynamicsBlockParameter; SFrom 389 n_DynamicsBlock; SFrom 402 n_DynamicsMetaBlockOutput; SAssign i_nsURI; SAssign i_nsPrefix; SClass n_DynamicsBlockKind None])(* CIM14/ENTSOE/Dynamics/IEC61970/Dynamics/__init__.py:22-51 *);
  (387, Mod n_DynamicsAsynchronousMachine [386; 371; 362; 361; 1] false [SFrom 410 n_DynamicsRotatingMachine; SClass n_DynamicsAsynchronousMachine (Some n_DynamicsRotatingMachine)])(* CIM14/ENTSOE/Dynamics/IEC61970/Dynamics/DynamicsAsynchronousMachine.py:21-23 *);
  (388, Mod n_DynamicsAttributeBlockParameter [386; 371; 362; 361; 1] false [SFrom 404 n_DynamicsMetaBlockParameter; SClass n_DynamicsAttributeBlockParameter (Some n_DynamicsMetaBlockParameter)])(* CIM14/ENTSOE/Dynamics/IEC61970/Dynamics/DynamicsAttributeBlockParameter.py:21-23 *);
  (389, Mod n_DynamicsBlock [386; 371; 362; 361; 1] false [SFrom 382 n_CorePowerSystemResource; SClass n_DynamicsBlock (Some n_CorePowerSystemResource)])(* CIM14/ENTSOE/Dynamics/IEC61970/Dynamics/DynamicsBlock.py:21-23 *);
  (390, Mod n_DynamicsBlockConnection [386; 371; 362; 361; 1] false [SFrom 379 n_CoreIdentifiedObject; SClass n_DynamicsBlockConnection (Some n_CoreIdentifiedObject)])(* CIM14/ENTSOE/Dynamics/IEC61970/Dynamics/DynamicsBlockConnection.py:21-23 *);
  (391, Mod n_DynamicsBlockConnectivity [386; 371; 362; 361; 1] false [SFrom 379 n_CoreIdentifiedObject; SClass n_DynamicsBlockConnectivity (Some n_CoreIdentifiedObject)])(* CIM14/ENTSOE/Dynamics/IEC61970/Dynamics/DynamicsBlockConnectivity.py:21-23 *);
  (392, Mod n_DynamicsBlockParameter [386; 371; 362; 361; 1] false [SFrom 379 n_CoreIdentifiedObject; SClass n_DynamicsBlockParameter (Some n_CoreIdentifiedObject)])(* CIM14/ENTSOE/Dynamics/IEC61970/Dynamics/DynamicsBlockParameter.py:21-23 *);
  (393, Mod n_DynamicsMetaBlock [386; 371; 362; 361; 1] false [SFrom 379 n_CoreIdentifiedObject; SClass n_DynamicsMetaBlock (Some n_CoreIdentifiedObject)])(* CIM14/ENTSOE/Dynamics/IEC61970/Dynamics/DynamicsMetaBlock.py:21-23 *);
  (394, Mod n_DynamicsMetaBlockConInput [386; 371; 362; 361; 1] false [SFrom 379 n_CoreIdentifiedObject; SClass n_DynamicsMetaBlockConInput (Some n_CoreIdentifiedObject)])(* CIM14/ENTSOE/Dynamics/IEC61970/Dynamics/DynamicsMetaBlockConInput.py:21-23 *);
  (395, Mod n_DynamicsMetaBlockConOutput [386; 371; 362; 361; 1] false [SFrom 379 n_CoreIdentifiedObject; SClass n_DynamicsMetaBlockConOutput (Some n_CoreIdentifiedObject)])(* CIM14/ENTSOE/Dynamics/IEC61970/Dynamics/DynamicsMetaBlockConOutput.py:21-23 *);
  (396, Mod n_DynamicsMetaBlockConSignal [386; 371; 362; 361; 1] false [SFrom 379 n_CoreIdentifiedObject; SClass n_DynamicsMetaBlockConSignal (Some n_CoreIdentifiedObject)])(* CIM14/ENTSOE/Dynamics/IEC61970/Dynamics/DynamicsMetaBlockConSignal.py:21-23 *);
  (397, Mod n_DynamicsMetaBlockConnectable [386; 371; 362; 361; 1] false [SFrom 379 n_CoreIdentifiedObject; SClass n_DynamicsMetaBlockConnectable (Some n_CoreIdentifiedObject)])(* CIM14/ENTSOE/Dynamics/IEC61970/Dynamics/DynamicsMetaBlockConnectable.py:21-23 *);
  (398, Mod n_DynamicsMetaBlockConnection [386; 371; 362; 361; 1] false [SFrom 379 n_CoreIdentifiedObject; SClass n_DynamicsMetaBlockConnection (Some n_CoreIdentifiedObject)])(* CIM14/ENTSOE/Dynamics/IEC61970/Dynamics/DynamicsMetaBlockConnection.py:21-23 *);
  (399, Mod n_DynamicsMetaBlockConnectivity [386; 371; 362; 361; 1] false [SFrom 379 n_CoreIdentifiedObject; SClass n_DynamicsMetaBlockConnectivity (Some n_CoreIdentifiedObject)])(* CIM14/ENTSOE/Dynamics/IEC61970/Dynamics/DynamicsMetaBlockConnectivity.py:21-23 *);
  (400, Mod n_DynamicsMetaBlockInput [386; 371; 362; 361; 1] false [SFrom 397 n_DynamicsMetaBlockConnectable; SClass n_DynamicsMetaBlockInput (Some n_DynamicsMetaBlockConnectable)])(* CIM14/ENTSOE/Dynamics/IEC61970/Dynamics/DynamicsMetaBlockInput.py:21-23 *);
  (401, Mod n_DynamicsMetaBlockInputReference [386; 371; 362; 361; 1] false [SFrom 379 n_CoreIdentifiedObject; SClass n_DynamicsMetaBlockInputReference (Some n_CoreIdentifiedObject)])(* CIM14/ENTSOE/Dynamics/IEC61970/Dynamics/DynamicsMetaBlockInputReference.py:21-23 *);
  (402, Mod n_DynamicsMetaBlockOutput [386; 371; 362; 361; 1] false [SFrom 397 n_DynamicsMetaBlockConnectable; SClass n_DynamicsMetaBlockOutput (Some n_DynamicsMetaBlockConnectable)])(* CIM14/ENTSOE/Dynamics/IEC61970/Dynamics/DynamicsMetaBlockOutput.py:21-23 *);
  (403, Mod n_DynamicsMetaBlockOutputReference [386; 371; 362; 361; 1] false [SFrom 379 n_CoreIdentifiedObject; SClass n_DynamicsMetaBlockOutputReference (Some n_CoreIdentifiedObject)])(* CIM14/ENTSOE/Dynamics/IEC61970/Dynamics/DynamicsMetaBlockOutputReference.py:21-23 *);
  (404, Mod n_DynamicsMetaBlockParameter [386; 371; 362; 361; 1] false [SFrom 397 n_DynamicsMetaBlockConnectable; SClass n_DynamicsMetaBlockParameter (Some n_DynamicsMetaBlockConnectable)])(* CIM14/ENTSOE/Dynamics/IEC61970/Dynamics/DynamicsMetaBlockParameter.py:21-23 *);
  (405, Mod n_DynamicsMetaBlockParameterReference [386; 371; 362; 361; 1] false [SFrom 379 n_CoreIdentifiedObject; SClass n_DynamicsMetaBlockParameterReference (Some n_CoreIdentifiedObject)])(* CIM14/ENTSOE/Dynamics/IEC61970/Dynamics/DynamicsMetaBlockParameterReference.py:21-23 *);
  (406, Mod n_DynamicsMetaBlockReference [386; 371; 362; 361; 1] false [SFrom 379 n_CoreIdentifiedObject; SClass n_DynamicsMetaBlockReference (Some n_CoreIdentifiedObject)])(* CIM14/ENTSOE/Dynamics/IEC61970/Dynamics/DynamicsMetaBlockReference.py:21-23 *);
  (407, Mod n_DynamicsMetaBlockSignal [386; 371; 362; 361; 1] false [SFrom 379 n_CoreIdentifiedObject; SClass n_DynamicsMetaBlockSignal (Some n_CoreIdentifiedObject)])(* CIM14/ENTSOE/Dynamics/IEC61970/Dynamics/DynamicsMetaBlockSignal.py:21-23 *);
  (408, Mod n_DynamicsMetaBlockState [386; 371; 362; 361; 1] false [SFrom 397 n_DynamicsMetaBlockConnectable; SClass n_DynamicsMetaBlockState (Some n_DynamicsMetaBlockConnectable)])(* CIM14/ENTSOE/Dynamics/IEC61970/Dynamics/DynamicsMetaBlockState.py:21-23 *);
  (409, Mod n_DynamicsMetaBlockStateReference [386; 371; 362; 361; 1] false [SFrom 379 n_CoreIdentifiedObject; SClass n_DynamicsMetaBlockStateReference (Some n_CoreIdentifiedObject)])(* CIM14/ENTSOE/Dynamics/IEC61970/Dynamics/DynamicsMetaBlockStateReference.py:21-23 *);
  (410, Mod n_DynamicsRotatingMachine [386; 371; 362; 361; 1] false [SFrom 467 n_WiresRegulatingCondEq; SClass n_DynamicsRotatingMachine (Some n_WiresRegulatingCondEq)])(* CIM14/ENTSOE/Dynamics/IEC61970/Dynamics/DynamicsRotatingMachine.py:21-23 *);
  (411, Mod i_ExcitationSystems [386; 371; 362; 361; 1] true [SFrom 423 n_ExcitationSystemsExcDC4B; SFrom 421 n_ExcitationSystemsExcDC2A; SFrom 420 n_ExcitationSystemsExcDC1A; SFrom 414 n_ExcitationSystemsExcAC3A; SFrom 413 n_ExcitationSystemsExcAC2A; SFrom 412 n_ExcitationSystemsExcAC1A; SFrom 419 n_ExcitationSystemsExcAC8B; SFrom 430 n_ExcitationSystemsExcST5B; SFrom 418 n_ExcitationSystemsExcAC7B; SFrom 415 n_ExcitationSystemsExcAC4A; SFrom 429 n_ExcitationSystemsExcST4B; SFrom 431 n_ExcitationSystemsExcST6B; SFrom 417 n_ExcitationSystemsExcAC6A; SFrom 416 n_ExcitationSystemsExcAC5A; SFrom 424 n_ExcitationSystemsExcSCRX; SFrom 425 n_ExcitationSystemsExcSEXS; SFrom 432 n_ExcitationSystemsExcST7B; SFrom 427 n_ExcitationSystemsExcST2A; SFrom 426 n_ExcitationSystemsExcST1A; SFrom 422 n_ExcitationSystemsExcDC3A; SFrom 428 n_ExcitationSystemsExcST3A; SAssign i_nsURI; SAssign i_nsPrefix])(* CIM14/ENTSOE/Dynamics/IEC61970/Dynamics/ExcitationSystems/__init__.py:22-45 *);
  (412, Mod n_ExcitationSystemsExcAC1A [411; 386; 371; 362; 361; 1] false [SFrom 382 n_CorePowerSystemResource; SClass n_ExcitationSystemsExcAC1A (Some n_CorePowerSystemResource)])(* CIM14/ENTSOE/Dynamics/IEC61970/Dynamics/ExcitationSystems/ExcitationSystemsExcAC1A.py:21-23 *);
  (413, Mod n_ExcitationSystemsExcAC2A [411; 386; 371; 362; 361; 1] false [SFrom 382 n_CorePowerSystemResource; SClass n_ExcitationSystemsExcAC2A (Some n_CorePowerSystemResource)])(* CIM14/ENTSOE/Dynamics/IEC61970/Dynamics/ExcitationSystems/ExcitationSystemsExcAC2A.py:21-23 *);
  (414, Mod n_ExcitationSystemsExcAC3A [411; 386; 371; 362; 361; 1] false [SFrom 382 n_CorePowerSystemResource; SClass n_ExcitationSystemsExcAC3A (Some n_CorePowerSystemResource)])(* CIM14/ENTSOE/Dynamics/IEC61970/Dynamics/ExcitationSystems/ExcitationSystemsExcAC3A.py:21-23 *);
  (415, Mod n_ExcitationSystemsExcAC4A [411; 386; 371; 362; 361; 1] false [SFrom 382 n_CorePowerSystemResource; SClass n_ExcitationSystemsExcAC4A (Some n_CorePowerSystemResource)])(* CIM14/ENTSOE/Dynamics/IEC61970/Dynamics/ExcitationSystems/ExcitationSystemsExcAC4A.py:21-23 *);
  (416, Mod n_ExcitationSystemsExcAC5A [411; 386; 371; 362; 361; 1] false [SFrom 382 n_CorePowerSystemResource; SClass n_ExcitationSystemsExcAC5A (Some n_CorePowerSystemResource)])(* CIM14/ENTSOE/Dynamics/IEC61970/Dynamics/ExcitationSystems/ExcitationSystemsExcAC5A.py:21-23 *);
  (417, Mod n_ExcitationSystemsExcAC6A [411; 386; 371; 362; 361; 1] false [SFrom 382 n_CorePowerSystemResource; SClass n_ExcitationSystemsExcAC6A (Some n_CorePowerSystemResource)])(* CIM14/ENTSOE/Dynamics/IEC61970/Dynamics/ExcitationSystems/ExcitationSystemsExcAC6A.py:21-23 *);
  (418, Mod n_ExcitationSystemsExcAC7B [411; 386; 371; 362; 361; 1] false [SFrom 382 n_CorePowerSystemResource; SClass n_ExcitationSystemsExcAC7B (Some n_CorePowerSystemResource)])(* CIM14/ENTSOE/Dynamics/IEC61970/Dynamics/ExcitationSystems/ExcitationSystemsExcAC7B.py:21-23 *);
  (419, Mod n_ExcitationSystemsExcAC8B [411; 386; 371; 362; 361; 1] false [SFrom 382 n_CorePowerSystemResource; SClass n_ExcitationSystemsExcAC8B (Some n_CorePowerSystemResource)])(* CIM14/ENTSOE/Dynamics/IEC61970/Dynamics/ExcitationSystems/ExcitationSystemsExcAC8B.py:21-23 *);
  (420, Mod n_ExcitationSystemsExcDC1A [411; 386; 371; 362; 361; 1] false [SFrom 382 n_CorePowerSystemResource; SClass n_ExcitationSystemsExcDC1A (Some n_CorePowerSystemResource)])(* CIM14/ENTSOE/Dynamics/IEC61970/Dynamics/ExcitationSystems/ExcitationSystemsExcDC1A.py:21-23 *);
  (421, Mod n_ExcitationSystemsExcDC2A [411; 386; 371; 362; 361; 1] false [SFrom 382 n_CorePowerSystemResource; SClass n_ExcitationSystemsExcDC2A (Some n_CorePowerSystemResource)])(* CIM14/ENTSOE/Dynamics/IEC61970/Dynamics/ExcitationSystems/ExcitationSystemsExcDC2A.py:21-23 *);
  (422, Mod n_ExcitationSystemsExcDC3A [411; 386; 371; 362; 361; 1] false [SFrom 382 n_CorePowerSystemResource; SClass n_ExcitationSystemsExcDC3A (Some n_CorePowerSystemResource)])(* CIM14/ENTSOE/Dynamics/IEC61970/Dynamics/ExcitationSystems/ExcitationSystemsExcDC3A.py:21-23 *);
  (423, Mod n_ExcitationSystemsExcDC4B [411; 386; 371; 362; 361; 1] false [SFrom 382 n_CorePowerSystemResource; SClass n_ExcitationSystemsExcDC4B (Some n_CorePowerSystemResource)])(* CIM14/ENTSOE/Dynamics/IEC61970/Dynamics/ExcitationSystems/ExcitationSystemsExcDC4B.py:21-23 *);
  (424, Mod n_ExcitationSystemsExcSCRX [411; 386; 371; 362; 361; 1] false [SFrom 382 n_CorePowerSystemResource; SClass n_ExcitationSystemsExcSCRX (Some n_CorePowerSystemResource)])(* CIM14/ENTSOE/Dynamics/IEC61970/Dynamics/ExcitationSystems/ExcitationSystemsExcSCRX.py:21-23 *);
  (425, Mod n_ExcitationSystemsExcSEXS [411; 386; 371; 362; 361; 1] false [SFrom 382 n_CorePowerSystemResource; SClass n_ExcitationSystemsExcSEXS (Some n_CorePowerSystemResource)])(* CIM14/ENTSOE/Dynamics/IEC61970/Dynamics/ExcitationSystems/ExcitationSystemsExcSEXS.py:21-23 *);
  (426, Mod n_ExcitationSystemsExcST1A [411; 386; 371; 362; 361; 1] false [SFrom 382 n_CorePowerSystemResource; SClass n_ExcitationSystemsExcST1A (Some n_CorePowerSystemResource)])(* CIM14/ENTSOE/Dynamics/IEC61970/Dynamics/ExcitationSystems/ExcitationSystemsExcST1A.py:21-23 *);
  (427, Mod n_ExcitationSystemsExcST2A [411; 386; 371; 362; 361; 1] false [SFrom 382 n_CorePowerSystemResource; SClass n_ExcitationSystemsExcST2A (Some n_CorePowerSystemResource)])(* CIM14/ENTSOE/Dynamics/IEC61970/Dynamics/ExcitationSystems/ExcitationSystemsExcST2A.py:21-23 *);
  (428, Mod n_ExcitationSystemsExcST3A [411; 386; 371; 362; 361; 1] false [SFrom 382 n_CorePowerSystemResource; SClass n_ExcitationSystemsExcST3A (Some n_CorePowerSystemResource)])(* CIM14/ENTSOE/Dynamics/IEC61970/Dynamics/ExcitationSystems/ExcitationSystemsExcST3A.py:21-23 *);
  (429, Mod n_ExcitationSystemsExcST4B [411; 386; 371; 362; 361; 1] false [SFrom 382 n_CorePowerSystemResource; SClass n_ExcitationSystemsExcST4B (Some n_CorePowerSystemResource)])(* CIM14/ENTSOE/Dynamics/IEC61970/Dynamics/ExcitationSystems/ExcitationSystemsExcST4B.py:21-23 *);
  (430, Mod n_ExcitationSystemsExcST5B [411; 386; 371; 362; 361; 1] false [SFrom 382 n_CorePowerSystemResource; SClass n_ExcitationSystemsExcST5B (Some n_CorePowerSystemResource)])(* CIM14/ENTSOE/Dynamics/IEC61970/Dynamics/ExcitationSystems/ExcitationSystemsExcST5B.py:21-23 *);
  (431, Mod n_ExcitationSystemsExcST6B [411; 386; 371; 362; 361; 1] false [SFrom 382 n_CorePowerSystemResource; SClass n_ExcitationSystemsExcST6B (Some n_CorePowerSystemResource)])(* CIM14/ENTSOE/Dynamics/IEC61970/Dynamics/ExcitationSystems/ExcitationSystemsExcST6B.py:21-23 *);
  (432, Mod n_ExcitationSystemsExcST7B [411; 386; 371; 362; 361; 1] false [SFrom 382 n_CorePowerSystemResource; SClass n_ExcitationSystemsExcST7B (Some n_CorePowerSystemResource)])(* CIM14/ENTSOE/Dynamics/IEC61970/Dynamics/ExcitationSystems/ExcitationSystemsExcST7B.py:21-23 *);
  (433, Mod i_Generators [386; 371; 362; 361; 1] true [SFrom 434 n_GeneratorsGenEquiv; SAssign i_nsURI; SAssign i_nsPrefix; SClass n_GeneratorsParametersFormType None])(* CIM14/ENTSOE/Dynamics/IEC61970/Dynamics/Generators/__init__.py:22-28 *);
  (434, Mod n_GeneratorsGenEquiv [433; 386; 371; 362; 361; 1] false [SFrom 410 n_DynamicsRotatingMachine; SClass n_GeneratorsGenEquiv (Some n_DynamicsRotatingMachine)])(* CIM14/ENTSOE/Dynamics/IEC61970/Dynamics/Generators/GeneratorsGenEquiv.py:21-23 *);
  (435, Mod i_Loads [386; 371; 362; 361; 1] true [SFrom 437 n_LoadsLoadStatic; SFrom 436 n_LoadsLoadMotor; SAssign i_nsURI; SAssign i_nsPrefix; SClass n_LoadsStaticLoadType None])(* CIM14/ENTSOE/Dynamics/IEC61970/Dynamics/Loads/__init__.py:22-29 *);
  (436, Mod n_LoadsLoadMotor [435; 386; 371; 362; 361; 1] false [SFrom 382 n_CorePowerSystemResource; SClass n_LoadsLoadMotor (Some n_CorePowerSystemResource)])(* CIM14/ENTSOE/Dynamics/IEC61970/Dynamics/Loads/LoadsLoadMotor.py:21-23 *);
  (437, Mod n_LoadsLoadStatic [435; 386; 371; 362; 361; 1] false [SFrom 382 n_CorePowerSystemResource; SClass n_LoadsLoadStatic (Some n_CorePowerSystemResource)])(* CIM14/ENTSOE/Dynamics/IEC61970/Dynamics/Loads/LoadsLoadStatic.py:21-23 *);
  (438, Mod i_Motors [386; 371; 362; 361; 1] true [SFrom 439 n_MotorsMechLoad1; SAssign i_nsURI; SAssign i_nsPrefix])(* CIM14/ENTSOE/Dynamics/IEC61970/Dynamics/Motors/__init__.py:22-25 *);
  (439, Mod n_MotorsMechLoad1 [438; 386; 371; 362; 361; 1] false [SFrom 382 n_CorePowerSystemResource; SClass n_MotorsMechLoad1 (Some n_CorePowerSystemResource)])(* CIM14/ENTSOE/Dynamics/IEC61970/Dynamics/Motors/MotorsMechLoad1.py:21-23 *);
  (440, Mod i_PowerSystemStabilizers [386; 371; 362; 361; 1] true [SFrom 441 n_PowerSystemStabilizersPssIEEE2B; SAssign i_nsURI; SAssign i_nsPrefix])(* CIM14/ENTSOE/Dynamics/IEC61970/Dynamics/PowerSystemStabilizers/__init__.py:22-25 *);
  (441, Mod n_PowerSystemStabilizersPssIEEE2B [440; 386; 371; 362; 361; 1] false [SFrom 382 n_CorePowerSystemResource; SClass n_PowerSystemStabilizersPssIEEE2B (Some n_CorePowerSystemResource)])(* CIM14/ENTSOE/Dynamics/IEC61970/Dynamics/PowerSystemStabilizers/PowerSystemStabilizersPssIEEE2B.py:21-23 *);
  (442, Mod i_TurbineGovernors [386; 371; 362; 361; 1] true [SFrom 445 n_TurbineGovernorsGovHydro2; SFrom 446 n_TurbineGovernorsGovSteam0; SFrom 444 n_TurbineGovernorsGovHydro1; SFrom 447 n_TurbineGovernorsGovSteam1; SFrom 443 n_TurbineGovernorsGovCT1; SAssign i_nsURI; SAssign i_nsPrefix])(* CIM14/ENTSOE/Dynamics/IEC61970/Dynamics/TurbineGovernors/__init__.py:22-29 *);
  (443, Mod n_TurbineGovernorsGovCT1 [442; 386; 371; 362; 361; 1] false [SFrom 382 n_CorePowerSystemResource; SClass n_TurbineGovernorsGovCT1 (Some n_CorePowerSystemResource)])(* CIM14/ENTSOE/Dynamics/IEC61970/Dynamics/TurbineGovernors/TurbineGovernorsGovCT1.py:21-23 *);
  (444, Mod n_TurbineGovernorsGovHydro1 [442; 386; 371; 362; 361; 1] false [SFrom 382 n_CorePowerSystemResource; SClass n_TurbineGovernorsGovHydro1 (Some n_CorePowerSystemResource)])(* CIM14/ENTSOE/Dynamics/IEC61970/Dynamics/TurbineGovernors/TurbineGovernorsGovHydro1.py:21-23 *);
  (445, Mod n_TurbineGovernorsGovHydro2 [442; 386; 371; 362; 361; 1] false [SFrom 382 n_CorePowerSystemResource; SClass n_TurbineGovernorsGovHydro2 (Some n_CorePowerSystemResource)])(* CIM14/ENTSOE/Dynamics/IEC61970/Dynamics/TurbineGovernors/TurbineGovernorsGovHydro2.py:21-23 *);
  (446, Mod n_TurbineGovernorsGovSteam0 [442; 386; 371; 362; 361; 1] false [SFrom 382 n_CorePowerSystemResource; SClass n_TurbineGovernorsGovSteam0 (Some n_CorePowerSystemResource)])(* CIM14/ENTSOE/Dynamics/IEC61970/Dynamics/TurbineGovernors/TurbineGovernorsGovSteam0.py:21-23 *);
  (447, Mod n_TurbineGovernorsGovSteam1 [442; 386; 371; 362; 361; 1] false [SFrom 382 n_CorePowerSystemResource; SClass n_TurbineGovernorsGovSteam1 (Some n_CorePowerSystemResource)])(* CIM14/ENTSOE/Dynamics/IEC61970/Dynamics/TurbineGovernors/TurbineGovernorsGovSteam1.py:21-23 *);
  (448, Mod n_VoltageCompensator [386; 371; 362; 361; 1] true [SFrom 449 n_VoltageCompensatorVcompCross; SFrom 450 n_VoltageCompensatorVcompIEEE; SAssign i_nsURI; SAssign i_nsPrefix])(* CIM14/ENTSOE/Dynamics/IEC61970/Dynamics/VoltageCompensator/__init__.py:22-26 *);
  (449, Mod n_VoltageCompensatorVcompCross [448; 386; 371; 362; 361; 1] false [SFrom 382 n_CorePowerSystemResource; SClass n_VoltageCompensatorVcompCross (Some n_CorePowerSystemResource)])(* CIM14/ENTSOE/Dynamics/IEC61970/Dynamics/VoltageCompensator/VoltageCompensatorVcompCross.py:21-23 *);
  (450, Mod n_VoltageCompensatorVcompIEEE [448; 386; 371; 362; 361; 1] false [SFrom 382 n_CorePowerSystemResource; SClass n_VoltageCompensatorVcompIEEE (Some n_CorePowerSystemResource)])(* CIM14/ENTSOE/Dynamics/IEC61970/Dynamics/VoltageCompensator/VoltageCompensatorVcompIEEE.py:21-23 *);
  (451, Mod i_Informative [371; 362; 361; 1] true [SAssign i_nsURI; SAssign i_nsPrefix])(* CIM14/ENTSOE/Dynamics/IEC61970/Informative/__init__.py:23-24 *);
  (452, Mod i_InfCore [451; 371; 362; 361; 1] true [SFrom 453 n_InfCoreModelingAuthoritySet; SAssign i_nsURI; SAssign i_nsPrefix])(* CIM14/ENTSOE/Dynamics/IEC61970/Informative/InfCore/__init__.py:22-25 *);
  (453, Mod n_InfCoreModelingAuthoritySet [452; 451; 371; 362; 361; 1] false [SFrom 379 n_CoreIdentifiedObject; SClass n_InfCoreModelingAuthoritySet (Some n_CoreIdentifiedObject)])(* CIM14/ENTSOE/Dynamics/IEC61970/Informative/InfCore/InfCoreModelingAuthoritySet.py:21-23 *);
  (454, Mod i_Meas [371; 362; 361; 1] true [SFrom 456 n_MeasMeasurement; SFrom 455 n_MeasControl; SAssign i_nsURI; SAssign i_nsPrefix])(* CIM14/ENTSOE/Dynamics/IEC61970/Meas/__init__.py:22-26 *);
  (455, Mod n_MeasControl [454; 371; 362; 361; 1] false [SFrom 379 n_CoreIdentifiedObject; SClass n_MeasControl (Some n_CoreIdentifiedObject)])(* CIM14/ENTSOE/Dynamics/IEC61970/Meas/MeasControl.py:21-23 *);
  (456, Mod n_MeasMeasurement [454; 371; 362; 361; 1] false [SFrom 379 n_CoreIdentifiedObject; SClass n_MeasMeasurement (Some n_CoreIdentifiedObject)])(* CIM14/ENTSOE/Dynamics/IEC61970/Meas/MeasMeasurement.py:21-23 *);
  (457, Mod i_OperationalLimits [371; 362; 361; 1] true [SFrom 458 n_OperationalLimitsOperationalLimitSet; SAssign i_nsURI; SAssign i_nsPrefix])(* CIM14/ENTSOE/Dynamics/IEC61970/OperationalLimits/__init__.py:22-25 *);
  (458, Mod n_OperationalLimitsOperationalLimitSet [457; 371; 362; 361; 1] false [SFrom 379 n_CoreIdentifiedObject; SClass n_OperationalLimitsOperationalLimitSet (Some n_CoreIdentifiedObject)])(* CIM14/ENTSOE/Dynamics/IEC61970/OperationalLimits/OperationalLimitsOperationalLimitSet.py:21-23 *);
  (459, Mod i_Outage [371; 362; 361; 1] true [SFrom 461 n_OutageOutageSchedule; SFrom 460 n_OutageClearanceTag; SAssign i_nsURI; SAssign i_nsPrefix])(* CIM14/ENTSOE/Dynamics/IEC61970/Outage/__init__.py:22-26 *);
  (460, Mod n_OutageClearanceTag [459; 371; 362; 361; 1] false [SFrom 379 n_CoreIdentifiedObject; SClass n_OutageClearanceTag (Some n_CoreIdentifiedObject)])(* CIM14/ENTSOE/Dynamics/IEC61970/Outage/OutageClearanceTag.py:21-23 *);
  (461, Mod n_OutageOutageSchedule [459; 371; 362; 361; 1] false [SFrom 379 n_CoreIdentifiedObject; SClass n_OutageOutageSchedule (Some n_CoreIdentifiedObject)])(* CIM14/ENTSOE/Dynamics/IEC61970/Outage/OutageOutageSchedule.py:21-23 *);
  (462, Mod i_Protection [371; 362; 361; 1] true [SFrom 463 n_ProtectionProtectionEquipment; SAssign i_nsURI; SAssign i_nsPrefix])(* CIM14/ENTSOE/Dynamics/IEC61970/Protection/__init__.py:22-25 *);
  (463, Mod n_ProtectionProtectionEquipment [462; 371; 362; 361; 1] false [SFrom 377 n_CoreEquipment; SClass n_ProtectionProtectionEquipment (Some n_CoreEquipment)])(* CIM14/ENTSOE/Dynamics/IEC61970/Protection/ProtectionProtectionEquipment.py:21-23 *);
  (464, Mod i_StateVariables [371; 362; 361; 1] true [SFrom 465 n_StateVariablesSvStatus; SAssign i_nsURI; SAssign i_nsPrefix])(* CIM14/ENTSOE/Dynamics/IEC61970/StateVariables/__init__.py:22-25 *);
  (465, Mod n_StateVariablesSvStatus [464; 371; 362; 361; 1] false [SFrom 363 n_Element; SClass n_StateVariablesSvStatus (Some n_Element)])(* CIM14/ENTSOE/Dynamics/IEC61970/StateVariables/StateVariablesSvStatus.py:21-23 *);
  (466, Mod i_Wires [371; 362; 361; 1] true [SFrom 469 n_WiresSynchronousMachine; SFrom 468 n_WiresRegulatingControl; SFrom 467 n_WiresRegulatingCondEq; SAssign i_nsURI; SAssign i_nsPrefix])(* CIM14/ENTSOE/Dynamics/IEC61970/Wires/__init__.py:22-27 *);
  (467, Mod n_WiresRegulatingCondEq [466; 371; 362; 361; 1] false [SFrom 376 n_CoreConductingEquipment; SClass n_WiresRegulatingCondEq (Some n_CoreConductingEquipment)])(* CIM14/ENTSOE/Dynamics/IEC61970/Wires/WiresRegulatingCondEq.py:21-23 *);
  (468, Mod n_WiresRegulatingControl [466; 371; 362; 361; 1] false [SFrom 382 n_CorePowerSystemResource; SClass n_WiresRegulatingControl (Some n_CorePowerSystemResource)])(* CIM14/ENTSOE/Dynamics/IEC61970/Wires/WiresRegulatingControl.py:21-23 *);
  (469, Mod n_WiresSynchronousMachine [466; 371; 362; 361; 1] false [SFrom 410 n_DynamicsRotatingMachine; SClass n_WiresSynchronousMachine (Some n_DynamicsRotatingMachine)])(* CIM14/ENTSOE/Dynamics/IEC61970/Wires/WiresSynchronousMachine.py:21-23 *);
  (470, Mod n_Thing [362; 361; 1] false [SFrom 363 n_Element; SClass n_Thing (Some n_Element)])(* CIM14/ENTSOE/Dynamics/Thing.py:21-23 *);
  (471, Mod n_Equipment [361; 1] true [SFrom 496 n_Element; SFrom 526 n_OperationalLimit; SFrom 509 n_IEC61970CIMVersion; SAssign i_nsURI; SAssign i_nsPrefix; SAssign i_packageMap; SClass i_CIMTime None; SClass i_CIMDateTime None; SClass i_CIMDuration None; SClass i_CIMGYear None; SClass i_CIMDate None; SClass i_CIMGMonthDay None; SClass i_CIMGMonth None; SClass i_CIMGDay None; SClass i_CIMGYearMonth None])(* CIM14/ENTSOE/Equipment/__init__.py:24-133 *);
  (472, Mod n_ControlArea [471; 361; 1] true [SFrom 473 n_ControlArea; SFrom 474 n_ControlAreaGeneratingUnit; SFrom 475 n_TieFlow; SAssign i_nsURI; SAssign i_nsPrefix; SClass n_ControlAreaTypeKind None])(* CIM14/ENTSOE/Equipment/ControlArea/__init__.py:24-32 *);
  (473, Mod n_ControlArea [472; 471; 361; 1] false [SFrom 488 n_PowerSystemResource; SClass n_ControlArea (Some n_PowerSystemResource)])(* CIM14/ENTSOE/Equipment/ControlArea/ControlArea.py:21-23 *);
  (474, Mod n_ControlAreaGeneratingUnit [472; 471; 361; 1] false [SFrom 496 n_Element; SClass n_ControlAreaGeneratingUnit (Some n_Element)])(* CIM14/ENTSOE/Equipment/ControlArea/ControlAreaGeneratingUnit.py:21-23 *);
  (475, Mod n_TieFlow [472; 471; 361; 1] false [SFrom 496 n_Element; SClass n_TieFlow (Some n_Element)])(* CIM14/ENTSOE/Equipment/ControlArea/TieFlow.py:21-23 *);
  (476, Mod i_Core [471; 361; 1] true [SFrom 482 n_Curve; SFrom 481 n_ConnectivityNodeContainer; SFrom 489 n_RegularIntervalSchedule; SFrom 494 n_VoltageLevel; SFrom 493 n_Unit; SFrom 484 n_Equipment; SFrom 477 n_BaseVoltage; SFrom 480 n_ConnectivityNode; SFrom 485 n_EquipmentContainer; SFrom 487 n_IdentifiedObject; SFrom 491 n_Substation; SFrom 479 n_ConductingEquipment; SFrom 490 n_SubGeographicalRegion; SFrom 492 n_Terminal; SFrom 486 n_GeographicalRegion; SFrom 488 n_PowerSystemResource; SFrom 483 n_CurveData; SFrom 478 n_BasicIntervalSchedule; SAssign i_nsURI; SAssign i_nsPrefix; SClass n_CurveStyle None])(* CIM14/ENTSOE/Equipment/Core/__init__.py:24-47 *);
  (477, Mod n_BaseVoltage [476; 471; 361; 1] false [SFrom 487 n_IdentifiedObject; SClass n_BaseVoltage (Some n_IdentifiedObject)])(* CIM14/ENTSOE/Equipment/Core/BaseVoltage.py:21-23 *);
  (478, Mod n_BasicIntervalSchedule [476; 471; 361; 1] false [SFrom 487 n_IdentifiedObject; SClass n_BasicIntervalSchedule (Some n_IdentifiedObject)])(* CIM14/ENTSOE/Equipment/Core/BasicIntervalSchedule.py:21-23 *);
  (479, Mod n_ConductingEquipment [476; 471; 361; 1] false [SFrom 484 n_Equipment; SClass n_ConductingEquipment (Some n_Equipment)])(* CIM14/ENTSOE/Equipment/Core/ConductingEquipment.py:21-23 *);
  (480, Mod n_ConnectivityNode [476; 471; 361; 1] false [SFrom 487 n_IdentifiedObject; SClass n_ConnectivityNode (Some n_IdentifiedObject)])(* CIM14/ENTSOE/Equipment/Core/ConnectivityNode.py:21-23 *);
  (481, Mod n_ConnectivityNodeContainer [476; 471; 361; 1] false [SFrom 488 n_PowerSystemResource; SClass n_ConnectivityNodeContainer (Some n_PowerSystemResource)])(* CIM14/ENTSOE/Equipment/Core/ConnectivityNodeContainer.py:21-23 *);
  (482, Mod n_Curve [476; 471; 361; 1] false [SFrom 487 n_IdentifiedObject; SClass n_Curve (Some n_IdentifiedObject)])(* CIM14/ENTSOE/Equipment/Core/Curve.py:21-23 *);
  (483, Mod n_CurveData [476; 471; 361; 1] false [SFrom 496 n_Element; SClass n_CurveData (Some n_Element)])(* CIM14/ENTSOE/Equipment/Core/CurveData.py:21-23 *);
  (484, Mod n_Equipment [476; 471; 361; 1] false [SFrom 488 n_PowerSystemResource; SClass n_Equipment (Some n_PowerSystemResource)])(* CIM14/ENTSOE/Equipment/Core/Equipment.py:21-23 *);
  (485, Mod n_EquipmentContainer [476; 471; 361; 1] false [SFrom 481 n_ConnectivityNodeContainer; SClass n_EquipmentContainer (Some n_ConnectivityNodeContainer)])(* CIM14/ENTSOE/Equipment/Core/EquipmentContainer.py:21-23 *);
  (486, Mod n_GeographicalRegion [476; 471; 361; 1] false [SFrom 487 n_IdentifiedObject; SClass n_GeographicalRegion (Some n_IdentifiedObject)])(* CIM14/ENTSOE/Equipment/Core/GeographicalRegion.py:21-23 *);
  (487, Mod n_IdentifiedObject [476; 471; 361; 1] false [SFrom 496 n_Element; SClass n_IdentifiedObject (Some n_Element)])(* CIM14/ENTSOE/Equipment/Core/IdentifiedObject.py:21-23 *);
  (488, Mod n_PowerSystemResource [476; 471; 361; 1] false [SFrom 487 n_IdentifiedObject; SClass n_PowerSystemResource (Some n_IdentifiedObject)])(* CIM14/ENTSOE/Equipment/Core/PowerSystemResource.py:21-23 *);
  (489, Mod n_RegularIntervalSchedule [476; 471; 361; 1] false [SFrom 478 n_BasicIntervalSchedule; SClass n_RegularIntervalSchedule (Some n_BasicIntervalSchedule)])(* CIM14/ENTSOE/Equipment/Core/RegularIntervalSchedule.py:21-23 *);
  (490, Mod n_SubGeographicalRegion [476; 471; 361; 1] false [SFrom 487 n_IdentifiedObject; SClass n_SubGeographicalRegion (Some n_IdentifiedObject)])(* CIM14/ENTSOE/Equipment/Core/SubGeographicalRegion.py:21-23 *);
  (491, Mod n_Substation [476; 471; 361; 1] false [SFrom 485 n_EquipmentContainer; SClass n_Substation (Some n_EquipmentContainer)])(* CIM14/ENTSOE/Equipment/Core/Substation.py:21-23 *);
  (492, Mod n_Terminal [476; 471; 361; 1] false [SFrom 487 n_IdentifiedObject; SClass n_Terminal (Some n_IdentifiedObject)])(* CIM14/ENTSOE/Equipment/Core/Terminal.py:21-23 *);
  (493, Mod n_Unit [476; 471; 361; 1] false [SFrom 487 n_IdentifiedObject; SClass n_Unit (Some n_IdentifiedObject)])(* CIM14/ENTSOE/Equipment/Core/Unit.py:21-23 *);
  (494, Mod n_VoltageLevel [476; 471; 361; 1] false [SFrom 485 n_EquipmentContainer; SClass n_VoltageLevel (Some n_EquipmentContainer)])(* CIM14/ENTSOE/Equipment/Core/VoltageLevel.py:21-23 *);
  (495, Mod i_Domain [471; 361; 1] true [SAssign i_nsURI; SAssign i_nsPrefix; SClass n_UnitSymbol None; SClass i_Money None; SClass i_ApparentPower None; SClass i_Resistance None; SClass i_ActivePower None; SClass i_Susceptance None; SClass i_CurrentFlow None; SClass i_Conductance None; SClass i_Length None; SClass i_Reactance None; SClass i_Seconds None; SClass i_VoltagePerReactivePower None; SClass i_Voltage None; SClass i_ReactivePower None; SClass i_AngleDegrees None; SClass i_PerCent None])(* CIM14/ENTSOE/Equipment/Domain/__init__.py:25-104 *);
  (496, Mod n_Element [471; 361; 1] false [SClass n_Element None])(* CIM14/ENTSOE/Equipment/Element.py:22-22 *);
  (497, Mod i_Equivalents [471; 361; 1] true [SFrom 498 n_EquivalentEquipment; SFrom 499 n_EquivalentNetwork; SAssign i_nsURI; SAssign i_nsPrefix])(* CIM14/ENTSOE/Equipment/Equivalents/__init__.py:24-28 *);
  (498, Mod n_EquivalentEquipment [497; 471; 361; 1] false [SFrom 479 n_ConductingEquipment; SClass n_EquivalentEquipment (Some n_ConductingEquipment)])(* CIM14/ENTSOE/Equipment/Equivalents/EquivalentEquipment.py:21-23 *);
  (499, Mod n_EquivalentNetwork [497; 471; 361; 1] false [SFrom 481 n_ConnectivityNodeContainer; SClass n_EquivalentNetwork (Some n_ConnectivityNodeContainer)])(* CIM14/ENTSOE/Equipment/Equivalents/EquivalentNetwork.py:21-23 *);
  (500, Mod i_Generation [471; 361; 1] true [SAssign i_nsURI; SAssign i_nsPrefix])(* CIM14/ENTSOE/Equipment/Generation/__init__.py:25-26 *);
  (501, Mod i_Production [500; 471; 361; 1] true [SFrom 508 n_WindGeneratingUnit; SFrom 503 n_GeneratingUnit; SFrom 502 n_FossilFuel; SFrom 506 n_NuclearGeneratingUnit; SFrom 504 n_HydroGeneratingUnit; SFrom 507 n_ThermalGeneratingUnit; SFrom 505 n_HydroPump; SAssign i_nsURI; SAssign i_nsPrefix; SClass n_FuelType None; SClass n_GeneratorControlSource None])(* CIM14/ENTSOE/Equipment/Generation/Production/__init__.py:24-41 *);
  (502, Mod n_FossilFuel [501; 500; 471; 361; 1] false [SFrom 487 n_IdentifiedObject; SClass n_FossilFuel (Some n_IdentifiedObject)])(* CIM14/ENTSOE/Equipment/Generation/Production/FossilFuel.py:21-23 *);
  (503, Mod n_GeneratingUnit [501; 500; 471; 361; 1] false [SFrom 484 n_Equipment; SClass n_GeneratingUnit (Some n_Equipment)])(* CIM14/ENTSOE/Equipment/Generation/Production/GeneratingUnit.py:21-23 *);
  (504, Mod n_HydroGeneratingUnit [501; 500; 471; 361; 1] false [SFrom 503 n_GeneratingUnit; SClass n_HydroGeneratingUnit (Some n_GeneratingUnit)])(* CIM14/ENTSOE/Equipment/Generation/Production/HydroGeneratingUnit.py:21-23 *);
  (505, Mod n_HydroPump [501; 500; 471; 361; 1] false [SFrom 488 n_PowerSystemResource; SClass n_HydroPump (Some n_PowerSystemResource)])(* CIM14/ENTSOE/Equipment/Generation/Production/HydroPump.py:21-23 *);
  (506, Mod n_NuclearGeneratingUnit [501; 500; 471; 361; 1] false [SFrom 503 n_GeneratingUnit; SClass n_NuclearGeneratingUnit (Some n_GeneratingUnit)])(* CIM14/ENTSOE/Equipment/Generation/Production/NuclearGeneratingUnit.py:21-23 *);
  (507, Mod n_ThermalGeneratingUnit [501; 500; 471; 361; 1] false [SFrom 503 n_GeneratingUnit; SClass n_ThermalGeneratingUnit (Some n_GeneratingUnit)])(* CIM14/ENTSOE/Equipment/Generation/Production/ThermalGeneratingUnit.py:21-23 *);
  (508, Mod n_WindGeneratingUnit [501; 500; 471; 361; 1] false [SFrom 503 n_GeneratingUnit; SClass n_WindGeneratingUnit (Some n_GeneratingUnit)])(* CIM14/ENTSOE/Equipment/Generation/Production/WindGeneratingUnit.py:21-23 *);
  (509, Mod n_IEC61970CIMVersion [471; 361; 1] false [SFrom 496 n_Element; SClass n_IEC61970CIMVersion (Some n_Element)])(* CIM14/ENTSOE/Equipment/IEC61970CIMVersion.py:21-23 *);
  (510, Mod i_LoadModel [471; 361; 1] true [SFrom 517 n_NonConformLoad; SFrom 514 n_EnergyArea; SFrom 519 n_Season; SFrom 521 n_SubLoadArea; SFrom 516 n_LoadResponseCharacteristic; SFrom 518 n_NonConformLoadGroup; SFrom 520 n_SeasonDayTypeSchedule; SFrom 512 n_ConformLoadGroup; SFrom 513 n_DayType; SFrom 515 n_LoadGroup; SFrom 511 n_ConformLoad; SAssign i_nsURI; SAssign i_nsPrefix; SClass n_SeasonName None])(* CIM14/ENTSOE/Equipment/LoadModel/__init__.py:24-40 *);
  (511, Mod n_ConformLoad [510; 471; 361; 1] false [SFrom 539 n_EnergyConsumer; SClass n_ConformLoad (Some n_EnergyConsumer)])(* CIM14/ENTSOE/Equipment/LoadModel/ConformLoad.py:21-23 *);
  (512, Mod n_ConformLoadGroup [510; 471; 361; 1] false [SFrom 515 n_LoadGroup; SClass n_ConformLoadGroup (Some n_LoadGroup)])(* CIM14/ENTSOE/Equipment/LoadModel/ConformLoadGroup.py:21-23 *);
  (513, Mod n_DayType [510; 471; 361; 1] false [SFrom 487 n_IdentifiedObject; SClass n_DayType (Some n_IdentifiedObject)])(* CIM14/ENTSOE/Equipment/LoadModel/DayType.py:21-23 *);
  (514, Mod n_EnergyArea [510; 471; 361; 1] false [SFrom 487 n_IdentifiedObject; SClass n_EnergyArea (Some n_IdentifiedObject)])(* CIM14/ENTSOE/Equipment/LoadModel/EnergyArea.py:21-23 *);
  (515, Mod n_LoadGroup [510; 471; 361; 1] false [SFrom 487 n_IdentifiedObject; SClass n_LoadGroup (Some n_IdentifiedObject)])(* CIM14/ENTSOE/Equipment/LoadModel/LoadGroup.py:21-23 *);
  (516, Mod n_LoadResponseCharacteristic [510; 471; 361; 1] false [SFrom 487 n_IdentifiedObject; SClass n_LoadResponseCharacteristic (Some n_IdentifiedObject)])(* CIM14/ENTSOE/Equipment/LoadModel/LoadResponseCharacteristic.py:21-23 *);
  (517, Mod n_NonConformLoad [510; 471; 361; 1] false [SFrom 539 n_EnergyConsumer; SClass n_NonConformLoad (Some n_EnergyConsumer)])(* CIM14/ENTSOE/Equipment/LoadModel/NonConformLoad.py:21-23 *);
  (518, Mod n_NonConformLoadGroup [510; 471; 361; 1] false [SFrom 515 n_LoadGroup; SClass n_NonConformLoadGroup (Some n_LoadGroup)])(* CIM14/ENTSOE/Equipment/LoadModel/NonConformLoadGroup.py:21-23 *);
  (519, Mod n_Season [510; 471; 361; 1] false [SFrom 496 n_Element; SClass n_Season (Some n_Element)])(* CIM14/ENTSOE/Equipment/LoadModel/Season.py:21-23 *);
  (520, Mod n_SeasonDayTypeSchedule [510; 471; 361; 1] false [SFrom 489 n_RegularIntervalSchedule; SClass n_SeasonDayTypeSchedule (Some n_RegularIntervalSchedule)])(* CIM14/ENTSOE/Equipment/LoadModel/SeasonDayTypeSchedule.py:21-23 *);
  (521, Mod n_SubLoadArea [510; 471; 361; 1] false [SFrom 514 n_EnergyArea; SClass n_SubLoadArea (Some n_EnergyArea)])(* CIM14/ENTSOE/Equipment/LoadModel/SubLoadArea.py:21-23 *);
  (522, Mod i_Meas [471; 361; 1] true [SFrom 523 n_Measurement; SFrom 525 n_MeasurementValueSource; SFrom 524 n_MeasurementValue; SAssign i_nsURI; SAssign i_nsPrefix])(* CIM14/ENTSOE/Equipment/Meas/__init__.py:24-29 *);
  (523, Mod n_Measurement [522; 471; 361; 1] false [SFrom 487 n_IdentifiedObject; SClass n_Measurement (Some n_IdentifiedObject)])(* CIM14/ENTSOE/Equipment/Meas/Measurement.py:21-23 *);
  (524, Mod n_MeasurementValue [522; 471; 361; 1] false [SFrom 487 n_IdentifiedObject; SClass n_MeasurementValue (Some n_IdentifiedObject)])(* CIM14/ENTSOE/Equipment/Meas/MeasurementValue.py:21-23 *);
  (525, Mod n_MeasurementValueSource [522; 471; 361; 1] false [SFrom 487 n_IdentifiedObject; SClass n_MeasurementValueSource (Some n_IdentifiedObject)])(* CIM14/ENTSOE/Equipment/Meas/MeasurementValueSource.py:21-23 *);
  (526, Mod n_OperationalLimit [471; 361; 1] false [SFrom 529 n_OperationalLimit; SClass n_OperationalLimit (Some n_OperationalLimit)])(* CIM14/ENTSOE/Equipment/OperationalLimit.py:21-23 *);
  (527, Mod i_OperationalLimits [471; 361; 1] true [SFrom 532 n_VoltageLimit; SFrom 528 n_CurrentLimit; SFrom 529 n_OperationalLimit; SFrom 530 n_OperationalLimitSet; SFrom 531 n_OperationalLimitType; SAssign i_nsURI; SAssign i_nsPrefix; SClass n_OperationalLimitDirectionKind None])(* CIM14/ENTSOE/Equipment/OperationalLimits/__init__.py:24-34 *);
  (528, Mod n_CurrentLimit [527; 471; 361; 1] false [SFrom 529 n_OperationalLimit; SClass n_CurrentLimit (Some n_OperationalLimit)])(* CIM14/ENTSOE/Equipment/OperationalLimits/CurrentLimit.py:21-23 *);
  (529, Mod n_OperationalLimit [527; 471; 361; 1] false [SFrom 487 n_IdentifiedObject; SClass n_OperationalLimit (Some n_IdentifiedObject)])(* CIM14/ENTSOE/Equipment/OperationalLimits/OperationalLimit.py:21-23 *);
  (530, Mod n_OperationalLimitSet [527; 471; 361; 1] false [SFrom 487 n_IdentifiedObject; SClass n_OperationalLimitSet (Some n_IdentifiedObject)])(* CIM14/ENTSOE/Equipment/OperationalLimits/OperationalLimitSet.py:21-23 *);
  (531, Mod n_OperationalLimitType [527; 471; 361; 1] false [SFrom 487 n_IdentifiedObject; SClass n_OperationalLimitType (Some n_IdentifiedObject)])(* CIM14/ENTSOE/Equipment/OperationalLimits/OperationalLimitType.py:21-23 *);
  (532, Mod n_VoltageLimit [527; 471; 361; 1] false [SFrom 529 n_OperationalLimit; SClass n_VoltageLimit (Some n_OperationalLimit)])(* CIM14/ENTSOE/Equipment/OperationalLimits/VoltageLimit.py:21-23 *);
  (533, Mod i_Wires [471; 361; 1] true [SFrom 536 n_BusbarSection; SFrom 541 n_LoadBreakSwitch; SFrom 554 n_TapChanger; SFrom 555 n_TransformerWinding; SFrom 548 n_RegulatingControl; SFrom 546 n_ReactiveCapabilityCurve; SFrom 534 n_ACLineSegment; SFrom 538 n_Disconnector; SFrom 543 n_PhaseTapChanger; SFrom 549 n_SeriesCompensator; SFrom 542 n_MutualCoupling; SFrom 553 n_SynchronousMachine; SFrom 545 n_RatioTapChanger; SFrom 544 n_PowerTransformer; SFrom 539 n_EnergyConsumer; SFrom 552 n_Switch; SFrom 547 n_RegulatingCondEq; SFrom 540 n_Line; SFrom 551 n_StaticVarCompensator; SFrom 550 n_ShuntCompensator; SFrom 535 n_Breaker; SFrom 537 n_Conductor; SAssign i_nsURI; SAssign i_nsPrefix; SClass n_WindingType None; SClass n_TransformerControlMode None; SClass n_WindingConnection None; SClass n_RegulatingControlModeKind None; SClass n_SVCControlMode None; SClass n_SynchronousMachineType None; SClass n_SynchronousMachineOperatingMode None; SClass n_PhaseTapChangerKind None])(* CIM14/ENTSOE/Equipment/Wires/__init__.py:24-86 *);
  (534, Mod n_ACLineSegment [533; 471; 361; 1] false [SFrom 537 n_Conductor; SClass n_ACLineSegment (Some n_Conductor)])(* CIM14/ENTSOE/Equipment/Wires/ACLineSegment.py:21-23 *);
  (535, Mod n_Breaker [533; 471; 361; 1] false [SFrom 552 n_Switch; SClass n_Breaker (Some n_Switch)])(* CIM14/ENTSOE/Equipment/Wires/Breaker.py:21-23 *);
  (536, Mod n_BusbarSection [533; 471; 361; 1] false [SFrom 479 n_ConductingEquipment; SClass n_BusbarSection (Some n_ConductingEquipment)])(* CIM14/ENTSOE/Equipment/Wires/BusbarSection.py:21-23 *);
  (537, Mod n_Conductor [533; 471; 361; 1] false [SFrom 479 n_ConductingEquipment; SClass n_Conductor (Some n_ConductingEquipment)])(* CIM14/ENTSOE/Equipment/Wires/Conductor.py:21-23 *);
  (538, Mod n_Disconnector [533; 471; 361; 1] false [SFrom 552 n_Switch; SClass n_Disconnector (Some n_Switch)])(* CIM14/ENTSOE/Equipment/Wires/Disconnector.py:21-23 *);
  (539, Mod n_EnergyConsumer [533; 471; 361; 1] false [SFrom 479 n_ConductingEquipment; SClass n_EnergyConsumer (Some n_ConductingEquipment)])(* CIM14/ENTSOE/Equipment/Wires/EnergyConsumer.py:21-23 *);
  (540, Mod n_Line [533; 471; 361; 1] false [SFrom 485 n_EquipmentContainer; SClass n_Line (Some n_EquipmentContainer)])(* CIM14/ENTSOE/Equipment/Wires/Line.py:21-23 *);
  (541, Mod n_LoadBreakSwitch [533; 471; 361; 1] false [SFrom 552 n_Switch; SClass n_LoadBreakSwitch (Some n_Switch)])(* CIM14/ENTSOE/Equipment/Wires/LoadBreakSwitch.py:21-23 *);
  (542, Mod n_MutualCoupling [533; 471; 361; 1] false [SFrom 487 n_IdentifiedObject; SClass n_MutualCoupling (Some n_IdentifiedObject)])(* CIM14/ENTSOE/Equipment/Wires/MutualCoupling.py:21-23 *);
  (543, Mod n_PhaseTapChanger [533; 471; 361; 1] false [SFrom 554 n_TapChanger; SClass n_PhaseTapChanger (Some n_TapChanger)])(* CIM14/ENTSOE/Equipment/Wires/PhaseTapChanger.py:21-23 *);
  (544, Mod n_PowerTransformer [533; 471; 361; 1] false [SFrom 484 n_Equipment; SClass n_PowerTransformer (Some n_Equipment)])(* CIM14/ENTSOE/Equipment/Wires/PowerTransformer.py:21-23 *);
  (545, Mod n_RatioTapChanger [533; 471; 361; 1] false [SFrom 554 n_TapChanger; SClass n_RatioTapChanger (Some n_TapChanger)])(* CIM14/ENTSOE/Equipment/Wires/RatioTapChanger.py:21-23 *);
  (546, Mod n_ReactiveCapabilityCurve [533; 471; 361; 1] false [SFrom 482 n_Curve; SClass n_ReactiveCapabilityCurve (Some n_Curve)])(* CIM14/ENTSOE/Equipment/Wires/ReactiveCapabilityCurve.py:21-23 *);
  (547, Mod n_RegulatingCondEq [533; 471; 361; 1] false [SFrom 479 n_ConductingEquipment; SClass n_RegulatingCondEq (Some n_ConductingEquipment)])(* CIM14/ENTSOE/Equipment/Wires/RegulatingCondEq.py:21-23 *);
  (548, Mod n_RegulatingControl [533; 471; 361; 1] false [SFrom 488 n_PowerSystemResource; SClass n_RegulatingControl (Some n_PowerSystemResource)])(* CIM14/ENTSOE/Equipment/Wires/RegulatingControl.py:21-23 *);
  (549, Mod n_SeriesCompensator [533; 471; 361; 1] false [SFrom 479 n_ConductingEquipment; SClass n_SeriesCompensator (Some n_ConductingEquipment)])(* CIM14/ENTSOE/Equipment/Wires/SeriesCompensator.py:21-23 *);
  (550, Mod n_ShuntCompensator [533; 471; 361; 1] false [SFrom 547 n_RegulatingCondEq; SClass n_ShuntCompensator (Some n_RegulatingCondEq)])(* CIM14/ENTSOE/Equipment/Wires/ShuntCompensator.py:21-23 *);
  (551, Mod n_StaticVarCompensator [533; 471; 361; 1] false [SFrom 547 n_RegulatingCondEq; SClass n_StaticVarCompensator (Some n_RegulatingCondEq)])(* CIM14/ENTSOE/Equipment/Wires/StaticVarCompensator.py:21-23 *);
  (552, Mod n_Switch [533; 471; 361; 1] false [SFrom 479 n_ConductingEquipment; SClass n_Switch (Some n_ConductingEquipment)])(* CIM14/ENTSOE/Equipment/Wires/Switch.py:21-23 *);
  (553, Mod n_SynchronousMachine [533; 471; 361; 1] false [SFrom 547 n_RegulatingCondEq; SClass n_SynchronousMachine (Some n_RegulatingCondEq)])(* CIM14/ENTSOE/Equipment/Wires/SynchronousMachine.py:21-23 *);
  (554, Mod n_TapChanger [533; 471; 361; 1] false [SFrom 488 n_PowerSystemResource; SClass n_TapChanger (Some n_PowerSystemResource)])(* CIM14/ENTSOE/Equipment/Wires/TapChanger.py:21-23 *);
  (555, Mod n_TransformerWinding [533; 471; 361; 1] false [SFrom 479 n_ConductingEquipment; SClass n_TransformerWinding (Some n_ConductingEquipment)])(* CIM14/ENTSOE/Equipment/Wires/TransformerWinding.py:21-23 *);
  (556, Mod i_StateVariables [361; 1] true [SFrom 559 n_Element; SAssign i_nsURI; SAssign i_nsPrefix; SAssign i_packageMap; SClass i_ApparentPower None; SClass i_Voltage None; SClass i_ReactivePower None; SClass i_AngleRadians None; SClass i_ActivePower None; SClass i_CIMTime None; SClass i_CIMDateTime None; SClass i_CIMDuration None; SClass i_CIMGYear None; SClass i_CIMDate None; SClass i_CIMGMonthDay None; SClass i_CIMGMonth None; SClass i_CIMGDay None; SClass i_CIMGYearMonth None])(* CIM14/ENTSOE/StateVariables/__init__.py:24-93 *);
  (557, Mod i_Core [556; 361; 1] true [SFrom 558 n_Terminal; SAssign i_nsURI; SAssign i_nsPrefix])(* CIM14/ENTSOE/StateVariables/Core/__init__.py:24-27 *);
  (558, Mod n_Terminal [557; 556; 361; 1] false [SFrom 559 n_Element; SClass n_Terminal (Some n_Element)])(* CIM14/ENTSOE/StateVariables/Core/Terminal.py:21-23 *);
  (559, Mod n_Element [556; 361; 1] false [SClass n_Element None])(* CIM14/ENTSOE/StateVariables/Element.py:22-22 *);
  (560, Mod i_StateVariables [556; 361; 1] true [SFrom 565 n_SvTapStep; SFrom 561 n_SvInjection; SFrom 566 n_SvVoltage; SFrom 562 n_SvPowerFlow; SFrom 563 n_SvShortCircuit; SFrom 564 n_SvShuntCompensatorSections; SAssign i_nsURI; SAssign i_nsPrefix])(* CIM14/ENTSOE/StateVariables/StateVariables/__init__.py:24-32 *);
  (561, Mod n_SvInjection [560; 556; 361; 1] false [SFrom 559 n_Element; SClass n_SvInjection (Some n_Element)])(* CIM14/ENTSOE/StateVariables/StateVariables/SvInjection.py:21-23 *);
  (562, Mod n_SvPowerFlow [560; 556; 361; 1] false [SFrom 559 n_Element; SClass n_SvPowerFlow (Some n_Element)])(* CIM14/ENTSOE/StateVariables/StateVariables/SvPowerFlow.py:21-23 *);
  (563, Mod n_SvShortCircuit [560; 556; 361; 1] false [SFrom 559 n_Element; SClass n_SvShortCircuit (Some n_Element)])(* CIM14/ENTSOE/StateVariables/StateVariables/SvShortCircuit.py:21-23 *);
  (564, Mod n_SvShuntCompensatorSections [560; 556; 361; 1] false [SFrom 559 n_Element; SClass n_SvShuntCompensatorSections (Some n_Element)])(* CIM14/ENTSOE/StateVariables/StateVariables/SvShuntCompensatorSections.py:21-23 *);
  (565, Mod n_SvTapStep [560; 556; 361; 1] false [SFrom 559 n_Element; SClass n_SvTapStep (Some n_Element)])(* CIM14/ENTSOE/StateVariables/StateVariables/SvTapStep.py:21-23 *);
  (566, Mod n_SvVoltage [560; 556; 361; 1] false [SFrom 559 n_Element; SClass n_SvVoltage (Some n_Element)])(* CIM14/ENTSOE/StateVariables/StateVariables/SvVoltage.py:21-23 *);
  (567, Mod i_Topology [556; 361; 1] true [SFrom 568 n_TopologicalNode; SAssign i_nsURI; SAssign i_nsPrefix])(* CIM14/ENTSOE/StateVariables/Topology/__init__.py:24-27 *);
  (568, Mod n_TopologicalNode [567; 556; 361; 1] false [SFrom 559 n_Element; SClass n_TopologicalNode (Some n_Element)])(* CIM14/ENTSOE/StateVariables/Topology/TopologicalNode.py:21-23 *);
  (569, Mod i_Wires [556; 361; 1] true [SFrom 570 n_ShuntCompensator; SFrom 571 n_TapChanger; SAssign i_nsURI; SAssign i_nsPrefix])(* CIM14/ENTSOE/StateVariables/Wires/__init__.py:24-28 *);
  (570, Mod n_ShuntCompensator [569; 556; 361; 1] false [SFrom 559 n_Element; SClass n_ShuntCompensator (Some n_Element)])(* CIM14/ENTSOE/StateVariables/Wires/ShuntCompensator.py:21-23 *);
  (571, Mod n_TapChanger [569; 556; 361; 1] false [SFrom 559 n_Element; SClass n_TapChanger (Some n_Element)])(* CIM14/ENTSOE/StateVariables/Wires/TapChanger.py:21-23 *);
  (572, Mod i_Topology [361; 1] true [SFrom 578 n_Element; SAssign i_nsURI; SAssign i_nsPrefix; SAssign i_packageMap; SClass i_CIMTime None; SClass i_CIMDateTime None; SClass i_CIMDuration None; SClass i_CIMGYear None; SClass i_CIMDate None; SClass i_CIMGMonthDay None; SClass i_CIMGMonth None; SClass i_CIMGDay None; SClass i_CIMGYearMonth None])(* CIM14/ENTSOE/Topology/__init__.py:24-63 *);
  (573, Mod i_Core [572; 361; 1] true [SFrom 577 n_Terminal; SFrom 576 n_IdentifiedObject; SFrom 574 n_BaseVoltage; SFrom 575 n_ConnectivityNodeContainer; SAssign i_nsURI; SAssign i_nsPrefix])(* CIM14/ENTSOE/Topology/Core/__init__.py:24-30 *);
  (574, Mod n_BaseVoltage [573; 572; 361; 1] false [SFrom 576 n_IdentifiedObject; SClass n_BaseVoltage (Some n_IdentifiedObject)])(* CIM14/ENTSOE/Topology/Core/BaseVoltage.py:21-23 *);
  (575, Mod n_ConnectivityNodeContainer [573; 572; 361; 1] false [SFrom 576 n_IdentifiedObject; SClass n_ConnectivityNodeContainer (Some n_IdentifiedObject)])(* CIM14/ENTSOE/Topology/Core/ConnectivityNodeContainer.py:21-23 *);
  (576, Mod n_IdentifiedObject [573; 572; 361; 1] false [SFrom 578 n_Element; SClass n_IdentifiedObject (Some n_Element)])(* CIM14/ENTSOE/Topology/Core/IdentifiedObject.py:21-23 *);
  (577, Mod n_Terminal [573; 572; 361; 1] false [SFrom 576 n_IdentifiedObject; SClass n_Terminal (Some n_IdentifiedObject)])(* CIM14/ENTSOE/Topology/Core/Terminal.py:21-23 *);
  (578, Mod n_Element [572; 361; 1] false [SClass n_Element None])(* CIM14/ENTSOE/Topology/Element.py:22-22 *);
  (579, Mod i_Topology [572; 361; 1] true [SFrom 580 n_TopologicalNode; SAssign i_nsURI; SAssign i_nsPrefix])(* CIM14/ENTSOE/Topology/Topology/__init__.py:24-27 *);
  (580, Mod n_TopologicalNode [579; 572; 361; 1] false [SFrom 576 n_IdentifiedObject; SClass n_TopologicalNode (Some n_IdentifiedObject)])(* CIM14/ENTSOE/Topology/Topology/TopologicalNode.py:21-23 *);
  (581, Mod n_Element [1] false [SClass n_Element None])(* CIM14/Element.py:22-22 *);
  (582, Mod i_IEC61968 [1] true [SFrom 633 n_IEC61968CIMVersion; SAssign i_nsURI; SAssign i_nsPrefix])(* CIM14/IEC61968/__init__.py:24-27 *);
  (583, Mod i_AssetModels [582; 1] true [SFrom 584 n_AssetModel; SFrom 589 n_EndDeviceModel; SFrom 597 n_WireArrangement; SFrom 588 n_DistributionWindingTest; SFrom 592 n_ShortCircuitTest; SFrom 595 n_TransformerInfo; SFrom 598 n_WireType; SFrom 590 n_OpenCircuitTest; SFrom 587 n_ConductorInfo; SFrom 591 n_OverheadConductorInfo; SFrom 585 n_CableInfo; SFrom 593 n_TapeShieldCableInfo; SFrom 596 n_WindingInfo; SFrom 594 n_ToWindingSpec; SFrom 586 n_ConcentricNeutralCableInfo; SAssign i_nsURI; SAssign i_nsPrefix; SClass n_CorporateStandardKind None; SClass n_AssetModelUsageKind None; SClass n_ConductorMaterialKind None; SClass n_CableConstructionKind None; SClass n_ConductorUsageKind None; SClass n_ConductorInsulationKind None; SClass n_CableOuterJacketKind None; SClass n_CableShieldMaterialKind None])(* CIM14/IEC61968/AssetModels/__init__.py:24-86 *);
  (584, Mod n_AssetModel [583; 582; 1] false [SFrom 722 n_IdentifiedObject; SClass n_AssetModel (Some n_IdentifiedObject)])(* CIM14/IEC61968/AssetModels/AssetModel.py:21-23 *);
  (585, Mod n_CableInfo [583; 582; 1] false [SFrom 587 n_ConductorInfo; SClass n_CableInfo (Some n_ConductorInfo)])(* CIM14/IEC61968/AssetModels/CableInfo.py:21-23 *);
  (586, Mod n_ConcentricNeutralCableInfo [583; 582; 1] false [SFrom 585 n_CableInfo; SClass n_ConcentricNeutralCableInfo (Some n_CableInfo)])(* CIM14/IEC61968/AssetModels/ConcentricNeutralCableInfo.py:21-23 *);
  (587, Mod n_ConductorInfo [583; 582; 1] false [SFrom 722 n_IdentifiedObject; SClass n_ConductorInfo (Some n_IdentifiedObject)])(* CIM14/IEC61968/AssetModels/ConductorInfo.py:21-23 *);
  (588, Mod n_DistributionWindingTest [583; 582; 1] false [SFrom 722 n_IdentifiedObject; SClass n_DistributionWindingTest (Some n_IdentifiedObject)])(* CIM14/IEC61968/AssetModels/DistributionWindingTest.py:21-23 *);
  (589, Mod n_EndDeviceModel [583; 582; 1] false [SFrom 584 n_AssetModel; SClass n_EndDeviceModel (Some n_AssetModel)])(* CIM14/IEC61968/AssetModels/EndDeviceModel.py:21-23 *);
  (590, Mod n_OpenCircuitTest [583; 582; 1] false [SFrom 588 n_DistributionWindingTest; SClass n_OpenCircuitTest (Some n_DistributionWindingTest)])(* CIM14/IEC61968/AssetModels/OpenCircuitTest.py:21-23 *);
  (591, Mod n_OverheadConductorInfo [583; 582; 1] false [SFrom 587 n_ConductorInfo; SClass n_OverheadConductorInfo (Some n_ConductorInfo)])(* CIM14/IEC61968/AssetModels/OverheadConductorInfo.py:21-23 *);
  (592, Mod n_ShortCircuitTest [583; 582; 1] false [SFrom 588 n_DistributionWindingTest; SClass n_ShortCircuitTest (Some n_DistributionWindingTest)])(* CIM14/IEC61968/AssetModels/ShortCircuitTest.py:21-23 *);
  (593, Mod n_TapeShieldCableInfo [583; 582; 1] false [SFrom 585 n_CableInfo; SClass n_TapeShieldCableInfo (Some n_CableInfo)])(* CIM14/IEC61968/AssetModels/TapeShieldCableInfo.py:21-23 *);
  (594, Mod n_ToWindingSpec [583; 582; 1] false [SFrom 722 n_IdentifiedObject; SClass n_ToWindingSpec (Some n_IdentifiedObject)])(* CIM14/IEC61968/AssetModels/ToWindingSpec.py:21-23 *);
  (595, Mod n_TransformerInfo [583; 582; 1] false [SFrom 722 n_IdentifiedObject; SClass n_TransformerInfo (Some n_IdentifiedObject)])(* CIM14/IEC61968/AssetModels/TransformerInfo.py:21-23 *);
  (596, Mod n_WindingInfo [583; 582; 1] false [SFrom 722 n_IdentifiedObject; SClass n_WindingInfo (Some n_IdentifiedObject)])(* CIM14/IEC61968/AssetModels/WindingInfo.py:21-23 *);
  (597, Mod n_WireArrangement [583; 582; 1] false [SFrom 722 n_IdentifiedObject; SClass n_WireArrangement (Some n_IdentifiedObject)])(* CIM14/IEC61968/AssetModels/WireArrangement.py:21-23 *);
  (598, Mod n_WireType [583; 582; 1] false [SFrom 722 n_IdentifiedObject; SClass n_WireType (Some n_IdentifiedObject)])(* CIM14/IEC61968/AssetModels/WireType.py:21-23 *);
  (599, Mod n_Assets [582; 1] true [SFrom 603 n_AssetFunction; SFrom 601 n_Asset; SFrom 602 n_AssetContainer; SFrom 600 n_AcceptanceTest; SFrom 605 n_Seal; SFrom 604 n_ComMediaAsset; SAssign i_nsURI; SAssign i_nsPrefix; SClass n_SealKind None; SClass n_SealConditionKind None])(* CIM14/IEC61968/Assets/__init__.py:24-41 *);
  (600, Mod n_AcceptanceTest [599; 582; 1] false [SFrom 581 n_Element; SClass n_AcceptanceTest (Some n_Element)])(* CIM14/IEC61968/Assets/AcceptanceTest.py:21-23 *);
  (601, Mod n_Asset [599; 582; 1] false [SFrom 722 n_IdentifiedObject; SClass n_Asset (Some n_IdentifiedObject)])(* CIM14/IEC61968/Assets/Asset.py:21-23 *);
  (602, Mod n_AssetContainer [599; 582; 1] false [SFrom 601 n_Asset; SClass n_AssetContainer (Some n_Asset)])(* CIM14/IEC61968/Assets/AssetContainer.py:21-23 *);
  (603, Mod n_AssetFunction [599; 582; 1] false [SFrom 722 n_IdentifiedObject; SClass n_AssetFunction (Some n_IdentifiedObject)])(* CIM14/IEC61968/Assets/AssetFunction.py:21-23 *);
  (604, Mod n_ComMediaAsset [599; 582; 1] false [SFrom 601 n_Asset; SClass n_ComMediaAsset (Some n_Asset)])(* CIM14/IEC61968/Assets/ComMediaAsset.py:21-23 *);
  (605, Mod n_Seal [599; 582; 1] false [SFrom 722 n_IdentifiedObject; SClass n_Seal (Some n_IdentifiedObject)])(* CIM14/IEC61968/Assets/Seal.py:21-23 *);
  (606, Mod i_Common [582; 1] true [SFrom 614 n_Organisation; SFrom 617 n_Status; SFrom 611 n_Document; SFrom 622 n_TimeSchedule; SFrom 623 n_TownDetail; SFrom 613 n_Location; SFrom 616 n_PostalAddress; SFrom 615 n_PositionPoint; SFrom 607 n_ActivityRecord; SFrom 618 n_StreetAddress; SFrom 621 n_TimePoint; SFrom 608 n_Agreement; SFrom 610 n_DateTimeInterval; SFrom 619 n_StreetDetail; SFrom 612 n_ElectronicAddress; SFrom 620 n_TelephoneNumber; SFrom 624 n_UserAttribute; SFrom 609 n_CoordinateSystem; SAssign i_nsURI; SAssign i_nsPrefix])(* CIM14/IEC61968/Common/__init__.py:24-44 *);
  (607, Mod n_ActivityRecord [606; 582; 1] false [SFrom 722 n_IdentifiedObject; SClass n_ActivityRecord (Some n_IdentifiedObject)])(* CIM14/IEC61968/Common/ActivityRecord.py:21-23 *);
  (608, Mod n_Agreement [606; 582; 1] false [SFrom 611 n_Document; SClass n_Agreement (Some n_Document)])(* CIM14/IEC61968/Common/Agreement.py:21-23 *);
  (609, Mod n_CoordinateSystem [606; 582; 1] false [SFrom 581 n_Element; SClass n_CoordinateSystem (Some n_Element)])(* CIM14/IEC61968/Common/CoordinateSystem.py:21-23 *);
  (610, Mod n_DateTimeInterval [606; 582; 1] false [SFrom 581 n_Element; SClass n_DateTimeInterval (Some n_Element)])(* CIM14/IEC61968/Common/DateTimeInterval.py:21-23 *);
  (611, Mod n_Document [606; 582; 1] false [SFrom 722 n_IdentifiedObject; SClass n_Document (Some n_IdentifiedObject)])(* CIM14/IEC61968/Common/Document.py:21-23 *);
  (612, Mod n_ElectronicAddress [606; 582; 1] false [SFrom 581 n_Element; SClass n_ElectronicAddress (Some n_Element)])(* CIM14/IEC61968/Common/ElectronicAddress.py:21-23 *);
  (613, Mod n_Location [606; 582; 1] false [SFrom 722 n_IdentifiedObject; SClass n_Location (Some n_IdentifiedObject)])(* CIM14/IEC61968/Common/Location.py:21-23 *);
  (614, Mod n_Organisation [606; 582; 1] false [SFrom 722 n_IdentifiedObject; SClass n_Organisation (Some n_IdentifiedObject)])(* CIM14/IEC61968/Common/Organisation.py:21-23 *);
  (615, Mod n_PositionPoint [606; 582; 1] false [SFrom 581 n_Element; SClass n_PositionPoint (Some n_Element)])(* CIM14/IEC61968/Common/PositionPoint.py:21-23 *);
  (616, Mod n_PostalAddress [606; 582; 1] false [SFrom 581 n_Element; SClass n_PostalAddress (Some n_Element)])(* CIM14/IEC61968/Common/PostalAddress.py:21-23 *);
  (617, Mod n_Status [606; 582; 1] false [SFrom 581 n_Element; SClass n_Status (Some n_Element)])(* CIM14/IEC61968/Common/Status.py:21-23 *);
  (618, Mod n_StreetAddress [606; 582; 1] false [SFrom 581 n_Element; SClass n_StreetAddress (Some n_Element)])(* CIM14/IEC61968/Common/StreetAddress.py:21-23 *);
  (619, Mod n_StreetDetail [606; 582; 1] false [SFrom 581 n_Element; SClass n_StreetDetail (Some n_Element)])(* CIM14/IEC61968/Common/StreetDetail.py:21-23 *);
  (620, Mod n_TelephoneNumber [606; 582; 1] false [SFrom 581 n_Element; SClass n_TelephoneNumber (Some n_Element)])(* CIM14/IEC61968/Common/TelephoneNumber.py:21-23 *);
  (621, Mod n_TimePoint [606; 582; 1] false [SFrom 722 n_IdentifiedObject; SClass n_TimePoint (Some n_IdentifiedObject)])(* CIM14/IEC61968/Common/TimePoint.py:21-23 *);
  (622, Mod n_TimeSchedule [606; 582; 1] false [SFrom 611 n_Document; SClass n_TimeSchedule (Some n_Document)])(* CIM14/IEC61968/Common/TimeSchedule.py:21-23 *);
  (623, Mod n_TownDetail [606; 582; 1] false [SFrom 581 n_Element; SClass n_TownDetail (Some n_Element)])(* CIM14/IEC61968/Common/TownDetail.py:21-23 *);
  (624, Mod n_UserAttribute [606; 582; 1] false [SFrom 581 n_Element; SClass n_UserAttribute (Some n_Element)])(* CIM14/IEC61968/Common/UserAttribute.py:21-23 *);
  (625, Mod n_Customers [582; 1] true [SFrom 626 n_Customer; SFrom 627 n_CustomerAccount; SFrom 630 n_ServiceCategory; SFrom 629 n_PricingStructure; SFrom 631 n_ServiceLocation; SFrom 628 n_CustomerAgreement; SFrom 632 n_Tariff; SAssign i_nsURI; SAssign i_nsPrefix; SClass n_RevenueKind None; SClass n_CustomerKind None; SClass n_ServiceKind None])(* CIM14/IEC61968/Customers/__init__.py:24-48 *);
  (626, Mod n_Customer [625; 582; 1] false [SFrom 614 n_Organisation; SClass n_Customer (Some n_Organisation)])(* CIM14/IEC61968/Customers/Customer.py:21-23 *);
  (627, Mod n_CustomerAccount [625; 582; 1] false [SFrom 611 n_Document; SClass n_CustomerAccount (Some n_Document)])(* CIM14/IEC61968/Customers/CustomerAccount.py:21-23 *);
  (628, Mod n_CustomerAgreement [625; 582; 1] false [SFrom 608 n_Agreement; SClass n_CustomerAgreement (Some n_Agreement)])(* CIM14/IEC61968/Customers/CustomerAgreement.py:21-23 *);
  (629, Mod n_PricingStructure [625; 582; 1] false [SFrom 611 n_Document; SClass n_PricingStructure (Some n_Document)])(* CIM14/IEC61968/Customers/PricingStructure.py:21-23 *);
  (630, Mod n_ServiceCategory [625; 582; 1] false [SFrom 722 n_IdentifiedObject; SClass n_ServiceCategory (Some n_IdentifiedObject)])(* CIM14/IEC61968/Customers/ServiceCategory.py:21-23 *);
  (631, Mod n_ServiceLocation [625; 582; 1] false [SFrom 613 n_Location; SClass n_ServiceLocation (Some n_Location)])(* CIM14/IEC61968/Customers/ServiceLocation.py:21-23 *);
  (632, Mod n_Tariff [625; 582; 1] false [SFrom 611 n_Document; SClass n_Tariff (Some n_Document)])(* CIM14/IEC61968/Customers/Tariff.py:21-23 *);
  (633, Mod n_IEC61968CIMVersion [582; 1] false [SFrom 581 n_Element; SClass n_IEC61968CIMVersion (Some n_Element)])(* CIM14/IEC61968/IEC61968CIMVersion.py:21-23 *);
  (634, Mod i_LoadControl [582; 1] true [SFrom 636 n_RemoteConnectDisconnectInfo; SFrom 635 n_ConnectDisconnectFunction; SAssign i_nsURI; SAssign i_nsPrefix])(* CIM14/IEC61968/LoadControl/__init__.py:24-28 *);
  (635, Mod n_ConnectDisconnectFunction [634; 582; 1] false [SFrom 640 n_DeviceFunction; SClass n_ConnectDisconnectFunction (Some n_DeviceFunction)])(* CIM14/IEC61968/LoadControl/ConnectDisconnectFunction.py:21-23 *);
  (636, Mod n_RemoteConnectDisconnectInfo [634; 582; 1] false [SFrom 581 n_Element; SClass n_RemoteConnectDisconnectInfo (Some n_Element)])(* CIM14/IEC61968/LoadControl/RemoteConnectDisconnectInfo.py:21-23 *);
  (637, Mod i_Metering [582; 1] true [SFrom 640 n_DeviceFunction; SFrom 638 n_ComFunction; SFrom 656 n_Register; SFrom 644 n_EndDeviceControl; SFrom 653 n_Reading; SFrom 643 n_EndDeviceAsset; SFrom 649 n_MeterAsset; SFrom 642 n_ElectricMeteringFunction; SFrom 646 n_EndDeviceGroup; SFrom 652 n_Pending; SFrom 648 n_IntervalReading; SFrom 650 n_MeterReading; SFrom 639 n_DemandResponseProgram; SFrom 645 n_EndDeviceEvent; SFrom 641 n_DynamicDemand; SFrom 651 n_MeterServiceWork; SFrom 658 n_ServiceDeliveryPoint; SFrom 655 n_ReadingType; SFrom 657 n_SDPLocation; SFrom 654 n_ReadingQuality; SFrom 647 n_IntervalBlock; SAssign i_nsURI; SAssign i_nsPrefix; SClass n_ReadingKind None; SClass n_DemandKind None])(* CIM14/IEC61968/Metering/__init__.py:24-56 *);
  (638, Mod n_ComFunction [637; 582; 1] false [SFrom 640 n_DeviceFunction; SClass n_ComFunction (Some n_DeviceFunction)])(* CIM14/IEC61968/Metering/ComFunction.py:21-23 *);
  (639, Mod n_DemandResponseProgram [637; 582; 1] false [SFrom 722 n_IdentifiedObject; SClass n_DemandResponseProgram (Some n_IdentifiedObject)])(* CIM14/IEC61968/Metering/DemandResponseProgram.py:21-23 *);
  (640, Mod n_DeviceFunction [637; 582; 1] false [SFrom 603 n_AssetFunction; SClass n_DeviceFunction (Some n_AssetFunction)])(* CIM14/IEC61968/Metering/DeviceFunction.py:21-23 *);
  (641, Mod n_DynamicDemand [637; 582; 1] false [SFrom 581 n_Element; SClass n_DynamicDemand (Some n_Element)])(* CIM14/IEC61968/Metering/DynamicDemand.py:21-23 *);
  (642, Mod n_ElectricMeteringFunction [637; 582; 1] false [SFrom 640 n_DeviceFunction; SClass n_ElectricMeteringFunction (Some n_DeviceFunction)])(* CIM14/IEC61968/Metering/ElectricMeteringFunction.py:21-23 *);
  (643, Mod n_EndDeviceAsset [637; 582; 1] false [SFrom 602 n_AssetContainer; SClass n_EndDeviceAsset (Some n_AssetContainer)])(* CIM14/IEC61968/Metering/EndDeviceAsset.py:21-23 *);
  (644, Mod n_EndDeviceControl [637; 582; 1] false [SFrom 722 n_IdentifiedObject; SClass n_EndDeviceControl (Some n_IdentifiedObject)])(* CIM14/IEC61968/Metering/EndDeviceControl.py:21-23 *);
  (645, Mod n_EndDeviceEvent [637; 582; 1] false [SFrom 607 n_ActivityRecord; SClass n_EndDeviceEvent (Some n_ActivityRecord)])(* CIM14/IEC61968/Metering/EndDeviceEvent.py:21-23 *);
  (646, Mod n_EndDeviceGroup [637; 582; 1] false [SFrom 722 n_IdentifiedObject; SClass n_EndDeviceGroup (Some n_IdentifiedObject)])(* CIM14/IEC61968/Metering/EndDeviceGroup.py:21-23 *);
  (647, Mod n_IntervalBlock [637; 582; 1] false [SFrom 581 n_Element; SClass n_IntervalBlock (Some n_Element)])(* CIM14/IEC61968/Metering/IntervalBlock.py:21-23 *);
  (648, Mod n_IntervalReading [637; 582; 1] false [SFrom 992 n_MeasurementValue; SClass n_IntervalReading (Some n_MeasurementValue)])(* CIM14/IEC61968/Metering/IntervalReading.py:21-23 *);
  (649, Mod n_MeterAsset [637; 582; 1] false [SFrom 643 n_EndDeviceAsset; SClass n_MeterAsset (Some n_EndDeviceAsset)])(* CIM14/IEC61968/Metering/MeterAsset.py:21-23 *);
  (650, Mod n_MeterReading [637; 582; 1] false [SFrom 722 n_IdentifiedObject; SClass n_MeterReading (Some n_IdentifiedObject)])(* CIM14/IEC61968/Metering/MeterReading.py:21-23 *);
  (651, Mod n_MeterServiceWork [637; 582; 1] false [SFrom 697 n_Work; SClass n_MeterServiceWork (Some n_Work)])(* CIM14/IEC61968/Metering/MeterServiceWork.py:21-23 *);
  (652, Mod n_Pending [637; 582; 1] false [SFrom 581 n_Element; SClass n_Pending (Some n_Element)])(* CIM14/IEC61968/Metering/Pending.py:21-23 *);
  (653, Mod n_Reading [637; 582; 1] false [SFrom 992 n_MeasurementValue; SClass n_Reading (Some n_MeasurementValue)])(* CIM14/IEC61968/Metering/Reading.py:21-23 *);
  (654, Mod n_ReadingQuality [637; 582; 1] false [SFrom 581 n_Element; SClass n_ReadingQuality (Some n_Element)])(* CIM14/IEC61968/Metering/ReadingQuality.py:21-23 *);
  (655, Mod n_ReadingType [637; 582; 1] false [SFrom 722 n_IdentifiedObject; SClass n_ReadingType (Some n_IdentifiedObject)])(* CIM14/IEC61968/Metering/ReadingType.py:21-23 *);
  (656, Mod n_Register [637; 582; 1] false [SFrom 722 n_IdentifiedObject; SClass n_Register (Some n_IdentifiedObject)])(* CIM14/IEC61968/Metering/Register.py:21-23 *);
  (657, Mod n_SDPLocation [637; 582; 1] false [SFrom 613 n_Location; SClass n_SDPLocation (Some n_Location)])(* CIM14/IEC61968/Metering/SDPLocation.py:21-23 *);
  (658, Mod n_ServiceDeliveryPoint [637; 582; 1] false [SFrom 722 n_IdentifiedObject; SClass n_ServiceDeliveryPoint (Some n_IdentifiedObject)])(* CIM14/IEC61968/Metering/ServiceDeliveryPoint.py:21-23 *);
  (659, Mod i_PaymentMetering [582; 1] true [SFrom 677 n_ServiceSupplier; SFrom 678 n_Shift; SFrom 680 n_Tender; SFrom 679 n_TariffProfile; SFrom 670 n_ConsumptionTariffInterval; SFrom 664 n_BankAccountDetail; SFrom 669 n_Cheque; SFrom 667 n_CashierShift; SFrom 671 n_Due; SFrom 661 n_AccountingUnit; SFrom 665 n_Card; SFrom 662 n_AuxiliaryAccount; SFrom 674 n_MerchantAgreement; SFrom 672 n_LineDetail; SFrom 683 n_Transactor; SFrom 673 n_MerchantAccount; SFrom 684 n_Vendor; SFrom 682 n_Transaction; SFrom 668 n_Charge; SFrom 685 n_VendorShift; SFrom 681 n_TimeTariffInterval; SFrom 666 n_Cashier; SFrom 675 n_PointOfSale; SFrom 676 n_Receipt; SFrom 663 n_AuxiliaryAgreement; SFrom 660 n_AccountMovement; SAssign i_nsURI; SAssign i_nsPrefix; SClass n_ChequeKind None; SClass n_TransactionKind None; SClass n_ChargeKind None; SClass i_CreditKind None; SClass n_SupplierKind None; SClass n_TenderKind None])(* CIM14/IEC61968/PaymentMetering/__init__.py:24-85 *);
  (660, Mod n_AccountMovement [659; 582; 1] false [SFrom 581 n_Element; SClass n_AccountMovement (Some n_Element)])(* CIM14/IEC61968/PaymentMetering/AccountMovement.py:21-23 *);
  (661, Mod n_AccountingUnit [659; 582; 1] false [SFrom 581 n_Element; SClass n_AccountingUnit (Some n_Element)])(* CIM14/IEC61968/PaymentMetering/AccountingUnit.py:21-23 *);
  (662, Mod n_AuxiliaryAccount [659; 582; 1] false [SFrom 611 n_Document; SClass n_AuxiliaryAccount (Some n_Document)])(* CIM14/IEC61968/PaymentMetering/AuxiliaryAccount.py:21-23 *);
  (663, Mod n_AuxiliaryAgreement [659; 582; 1] false [SFrom 608 n_Agreement; SClass n_AuxiliaryAgreement (Some n_Agreement)])(* CIM14/IEC61968/PaymentMetering/AuxiliaryAgreement.py:21-23 *);
  (664, Mod n_BankAccountDetail [659; 582; 1] false [SFrom 581 n_Element; SClass n_BankAccountDetail (Some n_Element)])(* CIM14/IEC61968/PaymentMetering/BankAccountDetail.py:21-23 *);
  (665, Mod n_Card [659; 582; 1] false [SFrom 581 n_Element; SClass n_Card (Some n_Element)])(* CIM14/IEC61968/PaymentMetering/Card.py:21-23 *);
  (666, Mod n_Cashier [659; 582; 1] false [SFrom 722 n_IdentifiedObject; SClass n_Cashier (Some n_IdentifiedObject)])(* CIM14/IEC61968/PaymentMetering/Cashier.py:21-23 *);
  (667, Mod n_CashierShift [659; 582; 1] false [SFrom 678 n_Shift; SClass n_CashierShift (Some n_Shift)])(* CIM14/IEC61968/PaymentMetering/CashierShift.py:21-23 *);
  (668, Mod n_Charge [659; 582; 1] false [SFrom 722 n_IdentifiedObject; SClass n_Charge (Some n_IdentifiedObject)])(* CIM14/IEC61968/PaymentMetering/Charge.py:21-23 *);
  (669, Mod n_Cheque [659; 582; 1] false [SFrom 581 n_Element; SClass n_Cheque (Some n_Element)])(* CIM14/IEC61968/PaymentMetering/Cheque.py:21-23 *);
  (670, Mod n_ConsumptionTariffInterval [659; 582; 1] false [SFrom 581 n_Element; SClass n_ConsumptionTariffInterval (Some n_Element)])(* CIM14/IEC61968/PaymentMetering/ConsumptionTariffInterval.py:21-23 *);
  (671, Mod n_Due [659; 582; 1] false [SFrom 581 n_Element; SClass n_Due (Some n_Element)])(* CIM14/IEC61968/PaymentMetering/Due.py:21-23 *);
  (672, Mod n_LineDetail [659; 582; 1] false [SFrom 581 n_Element; SClass n_LineDetail (Some n_Element)])(* CIM14/IEC61968/PaymentMetering/LineDetail.py:21-23 *);
  (673, Mod n_MerchantAccount [659; 582; 1] false [SFrom 611 n_Document; SClass n_MerchantAccount (Some n_Document)])(* CIM14/IEC61968/PaymentMetering/MerchantAccount.py:21-23 *);
  (674, Mod n_MerchantAgreement [659; 582; 1] false [SFrom 608 n_Agreement; SClass n_MerchantAgreement (Some n_Agreement)])(* CIM14/IEC61968/PaymentMetering/MerchantAgreement.py:21-23 *);
  (675, Mod n_PointOfSale [659; 582; 1] false [SFrom 722 n_IdentifiedObject; SClass n_PointOfSale (Some n_IdentifiedObject)])(* CIM14/IEC61968/PaymentMetering/PointOfSale.py:21-23 *);
  (676, Mod n_Receipt [659; 582; 1] false [SFrom 722 n_IdentifiedObject; SClass n_Receipt (Some n_IdentifiedObject)])(* CIM14/IEC61968/PaymentMetering/Receipt.py:21-23 *);
  (677, Mod n_ServiceSupplier [659; 582; 1] false [SFrom 614 n_Organisation; SClass n_ServiceSupplier (Some n_Organisation)])(* CIM14/IEC61968/PaymentMetering/ServiceSupplier.py:21-23 *);
  (678, Mod n_Shift [659; 582; 1] false [SFrom 722 n_IdentifiedObject; SClass n_Shift (Some n_IdentifiedObject)])(* CIM14/IEC61968/PaymentMetering/Shift.py:21-23 *);
  (679, Mod n_TariffProfile [659; 582; 1] false [SFrom 611 n_Document; SClass n_TariffProfile (Some n_Document)])(* CIM14/IEC61968/PaymentMetering/TariffProfile.py:21-23 *);
  (680, Mod n_Tender [659; 582; 1] false [SFrom 722 n_IdentifiedObject; SClass n_Tender (Some n_IdentifiedObject)])(* CIM14/IEC61968/PaymentMetering/Tender.py:21-23 *);
  (681, Mod n_TimeTariffInterval [659; 582; 1] false [SFrom 581 n_Element; SClass n_TimeTariffInterval (Some n_Element)])(* CIM14/IEC61968/PaymentMetering/TimeTariffInterval.py:21-23 *);
  (682, Mod n_Transaction [659; 582; 1] false [SFrom 722 n_IdentifiedObject; SClass n_Transaction (Some n_IdentifiedObject)])(* CIM14/IEC61968/PaymentMetering/Transaction.py:21-23 *);
  (683, Mod n_Transactor [659; 582; 1] false [SFrom 722 n_IdentifiedObject; SClass n_Transactor (Some n_IdentifiedObject)])(* CIM14/IEC61968/PaymentMetering/Transactor.py:21-23 *);
  (684, Mod n_Vendor [659; 582; 1] false [SFrom 722 n_IdentifiedObject; SClass n_Vendor (Some n_IdentifiedObject)])(* CIM14/IEC61968/PaymentMetering/Vendor.py:21-23 *);
  (685, Mod n_VendorShift [659; 582; 1] false [SFrom 678 n_Shift; SClass n_VendorShift (Some n_Shift)])(* CIM14/IEC61968/PaymentMetering/VendorShift.py:21-23 *);
  (686, Mod i_WiresExt [582; 1] true [SFrom 694 n_TransformerBank; SFrom 693 n_PhaseImpedanceData; SFrom 688 n_DistributionTapChanger; SFrom 691 n_PerLengthPhaseImpedance; SFrom 692 n_PerLengthSequenceImpedance; SFrom 695 n_WindingPiImpedance; SFrom 687 n_DistributionLineSegment; SFrom 689 n_DistributionTransformer; SFrom 690 n_DistributionTransformerWinding; SAssign i_nsURI; SAssign i_nsPrefix])(* CIM14/IEC61968/WiresExt/__init__.py:24-35 *);
  (687, Mod n_DistributionLineSegment [686; 582; 1] false [SFrom 1044 n_ACLineSegment; SClass n_DistributionLineSegment (Some n_ACLineSegment)])(* CIM14/IEC61968/WiresExt/DistributionLineSegment.py:21-23 *);
  (688, Mod n_DistributionTapChanger [686; 582; 1] false [SFrom 1070 n_RatioTapChanger; SClass n_DistributionTapChanger (Some n_RatioTapChanger)])(* CIM14/IEC61968/WiresExt/DistributionTapChanger.py:21-23 *);
  (689, Mod n_DistributionTransformer [686; 582; 1] false [SFrom 719 n_Equipment; SClass n_DistributionTransformer (Some n_Equipment)])(* CIM14/IEC61968/WiresExt/DistributionTransformer.py:21-23 *);
  (690, Mod n_DistributionTransformerWinding [686; 582; 1] false [SFrom 714 n_ConductingEquipment; SClass n_DistributionTransformerWinding (Some n_ConductingEquipment)])(* CIM14/IEC61968/WiresExt/DistributionTransformerWinding.py:21-23 *);
  (691, Mod n_PerLengthPhaseImpedance [686; 582; 1] false [SFrom 722 n_IdentifiedObject; SClass n_PerLengthPhaseImpedance (Some n_IdentifiedObject)])(* CIM14/IEC61968/WiresExt/PerLengthPhaseImpedance.py:21-23 *);
  (692, Mod n_PerLengthSequenceImpedance [686; 582; 1] false [SFrom 722 n_IdentifiedObject; SClass n_PerLengthSequenceImpedance (Some n_IdentifiedObject)])(* CIM14/IEC61968/WiresExt/PerLengthSequenceImpedance.py:21-23 *);
  (693, Mod n_PhaseImpedanceData [686; 582; 1] false [SFrom 581 n_Element; SClass n_PhaseImpedanceData (Some n_Element)])(* CIM14/IEC61968/WiresExt/PhaseImpedanceData.py:21-23 *);
  (694, Mod n_TransformerBank [686; 582; 1] false [SFrom 719 n_Equipment; SClass n_TransformerBank (Some n_Equipment)])(* CIM14/IEC61968/WiresExt/TransformerBank.py:21-23 *);
  (695, Mod n_WindingPiImpedance [686; 582; 1] false [SFrom 722 n_IdentifiedObject; SClass n_WindingPiImpedance (Some n_IdentifiedObject)])(* CIM14/IEC61968/WiresExt/WindingPiImpedance.py:21-23 *);
  (696, Mod n_Work [582; 1] true [SFrom 697 n_Work; SAssign i_nsURI; SAssign i_nsPrefix; SClass n_WorkKind None])(* CIM14/IEC61968/Work/__init__.py:24-30 *);
  (697, Mod n_Work [696; 582; 1] false [SFrom 611 n_Document; SClass n_Work (Some n_Document)])(* CIM14/IEC61968/Work/Work.py:21-23 *);
  (698, Mod i_IEC61970 [1] true [SFrom 952 n_IEC61970CIMVersion; SAssign i_nsURI; SAssign i_nsPrefix])(* CIM14/IEC61970/__init__.py:24-27 *);
  (699, Mod n_Contingency [698; 1] true [SFrom 701 n_ContingencyElement; SFrom 702 n_ContingencyEquipment; SFrom 700 n_Contingency; SAssign i_nsURI; SAssign i_nsPrefix; SClass n_ContingencyEquipmentStatusKind None])(* CIM14/IEC61970/Contingency/__init__.py:24-32 *);
  (700, Mod n_Contingency [699; 698; 1] false [SFrom 722 n_IdentifiedObject; SClass n_Contingency (Some n_IdentifiedObject)])(* CIM14/IEC61970/Contingency/Contingency.py:21-23 *);
  (701, Mod n_ContingencyElement [699; 698; 1] false [SFrom 722 n_IdentifiedObject; SClass n_ContingencyElement (Some n_IdentifiedObject)])(* CIM14/IEC61970/Contingency/ContingencyElement.py:21-23 *);
  (702, Mod n_ContingencyEquipment [699; 698; 1] false [SFrom 701 n_ContingencyElement; SClass n_ContingencyEquipment (Some n_ContingencyElement)])(* CIM14/IEC61970/Contingency/ContingencyEquipment.py:21-23 *);
  (703, Mod n_ControlArea [698; 1] true [SFrom 705 n_AltTieMeas; SFrom 704 n_AltGeneratingUnitMeas; SFrom 706 n_ControlArea; SFrom 708 n_TieFlow; SFrom 707 n_ControlAreaGeneratingUnit; SAssign i_nsURI; SAssign i_nsPrefix; SClass n_ControlAreaTypeKind None])(* CIM14/IEC61970/ControlArea/__init__.py:24-34 *);
  (704, Mod n_AltGeneratingUnitMeas [703; 698; 1] false [SFrom 581 n_Element; SClass n_AltGeneratingUnitMeas (Some n_Element)])(* CIM14/IEC61970/ControlArea/AltGeneratingUnitMeas.py:21-23 *);
  (705, Mod n_AltTieMeas [703; 698; 1] false [SFrom 581 n_Element; SClass n_AltTieMeas (Some n_Element)])(* CIM14/IEC61970/ControlArea/AltTieMeas.py:21-23 *);
  (706, Mod n_ControlArea [703; 698; 1] false [SFrom 728 n_PowerSystemResource; SClass n_ControlArea (Some n_PowerSystemResource)])(* CIM14/IEC61970/ControlArea/ControlArea.py:21-23 *);
  (707, Mod n_ControlAreaGeneratingUnit [703; 698; 1] false [SFrom 581 n_Element; SClass n_ControlAreaGeneratingUnit (Some n_Element)])(* CIM14/IEC61970/ControlArea/ControlAreaGeneratingUnit.py:21-23 *);
  (708, Mod n_TieFlow [703; 698; 1] false [SFrom 581 n_Element; SClass n_TieFlow (Some n_Element)])(* CIM14/IEC61970/ControlArea/TieFlow.py:21-23 *);
  (709, Mod i_Core [698; 1] true [SFrom 722 n_IdentifiedObject; SFrom 728 n_PowerSystemResource; SFrom 719 n_Equipment; SFrom 714 n_ConductingEquipment; SFrom 717 n_Curve; SFrom 712 n_BasicIntervalSchedule; SFrom 723 n_IrregularIntervalSchedule; SFrom 730 n_RegularIntervalSchedule; SFrom 716 n_ConnectivityNodeContainer; SFrom 720 n_EquipmentContainer; SFrom 718 n_CurveData; SFrom 713 n_Bay; SFrom 727 n_PSRType; SFrom 721 n_GeographicalRegion; SFrom 736 n_Terminal; SFrom 725 n_OperatingParticipant; SFrom 738 n_VoltageLevel; SFrom 715 n_ConnectivityNode; SFrom 710 n_BasePower; SFrom 737 n_Unit; SFrom 711 n_BaseVoltage; SFrom 734 n_SubGeographicalRegion; SFrom 729 n_PsrList; SFrom 735 n_Substation; SFrom 732 n_ReportingGroup; SFrom 733 n_ReportingSuperGroup; SFrom 731 n_RegularTimePoint; SFrom 724 n_IrregularTimePoint; SFrom 726 n_OperatingShare; SAssign i_nsURI; SAssign i_nsPrefix; SClass n_PhaseCode None; SClass n_BreakerConfiguration None; SClass i_CompanyType None; SClass n_CurveStyle None; SClass n_BusbarConfiguration None])(* CIM14/IEC61970/Core/__init__.py:24-82 *);
  (710, Mod n_BasePower [709; 698; 1] false [SFrom 722 n_IdentifiedObject; SClass n_BasePower (Some n_IdentifiedObject)])(* CIM14/IEC61970/Core/BasePower.py:21-23 *);
  (711, Mod n_BaseVoltage [709; 698; 1] false [SFrom 722 n_IdentifiedObject; SClass n_BaseVoltage (Some n_IdentifiedObject)])(* CIM14/IEC61970/Core/BaseVoltage.py:21-23 *);
  (712, Mod n_BasicIntervalSchedule [709; 698; 1] false [SFrom 722 n_IdentifiedObject; SClass n_BasicIntervalSchedule (Some n_IdentifiedObject)])(* CIM14/IEC61970/Core/BasicIntervalSchedule.py:21-23 *);
  (713, Mod n_Bay [709; 698; 1] false [SFrom 720 n_EquipmentContainer; SClass n_Bay (Some n_EquipmentContainer)])(* CIM14/IEC61970/Core/Bay.py:21-23 *);
  (714, Mod n_ConductingEquipment [709; 698; 1] false [SFrom 719 n_Equipment; SClass n_ConductingEquipment (Some n_Equipment)])(* CIM14/IEC61970/Core/ConductingEquipment.py:21-23 *);
  (715, Mod n_ConnectivityNode [709; 698; 1] false [SFrom 722 n_IdentifiedObject; SClass n_ConnectivityNode (Some n_IdentifiedObject)])(* CIM14/IEC61970/Core/ConnectivityNode.py:21-23 *);
  (716, Mod n_ConnectivityNodeContainer [709; 698; 1] false [SFrom 728 n_PowerSystemResource; SClass n_ConnectivityNodeContainer (Some n_PowerSystemResource)])(* CIM14/IEC61970/Core/ConnectivityNodeContainer.py:21-23 *);
  (717, Mod n_Curve [709; 698; 1] false [SFrom 722 n_IdentifiedObject; SClass n_Curve (Some n_IdentifiedObject)])(* CIM14/IEC61970/Core/Curve.py:21-23 *);
  (718, Mod n_CurveData [709; 698; 1] false [SFrom 581 n_Element; SClass n_CurveData (Some n_Element)])(* CIM14/IEC61970/Core/CurveData.py:21-23 *);
  (719, Mod n_Equipment [709; 698; 1] false [SFrom 728 n_PowerSystemResource; SClass n_Equipment (Some n_PowerSystemResource)])(* CIM14/IEC61970/Core/Equipment.py:21-23 *);
  (720, Mod n_EquipmentContainer [709; 698; 1] false [SFrom 716 n_ConnectivityNodeContainer; SClass n_EquipmentContainer (Some n_ConnectivityNodeContainer)])(* CIM14/IEC61970/Core/EquipmentContainer.py:21-23 *);
  (721, Mod n_GeographicalRegion [709; 698; 1] false [SFrom 722 n_IdentifiedObject; SClass n_GeographicalRegion (Some n_IdentifiedObject)])(* CIM14/IEC61970/Core/GeographicalRegion.py:21-23 *);
  (722, Mod n_IdentifiedObject [709; 698; 1] false [SFrom 581 n_Element; SClass n_IdentifiedObject (Some n_Element)])(* CIM14/IEC61970/Core/IdentifiedObject.py:21-23 *);
  (723, Mod n_IrregularIntervalSchedule [709; 698; 1] false [SFrom 712 n_BasicIntervalSchedule; SClass n_IrregularIntervalSchedule (Some n_BasicIntervalSchedule)])(* CIM14/IEC61970/Core/IrregularIntervalSchedule.py:21-23 *);
  (724, Mod n_IrregularTimePoint [709; 698; 1] false [SFrom 581 n_Element; SClass n_IrregularTimePoint (Some n_Element)])(* CIM14/IEC61970/Core/IrregularTimePoint.py:21-23 *);
  (725, Mod n_OperatingParticipant [709; 698; 1] false [SFrom 722 n_IdentifiedObject; SClass n_OperatingParticipant (Some n_IdentifiedObject)])(* CIM14/IEC61970/Core/OperatingParticipant.py:21-23 *);
  (726, Mod n_OperatingShare [709; 698; 1] false [SFrom 581 n_Element; SClass n_OperatingShare (Some n_Element)])(* CIM14/IEC61970/Core/OperatingShare.py:21-23 *);
  (727, Mod n_PSRType [709; 698; 1] false [SFrom 722 n_IdentifiedObject; SClass n_PSRType (Some n_IdentifiedObject)])(* CIM14/IEC61970/Core/PSRType.py:21-23 *);
  (728, Mod n_PowerSystemResource [709; 698; 1] false [SFrom 722 n_IdentifiedObject; SClass n_PowerSystemResource (Some n_IdentifiedObject)])(* CIM14/IEC61970/Core/PowerSystemResource.py:21-23 *);
  (729, Mod n_PsrList [709; 698; 1] false [SFrom 722 n_IdentifiedObject; SClass n_PsrList (Some n_IdentifiedObject)])(* CIM14/IEC61970/Core/PsrList.py:21-23 *);
  (730, Mod n_RegularIntervalSchedule [709; 698; 1] false [SFrom 712 n_BasicIntervalSchedule; SClass n_RegularIntervalSchedule (Some n_BasicIntervalSchedule)])(* CIM14/IEC61970/Core/RegularIntervalSchedule.py:21-23 *);
  (731, Mod n_RegularTimePoint [709; 698; 1] false [SFrom 581 n_Element; SClass n_RegularTimePoint (Some n_Element)])(* CIM14/IEC61970/Core/RegularTimePoint.py:21-23 *);
  (732, Mod n_ReportingGroup [709; 698; 1] false [SFrom 722 n_IdentifiedObject; SClass n_ReportingGroup (Some n_IdentifiedObject)])(* CIM14/IEC61970/Core/ReportingGroup.py:21-23 *);
  (733, Mod n_ReportingSuperGroup [709; 698; 1] false [SFrom 722 n_IdentifiedObject; SClass n_ReportingSuperGroup (Some n_IdentifiedObject)])(* CIM14/IEC61970/Core/ReportingSuperGroup.py:21-23 *);
  (734, Mod n_SubGeographicalRegion [709; 698; 1] false [SFrom 722 n_IdentifiedObject; SClass n_SubGeographicalRegion (Some n_IdentifiedObject)])(* CIM14/IEC61970/Core/SubGeographicalRegion.py:21-23 *);
  (735, Mod n_Substation [709; 698; 1] false [SFrom 720 n_EquipmentContainer; SClass n_Substation (Some n_EquipmentContainer)])(* CIM14/IEC61970/Core/Substation.py:21-23 *);
  (736, Mod n_Terminal [709; 698; 1] false [SFrom 722 n_IdentifiedObject; SClass n_Terminal (Some n_IdentifiedObject)])(* CIM14/IEC61970/Core/Terminal.py:21-23 *);
  (737, Mod n_Unit [709; 698; 1] false [SFrom 722 n_IdentifiedObject; SClass n_Unit (Some n_IdentifiedObject)])(* CIM14/IEC61970/Core/Unit.py:21-23 *);
  (738, Mod n_VoltageLevel [709; 698; 1] false [SFrom 720 n_EquipmentContainer; SClass n_VoltageLevel (Some n_EquipmentContainer)])(* CIM14/IEC61970/Core/VoltageLevel.py:21-23 *);
  (739, Mod i_Domain [698; 1] true [SAssign i_nsURI; SAssign i_nsPrefix; SClass n_UnitMultiplier None; SClass i_MonetaryAmountPerHeatUnit None; SClass i_MonetaryAmountRate None; SClass n_UnitSymbol None; SClass n_Currency None; SClass i_MonetaryAmountPerEnergyUnit None; SClass i_PerCent None; SClass i_PU None; SClass i_Money None; SClass i_AbsoluteDate None; SClass i_Seconds None; SClass i_Voltage None; SClass i_Reactance None; SClass i_WaterLevel None; SClass i_ActivePowerChangeRate None; SClass i_ActivePower None; SClass i_Length None; SClass i_ApparentPower None; SClass i_Frequency None; SClass i_Susceptance None; SClass i_Resistance None; SClass i_Conductance None; SClass i_CurrentFlow None; SClass i_RealEnergy None; SClass i_Damping None; SClass i_StringQuantity None; SClass i_ReactivePower None; SClass i_AngleRadians None; SClass i_Temperature None; SClass i_KWActivePower None; SClass i_CostPerEnergyUnit None; SClass i_VoltagePerReactivePower None; SClass i_Impedance None; SClass i_Weight None; SClass i_AngleDegrees None; SClass i_RotationSpeed None; SClass i_Volume None; SClass i_FloatQuantity None; SClass i_CostRate None; SClass i_Inductance None; SClass i_Pressure None; SClass i_Hours None; SClass i_Minutes None])(* CIM14/IEC61970/Domain/__init__.py:25-243 *);
  (740, Mod i_Dynamics [698; 1] true [SFrom 744 n_BlockConnection; SFrom 843 n_RotatingMachine; SFrom 741 n_AsynchronousMachine; SFrom 753 n_BlockUsageInputReference; SFrom 811 n_MetaBlockConnectable; SFrom 816 n_MetaBlockOutput; SFrom 809 n_MetaBlockConOutput; SFrom 807 n_MetaBlock; SFrom 814 n_MetaBlockInput; SFrom 848 n_SlotReference; SFrom 815 n_MetaBlockInputReference; SFrom 818 n_MetaBlockParameter; SFrom 819 n_MetaBlockParameterReference; SFrom 755 n_CompositeModel; SFrom 748 n_BlockInputType; SFrom 745 n_BlockConnectivity; SFrom 846 n_SlotInput; SFrom 821 n_MetaBlockSignal; SFrom 823 n_MetaBlockStateReference; SFrom 746 n_BlockConstant; SFrom 849 n_SourceModels; SFrom 845 n_SlotConnection; SFrom 743 n_Block; SFrom 756 n_ConnectionFrame; SFrom 808 n_MetaBlockConInput; SFrom 850 n_StaticVarDevice; SFrom 742 n_AttributeBlockParameter; SFrom 890 n_UserBlockParameter; SFrom 812 n_MetaBlockConnection; SFrom 844 n_Slot; SFrom 820 n_MetaBlockReference; SFrom 747 n_BlockInputReference; SFrom 751 n_BlockParameter; SFrom 810 n_MetaBlockConSignal; SFrom 749 n_BlockOutputReference; SFrom 757 n_ExcitationSystemLimiter; SFrom 752 n_BlockType; SFrom 847 n_SlotOutput; SFrom 842 n_ProtectiveDevice; SFrom 822 n_MetaBlockState; SFrom 754 n_BlockUsageOutputReference; SFrom 851 n_TieToMeasurement; SFrom 813 n_MetaBlockConnectivity; SFrom 817 n_MetaBlockOutputReference; SFrom 750 n_BlockOutputType; SAssign i_nsURI; SAssign i_nsPrefix; SClass n_BlockKind None])(* CIM14/IEC61970/Dynamics/__init__.py:24-74 *);
  (741, Mod n_AsynchronousMachine [740; 698; 1] false [SFrom 843 n_RotatingMachine; SClass n_AsynchronousMachine (Some n_RotatingMachine)])(* CIM14/IEC61970/Dynamics/AsynchronousMachine.py:21-23 *);
  (742, Mod n_AttributeBlockParameter [740; 698; 1] false [SFrom 818 n_MetaBlockParameter; SClass n_AttributeBlockParameter (Some n_MetaBlockParameter)])(* CIM14/IEC61970/Dynamics/AttributeBlockParameter.py:21-23 *);
  (743, Mod n_Block [740; 698; 1] false [SFrom 728 n_PowerSystemResource; SClass n_Block (Some n_PowerSystemResource)])(* CIM14/IEC61970/Dynamics/Block.py:21-23 *);
  (744, Mod n_BlockConnection [740; 698; 1] false [SFrom 722 n_IdentifiedObject; SClass n_BlockConnection (Some n_IdentifiedObject)])(* CIM14/IEC61970/Dynamics/BlockConnection.py:21-23 *);
  (745, Mod n_BlockConnectivity [740; 698; 1] false [SFrom 722 n_IdentifiedObject; SClass n_BlockConnectivity (Some n_IdentifiedObject)])(* CIM14/IEC61970/Dynamics/BlockConnectivity.py:21-23 *);
  (746, Mod n_BlockConstant [740; 698; 1] false [SFrom 811 n_MetaBlockConnectable; SClass n_BlockConstant (Some n_MetaBlockConnectable)])(* CIM14/IEC61970/Dynamics/BlockConstant.py:21-23 *);
  (747, Mod n_BlockInputReference [740; 698; 1] false [SFrom 722 n_IdentifiedObject; SClass n_BlockInputReference (Some n_IdentifiedObject)])(* CIM14/IEC61970/Dynamics/BlockInputReference.py:21-23 *);
  (748, Mod n_BlockInputType [740; 698; 1] false [SFrom 722 n_IdentifiedObject; SClass n_BlockInputType (Some n_IdentifiedObject)])(* CIM14/IEC61970/Dynamics/BlockInputType.py:21-23 *);
  (749, Mod n_BlockOutputReference [740; 698; 1] false [SFrom 811 n_MetaBlockConnectable; SClass n_BlockOutputReference (Some n_MetaBlockConnectable)])(* CIM14/IEC61970/Dynamics/BlockOutputReference.py:21-23 *);
  (750, Mod n_BlockOutputType [740; 698; 1] false [SFrom 722 n_IdentifiedObject; SClass n_BlockOutputType (Some n_IdentifiedObject)])(* CIM14/IEC61970/Dynamics/BlockOutputType.py:21-23 *);
  (751, Mod n_BlockParameter [740; 698; 1] false [SFrom 722 n_IdentifiedObject; SClass n_BlockParameter (Some n_IdentifiedObject)])(* CIM14/IEC61970/Dynamics/BlockParameter.py:21-23 *);
  (752, Mod n_BlockType [740; 698; 1] false [SFrom 722 n_IdentifiedObject; SClass n_BlockType (Some n_IdentifiedObject)])(* CIM14/IEC61970/Dynamics/BlockType.py:21-23 *);
  (753, Mod n_BlockUsageInputReference [740; 698; 1] false [SFrom 722 n_IdentifiedObject; SClass n_BlockUsageInputReference (Some n_IdentifiedObject)])(* CIM14/IEC61970/Dynamics/BlockUsageInputReference.py:21-23 *);
  (754, Mod n_BlockUsageOutputReference [740; 698; 1] false [SFrom 722 n_IdentifiedObject; SClass n_BlockUsageOutputReference (Some n_IdentifiedObject)])(* CIM14/IEC61970/Dynamics/BlockUsageOutputReference.py:21-23 *);
  (755, Mod n_CompositeModel [740; 698; 1] false [SFrom 581 n_Element; SClass n_CompositeModel (Some n_Element)])(* CIM14/IEC61970/Dynamics/CompositeModel.py:21-23 *);
  (756, Mod n_ConnectionFrame [740; 698; 1] false [SFrom 722 n_IdentifiedObject; SClass n_ConnectionFrame (Some n_IdentifiedObject)])(* CIM14/IEC61970/Dynamics/ConnectionFrame.py:21-23 *);
  (757, Mod n_ExcitationSystemLimiter [740; 698; 1] false [SFrom 581 n_Element; SClass n_ExcitationSystemLimiter (Some n_Element)])(* CIM14/IEC61970/Dynamics/ExcitationSystemLimiter.py:21-23 *);
  (758, Mod i_ExcitationSystems [740; 698; 1] true [SFrom 793 n_ExcitationSystem; SFrom 773 n_ExcDC4B; SFrom 759 n_ExcAC1A; SFrom 780 n_ExcSEXS; SFrom 764 n_ExcAC6A; SFrom 772 n_ExcDC3A; SFrom 768 n_ExcBBC; SFrom 789 n_ExcST7B; SFrom 779 n_ExcSCRX; SFrom 763 n_ExcAC5A; SFrom 778 n_ExcREXS; SFrom 774 n_ExcELIN1; SFrom 785 n_ExcST3A; SFrom 782 n_ExcSK2; SFrom 777 n_ExcPIC; SFrom 787 n_ExcST5B; SFrom 769 n_ExcCZ; SFrom 783 n_ExcST1A; SFrom 770 n_ExcDC1A; SFrom 761 n_ExcAC3A; SFrom 762 n_ExcAC4A; SFrom 760 n_ExcAC2A; SFrom 790 n_ExcWT2E; SFrom 771 n_ExcDC2A; SFrom 766 n_ExcAC8B; SFrom 784 n_ExcST2A; SFrom 776 n_ExcHU; SFrom 767 n_ExcBAS; SFrom 781 n_ExcSK; SFrom 791 n_ExcWT3E; SFrom 788 n_ExcST6B; SFrom 775 n_ExcELIN2; SFrom 786 n_ExcST4B; SFrom 765 n_ExcAC7B; SFrom 792 n_ExcWT4E; SAssign i_nsURI; SAssign i_nsPrefix])(* CIM14/IEC61970/Dynamics/ExcitationSystems/__init__.py:22-59 *);
  (759, Mod n_ExcAC1A [758; 740; 698; 1] false [SFrom 793 n_ExcitationSystem; SClass n_ExcAC1A (Some n_ExcitationSystem)])(* CIM14/IEC61970/Dynamics/ExcitationSystems/ExcAC1A.py:21-23 *);
  (760, Mod n_ExcAC2A [758; 740; 698; 1] false [SFrom 793 n_ExcitationSystem; SClass n_ExcAC2A (Some n_ExcitationSystem)])(* CIM14/IEC61970/Dynamics/ExcitationSystems/ExcAC2A.py:21-23 *);
  (761, Mod n_ExcAC3A [758; 740; 698; 1] false [SFrom 793 n_ExcitationSystem; SClass n_ExcAC3A (Some n_ExcitationSystem)])(* CIM14/IEC61970/Dynamics/ExcitationSystems/ExcAC3A.py:21-23 *);
  (762, Mod n_ExcAC4A [758; 740; 698; 1] false [SFrom 793 n_ExcitationSystem; SClass n_ExcAC4A (Some n_ExcitationSystem)])(* CIM14/IEC61970/Dynamics/ExcitationSystems/ExcAC4A.py:21-23 *);
  (763, Mod n_ExcAC5A [758; 740; 698; 1] false [SFrom 793 n_ExcitationSystem; SClass n_ExcAC5A (Some n_ExcitationSystem)])(* CIM14/IEC61970/Dynamics/ExcitationSystems/ExcAC5A.py:21-23 *);
  (764, Mod n_ExcAC6A [758; 740; 698; 1] false [SFrom 793 n_ExcitationSystem; SClass n_ExcAC6A (Some n_ExcitationSystem)])(* CIM14/IEC61970/Dynamics/ExcitationSystems/ExcAC6A.py:21-23 *);
  (765, Mod n_ExcAC7B [758; 740; 698; 1] false [SFrom 793 n_ExcitationSystem; SClass n_ExcAC7B (Some n_ExcitationSystem)])(* CIM14/IEC61970/Dynamics/ExcitationSystems/ExcAC7B.py:21-23 *);
  (766, Mod n_ExcAC8B [758; 740; 698; 1] false [SFrom 793 n_ExcitationSystem; SClass n_ExcAC8B (Some n_ExcitationSystem)])(* CIM14/IEC61970/Dynamics/ExcitationSystems/ExcAC8B.py:21-23 *);
  (767, Mod n_ExcBAS [758; 740; 698; 1] false [SFrom 793 n_ExcitationSystem; SClass n_ExcBAS (Some n_ExcitationSystem)])(* CIM14/IEC61970/Dynamics/ExcitationSystems/ExcBAS.py:21-23 *);
  (768, Mod n_ExcBBC [758; 740; 698; 1] false [SFrom 793 n_ExcitationSystem; SClass n_ExcBBC (Some n_ExcitationSystem)])(* CIM14/IEC61970/Dynamics/ExcitationSystems/ExcBBC.py:21-23 *);
  (769, Mod n_ExcCZ [758; 740; 698; 1] false [SFrom 793 n_ExcitationSystem; SClass n_ExcCZ (Some n_ExcitationSystem)])(* CIM14/IEC61970/Dynamics/ExcitationSystems/ExcCZ.py:21-23 *);
  (770, Mod n_ExcDC1A [758; 740; 698; 1] false [SFrom 793 n_ExcitationSystem; SClass n_ExcDC1A (Some n_ExcitationSystem)])(* CIM14/IEC61970/Dynamics/ExcitationSystems/ExcDC1A.py:21-23 *);
  (771, Mod n_ExcDC2A [758; 740; 698; 1] false [SFrom 793 n_ExcitationSystem; SClass n_ExcDC2A (Some n_ExcitationSystem)])(* CIM14/IEC61970/Dynamics/ExcitationSystems/ExcDC2A.py:21-23 *);
  (772, Mod n_ExcDC3A [758; 740; 698; 1] false [SFrom 793 n_ExcitationSystem; SClass n_ExcDC3A (Some n_ExcitationSystem)])(* CIM14/IEC61970/Dynamics/ExcitationSystems/ExcDC3A.py:21-23 *);
  (773, Mod n_ExcDC4B [758; 740; 698; 1] false [SFrom 793 n_ExcitationSystem; SClass n_ExcDC4B (Some n_ExcitationSystem)])(* CIM14/IEC61970/Dynamics/ExcitationSystems/ExcDC4B.py:21-23 *);
  (774, Mod n_ExcELIN1 [758; 740; 698; 1] false [SFrom 793 n_ExcitationSystem; SClass n_ExcELIN1 (Some n_ExcitationSystem)])(* CIM14/IEC61970/Dynamics/ExcitationSystems/ExcELIN1.py:21-23 *);
  (775, Mod n_ExcELIN2 [758; 740; 698; 1] false [SFrom 793 n_ExcitationSystem; SClass n_ExcELIN2 (Some n_ExcitationSystem)])(* CIM14/IEC61970/Dynamics/ExcitationSystems/ExcELIN2.py:21-23 *);
  (776, Mod n_ExcHU [758; 740; 698; 1] false [SFrom 793 n_ExcitationSystem; SClass n_ExcHU (Some n_ExcitationSystem)])(* CIM14/IEC61970/Dynamics/ExcitationSystems/ExcHU.py:21-23 *);
  (777, Mod n_ExcPIC [758; 740; 698; 1] false [SFrom 793 n_ExcitationSystem; SClass n_ExcPIC (Some n_ExcitationSystem)])(* CIM14/IEC61970/Dynamics/ExcitationSystems/ExcPIC.py:21-23 *);
  (778, Mod n_ExcREXS [758; 740; 698; 1] false [SFrom 793 n_ExcitationSystem; SClass n_ExcREXS (Some n_ExcitationSystem)])(* CIM14/IEC61970/Dynamics/ExcitationSystems/ExcREXS.py:21-23 *);
  (779, Mod n_ExcSCRX [758; 740; 698; 1] false [SFrom 793 n_ExcitationSystem; SClass n_ExcSCRX (Some n_ExcitationSystem)])(* CIM14/IEC61970/Dynamics/ExcitationSystems/ExcSCRX.py:21-23 *);
  (780, Mod n_ExcSEXS [758; 740; 698; 1] false [SFrom 793 n_ExcitationSystem; SClass n_ExcSEXS (Some n_ExcitationSystem)])(* CIM14/IEC61970/Dynamics/ExcitationSystems/ExcSEXS.py:21-23 *);
  (781, Mod n_ExcSK [758; 740; 698; 1] false [SFrom 793 n_ExcitationSystem; SClass n_ExcSK (Some n_ExcitationSystem)])(* CIM14/IEC61970/Dynamics/ExcitationSystems/ExcSK.py:21-23 *);
  (782, Mod n_ExcSK2 [758; 740; 698; 1] false [SFrom 793 n_ExcitationSystem; SClass n_ExcSK2 (Some n_ExcitationSystem)])(* CIM14/IEC61970/Dynamics/ExcitationSystems/ExcSK2.py:21-23 *);
  (783, Mod n_ExcST1A [758; 740; 698; 1] false [SFrom 793 n_ExcitationSystem; SClass n_ExcST1A (Some n_ExcitationSystem)])(* CIM14/IEC61970/Dynamics/ExcitationSystems/ExcST1A.py:21-23 *);
  (784, Mod n_ExcST2A [758; 740; 698; 1] false [SFrom 793 n_ExcitationSystem; SClass n_ExcST2A (Some n_ExcitationSystem)])(* CIM14/IEC61970/Dynamics/ExcitationSystems/ExcST2A.py:21-23 *);
  (785, Mod n_ExcST3A [758; 740; 698; 1] false [SFrom 793 n_ExcitationSystem; SClass n_ExcST3A (Some n_ExcitationSystem)])(* CIM14/IEC61970/Dynamics/ExcitationSystems/ExcST3A.py:21-23 *);
  (786, Mod n_ExcST4B [758; 740; 698; 1] false [SFrom 793 n_ExcitationSystem; SClass n_ExcST4B (Some n_ExcitationSystem)])(* CIM14/IEC61970/Dynamics/ExcitationSystems/ExcST4B.py:21-23 *);
  (787, Mod n_ExcST5B [758; 740; 698; 1] false [SFrom 793 n_ExcitationSystem; SClass n_ExcST5B (Some n_ExcitationSystem)])(* CIM14/IEC61970/Dynamics/ExcitationSystems/ExcST5B.py:21-23 *);
  (788, Mod n_ExcST6B [758; 740; 698; 1] false [SFrom 793 n_ExcitationSystem; SClass n_ExcST6B (Some n_ExcitationSystem)])(* CIM14/IEC61970/Dynamics/ExcitationSystems/ExcST6B.py:21-23 *);
  (789, Mod n_ExcST7B [758; 740; 698; 1] false [SFrom 793 n_ExcitationSystem; SClass n_ExcST7B (Some n_ExcitationSystem)])(* CIM14/IEC61970/Dynamics/ExcitationSystems/ExcST7B.py:21-23 *);
  (790, Mod n_ExcWT2E [758; 740; 698; 1] false [SFrom 793 n_ExcitationSystem; SClass n_ExcWT2E (Some n_ExcitationSystem)])(* CIM14/IEC61970/Dynamics/ExcitationSystems/ExcWT2E.py:21-23 *);
  (791, Mod n_ExcWT3E [758; 740; 698; 1] false [SFrom 793 n_ExcitationSystem; SClass n_ExcWT3E (Some n_ExcitationSystem)])(* CIM14/IEC61970/Dynamics/ExcitationSystems/ExcWT3E.py:21-23 *);
  (792, Mod n_ExcWT4E [758; 740; 698; 1] false [SFrom 793 n_ExcitationSystem; SClass n_ExcWT4E (Some n_ExcitationSystem)])(* CIM14/IEC61970/Dynamics/ExcitationSystems/ExcWT4E.py:21-23 *);
  (793, Mod n_ExcitationSystem [758; 740; 698; 1] false [SFrom 728 n_PowerSystemResource; SClass n_ExcitationSystem (Some n_PowerSystemResource)])(* CIM14/IEC61970/Dynamics/ExcitationSystems/ExcitationSystem.py:21-23 *);
  (794, Mod i_Generators [740; 698; 1] true [SFrom 797 n_GenLoad; SFrom 796 n_GenEquiv; SFrom 795 n_GenAsync; SAssign i_nsURI; SAssign i_nsPrefix; SClass i_IfdBaseType None; SClass i_SynchronousGeneratorType None; SClass n_ParametersFormType None])(* CIM14/IEC61970/Dynamics/Generators/__init__.py:22-41 *);
  (795, Mod n_GenAsync [794; 740; 698; 1] false [SFrom 741 n_AsynchronousMachine; SClass n_GenAsync (Some n_AsynchronousMachine)])(* CIM14/IEC61970/Dynamics/Generators/GenAsync.py:21-23 *);
  (796, Mod n_GenEquiv [794; 740; 698; 1] false [SFrom 843 n_RotatingMachine; SClass n_GenEquiv (Some n_RotatingMachine)])(* CIM14/IEC61970/Dynamics/Generators/GenEquiv.py:21-23 *);
  (797, Mod n_GenLoad [794; 740; 698; 1] false [SFrom 1074 n_RegulatingCondEq; SClass n_GenLoad (Some n_RegulatingCondEq)])(* CIM14/IEC61970/Dynamics/Generators/GenLoad.py:21-23 *);
  (798, Mod i_Loads [740; 698; 1] true [SFrom 799 n_AggregateLoad; SFrom 801 n_LoadStatic; SFrom 805 n_LoadStaticSystem; SFrom 804 n_LoadStaticOwner; SFrom 806 n_LoadStaticZone; SFrom 803 n_LoadStaticBus; SFrom 802 n_LoadStaticArea; SFrom 800 n_LoadMotor; SAssign i_nsURI; SAssign i_nsPrefix; SClass n_StaticLoadType None])(* CIM14/IEC61970/Dynamics/Loads/__init__.py:22-35 *);
  (799, Mod n_AggregateLoad [798; 740; 698; 1] false [SFrom 728 n_PowerSystemResource; SClass n_AggregateLoad (Some n_PowerSystemResource)])(* CIM14/IEC61970/Dynamics/Loads/AggregateLoad.py:21-23 *);
  (800, Mod n_LoadMotor [798; 740; 698; 1] false [SFrom 799 n_AggregateLoad; SClass n_LoadMotor (Some n_AggregateLoad)])(* CIM14/IEC61970/Dynamics/Loads/LoadMotor.py:21-23 *);
  (801, Mod n_LoadStatic [798; 740; 698; 1] false [SFrom 799 n_AggregateLoad; SClass n_LoadStatic (Some n_AggregateLoad)])(* CIM14/IEC61970/Dynamics/Loads/LoadStatic.py:21-23 *);
  (802, Mod n_LoadStaticArea [798; 740; 698; 1] false [SFrom 801 n_LoadStatic; SClass n_LoadStaticArea (Some n_LoadStatic)])(* CIM14/IEC61970/Dynamics/Loads/LoadStaticArea.py:21-23 *);
  (803, Mod n_LoadStaticBus [798; 740; 698; 1] false [SFrom 801 n_LoadStatic; SClass n_LoadStaticBus (Some n_LoadStatic)])(* CIM14/IEC61970/Dynamics/Loads/LoadStaticBus.py:21-23 *);
  (804, Mod n_LoadStaticOwner [798; 740; 698; 1] false [SFrom 801 n_LoadStatic; SClass n_LoadStaticOwner (Some n_LoadStatic)])(* CIM14/IEC61970/Dynamics/Loads/LoadStaticOwner.py:21-23 *);
  (805, Mod n_LoadStaticSystem [798; 740; 698; 1] false [SFrom 801 n_LoadStatic; SClass n_LoadStaticSystem (Some n_LoadStatic)])(* CIM14/IEC61970/Dynamics/Loads/LoadStaticSystem.py:21-23 *);
  (806, Mod n_LoadStaticZone [798; 740; 698; 1] false [SFrom 801 n_LoadStatic; SClass n_LoadStaticZone (Some n_LoadStatic)])(* CIM14/IEC61970/Dynamics/Loads/LoadStaticZone.py:21-23 *);
  (807, Mod n_MetaBlock [740; 698; 1] false [SFrom 722 n_IdentifiedObject; SClass n_MetaBlock (Some n_IdentifiedObject)])(* CIM14/IEC61970/Dynamics/MetaBlock.py:21-23 *);
  (808, Mod n_MetaBlockConInput [740; 698; 1] false [SFrom 722 n_IdentifiedObject; SClass n_MetaBlockConInput (Some n_IdentifiedObject)])(* CIM14/IEC61970/Dynamics/MetaBlockConInput.py:21-23 *);
  (809, Mod n_MetaBlockConOutput [740; 698; 1] false [SFrom 722 n_IdentifiedObject; SClass n_MetaBlockConOutput (Some n_IdentifiedObject)])(* CIM14/IEC61970/Dynamics/MetaBlockConOutput.py:21-23 *);
  (810, Mod n_MetaBlockConSignal [740; 698; 1] false [SFrom 722 n_IdentifiedObject; SClass n_MetaBlockConSignal (Some n_IdentifiedObject)])(* CIM14/IEC61970/Dynamics/MetaBlockConSignal.py:21-23 *);
  (811, Mod n_MetaBlockConnectable [740; 698; 1] false [SFrom 722 n_IdentifiedObject; SClass n_MetaBlockConnectable (Some n_IdentifiedObject)])(* CIM14/IEC61970/Dynamics/MetaBlockConnectable.py:21-23 *);
  (812, Mod n_MetaBlockConnection [740; 698; 1] false [SFrom 722 n_IdentifiedObject; SClass n_MetaBlockConnection (Some n_IdentifiedObject)])(* CIM14/IEC61970/Dynamics/MetaBlockConnection.py:21-23 *);
  (813, Mod n_MetaBlockConnectivity [740; 698; 1] false [SFrom 722 n_IdentifiedObject; SClass n_MetaBlockConnectivity (Some n_IdentifiedObject)])(* CIM14/IEC61970/Dynamics/MetaBlockConnectivity.py:21-23 *);
  (814, Mod n_MetaBlockInput [740; 698; 1] false [SFrom 811 n_MetaBlockConnectable; SClass n_MetaBlockInput (Some n_MetaBlockConnectable)])(* CIM14/IEC61970/Dynamics/MetaBlockInput.py:21-23 *);
  (815, Mod n_MetaBlockInputReference [740; 698; 1] false [SFrom 722 n_IdentifiedObject; SClass n_MetaBlockInputReference (Some n_IdentifiedObject)])(* CIM14/IEC61970/Dynamics/MetaBlockInputReference.py:21-23 *);
  (816, Mod n_MetaBlockOutput [740; 698; 1] false [SFrom 811 n_MetaBlockConnectable; SClass n_MetaBlockOutput (Some n_MetaBlockConnectable)])(* CIM14/IEC61970/Dynamics/MetaBlockOutput.py:21-23 *);
  (817, Mod n_MetaBlockOutputReference [740; 698; 1] false [SFrom 722 n_IdentifiedObject; SClass n_MetaBlockOutputReference (Some n_IdentifiedObject)])(* CIM14/IEC61970/Dynamics/MetaBlockOutputReference.py:21-23 *);
  (818, Mod n_MetaBlockParameter [740; 698; 1] false [SFrom 811 n_MetaBlockConnectable; SClass n_MetaBlockParameter (Some n_MetaBlockConnectable)])(* CIM14/IEC61970/Dynamics/MetaBlockParameter.py:21-23 *);
  (819, Mod n_MetaBlockParameterReference [740; 698; 1] false [SFrom 722 n_IdentifiedObject; SClass n_MetaBlockParameterReference (Some n_IdentifiedObject)])(* CIM14/IEC61970/Dynamics/MetaBlockParameterReference.py:21-23 *);
  (820, Mod n_MetaBlockReference [740; 698; 1] false [SFrom 722 n_IdentifiedObject; SClass n_MetaBlockReference (Some n_IdentifiedObject)])(* CIM14/IEC61970/Dynamics/MetaBlockReference.py:21-23 *);
  (821, Mod n_MetaBlockSignal [740; 698; 1] false [SFrom 722 n_IdentifiedObject; SClass n_MetaBlockSignal (Some n_IdentifiedObject)])(* CIM14/IEC61970/Dynamics/MetaBlockSignal.py:21-23 *);
  (822, Mod n_MetaBlockState [740; 698; 1] false [SFrom 811 n_MetaBlockConnectable; SClass n_MetaBlockState (Some n_MetaBlockConnectable)])(* CIM14/IEC61970/Dynamics/MetaBlockState.py:21-23 *);
  (823, Mod n_MetaBlockStateReference [740; 698; 1] false [SFrom 722 n_IdentifiedObject; SClass n_MetaBlockStateReference (Some n_IdentifiedObject)])(* CIM14/IEC61970/Dynamics/MetaBlockStateReference.py:21-23 *);
  (824, Mod i_Motors [740; 698; 1] true [SFrom 826 n_MechanicalLoad; SFrom 828 n_MotorSync; SFrom 825 n_MechLoad1; SFrom 827 n_MotorAsync; SAssign i_nsURI; SAssign i_nsPrefix; SClass n_SynchronousMotorType None])(* CIM14/IEC61970/Dynamics/Motors/__init__.py:22-31 *);
  (825, Mod n_MechLoad1 [824; 740; 698; 1] false [SFrom 826 n_MechanicalLoad; SClass n_MechLoad1 (Some n_MechanicalLoad)])(* CIM14/IEC61970/Dynamics/Motors/MechLoad1.py:21-23 *);
  (826, Mod n_MechanicalLoad [824; 740; 698; 1] false [SFrom 728 n_PowerSystemResource; SClass n_MechanicalLoad (Some n_PowerSystemResource)])(* CIM14/IEC61970/Dynamics/Motors/MechanicalLoad.py:21-23 *);
  (827, Mod n_MotorAsync [824; 740; 698; 1] false [SFrom 741 n_AsynchronousMachine; SClass n_MotorAsync (Some n_AsynchronousMachine)])(* CIM14/IEC61970/Dynamics/Motors/MotorAsync.py:21-23 *);
  (828, Mod n_MotorSync [824; 740; 698; 1] false [SFrom 1083 n_SynchronousMachine; SClass n_MotorSync (Some n_SynchronousMachine)])(* CIM14/IEC61970/Dynamics/Motors/MotorSync.py:21-23 *);
  (829, Mod i_PowerSystemStabilizers [740; 698; 1] true [SFrom 830 n_PowerSystemStabilizer; SFrom 833 n_PssIEEE3B; SFrom 840 n_PssSK; SFrom 834 n_PssIEEE4B; SFrom 831 n_PssIEEE1A; SFrom 835 n_PssPTIST1; SFrom 832 n_PssIEEE2B; SFrom 837 n_PssSB; SFrom 838 n_PssSB4; SFrom 839 n_PssSH; SFrom 836 n_PssPTIST3; SFrom 841 n_PssWSCC; SAssign i_nsURI; SAssign i_nsPrefix; SClass i_InputSignalCodeJ None])(* CIM14/IEC61970/Dynamics/PowerSystemStabilizers/__init__.py:22-39 *);
  (830, Mod n_PowerSystemStabilizer [829; 740; 698; 1] false [SFrom 728 n_PowerSystemResource; SClass n_PowerSystemStabilizer (Some n_PowerSystemResource)])(* CIM14/IEC61970/Dynamics/PowerSystemStabilizers/PowerSystemStabilizer.py:21-23 *);
  (831, Mod n_PssIEEE1A [829; 740; 698; 1] false [SFrom 830 n_PowerSystemStabilizer; SClass n_PssIEEE1A (Some n_PowerSystemStabilizer)])(* CIM14/IEC61970/Dynamics/PowerSystemStabilizers/PssIEEE1A.py:21-23 *);
  (832, Mod n_PssIEEE2B [829; 740; 698; 1] false [SFrom 830 n_PowerSystemStabilizer; SClass n_PssIEEE2B (Some n_PowerSystemStabilizer)])(* CIM14/IEC61970/Dynamics/PowerSystemStabilizers/PssIEEE2B.py:21-23 *);
  (833, Mod n_PssIEEE3B [829; 740; 698; 1] false [SFrom 830 n_PowerSystemStabilizer; SClass n_PssIEEE3B (Some n_PowerSystemStabilizer)])(* CIM14/IEC61970/Dynamics/PowerSystemStabilizers/PssIEEE3B.py:21-23 *);
  (834, Mod n_PssIEEE4B [829; 740; 698; 1] false [SFrom 830 n_PowerSystemStabilizer; SClass n_PssIEEE4B (Some n_PowerSystemStabilizer)])(* CIM14/IEC61970/Dynamics/PowerSystemStabilizers/PssIEEE4B.py:21-23 *);
  (835, Mod n_PssPTIST1 [829; 740; 698; 1] false [SFrom 830 n_PowerSystemStabilizer; SClass n_PssPTIST1 (Some n_PowerSystemStabilizer)])(* CIM14/IEC61970/Dynamics/PowerSystemStabilizers/PssPTIST1.py:21-23 *);
  (836, Mod n_PssPTIST3 [829; 740; 698; 1] false [SFrom 830 n_PowerSystemStabilizer; SClass n_PssPTIST3 (Some n_PowerSystemStabilizer)])(* CIM14/IEC61970/Dynamics/PowerSystemStabilizers/PssPTIST3.py:21-23 *);
  (837, Mod n_PssSB [829; 740; 698; 1] false [SFrom 830 n_PowerSystemStabilizer; SClass n_PssSB (Some n_PowerSystemStabilizer)])(* CIM14/IEC61970/Dynamics/PowerSystemStabilizers/PssSB.py:21-23 *);
  (838, Mod n_PssSB4 [829; 740; 698; 1] false [SFrom 830 n_PowerSystemStabilizer; SClass n_PssSB4 (Some n_PowerSystemStabilizer)])(* CIM14/IEC61970/Dynamics/PowerSystemStabilizers/PssSB4.py:21-23 *);
  (839, Mod n_PssSH [829; 740; 698; 1] false [SFrom 830 n_PowerSystemStabilizer; SClass n_PssSH (Some n_PowerSystemStabilizer)])(* CIM14/IEC61970/Dynamics/PowerSystemStabilizers/PssSH.py:21-23 *);
  (840, Mod n_PssSK [829; 740; 698; 1] false [SFrom 830 n_PowerSystemStabilizer; SClass n_PssSK (Some n_PowerSystemStabilizer)])(* CIM14/IEC61970/Dynamics/PowerSystemStabilizers/PssSK.py:21-23 *);
  (841, Mod n_PssWSCC [829; 740; 698; 1] false [SFrom 830 n_PowerSystemStabilizer; SClass n_PssWSCC (Some n_PowerSystemStabilizer)])(* CIM14/IEC61970/Dynamics/PowerSystemStabilizers/PssWSCC.py:21-23 *);
  (842, Mod n_ProtectiveDevice [740; 698; 1] false [SFrom 581 n_Element; SClass n_ProtectiveDevice (Some n_Element)])(* CIM14/IEC61970/Dynamics/ProtectiveDevice.py:21-23 *);
  (843, Mod n_RotatingMachine [740; 698; 1] false [SFrom 1074 n_RegulatingCondEq; SClass n_RotatingMachine (Some n_RegulatingCondEq)])(* CIM14/IEC61970/Dynamics/RotatingMachine.py:21-23 *);
  (844, Mod n_Slot [740; 698; 1] false [SFrom 722 n_IdentifiedObject; SClass n_Slot (Some n_IdentifiedObject)])(* CIM14/IEC61970/Dynamics/Slot.py:21-23 *);
  (845, Mod n_SlotConnection [740; 698; 1] false [SFrom 722 n_IdentifiedObject; SClass n_SlotConnection (Some n_IdentifiedObject)])(* CIM14/IEC61970/Dynamics/SlotConnection.py:21-23 *);
  (846, Mod n_SlotInput [740; 698; 1] false [SFrom 722 n_IdentifiedObject; SClass n_SlotInput (Some n_IdentifiedObject)])(* CIM14/IEC61970/Dynamics/SlotInput.py:21-23 *);
  (847, Mod n_SlotOutput [740; 698; 1] false [SFrom 722 n_IdentifiedObject; SClass n_SlotOutput (Some n_IdentifiedObject)])(* CIM14/IEC61970/Dynamics/SlotOutput.py:21-23 *);
  (848, Mod n_SlotReference [740; 698; 1] false [SFrom 722 n_IdentifiedObject; SClass n_SlotReference (Some n_IdentifiedObject)])(* CIM14/IEC61970/Dynamics/SlotReference.py:21-23 *);
  (849, Mod n_SourceModels [740; 698; 1] false [SFrom 581 n_Element; SClass n_SourceModels (Some n_Element)])(* CIM14/IEC61970/Dynamics/SourceModels.py:21-23 *);
  (850, Mod n_StaticVarDevice [740; 698; 1] false [SFrom 581 n_Element; SClass n_StaticVarDevice (Some n_Element)])(* CIM14/IEC61970/Dynamics/StaticVarDevice.py:21-23 *);
  (851, Mod n_TieToMeasurement [740; 698; 1] false [SFrom 722 n_IdentifiedObject; SClass n_TieToMeasurement (Some n_IdentifiedObject)])(* CIM14/IEC61970/Dynamics/TieToMeasurement.py:21-23 *);
  (852, Mod i_TurbineGovernors [740; 698; 1] true [SFrom 889 n_TurbineGovernor; SFrom 877 n_GovSteamFV2; SFrom 884 n_GovWT3P; SFrom 879 n_GovSteamSGO; SFrom 857 n_GovGASM; SFrom 869 n_GovHydroR; SFrom 887 n_GovWT4T; SFrom 859 n_GovGAST2; SFrom 875 n_GovSteamCC; SFrom 872 n_GovRAV; SFrom 874 n_GovSteam1; SFrom 888 n_TLCFB1; SFrom 865 n_GovHydro4; SFrom 855 n_GovCT2; SFrom 862 n_GovHydro1; SFrom 858 n_GovGAST; SFrom 885 n_GovWT3T; SFrom 871 n_GovHydroWPID; SFrom 881 n_GovWT1T; SFrom 883 n_GovWT2T; SFrom 853 n_Class1; SFrom 886 n_GovWT4P; SFrom 867 n_GovHydroPID; SFrom 870 n_GovHydroWEH; SFrom 866 n_GovHydroDD; SFrom 880 n_GovWT1P; SFrom 882 n_GovWT2P; SFrom 876 n_GovSteamEU; SFrom 864 n_GovHydro3; SFrom 873 n_GovSteam0; SFrom 868 n_GovHydroPID2; SFrom 863 n_GovHydro2; SFrom 854 n_GovCT1; SFrom 861 n_GovHydro0; SFrom 860 n_GovGASTWD; SFrom 878 n_GovSteamFV3; SFrom 856 n_GovDUM; SAssign i_nsURI; SAssign i_nsPrefix])(* CIM14/IEC61970/Dynamics/TurbineGovernors/__init__.py:22-61 *);
  (853, Mod n_Class1 [852; 740; 698; 1] false [SFrom 581 n_Element; SClass n_Class1 (Some n_Element)])(* CIM14/IEC61970/Dynamics/TurbineGovernors/Class1.py:21-23 *);
  (854, Mod n_GovCT1 [852; 740; 698; 1] false [SFrom 889 n_TurbineGovernor; SClass n_GovCT1 (Some n_TurbineGovernor)])(* CIM14/IEC61970/Dynamics/TurbineGovernors/GovCT1.py:21-23 *);
  (855, Mod n_GovCT2 [852; 740; 698; 1] false [SFrom 889 n_TurbineGovernor; SClass n_GovCT2 (Some n_TurbineGovernor)])(* CIM14/IEC61970/Dynamics/TurbineGovernors/GovCT2.py:21-23 *);
  (856, Mod n_GovDUM [852; 740; 698; 1] false [SFrom 889 n_TurbineGovernor; SClass n_GovDUM (Some n_TurbineGovernor)])(* CIM14/IEC61970/Dynamics/TurbineGovernors/GovDUM.py:21-23 *);
  (857, Mod n_GovGASM [852; 740; 698; 1] false [SFrom 889 n_TurbineGovernor; SClass n_GovGASM (Some n_TurbineGovernor)])(* CIM14/IEC61970/Dynamics/TurbineGovernors/GovGASM.py:21-23 *);
  (858, Mod n_GovGAST [852; 740; 698; 1] false [SFrom 889 n_TurbineGovernor; SClass n_GovGAST (Some n_TurbineGovernor)])(* CIM14/IEC61970/Dynamics/TurbineGovernors/GovGAST.py:21-23 *);
  (859, Mod n_GovGAST2 [852; 740; 698; 1] false [SFrom 889 n_TurbineGovernor; SClass n_GovGAST2 (Some n_TurbineGovernor)])(* CIM14/IEC61970/Dynamics/TurbineGovernors/GovGAST2.py:21-23 *);
  (860, Mod n_GovGASTWD [852; 740; 698; 1] false [SFrom 889 n_TurbineGovernor; SClass n_GovGASTWD (Some n_TurbineGovernor)])(* CIM14/IEC61970/Dynamics/TurbineGovernors/GovGASTWD.py:21-23 *);
  (861, Mod n_GovHydro0 [852; 740; 698; 1] false [SFrom 889 n_TurbineGovernor; SClass n_GovHydro0 (Some n_TurbineGovernor)])(* CIM14/IEC61970/Dynamics/TurbineGovernors/GovHydro0.py:21-23 *);
  (862, Mod n_GovHydro1 [852; 740; 698; 1] false [SFrom 889 n_TurbineGovernor; SClass n_GovHydro1 (Some n_TurbineGovernor)])(* CIM14/IEC61970/Dynamics/TurbineGovernors/GovHydro1.py:21-23 *);
  (863, Mod n_GovHydro2 [852; 740; 698; 1] false [SFrom 889 n_TurbineGovernor; SClass n_GovHydro2 (Some n_TurbineGovernor)])(* CIM14/IEC61970/Dynamics/TurbineGovernors/GovHydro2.py:21-23 *);
  (864, Mod n_GovHydro3 [852; 740; 698; 1] false [SFrom 889 n_TurbineGovernor; SClass n_GovHydro3 (Some n_TurbineGovernor)])(* CIM14/IEC61970/Dynamics/TurbineGovernors/GovHydro3.py:21-23 *);
  (865, Mod n_GovHydro4 [852; 740; 698; 1] false [SFrom 889 n_TurbineGovernor; SClass n_GovHydro4 (Some n_TurbineGovernor)])(* CIM14/IEC61970/Dynamics/TurbineGovernors/GovHydro4.py:21-23 *);
  (866, Mod n_GovHydroDD [852; 740; 698; 1] false [SFrom 889 n_TurbineGovernor; SClass n_GovHydroDD (Some n_TurbineGovernor)])(* CIM14/IEC61970/Dynamics/TurbineGovernors/GovHydroDD.py:21-23 *);
  (867, Mod n_GovHydroPID [852; 740; 698; 1] false [SFrom 889 n_TurbineGovernor; SClass n_GovHydroPID (Some n_TurbineGovernor)])(* CIM14/IEC61970/Dynamics/TurbineGovernors/GovHydroPID.py:21-23 *);
  (868, Mod n_GovHydroPID2 [852; 740; 698; 1] false [SFrom 889 n_TurbineGovernor; SClass n_GovHydroPID2 (Some n_TurbineGovernor)])(* CIM14/IEC61970/Dynamics/TurbineGovernors/GovHydroPID2.py:21-23 *);
  (869, Mod n_GovHydroR [852; 740; 698; 1] false [SFrom 889 n_TurbineGovernor; SClass n_GovHydroR (Some n_TurbineGovernor)])(* CIM14/IEC61970/Dynamics/TurbineGovernors/GovHydroR.py:21-23 *);
  (870, Mod n_GovHydroWEH [852; 740; 698; 1] false [SFrom 889 n_TurbineGovernor; SClass n_GovHydroWEH (Some n_TurbineGovernor)])(* CIM14/IEC61970/Dynamics/TurbineGovernors/GovHydroWEH.py:21-23 *);
  (871, Mod n_GovHydroWPID [852; 740; 698; 1] false [SFrom 889 n_TurbineGovernor; SClass n_GovHydroWPID (Some n_TurbineGovernor)])(* CIM14/IEC61970/Dynamics/TurbineGovernors/GovHydroWPID.py:21-23 *);
  (872, Mod n_GovRAV [852; 740; 698; 1] false [SFrom 889 n_TurbineGovernor; SClass n_GovRAV (Some n_TurbineGovernor)])(* CIM14/IEC61970/Dynamics/TurbineGovernors/GovRAV.py:21-23 *);
  (873, Mod n_GovSteam0 [852; 740; 698; 1] false [SFrom 889 n_TurbineGovernor; SClass n_GovSteam0 (Some n_TurbineGovernor)])(* CIM14/IEC61970/Dynamics/TurbineGovernors/GovSteam0.py:21-23 *);
  (874, Mod n_GovSteam1 [852; 740; 698; 1] false [SFrom 889 n_TurbineGovernor; SClass n_GovSteam1 (Some n_TurbineGovernor)])(* CIM14/IEC61970/Dynamics/TurbineGovernors/GovSteam1.py:21-23 *);
  (875, Mod n_GovSteamCC [852; 740; 698; 1] false [SFrom 889 n_TurbineGovernor; SClass n_GovSteamCC (Some n_TurbineGovernor)])(* CIM14/IEC61970/Dynamics/TurbineGovernors/GovSteamCC.py:21-23 *);
  (876, Mod n_GovSteamEU [852; 740; 698; 1] false [SFrom 889 n_TurbineGovernor; SClass n_GovSteamEU (Some n_TurbineGovernor)])(* CIM14/IEC61970/Dynamics/TurbineGovernors/GovSteamEU.py:21-23 *);
  (877, Mod n_GovSteamFV2 [852; 740; 698; 1] false [SFrom 889 n_TurbineGovernor; SClass n_GovSteamFV2 (Some n_TurbineGovernor)])(* CIM14/IEC61970/Dynamics/TurbineGovernors/GovSteamFV2.py:21-23 *);
  (878, Mod n_GovSteamFV3 [852; 740; 698; 1] false [SFrom 889 n_TurbineGovernor; SClass n_GovSteamFV3 (Some n_TurbineGovernor)])(* CIM14/IEC61970/Dynamics/TurbineGovernors/GovSteamFV3.py:21-23 *);
  (879, Mod n_GovSteamSGO [852; 740; 698; 1] false [SFrom 889 n_TurbineGovernor; SClass n_GovSteamSGO (Some n_TurbineGovernor)])(* CIM14/IEC61970/Dynamics/TurbineGovernors/GovSteamSGO.py:21-23 *);
  (880, Mod n_GovWT1P [852; 740; 698; 1] false [SFrom 889 n_TurbineGovernor; SClass n_GovWT1P (Some n_TurbineGovernor)])(* CIM14/IEC61970/Dynamics/TurbineGovernors/GovWT1P.py:21-23 *);
  (881, Mod n_GovWT1T [852; 740; 698; 1] false [SFrom 889 n_TurbineGovernor; SClass n_GovWT1T (Some n_TurbineGovernor)])(* CIM14/IEC61970/Dynamics/TurbineGovernors/GovWT1T.py:21-23 *);
  (882, Mod n_GovWT2P [852; 740; 698; 1] false [SFrom 889 n_TurbineGovernor; SClass n_GovWT2P (Some n_TurbineGovernor)])(* CIM14/IEC61970/Dynamics/TurbineGovernors/GovWT2P.py:21-23 *);
  (883, Mod n_GovWT2T [852; 740; 698; 1] false [SFrom 889 n_TurbineGovernor; SClass n_GovWT2T (Some n_TurbineGovernor)])(* CIM14/IEC61970/Dynamics/TurbineGovernors/GovWT2T.py:21-23 *);
  (884, Mod n_GovWT3P [852; 740; 698; 1] false [SFrom 889 n_TurbineGovernor; SClass n_GovWT3P (Some n_TurbineGovernor)])(* CIM14/IEC61970/Dynamics/TurbineGovernors/GovWT3P.py:21-23 *);
  (885, Mod n_GovWT3T [852; 740; 698; 1] false [SFrom 889 n_TurbineGovernor; SClass n_GovWT3T (Some n_TurbineGovernor)])(* CIM14/IEC61970/Dynamics/TurbineGovernors/GovWT3T.py:21-23 *);
  (886, Mod n_GovWT4P [852; 740; 698; 1] false [SFrom 889 n_TurbineGovernor; SClass n_GovWT4P (Some n_TurbineGovernor)])(* CIM14/IEC61970/Dynamics/TurbineGovernors/GovWT4P.py:21-23 *);
  (887, Mod n_GovWT4T [852; 740; 698; 1] false [SFrom 889 n_TurbineGovernor; SClass n_GovWT4T (Some n_TurbineGovernor)])(* CIM14/IEC61970/Dynamics/TurbineGovernors/GovWT4T.py:21-23 *);
  (888, Mod n_TLCFB1 [852; 740; 698; 1] false [SFrom 889 n_TurbineGovernor; SClass n_TLCFB1 (Some n_TurbineGovernor)])(* CIM14/IEC61970/Dynamics/TurbineGovernors/TLCFB1.py:21-23 *);
  (889, Mod n_TurbineGovernor [852; 740; 698; 1] false [SFrom 728 n_PowerSystemResource; SClass n_TurbineGovernor (Some n_PowerSystemResource)])(* CIM14/IEC61970/Dynamics/TurbineGovernors/TurbineGovernor.py:21-23 *);
  (890, Mod n_UserBlockParameter [740; 698; 1] false [SFrom 818 n_MetaBlockParameter; SClass n_UserBlockParameter (Some n_MetaBlockParameter)])(* CIM14/IEC61970/Dynamics/UserBlockParameter.py:21-23 *);
  (891, Mod n_VoltageCompensator [740; 698; 1] true [SFrom 894 n_VoltageCompensator; SFrom 892 n_VcompCross; SFrom 893 n_VcompIEEE; SAssign i_nsURI; SAssign i_nsPrefix])(* CIM14/IEC61970/Dynamics/VoltageCompensator/__init__.py:22-27 *);
  (892, Mod n_VcompCross [891; 740; 698; 1] false [SFrom 894 n_VoltageCompensator; SClass n_VcompCross (Some n_VoltageCompensator)])(* CIM14/IEC61970/Dynamics/VoltageCompensator/VcompCross.py:21-23 *);
  (893, Mod n_VcompIEEE [891; 740; 698; 1] false [SFrom 894 n_VoltageCompensator; SClass n_VcompIEEE (Some n_VoltageCompensator)])(* CIM14/IEC61970/Dynamics/VoltageCompensator/VcompIEEE.py:21-23 *);
  (894, Mod n_VoltageCompensator [891; 740; 698; 1] false [SFrom 728 n_PowerSystemResource; SClass n_VoltageCompensator (Some n_PowerSystemResource)])(* CIM14/IEC61970/Dynamics/VoltageCompensator/VoltageCompensator.py:21-23 *);
  (895, Mod i_Equivalents [698; 1] true [SFrom 897 n_EquivalentEquipment; SFrom 900 n_EquivalentShunt; SFrom 896 n_EquivalentBranch; SFrom 898 n_EquivalentInjection; SFrom 899 n_EquivalentNetwork; SAssign i_nsURI; SAssign i_nsPrefix])(* CIM14/IEC61970/Equivalents/__init__.py:24-31 *);
  (896, Mod n_EquivalentBranch [895; 698; 1] false [SFrom 897 n_EquivalentEquipment; SClass n_EquivalentBranch (Some n_EquivalentEquipment)])(* CIM14/IEC61970/Equivalents/EquivalentBranch.py:21-23 *);
  (897, Mod n_EquivalentEquipment [895; 698; 1] false [SFrom 714 n_ConductingEquipment; SClass n_EquivalentEquipment (Some n_ConductingEquipment)])(* CIM14/IEC61970/Equivalents/EquivalentEquipment.py:21-23 *);
  (898, Mod n_EquivalentInjection [895; 698; 1] false [SFrom 897 n_EquivalentEquipment; SClass n_EquivalentInjection (Some n_EquivalentEquipment)])(* CIM14/IEC61970/Equivalents/EquivalentInjection.py:21-23 *);
  (899, Mod n_EquivalentNetwork [895; 698; 1] false [SFrom 716 n_ConnectivityNodeContainer; SClass n_EquivalentNetwork (Some n_ConnectivityNodeContainer)])(* CIM14/IEC61970/Equivalents/EquivalentNetwork.py:21-23 *);
  (900, Mod n_EquivalentShunt [895; 698; 1] false [SFrom 897 n_EquivalentEquipment; SClass n_EquivalentShunt (Some n_EquivalentEquipment)])(* CIM14/IEC61970/Equivalents/EquivalentShunt.py:21-23 *);
  (901, Mod i_Generation [698; 1] true [SAssign i_nsURI; SAssign i_nsPrefix])(* CIM14/IEC61970/Generation/__init__.py:25-26 *);
  (902, Mod i_GenerationDynamics [901; 698; 1] true [SFrom 912 n_SteamSupply; SFrom 907 n_FossilSteamSupply; SFrom 908 n_HeatRecoveryBoiler; SFrom 910 n_PWRSteamSupply; SFrom 911 n_PrimeMover; SFrom 915 n_Supercritical; SFrom 905 n_CombustionTurbine; SFrom 909 n_HydroTurbine; SFrom 914 n_Subcritical; SFrom 904 n_CTTempActivePowerCurve; SFrom 913 n_SteamTurbine; SFrom 906 n_DrumBoiler; SFrom 903 n_BWRSteamSupply; SAssign i_nsURI; SAssign i_nsPrefix; SClass n_BoilerControlMode None; SClass n_TurbineType None])(* CIM14/IEC61970/Generation/GenerationDynamics/__init__.py:24-48 *);
  (903, Mod n_BWRSteamSupply [902; 901; 698; 1] false [SFrom 912 n_SteamSupply; SClass n_BWRSteamSupply (Some n_SteamSupply)])(* CIM14/IEC61970/Generation/GenerationDynamics/BWRSteamSupply.py:21-23 *);
  (904, Mod n_CTTempActivePowerCurve [902; 901; 698; 1] false [SFrom 717 n_Curve; SClass n_CTTempActivePowerCurve (Some n_Curve)])(* CIM14/IEC61970/Generation/GenerationDynamics/CTTempActivePowerCurve.py:21-23 *);
  (905, Mod n_CombustionTurbine [902; 901; 698; 1] false [SFrom 911 n_PrimeMover; SClass n_CombustionTurbine (Some n_PrimeMover)])(* CIM14/IEC61970/Generation/GenerationDynamics/CombustionTurbine.py:21-23 *);
  (906, Mod n_DrumBoiler [902; 901; 698; 1] false [SFrom 907 n_FossilSteamSupply; SClass n_DrumBoiler (Some n_FossilSteamSupply)])(* CIM14/IEC61970/Generation/GenerationDynamics/DrumBoiler.py:21-23 *);
  (907, Mod n_FossilSteamSupply [902; 901; 698; 1] false [SFrom 912 n_SteamSupply; SClass n_FossilSteamSupply (Some n_SteamSupply)])(* CIM14/IEC61970/Generation/GenerationDynamics/FossilSteamSupply.py:21-23 *);
  (908, Mod n_HeatRecoveryBoiler [902; 901; 698; 1] false [SFrom 907 n_FossilSteamSupply; SClass n_HeatRecoveryBoiler (Some n_FossilSteamSupply)])(* CIM14/IEC61970/Generation/GenerationDynamics/HeatRecoveryBoiler.py:21-23 *);
  (909, Mod n_HydroTurbine [902; 901; 698; 1] false [SFrom 911 n_PrimeMover; SClass n_HydroTurbine (Some n_PrimeMover)])(* CIM14/IEC61970/Generation/GenerationDynamics/HydroTurbine.py:21-23 *);
  (910, Mod n_PWRSteamSupply [902; 901; 698; 1] false [SFrom 912 n_SteamSupply; SClass n_PWRSteamSupply (Some n_SteamSupply)])(* CIM14/IEC61970/Generation/GenerationDynamics/PWRSteamSupply.py:21-23 *);
  (911, Mod n_PrimeMover [902; 901; 698; 1] false [SFrom 728 n_PowerSystemResource; SClass n_PrimeMover (Some n_PowerSystemResource)])(* CIM14/IEC61970/Generation/GenerationDynamics/PrimeMover.py:21-23 *);
  (912, Mod n_SteamSupply [902; 901; 698; 1] false [SFrom 728 n_PowerSystemResource; SClass n_SteamSupply (Some n_PowerSystemResource)])(* CIM14/IEC61970/Generation/GenerationDynamics/SteamSupply.py:21-23 *);
  (913, Mod n_SteamTurbine [902; 901; 698; 1] false [SFrom 911 n_PrimeMover; SClass n_SteamTurbine (Some n_PrimeMover)])(* CIM14/IEC61970/Generation/GenerationDynamics/SteamTurbine.py:21-23 *);
  (914, Mod n_Subcritical [902; 901; 698; 1] false [SFrom 907 n_FossilSteamSupply; SClass n_Subcritical (Some n_FossilSteamSupply)])(* CIM14/IEC61970/Generation/GenerationDynamics/Subcritical.py:21-23 *);
  (915, Mod n_Supercritical [902; 901; 698; 1] false [SFrom 907 n_FossilSteamSupply; SClass n_Supercritical (Some n_FossilSteamSupply)])(* CIM14/IEC61970/Generation/GenerationDynamics/Supercritical.py:21-23 *);
  (916, Mod i_Production [901; 698; 1] true [SFrom 938 n_LevelVsVolumeCurve; SFrom 923 n_FossilFuel; SFrom 947 n_SteamSendoutSchedule; SFrom 922 n_EmissionCurve; SFrom 920 n_CombinedCyclePlant; SFrom 943 n_StartIgnFuelCurve; SFrom 931 n_HydroGeneratingEfficiencyCurve; SFrom 945 n_StartRampCurve; SFrom 927 n_GeneratingUnit; SFrom 939 n_NuclearGeneratingUnit; SFrom 951 n_WindGeneratingUnit; SFrom 944 n_StartMainFuelCurve; SFrom 946 n_StartupModel; SFrom 917 n_AirCompressor; SFrom 929 n_HeatInputCurve; SFrom 919 n_CogenerationPlant; SFrom 942 n_ShutdownCurve; SFrom 937 n_InflowForecast; SFrom 932 n_HydroGeneratingUnit; SFrom 949 n_TargetLevelSchedule; SFrom 921 n_EmissionAccount; SFrom 928 n_GrossToNetActivePowerCurve; SFrom 935 n_HydroPumpOpSchedule; SFrom 941 n_Reservoir; SFrom 918 n_CAESPlant; SFrom 925 n_GenUnitOpCostCurve; SFrom 940 n_PenstockLossCurve; SFrom 934 n_HydroPump; SFrom 926 n_GenUnitOpSchedule; SFrom 924 n_FuelAllocationSchedule; SFrom 930 n_HeatRateCurve; SFrom 936 n_IncrementalHeatRateCurve; SFrom 950 n_ThermalGeneratingUnit; SFrom 948 n_TailbayLossCurve; SFrom 933 n_HydroPowerPlant; SAssign i_nsURI; SAssign i_nsPrefix; SClass n_HydroPlantType None; SClass n_EmissionValueSource None; SClass n_GeneratorControlMode None; SClass n_FuelType None; SClass n_GeneratorControlSource None; SClass n_HydroEnergyConversionKind None; SClass n_SpillwayGateType None; SClass n_SurgeTankCode None; SClass n_EmissionType None; SClass n_GeneratorOperatingMode None; SClass n_PenstockType None; SClass i_Emission None; SClass i_HeatRate None; SClass i_Classification None; SClass i_CostPerHeatUnit None])(* CIM14/IEC61970/Generation/Production/__init__.py:24-142 *);
  (917, Mod n_AirCompressor [916; 901; 698; 1] false [SFrom 728 n_PowerSystemResource; SClass n_AirCompressor (Some n_PowerSystemResource)])(* CIM14/IEC61970/Generation/Production/AirCompressor.py:21-23 *);
  (918, Mod n_CAESPlant [916; 901; 698; 1] false [SFrom 728 n_PowerSystemResource; SClass n_CAESPlant (Some n_PowerSystemResource)])(* CIM14/IEC61970/Generation/Production/CAESPlant.py:21-23 *);
  (919, Mod n_CogenerationPlant [916; 901; 698; 1] false [SFrom 728 n_PowerSystemResource; SClass n_CogenerationPlant (Some n_PowerSystemResource)])(* CIM14/IEC61970/Generation/Production/CogenerationPlant.py:21-23 *);
  (920, Mod n_CombinedCyclePlant [916; 901; 698; 1] false [SFrom 728 n_PowerSystemResource; SClass n_CombinedCyclePlant (Some n_PowerSystemResource)])(* CIM14/IEC61970/Generation/Production/CombinedCyclePlant.py:21-23 *);
  (921, Mod n_EmissionAccount [916; 901; 698; 1] false [SFrom 717 n_Curve; SClass n_EmissionAccount (Some n_Curve)])(* CIM14/IEC61970/Generation/Production/EmissionAccount.py:21-23 *);
  (922, Mod n_EmissionCurve [916; 901; 698; 1] false [SFrom 717 n_Curve; SClass n_EmissionCurve (Some n_Curve)])(* CIM14/IEC61970/Generation/Production/EmissionCurve.py:21-23 *);
  (923, Mod n_FossilFuel [916; 901; 698; 1] false [SFrom 722 n_IdentifiedObject; SClass n_FossilFuel (Some n_IdentifiedObject)])(* CIM14/IEC61970/Generation/Production/FossilFuel.py:21-23 *);
  (924, Mod n_FuelAllocationSchedule [916; 901; 698; 1] false [SFrom 717 n_Curve; SClass n_FuelAllocationSchedule (Some n_Curve)])(* CIM14/IEC61970/Generation/Production/FuelAllocationSchedule.py:21-23 *);
  (925, Mod n_GenUnitOpCostCurve [916; 901; 698; 1] false [SFrom 717 n_Curve; SClass n_GenUnitOpCostCurve (Some n_Curve)])(* CIM14/IEC61970/Generation/Production/GenUnitOpCostCurve.py:21-23 *);
  (926, Mod n_GenUnitOpSchedule [916; 901; 698; 1] false [SFrom 730 n_RegularIntervalSchedule; SClass n_GenUnitOpSchedule (Some n_RegularIntervalSchedule)])(* CIM14/IEC61970/Generation/Production/GenUnitOpSchedule.py:21-23 *);
  (927, Mod n_GeneratingUnit [916; 901; 698; 1] false [SFrom 719 n_Equipment; SClass n_GeneratingUnit (Some n_Equipment)])(* CIM14/IEC61970/Generation/Production/GeneratingUnit.py:21-23 *);
  (928, Mod n_GrossToNetActivePowerCurve [916; 901; 698; 1] false [SFrom 717 n_Curve; SClass n_GrossToNetActivePowerCurve (Some n_Curve)])(* CIM14/IEC61970/Generation/Production/GrossToNetActivePowerCurve.py:21-23 *);
  (929, Mod n_HeatInputCurve [916; 901; 698; 1] false [SFrom 717 n_Curve; SClass n_HeatInputCurve (Some n_Curve)])(* CIM14/IEC61970/Generation/Production/HeatInputCurve.py:21-23 *);
  (930, Mod n_HeatRateCurve [916; 901; 698; 1] false [SFrom 717 n_Curve; SClass n_HeatRateCurve (Some n_Curve)])(* CIM14/IEC61970/Generation/Production/HeatRateCurve.py:21-23 *);
  (931, Mod n_HydroGeneratingEfficiencyCurve [916; 901; 698; 1] false [SFrom 717 n_Curve; SClass n_HydroGeneratingEfficiencyCurve (Some n_Curve)])(* CIM14/IEC61970/Generation/Production/HydroGeneratingEfficiencyCurve.py:21-23 *);
  (932, Mod n_HydroGeneratingUnit [916; 901; 698; 1] false [SFrom 927 n_GeneratingUnit; SClass n_HydroGeneratingUnit (Some n_GeneratingUnit)])(* CIM14/IEC61970/Generation/Production/HydroGeneratingUnit.py:21-23 *);
  (933, Mod n_HydroPowerPlant [916; 901; 698; 1] false [SFrom 728 n_PowerSystemResource; SClass n_HydroPowerPlant (Some n_PowerSystemResource)])(* CIM14/IEC61970/Generation/Production/HydroPowerPlant.py:21-23 *);
  (934, Mod n_HydroPump [916; 901; 698; 1] false [SFrom 728 n_PowerSystemResource; SClass n_HydroPump (Some n_PowerSystemResource)])(* CIM14/IEC61970/Generation/Production/HydroPump.py:21-23 *);
  (935, Mod n_HydroPumpOpSchedule [916; 901; 698; 1] false [SFrom 730 n_RegularIntervalSchedule; SClass n_HydroPumpOpSchedule (Some n_RegularIntervalSchedule)])(* CIM14/IEC61970/Generation/Production/HydroPumpOpSchedule.py:21-23 *);
  (936, Mod n_IncrementalHeatRateCurve [916; 901; 698; 1] false [SFrom 717 n_Curve; SClass n_IncrementalHeatRateCurve (Some n_Curve)])(* CIM14/IEC61970/Generation/Production/IncrementalHeatRateCurve.py:21-23 *);
  (937, Mod n_InflowForecast [916; 901; 698; 1] false [SFrom 730 n_RegularIntervalSchedule; SClass n_InflowForecast (Some n_RegularIntervalSchedule)])(* CIM14/IEC61970/Generation/Production/InflowForecast.py:21-23 *);
  (938, Mod n_LevelVsVolumeCurve [916; 901; 698; 1] false [SFrom 717 n_Curve; SClass n_LevelVsVolumeCurve (Some n_Curve)])(* CIM14/IEC61970/Generation/Production/LevelVsVolumeCurve.py:21-23 *);
  (939, Mod n_NuclearGeneratingUnit [916; 901; 698; 1] false [SFrom 927 n_GeneratingUnit; SClass n_NuclearGeneratingUnit (Some n_GeneratingUnit)])(* CIM14/IEC61970/Generation/Production/NuclearGeneratingUnit.py:21-23 *);
  (940, Mod n_PenstockLossCurve [916; 901; 698; 1] false [SFrom 717 n_Curve; SClass n_PenstockLossCurve (Some n_Curve)])(* CIM14/IEC61970/Generation/Production/PenstockLossCurve.py:21-23 *);
  (941, Mod n_Reservoir [916; 901; 698; 1] false [SFrom 728 n_PowerSystemResource; SClass n_Reservoir (Some n_PowerSystemResource)])(* CIM14/IEC61970/Generation/Production/Reservoir.py:21-23 *);
  (942, Mod n_ShutdownCurve [916; 901; 698; 1] false [SFrom 717 n_Curve; SClass n_ShutdownCurve (Some n_Curve)])(* CIM14/IEC61970/Generation/Production/ShutdownCurve.py:21-23 *);
  (943, Mod n_StartIgnFuelCurve [916; 901; 698; 1] false [SFrom 717 n_Curve; SClass n_StartIgnFuelCurve (Some n_Curve)])(* CIM14/IEC61970/Generation/Production/StartIgnFuelCurve.py:21-23 *);
  (944, Mod n_StartMainFuelCurve [916; 901; 698; 1] false [SFrom 717 n_Curve; SClass n_StartMainFuelCurve (Some n_Curve)])(* CIM14/IEC61970/Generation/Production/StartMainFuelCurve.py:21-23 *);
  (945, Mod n_StartRampCurve [916; 901; 698; 1] false [SFrom 717 n_Curve; SClass n_StartRampCurve (Some n_Curve)])(* CIM14/IEC61970/Generation/Production/StartRampCurve.py:21-23 *);
  (946, Mod n_StartupModel [916; 901; 698; 1] false [SFrom 722 n_IdentifiedObject; SClass n_StartupModel (Some n_IdentifiedObject)])(* CIM14/IEC61970/Generation/Production/StartupModel.py:21-23 *);
  (947, Mod n_SteamSendoutSchedule [916; 901; 698; 1] false [SFrom 730 n_RegularIntervalSchedule; SClass n_SteamSendoutSchedule (Some n_RegularIntervalSchedule)])(* CIM14/IEC61970/Generation/Production/SteamSendoutSchedule.py:21-23 *);
  (948, Mod n_TailbayLossCurve [916; 901; 698; 1] false [SFrom 717 n_Curve; SClass n_TailbayLossCurve (Some n_Curve)])(* CIM14/IEC61970/Generation/Production/TailbayLossCurve.py:21-23 *);
  (949, Mod n_TargetLevelSchedule [916; 901; 698; 1] false [SFrom 717 n_Curve; SClass n_TargetLevelSchedule (Some n_Curve)])(* CIM14/IEC61970/Generation/Production/TargetLevelSchedule.py:21-23 *);
  (950, Mod n_ThermalGeneratingUnit [916; 901; 698; 1] false [SFrom 927 n_GeneratingUnit; SClass n_ThermalGeneratingUnit (Some n_GeneratingUnit)])(* CIM14/IEC61970/Generation/Production/ThermalGeneratingUnit.py:21-23 *);
  (951, Mod n_WindGeneratingUnit [916; 901; 698; 1] false [SFrom 927 n_GeneratingUnit; SClass n_WindGeneratingUnit (Some n_GeneratingUnit)])(* CIM14/IEC61970/Generation/Production/WindGeneratingUnit.py:21-23 *);
  (952, Mod n_IEC61970CIMVersion [698; 1] false [SFrom 581 n_Element; SClass n_IEC61970CIMVersion (Some n_Element)])(* CIM14/IEC61970/IEC61970CIMVersion.py:21-23 *);
  (953, Mod i_Informative [698; 1] true [SAssign i_nsURI; SAssign i_nsPrefix])(* CIM14/IEC61970/Informative/__init__.py:23-24 *);
  (954, Mod i_InfCore [953; 698; 1] true [SFrom 955 n_ModelingAuthority; SFrom 956 n_ModelingAuthoritySet; SAssign i_nsURI; SAssign i_nsPrefix])(* CIM14/IEC61970/Informative/InfCore/__init__.py:22-26 *);
  (955, Mod n_ModelingAuthority [954; 953; 698; 1] false [SFrom 722 n_IdentifiedObject; SClass n_ModelingAuthority (Some n_IdentifiedObject)])(* CIM14/IEC61970/Informative/InfCore/ModelingAuthority.py:21-23 *);
  (956, Mod n_ModelingAuthoritySet [954; 953; 698; 1] false [SFrom 722 n_IdentifiedObject; SClass n_ModelingAuthoritySet (Some n_IdentifiedObject)])(* CIM14/IEC61970/Informative/InfCore/ModelingAuthoritySet.py:21-23 *);
  (957, Mod i_LoadModel [698; 1] true [SFrom 969 n_PowerCutZone; SFrom 965 n_LoadResponseCharacteristic; SFrom 962 n_EnergyArea; SFrom 963 n_LoadArea; SFrom 972 n_StationSupply; SFrom 973 n_SubLoadArea; SFrom 964 n_LoadGroup; SFrom 967 n_NonConformLoadGroup; SFrom 971 n_SeasonDayTypeSchedule; SFrom 970 n_Season; SFrom 960 n_ConformLoadSchedule; SFrom 966 n_NonConformLoad; SFrom 958 n_ConformLoad; SFrom 968 n_NonConformLoadSchedule; SFrom 961 n_DayType; SFrom 959 n_ConformLoadGroup; SAssign i_nsURI; SAssign i_nsPrefix; SClass n_SeasonName None])(* CIM14/IEC61970/LoadModel/__init__.py:24-45 *);
  (958, Mod n_ConformLoad [957; 698; 1] false [SFrom 1052 n_EnergyConsumer; SClass n_ConformLoad (Some n_EnergyConsumer)])(* CIM14/IEC61970/LoadModel/ConformLoad.py:21-23 *);
  (959, Mod n_ConformLoadGroup [957; 698; 1] false [SFrom 964 n_LoadGroup; SClass n_ConformLoadGroup (Some n_LoadGroup)])(* CIM14/IEC61970/LoadModel/ConformLoadGroup.py:21-23 *);
  (960, Mod n_ConformLoadSchedule [957; 698; 1] false [SFrom 971 n_SeasonDayTypeSchedule; SClass n_ConformLoadSchedule (Some n_SeasonDayTypeSchedule)])(* CIM14/IEC61970/LoadModel/ConformLoadSchedule.py:21-23 *);
  (961, Mod n_DayType [957; 698; 1] false [SFrom 722 n_IdentifiedObject; SClass n_DayType (Some n_IdentifiedObject)])(* CIM14/IEC61970/LoadModel/DayType.py:21-23 *);
  (962, Mod n_EnergyArea [957; 698; 1] false [SFrom 722 n_IdentifiedObject; SClass n_EnergyArea (Some n_IdentifiedObject)])(* CIM14/IEC61970/LoadModel/EnergyArea.py:21-23 *);
  (963, Mod n_LoadArea [957; 698; 1] false [SFrom 962 n_EnergyArea; SClass n_LoadArea (Some n_EnergyArea)])(* CIM14/IEC61970/LoadModel/LoadArea.py:21-23 *);
  (964, Mod n_LoadGroup [957; 698; 1] false [SFrom 722 n_IdentifiedObject; SClass n_LoadGroup (Some n_IdentifiedObject)])(* CIM14/IEC61970/LoadModel/LoadGroup.py:21-23 *);
  (965, Mod n_LoadResponseCharacteristic [957; 698; 1] false [SFrom 722 n_IdentifiedObject; SClass n_LoadResponseCharacteristic (Some n_IdentifiedObject)])(* CIM14/IEC61970/LoadModel/LoadResponseCharacteristic.py:21-23 *);
  (966, Mod n_NonConformLoad [957; 698; 1] false [SFrom 1052 n_EnergyConsumer; SClass n_NonConformLoad (Some n_EnergyConsumer)])(* CIM14/IEC61970/LoadModel/NonConformLoad.py:21-23 *);
  (967, Mod n_NonConformLoadGroup [957; 698; 1] false [SFrom 964 n_LoadGroup; SClass n_NonConformLoadGroup (Some n_LoadGroup)])(* CIM14/IEC61970/LoadModel/NonConformLoadGroup.py:21-23 *);
  (968, Mod n_NonConformLoadSchedule [957; 698; 1] false [SFrom 971 n_SeasonDayTypeSchedule; SClass n_NonConformLoadSchedule (Some n_SeasonDayTypeSchedule)])(* CIM14/IEC61970/LoadModel/NonConformLoadSchedule.py:21-23 *);
  (969, Mod n_PowerCutZone [957; 698; 1] false [SFrom 728 n_PowerSystemResource; SClass n_PowerCutZone (Some n_PowerSystemResource)])(* CIM14/IEC61970/LoadModel/PowerCutZone.py:21-23 *);
  (970, Mod n_Season [957; 698; 1] false [SFrom 581 n_Element; SClass n_Season (Some n_Element)])(* CIM14/IEC61970/LoadModel/Season.py:21-23 *);
  (971, Mod n_SeasonDayTypeSchedule [957; 698; 1] false [SFrom 730 n_RegularIntervalSchedule; SClass n_SeasonDayTypeSchedule (Some n_RegularIntervalSchedule)])(* CIM14/IEC61970/LoadModel/SeasonDayTypeSchedule.py:21-23 *);
  (972, Mod n_StationSupply [957; 698; 1] false [SFrom 1052 n_EnergyConsumer; SClass n_StationSupply (Some n_EnergyConsumer)])(* CIM14/IEC61970/LoadModel/StationSupply.py:21-23 *);
  (973, Mod n_SubLoadArea [957; 698; 1] false [SFrom 962 n_EnergyArea; SClass n_SubLoadArea (Some n_EnergyArea)])(* CIM14/IEC61970/LoadModel/SubLoadArea.py:21-23 *);
  (974, Mod i_Meas [698; 1] true [SFrom 992 n_MeasurementValue; SFrom 984 n_Control; SFrom 991 n_Measurement; SFrom 998 n_StringMeasurement; SFrom 987 n_Discrete; SFrom 986 n_CurrentTransformer; SFrom 1000 n_ValueAliasSet; SFrom 988 n_DiscreteValue; SFrom 989 n_Limit; SFrom 980 n_AnalogLimit; SFrom 990 n_LimitSet; SFrom 977 n_AccumulatorLimitSet; SFrom 997 n_SetPoint; SFrom 983 n_Command; SFrom 999 n_StringMeasurementValue; SFrom 995 n_PotentialTransformer; SFrom 1001 n_ValueToAlias; SFrom 985 n_ControlType; SFrom 975 n_Accumulator; SFrom 981 n_AnalogLimitSet; SFrom 976 n_AccumulatorLimit; SFrom 994 n_MeasurementValueSource; SFrom 982 n_AnalogValue; SFrom 979 n_Analog; SFrom 996 n_Quality61850; SFrom 993 n_MeasurementValueQuality; SFrom 978 n_AccumulatorValue; SAssign i_nsURI; SAssign i_nsPrefix; SClass n_Validity None])(* CIM14/IEC61970/Meas/__init__.py:24-56 *);
  (975, Mod n_Accumulator [974; 698; 1] false [SFrom 991 n_Measurement; SClass n_Accumulator (Some n_Measurement)])(* CIM14/IEC61970/Meas/Accumulator.py:21-23 *);
  (976, Mod n_AccumulatorLimit [974; 698; 1] false [SFrom 989 n_Limit; SClass n_AccumulatorLimit (Some n_Limit)])(* CIM14/IEC61970/Meas/AccumulatorLimit.py:21-23 *);
  (977, Mod n_AccumulatorLimitSet [974; 698; 1] false [SFrom 990 n_LimitSet; SClass n_AccumulatorLimitSet (Some n_LimitSet)])(* CIM14/IEC61970/Meas/AccumulatorLimitSet.py:21-23 *);
  (978, Mod n_AccumulatorValue [974; 698; 1] false [SFrom 992 n_MeasurementValue; SClass n_AccumulatorValue (Some n_MeasurementValue)])(* CIM14/IEC61970/Meas/AccumulatorValue.py:21-23 *);
  (979, Mod n_Analog [974; 698; 1] false [SFrom 991 n_Measurement; SClass n_Analog (Some n_Measurement)])(* CIM14/IEC61970/Meas/Analog.py:21-23 *);
  (980, Mod n_AnalogLimit [974; 698; 1] false [SFrom 989 n_Limit; SClass n_AnalogLimit (Some n_Limit)])(* CIM14/IEC61970/Meas/AnalogLimit.py:21-23 *);
  (981, Mod n_AnalogLimitSet [974; 698; 1] false [SFrom 990 n_LimitSet; SClass n_AnalogLimitSet (Some n_LimitSet)])(* CIM14/IEC61970/Meas/AnalogLimitSet.py:21-23 *);
  (982, Mod n_AnalogValue [974; 698; 1] false [SFrom 992 n_MeasurementValue; SClass n_AnalogValue (Some n_MeasurementValue)])(* CIM14/IEC61970/Meas/AnalogValue.py:21-23 *);
  (983, Mod n_Command [974; 698; 1] false [SFrom 984 n_Control; SClass n_Command (Some n_Control)])(* CIM14/IEC61970/Meas/Command.py:21-23 *);
  (984, Mod n_Control [974; 698; 1] false [SFrom 722 n_IdentifiedObject; SClass n_Control (Some n_IdentifiedObject)])(* CIM14/IEC61970/Meas/Control.py:21-23 *);
  (985, Mod n_ControlType [974; 698; 1] false [SFrom 722 n_IdentifiedObject; SClass n_ControlType (Some n_IdentifiedObject)])(* CIM14/IEC61970/Meas/ControlType.py:21-23 *);
  (986, Mod n_CurrentTransformer [974; 698; 1] false [SFrom 719 n_Equipment; SClass n_CurrentTransformer (Some n_Equipment)])(* CIM14/IEC61970/Meas/CurrentTransformer.py:21-23 *);
  (987, Mod n_Discrete [974; 698; 1] false [SFrom 991 n_Measurement; SClass n_Discrete (Some n_Measurement)])(* CIM14/IEC61970/Meas/Discrete.py:21-23 *);
  (988, Mod n_DiscreteValue [974; 698; 1] false [SFrom 992 n_MeasurementValue; SClass n_DiscreteValue (Some n_MeasurementValue)])(* CIM14/IEC61970/Meas/DiscreteValue.py:21-23 *);
  (989, Mod n_Limit [974; 698; 1] false [SFrom 722 n_IdentifiedObject; SClass n_Limit (Some n_IdentifiedObject)])(* CIM14/IEC61970/Meas/Limit.py:21-23 *);
  (990, Mod n_LimitSet [974; 698; 1] false [SFrom 722 n_IdentifiedObject; SClass n_LimitSet (Some n_IdentifiedObject)])(* CIM14/IEC61970/Meas/LimitSet.py:21-23 *);
  (991, Mod n_Measurement [974; 698; 1] false [SFrom 722 n_IdentifiedObject; SClass n_Measurement (Some n_IdentifiedObject)])(* CIM14/IEC61970/Meas/Measurement.py:21-23 *);
  (992, Mod n_MeasurementValue [974; 698; 1] false [SFrom 722 n_IdentifiedObject; SClass n_MeasurementValue (Some n_IdentifiedObject)])(* CIM14/IEC61970/Meas/MeasurementValue.py:21-23 *);
  (993, Mod n_MeasurementValueQuality [974; 698; 1] false [SFrom 996 n_Quality61850; SClass n_MeasurementValueQuality (Some n_Quality61850)])(* CIM14/IEC61970/Meas/MeasurementValueQuality.py:21-23 *);
  (994, Mod n_MeasurementValueSource [974; 698; 1] false [SFrom 722 n_IdentifiedObject; SClass n_MeasurementValueSource (Some n_IdentifiedObject)])(* CIM14/IEC61970/Meas/MeasurementValueSource.py:21-23 *);
  (995, Mod n_PotentialTransformer [974; 698; 1] false [SFrom 719 n_Equipment; SClass n_PotentialTransformer (Some n_Equipment)])(* CIM14/IEC61970/Meas/PotentialTransformer.py:21-23 *);
  (996, Mod n_Quality61850 [974; 698; 1] false [SFrom 581 n_Element; SClass n_Quality61850 (Some n_Element)])(* CIM14/IEC61970/Meas/Quality61850.py:21-23 *);
  (997, Mod n_SetPoint [974; 698; 1] false [SFrom 984 n_Control; SClass n_SetPoint (Some n_Control)])(* CIM14/IEC61970/Meas/SetPoint.py:21-23 *);
  (998, Mod n_StringMeasurement [974; 698; 1] false [SFrom 991 n_Measurement; SClass n_StringMeasurement (Some n_Measurement)])(* CIM14/IEC61970/Meas/StringMeasurement.py:21-23 *);
  (999, Mod n_StringMeasurementValue [974; 698; 1] false [SFrom 992 n_MeasurementValue; SClass n_StringMeasurementValue (Some n_MeasurementValue)])(* CIM14/IEC61970/Meas/StringMeasurementValue.py:21-23 *);
  (1000, Mod n_ValueAliasSet [974; 698; 1] false [SFrom 722 n_IdentifiedObject; SClass n_ValueAliasSet (Some n_IdentifiedObject)])(* CIM14/IEC61970/Meas/ValueAliasSet.py:21-23 *);
  (1001, Mod n_ValueToAlias [974; 698; 1] false [SFrom 722 n_IdentifiedObject; SClass n_ValueToAlias (Some n_IdentifiedObject)])(* CIM14/IEC61970/Meas/ValueToAlias.py:21-23 *);
  (1002, Mod i_OperationalLimits [698; 1] true [SFrom 1008 n_OperationalLimit; SFrom 1007 n_CurrentLimit; SFrom 1005 n_BranchGroup; SFrom 1006 n_BranchGroupTerminal; SFrom 1004 n_ApparentPowerLimit; SFrom 1009 n_OperationalLimitSet; SFrom 1011 n_VoltageLimit; SFrom 1003 n_ActivePowerLimit; SFrom 1010 n_OperationalLimitType; SAssign i_nsURI; SAssign i_nsPrefix; SClass n_OperationalLimitDirectionKind None])(* CIM14/IEC61970/OperationalLimits/__init__.py:24-38 *);
  (1003, Mod n_ActivePowerLimit [1002; 698; 1] false [SFrom 1008 n_OperationalLimit; SClass n_ActivePowerLimit (Some n_OperationalLimit)])(* CIM14/IEC61970/OperationalLimits/ActivePowerLimit.py:21-23 *);
  (1004, Mod n_ApparentPowerLimit [1002; 698; 1] false [SFrom 1008 n_OperationalLimit; SClass n_ApparentPowerLimit (Some n_OperationalLimit)])(* CIM14/IEC61970/OperationalLimits/ApparentPowerLimit.py:21-23 *);
  (1005, Mod n_BranchGroup [1002; 698; 1] false [SFrom 722 n_IdentifiedObject; SClass n_BranchGroup (Some n_IdentifiedObject)])(* CIM14/IEC61970/OperationalLimits/BranchGroup.py:21-23 *);
  (1006, Mod n_BranchGroupTerminal [1002; 698; 1] false [SFrom 581 n_Element; SClass n_BranchGroupTerminal (Some n_Element)])(* CIM14/IEC61970/OperationalLimits/BranchGroupTerminal.py:21-23 *);
  (1007, Mod n_CurrentLimit [1002; 698; 1] false [SFrom 1008 n_OperationalLimit; SClass n_CurrentLimit (Some n_OperationalLimit)])(* CIM14/IEC61970/OperationalLimits/CurrentLimit.py:21-23 *);
  (1008, Mod n_OperationalLimit [1002; 698; 1] false [SFrom 722 n_IdentifiedObject; SClass n_OperationalLimit (Some n_IdentifiedObject)])(* CIM14/IEC61970/OperationalLimits/OperationalLimit.py:21-23 *);
  (1009, Mod n_OperationalLimitSet [1002; 698; 1] false [SFrom 722 n_IdentifiedObject; SClass n_OperationalLimitSet (Some n_IdentifiedObject)])(* CIM14/IEC61970/OperationalLimits/OperationalLimitSet.py:21-23 *);
  (1010, Mod n_OperationalLimitType [1002; 698; 1] false [SFrom 722 n_IdentifiedObject; SClass n_OperationalLimitType (Some n_IdentifiedObject)])(* CIM14/IEC61970/OperationalLimits/OperationalLimitType.py:21-23 *);
  (1011, Mod n_VoltageLimit [1002; 698; 1] false [SFrom 1008 n_OperationalLimit; SClass n_VoltageLimit (Some n_OperationalLimit)])(* CIM14/IEC61970/OperationalLimits/VoltageLimit.py:21-23 *);
  (1012, Mod i_Outage [698; 1] true [SFrom 1013 n_ClearanceTag; SFrom 1014 n_ClearanceTagType; SFrom 1015 n_OutageSchedule; SFrom 1016 n_SwitchingOperation; SAssign i_nsURI; SAssign i_nsPrefix; SClass n_SwitchState None])(* CIM14/IEC61970/Outage/__init__.py:24-33 *);
  (1013, Mod n_ClearanceTag [1012; 698; 1] false [SFrom 722 n_IdentifiedObject; SClass n_ClearanceTag (Some n_IdentifiedObject)])(* CIM14/IEC61970/Outage/ClearanceTag.py:21-23 *);
  (1014, Mod n_ClearanceTagType [1012; 698; 1] false [SFrom 722 n_IdentifiedObject; SClass n_ClearanceTagType (Some n_IdentifiedObject)])(* CIM14/IEC61970/Outage/ClearanceTagType.py:21-23 *);
  (1015, Mod n_OutageSchedule [1012; 698; 1] false [SFrom 723 n_IrregularIntervalSchedule; SClass n_OutageSchedule (Some n_IrregularIntervalSchedule)])(* CIM14/IEC61970/Outage/OutageSchedule.py:21-23 *);
  (1016, Mod n_SwitchingOperation [1012; 698; 1] false [SFrom 722 n_IdentifiedObject; SClass n_SwitchingOperation (Some n_IdentifiedObject)])(* CIM14/IEC61970/Outage/SwitchingOperation.py:21-23 *);
  (1017, Mod i_Protection [698; 1] true [SFrom 1021 n_RecloseSequence; SFrom 1020 n_ProtectionEquipment; SFrom 1018 n_CurrentRelay; SFrom 1022 n_SurgeProtector; SFrom 1019 n_FaultIndicator; SFrom 1023 n_SynchrocheckRelay; SAssign i_nsURI; SAssign i_nsPrefix])(* CIM14/IEC61970/Protection/__init__.py:24-32 *);
  (1018, Mod n_CurrentRelay [1017; 698; 1] false [SFrom 1020 n_ProtectionEquipment; SClass n_CurrentRelay (Some n_ProtectionEquipment)])(* CIM14/IEC61970/Protection/CurrentRelay.py:21-23 *);
  (1019, Mod n_FaultIndicator [1017; 698; 1] false [SFrom 719 n_Equipment; SClass n_FaultIndicator (Some n_Equipment)])(* CIM14/IEC61970/Protection/FaultIndicator.py:21-23 *);
  (1020, Mod n_ProtectionEquipment [1017; 698; 1] false [SFrom 719 n_Equipment; SClass n_ProtectionEquipment (Some n_Equipment)])(* CIM14/IEC61970/Protection/ProtectionEquipment.py:21-23 *);
  (1021, Mod n_RecloseSequence [1017; 698; 1] false [SFrom 722 n_IdentifiedObject; SClass n_RecloseSequence (Some n_IdentifiedObject)])(* CIM14/IEC61970/Protection/RecloseSequence.py:21-23 *);
  (1022, Mod n_SurgeProtector [1017; 698; 1] false [SFrom 719 n_Equipment; SClass n_SurgeProtector (Some n_Equipment)])(* CIM14/IEC61970/Protection/SurgeProtector.py:21-23 *);
  (1023, Mod n_SynchrocheckRelay [1017; 698; 1] false [SFrom 1020 n_ProtectionEquipment; SClass n_SynchrocheckRelay (Some n_ProtectionEquipment)])(* CIM14/IEC61970/Protection/SynchrocheckRelay.py:21-23 *);
  (1024, Mod i_SCADA [698; 1] true [SFrom 1027 n_RemotePoint; SFrom 1026 n_RemoteControl; SFrom 1029 n_RemoteUnit; SFrom 1025 n_CommunicationLink; SFrom 1028 n_RemoteSource; SAssign i_nsURI; SAssign i_nsPrefix; SClass n_RemoteUnitType None; SClass n_Source None])(* CIM14/IEC61970/SCADA/__init__.py:24-40 *);
  (1025, Mod n_CommunicationLink [1024; 698; 1] false [SFrom 728 n_PowerSystemResource; SClass n_CommunicationLink (Some n_PowerSystemResource)])(* CIM14/IEC61970/SCADA/CommunicationLink.py:21-23 *);
  (1026, Mod n_RemoteControl [1024; 698; 1] false [SFrom 1027 n_RemotePoint; SClass n_RemoteControl (Some n_RemotePoint)])(* CIM14/IEC61970/SCADA/RemoteControl.py:21-23 *);
  (1027, Mod n_RemotePoint [1024; 698; 1] false [SFrom 722 n_IdentifiedObject; SClass n_RemotePoint (Some n_IdentifiedObject)])(* CIM14/IEC61970/SCADA/RemotePoint.py:21-23 *);
  (1028, Mod n_RemoteSource [1024; 698; 1] false [SFrom 1027 n_RemotePoint; SClass n_RemoteSource (Some n_RemotePoint)])(* CIM14/IEC61970/SCADA/RemoteSource.py:21-23 *);
  (1029, Mod n_RemoteUnit [1024; 698; 1] false [SFrom 728 n_PowerSystemResource; SClass n_RemoteUnit (Some n_PowerSystemResource)])(* CIM14/IEC61970/SCADA/RemoteUnit.py:21-23 *);
  (1030, Mod i_StateVariables [698; 1] true [SFrom 1039 n_TopologicalIsland; SFrom 1031 n_StateVariable; SFrom 1038 n_SvVoltage; SFrom 1034 n_SvShortCircuit; SFrom 1035 n_SvShuntCompensatorSections; SFrom 1033 n_SvPowerFlow; SFrom 1036 n_SvStatus; SFrom 1037 n_SvTapStep; SFrom 1032 n_SvInjection; SAssign i_nsURI; SAssign i_nsPrefix])(* CIM14/IEC61970/StateVariables/__init__.py:24-35 *);
  (1031, Mod n_StateVariable [1030; 698; 1] false [SFrom 581 n_Element; SClass n_StateVariable (Some n_Element)])(* CIM14/IEC61970/StateVariables/StateVariable.py:21-23 *);
  (1032, Mod n_SvInjection [1030; 698; 1] false [SFrom 1031 n_StateVariable; SClass n_SvInjection (Some n_StateVariable)])(* CIM14/IEC61970/StateVariables/SvInjection.py:21-23 *);
  (1033, Mod n_SvPowerFlow [1030; 698; 1] false [SFrom 1031 n_StateVariable; SClass n_SvPowerFlow (Some n_StateVariable)])(* CIM14/IEC61970/StateVariables/SvPowerFlow.py:21-23 *);
  (1034, Mod n_SvShortCircuit [1030; 698; 1] false [SFrom 1031 n_StateVariable; SClass n_SvShortCircuit (Some n_StateVariable)])(* CIM14/IEC61970/StateVariables/SvShortCircuit.py:21-23 *);
  (1035, Mod n_SvShuntCompensatorSections [1030; 698; 1] false [SFrom 1031 n_StateVariable; SClass n_SvShuntCompensatorSections (Some n_StateVariable)])(* CIM14/IEC61970/StateVariables/SvShuntCompensatorSections.py:21-23 *);
  (1036, Mod n_SvStatus [1030; 698; 1] false [SFrom 1031 n_StateVariable; SClass n_SvStatus (Some n_StateVariable)])(* CIM14/IEC61970/StateVariables/SvStatus.py:21-23 *);
  (1037, Mod n_SvTapStep [1030; 698; 1] false [SFrom 1031 n_StateVariable; SClass n_SvTapStep (Some n_StateVariable)])(* CIM14/IEC61970/StateVariables/SvTapStep.py:21-23 *);
  (1038, Mod n_SvVoltage [1030; 698; 1] false [SFrom 1031 n_StateVariable; SClass n_SvVoltage (Some n_StateVariable)])(* CIM14/IEC61970/StateVariables/SvVoltage.py:21-23 *);
  (1039, Mod n_TopologicalIsland [1030; 698; 1] false [SFrom 722 n_IdentifiedObject; SClass n_TopologicalIsland (Some n_IdentifiedObject)])(* CIM14/IEC61970/StateVariables/TopologicalIsland.py:21-23 *);
  (1040, Mod i_Topology [698; 1] true [SFrom 1042 n_TopologicalNode; SFrom 1041 n_BusNameMarker; SAssign i_nsURI; SAssign i_nsPrefix])(* CIM14/IEC61970/Topology/__init__.py:24-28 *);
  (1041, Mod n_BusNameMarker [1040; 698; 1] false [SFrom 722 n_IdentifiedObject; SClass n_BusNameMarker (Some n_IdentifiedObject)])(* CIM14/IEC61970/Topology/BusNameMarker.py:21-23 *);
  (1042, Mod n_TopologicalNode [1040; 698; 1] false [SFrom 722 n_IdentifiedObject; SClass n_TopologicalNode (Some n_IdentifiedObject)])(* CIM14/IEC61970/Topology/TopologicalNode.py:21-23 *);
  (1043, Mod i_Wires [698; 1] true [SFrom 1068 n_PowerTransformer; SFrom 1074 n_RegulatingCondEq; SFrom 1054 n_FrequencyConverter; SFrom 1079 n_ShuntCompensator; SFrom 1058 n_HeatExchanger; SFrom 1075 n_RegulatingControl; SFrom 1072 n_ReactiveCapabilityCurve; SFrom 1062 n_Line; SFrom 1049 n_Connector; SFrom 1061 n_Junction; SFrom 1056 n_Ground; SFrom 1048 n_Conductor; SFrom 1086 n_TransformerWinding; SFrom 1083 n_SynchronousMachine; SFrom 1052 n_EnergyConsumer; SFrom 1084 n_TapChanger; SFrom 1070 n_RatioTapChanger; SFrom 1081 n_Switch; SFrom 1069 n_ProtectedSwitch; SFrom 1063 n_LoadBreakSwitch; SFrom 1044 n_ACLineSegment; SFrom 1067 n_Plant; SFrom 1076 n_RegulationSchedule; SFrom 1088 n_WindingTest; SFrom 1066 n_PhaseVariationCurve; SFrom 1064 n_MutualCoupling; SFrom 1051 n_Disconnector; SFrom 1078 n_SeriesCompensator; SFrom 1057 n_GroundDisconnector; SFrom 1071 n_RatioVariationCurve; SFrom 1077 n_Resistor; SFrom 1047 n_CompositeSwitch; SFrom 1065 n_PhaseTapChanger; SFrom 1073 n_RectifierInverter; SFrom 1080 n_StaticVarCompensator; SFrom 1085 n_TapSchedule; SFrom 1087 n_VoltageControlZone; SFrom 1053 n_EnergySource; SFrom 1055 n_Fuse; SFrom 1060 n_Jumper; SFrom 1059 n_ImpedanceVariationCurve; SFrom 1050 n_DCLineSegment; SFrom 1082 n_SwitchSchedule; SFrom 1045 n_Breaker; SFrom 1046 n_BusbarSection; SAssign i_nsURI; SAssign i_nsPrefix; SClass n_PhaseTapChangerKind None; SClass n_RegulatingControlModeKind None; SClass i_TapChangerKind None; SClass n_CoolantType None; SClass n_SynchronousMachineType None; SClass n_WindingType None; SClass n_SVCControlMode None; SClass n_WindingConnection None; SClass n_TransformerControlMode None; SClass n_SynchronousMachineOperatingMode None; SClass i_CompositeSwitchType None; SClass i_OperatingMode None])(* CIM14/IEC61970/Wires/__init__.py:24-139 *);
  (1044, Mod n_ACLineSegment [1043; 698; 1] false [SFrom 1048 n_Conductor; SClass n_ACLineSegment (Some n_Conductor)])(* CIM14/IEC61970/Wires/ACLineSegment.py:21-23 *);
  (1045, Mod n_Breaker [1043; 698; 1] false [SFrom 1069 n_ProtectedSwitch; SClass n_Breaker (Some n_ProtectedSwitch)])(* CIM14/IEC61970/Wires/Breaker.py:21-23 *);
  (1046, Mod n_BusbarSection [1043; 698; 1] false [SFrom 1049 n_Connector; SClass n_BusbarSection (Some n_Connector)])(* CIM14/IEC61970/Wires/BusbarSection.py:21-23 *);
  (1047, Mod n_CompositeSwitch [1043; 698; 1] false [SFrom 719 n_Equipment; SClass n_CompositeSwitch (Some n_Equipment)])(* CIM14/IEC61970/Wires/CompositeSwitch.py:21-23 *);
  (1048, Mod n_Conductor [1043; 698; 1] false [SFrom 714 n_ConductingEquipment; SClass n_Conductor (Some n_ConductingEquipment)])(* CIM14/IEC61970/Wires/Conductor.py:21-23 *);
  (1049, Mod n_Connector [1043; 698; 1] false [SFrom 714 n_ConductingEquipment; SClass n_Connector (Some n_ConductingEquipment)])(* CIM14/IEC61970/Wires/Connector.py:21-23 *);
  (1050, Mod n_DCLineSegment [1043; 698; 1] false [SFrom 1048 n_Conductor; SClass n_DCLineSegment (Some n_Conductor)])(* CIM14/IEC61970/Wires/DCLineSegment.py:21-23 *);
  (1051, Mod n_Disconnector [1043; 698; 1] false [SFrom 1081 n_Switch; SClass n_Disconnector (Some n_Switch)])(* CIM14/IEC61970/Wires/Disconnector.py:21-23 *);
  (1052, Mod n_EnergyConsumer [1043; 698; 1] false [SFrom 714 n_ConductingEquipment; SClass n_EnergyConsumer (Some n_ConductingEquipment)])(* CIM14/IEC61970/Wires/EnergyConsumer.py:21-23 *);
  (1053, Mod n_EnergySource [1043; 698; 1] false [SFrom 714 n_ConductingEquipment; SClass n_EnergySource (Some n_ConductingEquipment)])(* CIM14/IEC61970/Wires/EnergySource.py:21-23 *);
  (1054, Mod n_FrequencyConverter [1043; 698; 1] false [SFrom 1074 n_RegulatingCondEq; SClass n_FrequencyConverter (Some n_RegulatingCondEq)])(* CIM14/IEC61970/Wires/FrequencyConverter.py:21-23 *);
  (1055, Mod n_Fuse [1043; 698; 1] false [SFrom 1081 n_Switch; SClass n_Fuse (Some n_Switch)])(* CIM14/IEC61970/Wires/Fuse.py:21-23 *);
  (1056, Mod n_Ground [1043; 698; 1] false [SFrom 714 n_ConductingEquipment; SClass n_Ground (Some n_ConductingEquipment)])(* CIM14/IEC61970/Wires/Ground.py:21-23 *);
  (1057, Mod n_GroundDisconnector [1043; 698; 1] false [SFrom 1081 n_Switch; SClass n_GroundDisconnector (Some n_Switch)])(* CIM14/IEC61970/Wires/GroundDisconnector.py:21-23 *);
  (1058, Mod n_HeatExchanger [1043; 698; 1] false [SFrom 719 n_Equipment; SClass n_HeatExchanger (Some n_Equipment)])(* CIM14/IEC61970/Wires/HeatExchanger.py:21-23 *);
  (1059, Mod n_ImpedanceVariationCurve [1043; 698; 1] false [SFrom 717 n_Curve; SClass n_ImpedanceVariationCurve (Some n_Curve)])(* CIM14/IEC61970/Wires/ImpedanceVariationCurve.py:21-23 *);
  (1060, Mod n_Jumper [1043; 698; 1] false [SFrom 1081 n_Switch; SClass n_Jumper (Some n_Switch)])(* CIM14/IEC61970/Wires/Jumper.py:21-23 *);
  (1061, Mod n_Junction [1043; 698; 1] false [SFrom 1049 n_Connector; SClass n_Junction (Some n_Connector)])(* CIM14/IEC61970/Wires/Junction.py:21-23 *);
  (1062, Mod n_Line [1043; 698; 1] false [SFrom 720 n_EquipmentContainer; SClass n_Line (Some n_EquipmentContainer)])(* CIM14/IEC61970/Wires/Line.py:21-23 *);
  (1063, Mod n_LoadBreakSwitch [1043; 698; 1] false [SFrom 1069 n_ProtectedSwitch; SClass n_LoadBreakSwitch (Some n_ProtectedSwitch)])(* CIM14/IEC61970/Wires/LoadBreakSwitch.py:21-23 *);
  (1064, Mod n_MutualCoupling [1043; 698; 1] false [SFrom 722 n_IdentifiedObject; SClass n_MutualCoupling (Some n_IdentifiedObject)])(* CIM14/IEC61970/Wires/MutualCoupling.py:21-23 *);
  (1065, Mod n_PhaseTapChanger [1043; 698; 1] false [SFrom 1084 n_TapChanger; SClass n_PhaseTapChanger (Some n_TapChanger)])(* CIM14/IEC61970/Wires/PhaseTapChanger.py:21-23 *);
  (1066, Mod n_PhaseVariationCurve [1043; 698; 1] false [SFrom 717 n_Curve; SClass n_PhaseVariationCurve (Some n_Curve)])(* CIM14/IEC61970/Wires/PhaseVariationCurve.py:21-23 *);
  (1067, Mod n_Plant [1043; 698; 1] false [SFrom 720 n_EquipmentContainer; SClass n_Plant (Some n_EquipmentContainer)])(* CIM14/IEC61970/Wires/Plant.py:21-23 *);
  (1068, Mod n_PowerTransformer [1043; 698; 1] false [SFrom 719 n_Equipment; SClass n_PowerTransformer (Some n_Equipment)])(* CIM14/IEC61970/Wires/PowerTransformer.py:21-23 *);
  (1069, Mod n_ProtectedSwitch [1043; 698; 1] false [SFrom 1081 n_Switch; SClass n_ProtectedSwitch (Some n_Switch)])(* CIM14/IEC61970/Wires/ProtectedSwitch.py:21-23 *);
  (1070, Mod n_RatioTapChanger [1043; 698; 1] false [SFrom 1084 n_TapChanger; SClass n_RatioTapChanger (Some n_TapChanger)])(* CIM14/IEC61970/Wires/RatioTapChanger.py:21-23 *);
  (1071, Mod n_RatioVariationCurve [1043; 698; 1] false [SFrom 717 n_Curve; SClass n_RatioVariationCurve (Some n_Curve)])(* CIM14/IEC61970/Wires/RatioVariationCurve.py:21-23 *);
  (1072, Mod n_ReactiveCapabilityCurve [1043; 698; 1] false [SFrom 717 n_Curve; SClass n_ReactiveCapabilityCurve (Some n_Curve)])(* CIM14/IEC61970/Wires/ReactiveCapabilityCurve.py:21-23 *);
  (1073, Mod n_RectifierInverter [1043; 698; 1] false [SFrom 714 n_ConductingEquipment; SClass n_RectifierInverter (Some n_ConductingEquipment)])(* CIM14/IEC61970/Wires/RectifierInverter.py:21-23 *);
  (1074, Mod n_RegulatingCondEq [1043; 698; 1] false [SFrom 714 n_ConductingEquipment; SClass n_RegulatingCondEq (Some n_ConductingEquipment)])(* CIM14/IEC61970/Wires/RegulatingCondEq.py:21-23 *);
  (1075, Mod n_RegulatingControl [1043; 698; 1] false [SFrom 728 n_PowerSystemResource; SClass n_RegulatingControl (Some n_PowerSystemResource)])(* CIM14/IEC61970/Wires/RegulatingControl.py:21-23 *);
  (1076, Mod n_RegulationSchedule [1043; 698; 1] false [SFrom 971 n_SeasonDayTypeSchedule; SClass n_RegulationSchedule (Some n_SeasonDayTypeSchedule)])(* CIM14/IEC61970/Wires/RegulationSchedule.py:21-23 *);
  (1077, Mod n_Resistor [1043; 698; 1] false [SFrom 714 n_ConductingEquipment; SClass n_Resistor (Some n_ConductingEquipment)])(* CIM14/IEC61970/Wires/Resistor.py:21-23 *);
  (1078, Mod n_SeriesCompensator [1043; 698; 1] false [SFrom 714 n_ConductingEquipment; SClass n_SeriesCompensator (Some n_ConductingEquipment)])(* CIM14/IEC61970/Wires/SeriesCompensator.py:21-23 *);
  (1079, Mod n_ShuntCompensator [1043; 698; 1] false [SFrom 1074 n_RegulatingCondEq; SClass n_ShuntCompensator (Some n_RegulatingCondEq)])(* CIM14/IEC61970/Wires/ShuntCompensator.py:21-23 *);
  (1080, Mod n_StaticVarCompensator [1043; 698; 1] false [SFrom 1074 n_RegulatingCondEq; SClass n_StaticVarCompensator (Some n_RegulatingCondEq)])(* CIM14/IEC61970/Wires/StaticVarCompensator.py:21-23 *);
  (1081, Mod n_Switch [1043; 698; 1] false [SFrom 714 n_ConductingEquipment; SClass n_Switch (Some n_ConductingEquipment)])(* CIM14/IEC61970/Wires/Switch.py:21-23 *);
  (1082, Mod n_SwitchSchedule [1043; 698; 1] false [SFrom 971 n_SeasonDayTypeSchedule; SClass n_SwitchSchedule (Some n_SeasonDayTypeSchedule)])(* CIM14/IEC61970/Wires/SwitchSchedule.py:21-23 *);
  (1083, Mod n_SynchronousMachine [1043; 698; 1] false [SFrom 843 n_RotatingMachine; SClass n_SynchronousMachine (Some n_RotatingMachine)])(* CIM14/IEC61970/Wires/SynchronousMachine.py:21-23 *);
  (1084, Mod n_TapChanger [1043; 698; 1] false [SFrom 728 n_PowerSystemResource; SClass n_TapChanger (Some n_PowerSystemResource)])(* CIM14/IEC61970/Wires/TapChanger.py:21-23 *);
  (1085, Mod n_TapSchedule [1043; 698; 1] false [SFrom 971 n_SeasonDayTypeSchedule; SClass n_TapSchedule (Some n_SeasonDayTypeSchedule)])(* CIM14/IEC61970/Wires/TapSchedule.py:21-23 *);
  (1086, Mod n_TransformerWinding [1043; 698; 1] false [SFrom 714 n_ConductingEquipment; SClass n_TransformerWinding (Some n_ConductingEquipment)])(* CIM14/IEC61970/Wires/TransformerWinding.py:21-23 *);
  (1087, Mod n_VoltageControlZone [1043; 698; 1] false [SFrom 728 n_PowerSystemResource; SClass n_VoltageControlZone (Some n_PowerSystemResource)])(* CIM14/IEC61970/Wires/VoltageControlZone.py:21-23 *);
  (1088, Mod n_WindingTest [1043; 698; 1] false [SFrom 722 n_IdentifiedObject; SClass n_WindingTest (Some n_IdentifiedObject)])(* CIM14/IEC61970/Wires/WindingTest.py:21-23 *);
  (1089, Mod i_CIM15 [] true [SFrom 1242 n_CombinedVersion; SFrom 1243 n_Element; SFrom 1893 n_Stereotype; SFrom 1890 n_Package; SAssign i_nsURI; SAssign i_nsPrefix; SAssign i_packageMap; SClass i_CIMTime None; SClass i_CIMDateTime None; SClass i_CIMDuration None; SClass i_CIMGYear None; SClass i_CIMDate None; SClass i_CIMGMonthDay None; SClass i_CIMGMonth None; SClass i_CIMGDay None; SClass i_CIMGYearMonth None])(* CIM15/__init__.py:24-665 *);
  (1090, Mod i_CDPSM [1089] true [SAssign i_nsURI; SAssign i_nsPrefix])(* CIM15/CDPSM/__init__.py:23-24 *);
  (1091, Mod n_Asset [1090; 1089] true [SFrom 1092 n_Element; SAssign i_nsURI; SAssign i_nsPrefix; SAssign i_packageMap; SClass i_Resistance None; SClass i_ResistancePerLength None; SClass i_Temperature None; SClass i_PerCent None; SClass i_Length None; SClass i_Voltage None; SClass i_CurrentFlow None; SClass i_ApparentPower None; SClass i_Displacement None; SClass i_AngleDegrees None; SClass i_Frequency None; SClass i_CIMTime None; SClass i_CIMDateTime None; SClass i_CIMDuration None; SClass i_CIMGYear None; SClass i_CIMDate None; SClass i_CIMGMonthDay None; SClass i_CIMGMonth None; SClass i_CIMGDay None; SClass i_CIMGYearMonth None])(* CIM15/CDPSM/Asset/__init__.py:24-137 *);
  (1092, Mod n_Element [1091; 1090; 1089] false [SClass n_Element None])(* CIM15/CDPSM/Asset/Element.py:22-22 *);
  (1093, Mod i_IEC61968 [1091; 1090; 1089] true [SAssign i_nsURI; SAssign i_nsPrefix])(* CIM15/CDPSM/Asset/IEC61968/__init__.py:25-26 *);
  (1094, Mod i_AssetModels [1093; 1091; 1090; 1089] true [SFrom 1097 n_ConductorInfo; SFrom 1105 n_WireArrangement; SFrom 1106 n_WireType; SFrom 1098 n_EndDeviceInfo; SFrom 1099 n_OverheadConductorInfo; SFrom 1101 n_TapChangerInfo; SFrom 1104 n_TransformerTankInfo; SFrom 1095 n_CableInfo; SFrom 1096 n_ConcentricNeutralCableInfo; SFrom 1102 n_TapeShieldCableInfo; SFrom 1103 n_TransformerEndInfo; SFrom 1100 n_PowerTransformerInfo; SAssign i_nsURI; SAssign i_nsPrefix; SClass n_ConductorMaterialKind None; SClass n_CableOuterJacketKind None; SClass n_ConductorUsageKind None; SClass n_CableConstructionKind None; SClass n_ConductorInsulationKind None; SClass n_CableShieldMaterialKind None])(* CIM15/CDPSM/Asset/IEC61968/AssetModels/__init__.py:24-66 *);
  (1095, Mod n_CableInfo [1094; 1093; 1091; 1090; 1089] false [SFrom 1097 n_ConductorInfo; SClass n_CableInfo (Some n_ConductorInfo)])(* CIM15/CDPSM/Asset/IEC61968/AssetModels/CableInfo.py:21-23 *);
  (1096, Mod n_ConcentricNeutralCableInfo [1094; 1093; 1091; 1090; 1089] false [SFrom 1095 n_CableInfo; SClass n_ConcentricNeutralCableInfo (Some n_CableInfo)])(* CIM15/CDPSM/Asset/IEC61968/AssetModels/ConcentricNeutralCableInfo.py:21-23 *);
  (1097, Mod n_ConductorInfo [1094; 1093; 1091; 1090; 1089] false [SFrom 1108 n_AssetInfo; SClass n_ConductorInfo (Some n_AssetInfo)])(* CIM15/CDPSM/Asset/IEC61968/AssetModels/ConductorInfo.py:21-23 *);
  (1098, Mod n_EndDeviceInfo [1094; 1093; 1091; 1090; 1089] false [SFrom 1108 n_AssetInfo; SClass n_EndDeviceInfo (Some n_AssetInfo)])(* CIM15/CDPSM/Asset/IEC61968/AssetModels/EndDeviceInfo.py:21-23 *);
  (1099, Mod n_OverheadConductorInfo [1094; 1093; 1091; 1090; 1089] false [SFrom 1097 n_ConductorInfo; SClass n_OverheadConductorInfo (Some n_ConductorInfo)])(* CIM15/CDPSM/Asset/IEC61968/AssetModels/OverheadConductorInfo.py:21-23 *);
  (1100, Mod n_PowerTransformerInfo [1094; 1093; 1091; 1090; 1089] false [SFrom 1108 n_AssetInfo; SClass n_PowerTransformerInfo (Some n_AssetInfo)])(* CIM15/CDPSM/Asset/IEC61968/AssetModels/PowerTransformerInfo.py:21-23 *);
  (1101, Mod n_TapChangerInfo [1094; 1093; 1091; 1090; 1089] false [SFrom 1108 n_AssetInfo; SClass n_TapChangerInfo (Some n_AssetInfo)])(* CIM15/CDPSM/Asset/IEC61968/AssetModels/TapChangerInfo.py:21-23 *);
  (1102, Mod n_TapeShieldCableInfo [1094; 1093; 1091; 1090; 1089] false [SFrom 1095 n_CableInfo; SClass n_TapeShieldCableInfo (Some n_CableInfo)])(* CIM15/CDPSM/Asset/IEC61968/AssetModels/TapeShieldCableInfo.py:21-23 *);
  (1103, Mod n_TransformerEndInfo [1094; 1093; 1091; 1090; 1089] false [SFrom 1108 n_AssetInfo; SClass n_TransformerEndInfo (Some n_AssetInfo)])(* CIM15/CDPSM/Asset/IEC61968/AssetModels/TransformerEndInfo.py:21-23 *);
  (1104, Mod n_TransformerTankInfo [1094; 1093; 1091; 1090; 1089] false [SFrom 1108 n_AssetInfo; SClass n_TransformerTankInfo (Some n_AssetInfo)])(* CIM15/CDPSM/Asset/IEC61968/AssetModels/TransformerTankInfo.py:21-23 *);
  (1105, Mod n_WireArrangement [1094; 1093; 1091; 1090; 1089] false [SFrom 1111 n_IdentifiedObject; SClass n_WireArrangement (Some n_IdentifiedObject)])(* CIM15/CDPSM/Asset/IEC61968/AssetModels/WireArrangement.py:21-23 *);
  (1106, Mod n_WireType [1094; 1093; 1091; 1090; 1089] false [SFrom 1111 n_IdentifiedObject; SClass n_WireType (Some n_IdentifiedObject)])(* CIM15/CDPSM/Asset/IEC61968/AssetModels/WireType.py:21-23 *);
  (1107, Mod n_Assets [1093; 1091; 1090; 1089] true [SFrom 1108 n_AssetInfo; SAssign i_nsURI; SAssign i_nsPrefix])(* CIM15/CDPSM/Asset/IEC61968/Assets/__init__.py:24-27 *);
  (1108, Mod n_AssetInfo [1107; 1093; 1091; 1090; 1089] false [SFrom 1111 n_IdentifiedObject; SClass n_AssetInfo (Some n_IdentifiedObject)])(* CIM15/CDPSM/Asset/IEC61968/Assets/AssetInfo.py:21-23 *);
  (1109, Mod i_IEC61970 [1091; 1090; 1089] true [SAssign i_nsURI; SAssign i_nsPrefix])(* CIM15/CDPSM/Asset/IEC61970/__init__.py:25-26 *);
  (1110, Mod i_Core [1109; 1091; 1090; 1089] true [SFrom 1113 n_NameType; SFrom 1111 n_IdentifiedObject; SFrom 1112 n_Name; SAssign i_nsURI; SAssign i_nsPrefix])(* CIM15/CDPSM/Asset/IEC61970/Core/__init__.py:24-29 *);
  (1111, Mod n_IdentifiedObject [1110; 1109; 1091; 1090; 1089] false [SFrom 1092 n_Element; SClass n_IdentifiedObject (Some n_Element)])(* CIM15/CDPSM/Asset/IEC61970/Core/IdentifiedObject.py:21-23 *);
  (1112, Mod n_Name [1110; 1109; 1091; 1090; 1089] false [SFrom 1092 n_Element; SClass n_Name (Some n_Element)])(* CIM15/CDPSM/Asset/IEC61970/Core/Name.py:21-23 *);
  (1113, Mod n_NameType [1110; 1109; 1091; 1090; 1089] false [SFrom 1092 n_Element; SClass n_NameType (Some n_Element)])(* CIM15/CDPSM/Asset/IEC61970/Core/NameType.py:21-23 *);
  (1114, Mod i_Wires [1109; 1091; 1090; 1089] true [SFrom 1117 n_PerLengthSequenceImpedance; SFrom 1115 n_ACLineSegment; SFrom 1118 n_TransformerCoreAdmittance; SFrom 1121 n_TransformerTank; SFrom 1122 n_TransformerTankEnd; SFrom 1120 n_TransformerStarImpedance; SFrom 1116 n_PerLengthPhaseImpedance; SFrom 1119 n_TransformerEnd; SAssign i_nsURI; SAssign i_nsPrefix; SClass n_WindingConnection None])(* CIM15/CDPSM/Asset/IEC61970/Wires/__init__.py:24-37 *);
  (1115, Mod n_ACLineSegment [1114; 1109; 1091; 1090; 1089] false [SFrom 1111 n_IdentifiedObject; SClass n_ACLineSegment (Some n_IdentifiedObject)])(* CIM15/CDPSM/Asset/IEC61970/Wires/ACLineSegment.py:21-23 *);
  (1116, Mod n_PerLengthPhaseImpedance [1114; 1109; 1091; 1090; 1089] false [SFrom 1111 n_IdentifiedObject; SClass n_PerLengthPhaseImpedance (Some n_IdentifiedObject)])(* CIM15/CDPSM/Asset/IEC61970/Wires/PerLengthPhaseImpedance.py:21-23 *);
  (1117, Mod n_PerLengthSequenceImpedance [1114; 1109; 1091; 1090; 1089] false [SFrom 1111 n_IdentifiedObject; SClass n_PerLengthSequenceImpedance (Some n_IdentifiedObject)])(* CIM15/CDPSM/Asset/IEC61970/Wires/PerLengthSequenceImpedance.py:21-23 *);
  (1118, Mod n_TransformerCoreAdmittance [1114; 1109; 1091; 1090; 1089] false [SFrom 1111 n_IdentifiedObject; SClass n_TransformerCoreAdmittance (Some n_IdentifiedObject)])(* CIM15/CDPSM/Asset/IEC61970/Wires/TransformerCoreAdmittance.py:21-23 *);
  (1119, Mod n_TransformerEnd [1114; 1109; 1091; 1090; 1089] false [SFrom 1111 n_IdentifiedObject; SClass n_TransformerEnd (Some n_IdentifiedObject)])(* CIM15/CDPSM/Asset/IEC61970/Wires/TransformerEnd.py:21-23 *);
  (1120, Mod n_TransformerStarImpedance [1114; 1109; 1091; 1090; 1089] false [SFrom 1111 n_IdentifiedObject; SClass n_TransformerStarImpedance (Some n_IdentifiedObject)])(* CIM15/CDPSM/Asset/IEC61970/Wires/TransformerStarImpedance.py:21-23 *);
  (1121, Mod n_TransformerTank [1114; 1109; 1091; 1090; 1089] false [SFrom 1111 n_IdentifiedObject; SClass n_TransformerTank (Some n_IdentifiedObject)])(* CIM15/CDPSM/Asset/IEC61970/Wires/TransformerTank.py:21-23 *);
  (1122, Mod n_TransformerTankEnd [1114; 1109; 1091; 1090; 1089] false [SFrom 1119 n_TransformerEnd; SClass n_TransformerTankEnd (Some n_TransformerEnd)])(* CIM15/CDPSM/Asset/IEC61970/Wires/TransformerTankEnd.py:21-23 *);
  (1123, Mod i_Balanced [1090; 1089] true [SFrom 1124 n_Element; SAssign i_nsURI; SAssign i_nsPrefix; SAssign i_packageMap; SClass i_Resistance None; SClass i_Reactance None; SClass i_PerCent None; SClass i_Voltage None; SClass i_Conductance None; SClass i_AngleDegrees None; SClass i_VoltagePerReactivePower None; SClass i_AngleRadians None; SClass i_ActivePower None; SClass i_ApparentPower None; SClass i_CurrentFlow None; SClass i_Susceptance None; SClass i_ReactivePower None; SClass i_CIMTime None; SClass i_CIMDateTime None; SClass i_CIMDuration None; SClass i_CIMGYear None; SClass i_CIMDate None; SClass i_CIMGMonthDay None; SClass i_CIMGMonth None; SClass i_CIMGDay None; SClass i_CIMGYearMonth None])(* CIM15/CDPSM/Balanced/__init__.py:24-150 *);
  (1124, Mod n_Element [1123; 1090; 1089] false [SClass n_Element None])(* CIM15/CDPSM/Balanced/Element.py:22-22 *);
  (1125, Mod i_IEC61970 [1123; 1090; 1089] true [SAssign i_nsURI; SAssign i_nsPrefix])(* CIM15/CDPSM/Balanced/IEC61970/__init__.py:25-26 *);
  (1126, Mod i_Core [1125; 1123; 1090; 1089] true [SFrom 1129 n_NameType; SFrom 1127 n_IdentifiedObject; SFrom 1128 n_Name; SAssign i_nsURI; SAssign i_nsPrefix; SClass n_PhaseCode None])(* CIM15/CDPSM/Balanced/IEC61970/Core/__init__.py:24-32 *);
  (1127, Mod n_IdentifiedObject [1126; 1125; 1123; 1090; 1089] false [SFrom 1124 n_Element; SClass n_IdentifiedObject (Some n_Element)])(* CIM15/CDPSM/Balanced/IEC61970/Core/IdentifiedObject.py:21-23 *);
  (1128, Mod n_Name [1126; 1125; 1123; 1090; 1089] false [SFrom 1124 n_Element; SClass n_Name (Some n_Element)])(* CIM15/CDPSM/Balanced/IEC61970/Core/Name.py:21-23 *);
  (1129, Mod n_NameType [1126; 1125; 1123; 1090; 1089] false [SFrom 1124 n_Element; SClass n_NameType (Some n_Element)])(* CIM15/CDPSM/Balanced/IEC61970/Core/NameType.py:21-23 *);
  (1130, Mod i_Generation [1125; 1123; 1090; 1089] true [SAssign i_nsURI; SAssign i_nsPrefix])(* CIM15/CDPSM/Balanced/IEC61970/Generation/__init__.py:25-26 *);
  (1131, Mod i_Production [1130; 1125; 1123; 1090; 1089] true [SFrom 1132 n_GeneratingUnit; SAssign i_nsURI; SAssign i_nsPrefix; SClass n_GeneratorControlSource None])(* CIM15/CDPSM/Balanced/IEC61970/Generation/Production/__init__.py:24-30 *);
  (1132, Mod n_GeneratingUnit [1131; 1130; 1125; 1123; 1090; 1089] false [SFrom 1127 n_IdentifiedObject; SClass n_GeneratingUnit (Some n_IdentifiedObject)])(* CIM15/CDPSM/Balanced/IEC61970/Generation/Production/GeneratingUnit.py:21-23 *);
  (1133, Mod i_LoadModel [1125; 1123; 1090; 1089] true [SFrom 1134 n_LoadResponseCharacteristic; SAssign i_nsURI; SAssign i_nsPrefix])(* CIM15/CDPSM/Balanced/IEC61970/LoadModel/__init__.py:24-27 *);
  (1134, Mod n_LoadResponseCharacteristic [1133; 1125; 1123; 1090; 1089] false [SFrom 1127 n_IdentifiedObject; SClass n_LoadResponseCharacteristic (Some n_IdentifiedObject)])(* CIM15/CDPSM/Balanced/IEC61970/LoadModel/LoadResponseCharacteristic.py:21-23 *);
  (1135, Mod i_Wires [1125; 1123; 1090; 1089] true [SFrom 1142 n_PhaseTapChangerLinear; SFrom 1138 n_EnergyConsumer; SFrom 1136 n_ACLineSegment; SFrom 1153 n_TransformerCoreAdmittance; SFrom 1151 n_SynchronousMachine; SFrom 1146 n_PowerTransformerEnd; SFrom 1141 n_PhaseTapChangerAsymetrical; SFrom 1155 n_TransformerMeshImpedance; SFrom 1147 n_ProtectedSwitch; SFrom 1143 n_PhaseTapChangerNonLinear; SFrom 1148 n_RatioTapChanger; SFrom 1149 n_SeriesCompensator; SFrom 1140 n_PhaseTapChanger; SFrom 1157 n_TransformerTankEnd; SFrom 1137 n_DCLineSegment; SFrom 1152 n_TapChanger; SFrom 1144 n_PhaseTapChangerSymetrical; SFrom 1156 n_TransformerStarImpedance; SFrom 1145 n_PowerTransformer; SFrom 1154 n_TransformerEnd; SFrom 1139 n_EnergySource; SFrom 1150 n_ShuntCompensator; SAssign i_nsURI; SAssign i_nsPrefix; SClass n_WindingType None; SClass n_SynchronousMachineType None; SClass n_PhaseTapChangerKind None; SClass n_SynchronousMachineOperatingMode None; SClass n_TransformerControlMode None; SClass n_WindingConnection None; SClass i_TapChangerKind None])(* CIM15/CDPSM/Balanced/IEC61970/Wires/__init__.py:24-81 *);
  (1136, Mod n_ACLineSegment [1135; 1125; 1123; 1090; 1089] false [SFrom 1127 n_IdentifiedObject; SClass n_ACLineSegment (Some n_IdentifiedObject)])(* CIM15/CDPSM/Balanced/IEC61970/Wires/ACLineSegment.py:21-23 *);
  (1137, Mod n_DCLineSegment [1135; 1125; 1123; 1090; 1089] false [SFrom 1127 n_IdentifiedObject; SClass n_DCLineSegment (Some n_IdentifiedObject)])(* CIM15/CDPSM/Balanced/IEC61970/Wires/DCLineSegment.py:21-23 *);
  (1138, Mod n_EnergyConsumer [1135; 1125; 1123; 1090; 1089] false [SFrom 1127 n_IdentifiedObject; SClass n_EnergyConsumer (Some n_IdentifiedObject)])(* CIM15/CDPSM/Balanced/IEC61970/Wires/EnergyConsumer.py:21-23 *);
  (1139, Mod n_EnergySource [1135; 1125; 1123; 1090; 1089] false [SFrom 1127 n_IdentifiedObject; SClass n_EnergySource (Some n_IdentifiedObject)])(* CIM15/CDPSM/Balanced/IEC61970/Wires/EnergySource.py:21-23 *);
  (1140, Mod n_PhaseTapChanger [1135; 1125; 1123; 1090; 1089] false [SFrom 1152 n_TapChanger; SClass n_PhaseTapChanger (Some n_TapChanger)])(* CIM15/CDPSM/Balanced/IEC61970/Wires/PhaseTapChanger.py:21-23 *);
  (1141, Mod n_PhaseTapChangerAsymetrical [1135; 1125; 1123; 1090; 1089] false [SFrom 1143 n_PhaseTapChangerNonLinear; SClass n_PhaseTapChangerAsymetrical (Some n_PhaseTapChangerNonLinear)])(* CIM15/CDPSM/Balanced/IEC61970/Wires/PhaseTapChangerAsymetrical.py:21-23 *);
  (1142, Mod n_PhaseTapChangerLinear [1135; 1125; 1123; 1090; 1089] false [SFrom 1140 n_PhaseTapChanger; SClass n_PhaseTapChangerLinear (Some n_PhaseTapChanger)])(* CIM15/CDPSM/Balanced/IEC61970/Wires/PhaseTapChangerLinear.py:21-23 *);
  (1143, Mod n_PhaseTapChangerNonLinear [1135; 1125; 1123; 1090; 1089] false [SFrom 1140 n_PhaseTapChanger; SClass n_PhaseTapChangerNonLinear (Some n_PhaseTapChanger)])(* CIM15/CDPSM/Balanced/IEC61970/Wires/PhaseTapChangerNonLinear.py:21-23 *);
  (1144, Mod n_PhaseTapChangerSymetrical [1135; 1125; 1123; 1090; 1089] false [SFrom 1143 n_PhaseTapChangerNonLinear; SClass n_PhaseTapChangerSymetrical (Some n_PhaseTapChangerNonLinear)])(* CIM15/CDPSM/Balanced/IEC61970/Wires/PhaseTapChangerSymetrical.py:21-23 *);
  (1145, Mod n_PowerTransformer [1135; 1125; 1123; 1090; 1089] false [SFrom 1127 n_IdentifiedObject; SClass n_PowerTransformer (Some n_IdentifiedObject)])(* CIM15/CDPSM/Balanced/IEC61970/Wires/PowerTransformer.py:21-23 *);
  (1146, Mod n_PowerTransformerEnd [1135; 1125; 1123; 1090; 1089] false [SFrom 1154 n_TransformerEnd; SClass n_PowerTransformerEnd (Some n_TransformerEnd)])(* CIM15/CDPSM/Balanced/IEC61970/Wires/PowerTransformerEnd.py:21-23 *);
  (1147, Mod n_ProtectedSwitch [1135; 1125; 1123; 1090; 1089] false [SFrom 1127 n_IdentifiedObject; SClass n_ProtectedSwitch (Some n_IdentifiedObject)])(* CIM15/CDPSM/Balanced/IEC61970/Wires/ProtectedSwitch.py:21-23 *);
  (1148, Mod n_RatioTapChanger [1135; 1125; 1123; 1090; 1089] false [SFrom 1152 n_TapChanger; SClass n_RatioTapChanger (Some n_TapChanger)])(* CIM15/CDPSM/Balanced/IEC61970/Wires/RatioTapChanger.py:21-23 *);
  (1149, Mod n_SeriesCompensator [1135; 1125; 1123; 1090; 1089] false [SFrom 1127 n_IdentifiedObject; SClass n_SeriesCompensator (Some n_IdentifiedObject)])(* CIM15/CDPSM/Balanced/IEC61970/Wires/SeriesCompensator.py:21-23 *);
  (1150, Mod n_ShuntCompensator [1135; 1125; 1123; 1090; 1089] false [SFrom 1127 n_IdentifiedObject; SClass n_ShuntCompensator (Some n_IdentifiedObject)])(* CIM15/CDPSM/Balanced/IEC61970/Wires/ShuntCompensator.py:21-23 *);
  (1151, Mod n_SynchronousMachine [1135; 1125; 1123; 1090; 1089] false [SFrom 1127 n_IdentifiedObject; SClass n_SynchronousMachine (Some n_IdentifiedObject)])(* CIM15/CDPSM/Balanced/IEC61970/Wires/SynchronousMachine.py:21-23 *);
  (1152, Mod n_TapChanger [1135; 1125; 1123; 1090; 1089] false [SFrom 1127 n_IdentifiedObject; SClass n_TapChanger (Some n_IdentifiedObject)])(* CIM15/CDPSM/Balanced/IEC61970/Wires/TapChanger.py:21-23 *);
  (1153, Mod n_TransformerCoreAdmittance [1135; 1125; 1123; 1090; 1089] false [SFrom 1127 n_IdentifiedObject; SClass n_TransformerCoreAdmittance (Some n_IdentifiedObject)])(* CIM15/CDPSM/Balanced/IEC61970/Wires/TransformerCoreAdmittance.py:21-23 *);
  (1154, Mod n_TransformerEnd [1135; 1125; 1123; 1090; 1089] false [SFrom 1127 n_IdentifiedObject; SClass n_TransformerEnd (Some n_IdentifiedObject)])(* CIM15/CDPSM/Balanced/IEC61970/Wires/TransformerEnd.py:21-23 *);
  (1155, Mod n_TransformerMeshImpedance [1135; 1125; 1123; 1090; 1089] false [SFrom 1127 n_IdentifiedObject; SClass n_TransformerMeshImpedance (Some n_IdentifiedObject)])(* CIM15/CDPSM/Balanced/IEC61970/Wires/TransformerMeshImpedance.py:21-23 *);
  (1156, Mod n_TransformerStarImpedance [1135; 1125; 1123; 1090; 1089] false [SFrom 1127 n_IdentifiedObject; SClass n_TransformerStarImpedance (Some n_IdentifiedObject)])(* CIM15/CDPSM/Balanced/IEC61970/Wires/TransformerStarImpedance.py:21-23 *);
  (1157, Mod n_TransformerTankEnd [1135; 1125; 1123; 1090; 1089] false [SFrom 1154 n_TransformerEnd; SClass n_TransformerTankEnd (Some n_TransformerEnd)])(* CIM15/CDPSM/Balanced/IEC61970/Wires/TransformerTankEnd.py:21-23 *);
  (1158, Mod i_Connectivity [1090; 1089] true [SFrom 1159 n_Element; SAssign i_nsURI; SAssign i_nsPrefix; SAssign i_packageMap; SClass i_Length None; SClass i_Voltage None; SClass i_CIMTime None; SClass i_CIMDateTime None; SClass i_CIMDuration None; SClass i_CIMGYear None; SClass i_CIMDate None; SClass i_CIMGMonthDay None; SClass i_CIMGMonth None; SClass i_CIMGDay None; SClass i_CIMGYearMonth None])(* CIM15/CDPSM/Connectivity/__init__.py:24-113 *);
  (1159, Mod n_Element [1158; 1090; 1089] false [SClass n_Element None])(* CIM15/CDPSM/Connectivity/Element.py:22-22 *);
  (1160, Mod i_IEC61970 [1158; 1090; 1089] true [SAssign i_nsURI; SAssign i_nsPrefix])(* CIM15/CDPSM/Connectivity/IEC61970/__init__.py:25-26 *);
  (1161, Mod i_Core [1160; 1158; 1090; 1089] true [SFrom 1178 n_Terminal; SFrom 1163 n_Bay; SFrom 1173 n_NameTypeAuthority; SFrom 1179 n_VoltageLevel; SFrom 1176 n_SubGeographicalRegion; SFrom 1174 n_PSRType; SFrom 1168 n_EquipmentContainer; SFrom 1164 n_ConductingEquipment; SFrom 1169 n_GeographicalRegion; SFrom 1172 n_NameType; SFrom 1167 n_Equipment; SFrom 1170 n_IdentifiedObject; SFrom 1166 n_ConnectivityNodeContainer; SFrom 1177 n_Substation; SFrom 1165 n_ConnectivityNode; SFrom 1171 n_Name; SFrom 1162 n_BaseVoltage; SFrom 1175 n_PowerSystemResource; SAssign i_nsURI; SAssign i_nsPrefix; SClass n_PhaseCode None])(* CIM15/CDPSM/Connectivity/IEC61970/Core/__init__.py:24-47 *);
  (1162, Mod n_BaseVoltage [1161; 1160; 1158; 1090; 1089] false [SFrom 1170 n_IdentifiedObject; SClass n_BaseVoltage (Some n_IdentifiedObject)])(* CIM15/CDPSM/Connectivity/IEC61970/Core/BaseVoltage.py:21-23 *);
  (1163, Mod n_Bay [1161; 1160; 1158; 1090; 1089] false [SFrom 1168 n_EquipmentContainer; SClass n_Bay (Some n_EquipmentContainer)])(* CIM15/CDPSM/Connectivity/IEC61970/Core/Bay.py:21-23 *);
  (1164, Mod n_ConductingEquipment [1161; 1160; 1158; 1090; 1089] false [SFrom 1167 n_Equipment; SClass n_ConductingEquipment (Some n_Equipment)])(* CIM15/CDPSM/Connectivity/IEC61970/Core/ConductingEquipment.py:21-23 *);
  (1165, Mod n_ConnectivityNode [1161; 1160; 1158; 1090; 1089] false [SFrom 1170 n_IdentifiedObject; SClass n_ConnectivityNode (Some n_IdentifiedObject)])(* CIM15/CDPSM/Connectivity/IEC61970/Core/ConnectivityNode.py:21-23 *);
  (1166, Mod n_ConnectivityNodeContainer [1161; 1160; 1158; 1090; 1089] false [SFrom 1175 n_PowerSystemResource; SClass n_ConnectivityNodeContainer (Some n_PowerSystemResource)])(* CIM15/CDPSM/Connectivity/IEC61970/Core/ConnectivityNodeContainer.py:21-23 *);
  (1167, Mod n_Equipment [1161; 1160; 1158; 1090; 1089] false [SFrom 1175 n_PowerSystemResource; SClass n_Equipment (Some n_PowerSystemResource)])(* CIM15/CDPSM/Connectivity/IEC61970/Core/Equipment.py:21-23 *);
  (1168, Mod n_EquipmentContainer [1161; 1160; 1158; 1090; 1089] false [SFrom 1166 n_ConnectivityNodeContainer; SClass n_EquipmentContainer (Some n_ConnectivityNodeContainer)])(* CIM15/CDPSM/Connectivity/IEC61970/Core/EquipmentContainer.py:21-23 *);
  (1169, Mod n_GeographicalRegion [1161; 1160; 1158; 1090; 1089] false [SFrom 1170 n_IdentifiedObject; SClass n_GeographicalRegion (Some n_IdentifiedObject)])(* CIM15/CDPSM/Connectivity/IEC61970/Core/GeographicalRegion.py:21-23 *);
  (1170, Mod n_IdentifiedObject [1161; 1160; 1158; 1090; 1089] false [SFrom 1159 n_Element; SClass n_IdentifiedObject (Some n_Element)])(* CIM15/CDPSM/Connectivity/IEC61970/Core/IdentifiedObject.py:21-23 *);
  (1171, Mod n_Name [1161; 1160; 1158; 1090; 1089] false [SFrom 1159 n_Element; SClass n_Name (Some n_Element)])(* CIM15/CDPSM/Connectivity/IEC61970/Core/Name.py:21-23 *);
  (1172, Mod n_NameType [1161; 1160; 1158; 1090; 1089] false [SFrom 1159 n_Element; SClass n_NameType (Some n_Element)])(* CIM15/CDPSM/Connectivity/IEC61970/Core/NameType.py:21-23 *);
  (1173, Mod n_NameTypeAuthority [1161; 1160; 1158; 1090; 1089] false [SFrom 1159 n_Element; SClass n_NameTypeAuthority (Some n_Element)])(* CIM15/CDPSM/Connectivity/IEC61970/Core/NameTypeAuthority.py:21-23 *);
  (1174, Mod n_PSRType [1161; 1160; 1158; 1090; 1089] false [SFrom 1170 n_IdentifiedObject; SClass n_PSRType (Some n_IdentifiedObject)])(* CIM15/CDPSM/Connectivity/IEC61970/Core/PSRType.py:21-23 *);
  (1175, Mod n_PowerSystemResource [1161; 1160; 1158; 1090; 1089] false [SFrom 1170 n_IdentifiedObject; SClass n_PowerSystemResource (Some n_IdentifiedObject)])(* CIM15/CDPSM/Connectivity/IEC61970/Core/PowerSystemResource.py:21-23 *);
  (1176, Mod n_SubGeographicalRegion [1161; 1160; 1158; 1090; 1089] false [SFrom 1170 n_IdentifiedObject; SClass n_SubGeographicalRegion (Some n_IdentifiedObject)])(* CIM15/CDPSM/Connectivity/IEC61970/Core/SubGeographicalRegion.py:21-23 *);
  (1177, Mod n_Substation [1161; 1160; 1158; 1090; 1089] false [SFrom 1168 n_EquipmentContainer; SClass n_Substation (Some n_EquipmentContainer)])(* CIM15/CDPSM/Connectivity/IEC61970/Core/Substation.py:21-23 *);
  (1178, Mod n_Terminal [1161; 1160; 1158; 1090; 1089] false [SFrom 1170 n_IdentifiedObject; SClass n_Terminal (Some n_IdentifiedObject)])(* CIM15/CDPSM/Connectivity/IEC61970/Core/Terminal.py:21-23 *);
  (1179, Mod n_VoltageLevel [1161; 1160; 1158; 1090; 1089] false [SFrom 1168 n_EquipmentContainer; SClass n_VoltageLevel (Some n_EquipmentContainer)])(* CIM15/CDPSM/Connectivity/IEC61970/Core/VoltageLevel.py:21-23 *);
  (1180, Mod i_Wires [1160; 1158; 1090; 1089] true [SFrom 1189 n_Fuse; SFrom 1187 n_EnergyConsumer; SFrom 1201 n_Switch; SFrom 1186 n_Disconnector; SFrom 1181 n_ACLineSegment; SFrom 1202 n_SynchronousMachine; SFrom 1183 n_BusbarSection; SFrom 1195 n_LoadBreakSwitch; SFrom 1204 n_TransformerTank; SFrom 1191 n_GroundDisconnector; SFrom 1197 n_PowerTransformerEnd; SFrom 1193 n_Junction; SFrom 1199 n_SeriesCompensator; SFrom 1182 n_Breaker; SFrom 1205 n_TransformerTankEnd; SFrom 1198 n_Sectionaliser; SFrom 1185 n_DCLineSegment; SFrom 1194 n_Line; SFrom 1184 n_Conductor; SFrom 1196 n_PowerTransformer; SFrom 1190 n_Ground; SFrom 1203 n_TransformerEnd; SFrom 1200 n_ShuntCompensator; SFrom 1188 n_EnergySource; SFrom 1192 n_Jumper; SAssign i_nsURI; SAssign i_nsPrefix])(* CIM15/CDPSM/Connectivity/IEC61970/Wires/__init__.py:24-51 *);
  (1181, Mod n_ACLineSegment [1180; 1160; 1158; 1090; 1089] false [SFrom 1184 n_Conductor; SClass n_ACLineSegment (Some n_Conductor)])(* CIM15/CDPSM/Connectivity/IEC61970/Wires/ACLineSegment.py:21-23 *);
  (1182, Mod n_Breaker [1180; 1160; 1158; 1090; 1089] false [SFrom 1201 n_Switch; SClass n_Breaker (Some n_Switch)])(* CIM15/CDPSM/Connectivity/IEC61970/Wires/Breaker.py:21-23 *);
  (1183, Mod n_BusbarSection [1180; 1160; 1158; 1090; 1089] false [SFrom 1164 n_ConductingEquipment; SClass n_BusbarSection (Some n_ConductingEquipment)])(* CIM15/CDPSM/Connectivity/IEC61970/Wires/BusbarSection.py:21-23 *);
  (1184, Mod n_Conductor [1180; 1160; 1158; 1090; 1089] false [SFrom 1164 n_ConductingEquipment; SClass n_Conductor (Some n_ConductingEquipment)])(* CIM15/CDPSM/Connectivity/IEC61970/Wires/Conductor.py:21-23 *);
  (1185, Mod n_DCLineSegment [1180; 1160; 1158; 1090; 1089] false [SFrom 1184 n_Conductor; SClass n_DCLineSegment (Some n_Conductor)])(* CIM15/CDPSM/Connectivity/IEC61970/Wires/DCLineSegment.py:21-23 *);
  (1186, Mod n_Disconnector [1180; 1160; 1158; 1090; 1089] false [SFrom 1201 n_Switch; SClass n_Disconnector (Some n_Switch)])(* CIM15/CDPSM/Connectivity/IEC61970/Wires/Disconnector.py:21-23 *);
  (1187, Mod n_EnergyConsumer [1180; 1160; 1158; 1090; 1089] false [SFrom 1164 n_ConductingEquipment; SClass n_EnergyConsumer (Some n_ConductingEquipment)])(* CIM15/CDPSM/Connectivity/IEC61970/Wires/EnergyConsumer.py:21-23 *);
  (1188, Mod n_EnergySource [1180; 1160; 1158; 1090; 1089] false [SFrom 1164 n_ConductingEquipment; SClass n_EnergySource (Some n_ConductingEquipment)])(* CIM15/CDPSM/Connectivity/IEC61970/Wires/EnergySource.py:21-23 *);
  (1189, Mod n_Fuse [1180; 1160; 1158; 1090; 1089] false [SFrom 1201 n_Switch; SClass n_Fuse (Some n_Switch)])(* CIM15/CDPSM/Connectivity/IEC61970/Wires/Fuse.py:21-23 *);
  (1190, Mod n_Ground [1180; 1160; 1158; 1090; 1089] false [SFrom 1164 n_ConductingEquipment; SClass n_Ground (Some n_ConductingEquipment)])(* CIM15/CDPSM/Connectivity/IEC61970/Wires/Ground.py:21-23 *);
  (1191, Mod n_GroundDisconnector [1180; 1160; 1158; 1090; 1089] false [SFrom 1201 n_Switch; SClass n_GroundDisconnector (Some n_Switch)])(* CIM15/CDPSM/Connectivity/IEC61970/Wires/GroundDisconnector.py:21-23 *);
  (1192, Mod n_Jumper [1180; 1160; 1158; 1090; 1089] false [SFrom 1201 n_Switch; SClass n_Jumper (Some n_Switch)])(* CIM15/CDPSM/Connectivity/IEC61970/Wires/Jumper.py:21-23 *);
  (1193, Mod n_Junction [1180; 1160; 1158; 1090; 1089] false [SFrom 1164 n_ConductingEquipment; SClass n_Junction (Some n_ConductingEquipment)])(* CIM15/CDPSM/Connectivity/IEC61970/Wires/Junction.py:21-23 *);
  (1194, Mod n_Line [1180; 1160; 1158; 1090; 1089] false [SFrom 1168 n_EquipmentContainer; SClass n_Line (Some n_EquipmentContainer)])(* CIM15/CDPSM/Connectivity/IEC61970/Wires/Line.py:21-23 *);
  (1195, Mod n_LoadBreakSwitch [1180; 1160; 1158; 1090; 1089] false [SFrom 1201 n_Switch; SClass n_LoadBreakSwitch (Some n_Switch)])(* CIM15/CDPSM/Connectivity/IEC61970/Wires/LoadBreakSwitch.py:21-23 *);
  (1196, Mod n_PowerTransformer [1180; 1160; 1158; 1090; 1089] false [SFrom 1164 n_ConductingEquipment; SClass n_PowerTransformer (Some n_ConductingEquipment)])(* CIM15/CDPSM/Connectivity/IEC61970/Wires/PowerTransformer.py:21-23 *);
  (1197, Mod n_PowerTransformerEnd [1180; 1160; 1158; 1090; 1089] false [SFrom 1203 n_TransformerEnd; SClass n_PowerTransformerEnd (Some n_TransformerEnd)])(* CIM15/CDPSM/Connectivity/IEC61970/Wires/PowerTransformerEnd.py:21-23 *);
  (1198, Mod n_Sectionaliser [1180; 1160; 1158; 1090; 1089] false [SFrom 1201 n_Switch; SClass n_Sectionaliser (Some n_Switch)])(* CIM15/CDPSM/Connectivity/IEC61970/Wires/Sectionaliser.py:21-23 *);
  (1199, Mod n_SeriesCompensator [1180; 1160; 1158; 1090; 1089] false [SFrom 1164 n_ConductingEquipment; SClass n_SeriesCompensator (Some n_ConductingEquipment)])(* CIM15/CDPSM/Connectivity/IEC61970/Wires/SeriesCompensator.py:21-23 *);
  (1200, Mod n_ShuntCompensator [1180; 1160; 1158; 1090; 1089] false [SFrom 1164 n_ConductingEquipment; SClass n_ShuntCompensator (Some n_ConductingEquipment)])(* CIM15/CDPSM/Connectivity/IEC61970/Wires/ShuntCompensator.py:21-23 *);
  (1201, Mod n_Switch [1180; 1160; 1158; 1090; 1089] false [SFrom 1164 n_ConductingEquipment; SClass n_Switch (Some n_ConductingEquipment)])(* CIM15/CDPSM/Connectivity/IEC61970/Wires/Switch.py:21-23 *);
  (1202, Mod n_SynchronousMachine [1180; 1160; 1158; 1090; 1089] false [SFrom 1164 n_ConductingEquipment; SClass n_SynchronousMachine (Some n_ConductingEquipment)])(* CIM15/CDPSM/Connectivity/IEC61970/Wires/SynchronousMachine.py:21-23 *);
  (1203, Mod n_TransformerEnd [1180; 1160; 1158; 1090; 1089] false [SFrom 1170 n_IdentifiedObject; SClass n_TransformerEnd (Some n_IdentifiedObject)])(* CIM15/CDPSM/Connectivity/IEC61970/Wires/TransformerEnd.py:21-23 *);
  (1204, Mod n_TransformerTank [1180; 1160; 1158; 1090; 1089] false [SFrom 1167 n_Equipment; SClass n_TransformerTank (Some n_Equipment)])(* CIM15/CDPSM/Connectivity/IEC61970/Wires/TransformerTank.py:21-23 *);
  (1205, Mod n_TransformerTankEnd [1180; 1160; 1158; 1090; 1089] false [SFrom 1203 n_TransformerEnd; SClass n_TransformerTankEnd (Some n_TransformerEnd)])(* CIM15/CDPSM/Connectivity/IEC61970/Wires/TransformerTankEnd.py:21-23 *);
  (1206, Mod i_WiresPhaseModel [1160; 1158; 1090; 1089] true [SFrom 1207 n_ShuntCompensatorPhase; SFrom 1208 n_SwitchPhase; SAssign i_nsURI; SAssign i_nsPrefix; SClass n_SinglePhaseKind None])(* CIM15/CDPSM/Connectivity/IEC61970/WiresPhaseModel/__init__.py:22-29 *);
  (1207, Mod n_ShuntCompensatorPhase [1206; 1160; 1158; 1090; 1089] false [SFrom 1175 n_PowerSystemResource; SClass n_ShuntCompensatorPhase (Some n_PowerSystemResource)])(* CIM15/CDPSM/Connectivity/IEC61970/WiresPhaseModel/ShuntCompensatorPhase.py:21-23 *);
  (1208, Mod n_SwitchPhase [1206; 1160; 1158; 1090; 1089] false [SFrom 1175 n_PowerSystemResource; SClass n_SwitchPhase (Some n_PowerSystemResource)])(* CIM15/CDPSM/Connectivity/IEC61970/WiresPhaseModel/SwitchPhase.py:21-23 *);
  (1209, Mod i_Geographical [1090; 1089] true [SFrom 1210 n_Element; SAssign i_nsURI; SAssign i_nsPrefix; SAssign i_packageMap; SClass i_CIMTime None; SClass i_CIMDateTime None; SClass i_CIMDuration None; SClass i_CIMGYear None; SClass i_CIMDate None; SClass i_CIMGMonthDay None; SClass i_CIMGMonth None; SClass i_CIMGDay None; SClass i_CIMGYearMonth None])(* CIM15/CDPSM/Geographical/__init__.py:24-84 *);
  (1210, Mod n_Element [1209; 1090; 1089] false [SClass n_Element None])(* CIM15/CDPSM/Geographical/Element.py:22-22 *);
  (1211, Mod i_IEC61968 [1209; 1090; 1089] true [SAssign i_nsURI; SAssign i_nsPrefix])(* CIM15/CDPSM/Geographical/IEC61968/__init__.py:25-26 *);
  (1212, Mod i_Common [1211; 1209; 1090; 1089] true [SFrom 1214 n_Location; SFrom 1213 n_CoordinateSystem; SFrom 1215 n_PositionPoint; SAssign i_nsURI; SAssign i_nsPrefix])(* CIM15/CDPSM/Geographical/IEC61968/Common/__init__.py:24-29 *);
  (1213, Mod n_CoordinateSystem [1212; 1211; 1209; 1090; 1089] false [SFrom 1220 n_IdentifiedObject; SClass n_CoordinateSystem (Some n_IdentifiedObject)])(* CIM15/CDPSM/Geographical/IEC61968/Common/CoordinateSystem.py:21-23 *);
  (1214, Mod n_Location [1212; 1211; 1209; 1090; 1089] false [SFrom 1220 n_IdentifiedObject; SClass n_Location (Some n_IdentifiedObject)])(* CIM15/CDPSM/Geographical/IEC61968/Common/Location.py:21-23 *);
  (1215, Mod n_PositionPoint [1212; 1211; 1209; 1090; 1089] false [SFrom 1210 n_Element; SClass n_PositionPoint (Some n_Element)])(* CIM15/CDPSM/Geographical/IEC61968/Common/PositionPoint.py:21-23 *);
  (1216, Mod i_IEC61970 [1209; 1090; 1089] true [SAssign i_nsURI; SAssign i_nsPrefix])(* CIM15/CDPSM/Geographical/IEC61970/__init__.py:25-26 *);
  (1217, Mod i_Core [1216; 1209; 1090; 1089] true [SFrom 1218 n_ConductingEquipment; SFrom 1222 n_NameType; SFrom 1219 n_Equipment; SFrom 1220 n_IdentifiedObject; SFrom 1221 n_Name; SFrom 1223 n_PowerSystemResource; SAssign i_nsURI; SAssign i_nsPrefix])(* CIM15/CDPSM/Geographical/IEC61970/Core/__init__.py:24-32 *);
  (1218, Mod n_ConductingEquipment [1217; 1216; 1209; 1090; 1089] false [SFrom 1219 n_Equipment; SClass n_ConductingEquipment (Some n_Equipment)])(* CIM15/CDPSM/Geographical/IEC61970/Core/ConductingEquipment.py:21-23 *);
  (1219, Mod n_Equipment [1217; 1216; 1209; 1090; 1089] false [SFrom 1223 n_PowerSystemResource; SClass n_Equipment (Some n_PowerSystemResource)])(* CIM15/CDPSM/Geographical/IEC61970/Core/Equipment.py:21-23 *);
  (1220, Mod n_IdentifiedObject [1217; 1216; 1209; 1090; 1089] false [SFrom 1210 n_Element; SClass n_IdentifiedObject (Some n_Element)])(* CIM15/CDPSM/Geographical/IEC61970/Core/IdentifiedObject.py:21-23 *);
  (1221, Mod n_Name [1217; 1216; 1209; 1090; 1089] false [SFrom 1210 n_Element; SClass n_Name (Some n_Element)])(* CIM15/CDPSM/Geographical/IEC61970/Core/Name.py:21-23 *);
  (1222, Mod n_NameType [1217; 1216; 1209; 1090; 1089] false [SFrom 1210 n_Element; SClass n_NameType (Some n_Element)])(* CIM15/CDPSM/Geographical/IEC61970/Core/NameType.py:21-23 *);
  (1223, Mod n_PowerSystemResource [1217; 1216; 1209; 1090; 1089] false [SFrom 1220 n_IdentifiedObject; SClass n_PowerSystemResource (Some n_IdentifiedObject)])(* CIM15/CDPSM/Geographical/IEC61970/Core/PowerSystemResource.py:21-23 *);
  (1224, Mod i_Wires [1216; 1209; 1090; 1089] true [SFrom 1232 n_Fuse; SFrom 1230 n_EnergyConsumer; SFrom 1229 n_Disconnector; SFrom 1225 n_ACLineSegment; SFrom 1241 n_SynchronousMachine; SFrom 1227 n_BusbarSection; SFrom 1237 n_LoadBreakSwitch; SFrom 1233 n_GroundDisconnector; SFrom 1239 n_SeriesCompensator; SFrom 1235 n_Junction; SFrom 1226 n_Breaker; SFrom 1228 n_DCLineSegment; SFrom 1236 n_Line; SFrom 1238 n_PowerTransformer; SFrom 1231 n_EnergySource; SFrom 1240 n_ShuntCompensator; SFrom 1234 n_Jumper; SAssign i_nsURI; SAssign i_nsPrefix])(* CIM15/CDPSM/Geographical/IEC61970/Wires/__init__.py:24-43 *);
  (1225, Mod n_ACLineSegment [1224; 1216; 1209; 1090; 1089] false [SFrom 1218 n_ConductingEquipment; SClass n_ACLineSegment (Some n_ConductingEquipment)])(* CIM15/CDPSM/Geographical/IEC61970/Wires/ACLineSegment.py:21-23 *);
  (1226, Mod n_Breaker [1224; 1216; 1209; 1090; 1089] false [SFrom 1218 n_ConductingEquipment; SClass n_Breaker (Some n_ConductingEquipment)])(* CIM15/CDPSM/Geographical/IEC61970/Wires/Breaker.py:21-23 *);
  (1227, Mod n_BusbarSection [1224; 1216; 1209; 1090; 1089] false [SFrom 1218 n_ConductingEquipment; SClass n_BusbarSection (Some n_ConductingEquipment)])(* CIM15/CDPSM/Geographical/IEC61970/Wires/BusbarSection.py:21-23 *);
  (1228, Mod n_DCLineSegment [1224; 1216; 1209; 1090; 1089] false [SFrom 1218 n_ConductingEquipment; SClass n_DCLineSegment (Some n_ConductingEquipment)])(* CIM15/CDPSM/Geographical/IEC61970/Wires/DCLineSegment.py:21-23 *);
  (1229, Mod n_Disconnector [1224; 1216; 1209; 1090; 1089] false [SFrom 1218 n_ConductingEquipment; SClass n_Disconnector (Some n_ConductingEquipment)])(* CIM15/CDPSM/Geographical/IEC61970/Wires/Disconnector.py:21-23 *);
  (1230, Mod n_EnergyConsumer [1224; 1216; 1209; 1090; 1089] false [SFrom 1218 n_ConductingEquipment; SClass n_EnergyConsumer (Some n_ConductingEquipment)])(* CIM15/CDPSM/Geographical/IEC61970/Wires/EnergyConsumer.py:21-23 *);
  (1231, Mod n_EnergySource [1224; 1216; 1209; 1090; 1089] false [SFrom 1218 n_ConductingEquipment; SClass n_EnergySource (Some n_ConductingEquipment)])(* CIM15/CDPSM/Geographical/IEC61970/Wires/EnergySource.py:21-23 *);
  (1232, Mod n_Fuse [1224; 1216; 1209; 1090; 1089] false [SFrom 1218 n_ConductingEquipment; SClass n_Fuse (Some n_ConductingEquipment)])(* CIM15/CDPSM/Geographical/IEC61970/Wires/Fuse.py:21-23 *);
  (1233, Mod n_GroundDisconnector [1224; 1216; 1209; 1090; 1089] false [SFrom 1218 n_ConductingEquipment; SClass n_GroundDisconnector (Some n_ConductingEquipment)])(* CIM15/CDPSM/Geographical/IEC61970/Wires/GroundDisconnector.py:21-23 *);
  (1234, Mod n_Jumper [1224; 1216; 1209; 1090; 1089] false [SFrom 1218 n_ConductingEquipment; SClass n_Jumper (Some n_ConductingEquipment)])(* CIM15/CDPSM/Geographical/IEC61970/Wires/Jumper.py:21-23 *);
  (1235, Mod n_Junction [1224; 1216; 1209; 1090; 1089] false [SFrom 1218 n_ConductingEquipment; SClass n_Junction (Some n_ConductingEquipment)])(* CIM15/CDPSM/Geographical/IEC61970/Wires/Junction.py:21-23 *);
  (1236, Mod n_Line [1224; 1216; 1209; 1090; 1089] false [SFrom 1223 n_PowerSystemResource; SClass n_Line (Some n_PowerSystemResource)])(* CIM15/CDPSM/Geographical/IEC61970/Wires/Line.py:21-23 *);
  (1237, Mod n_LoadBreakSwitch [1224; 1216; 1209; 1090; 1089] false [SFrom 1218 n_ConductingEquipment; SClass n_LoadBreakSwitch (Some n_ConductingEquipment)])(* CIM15/CDPSM/Geographical/IEC61970/Wires/LoadBreakSwitch.py:21-23 *);
  (1238, Mod n_PowerTransformer [1224; 1216; 1209; 1090; 1089] false [SFrom 1218 n_ConductingEquipment; SClass n_PowerTransformer (Some n_ConductingEquipment)])(* CIM15/CDPSM/Geographical/IEC61970/Wires/PowerTransformer.py:21-23 *);
  (1239, Mod n_SeriesCompensator [1224; 1216; 1209; 1090; 1089] false [SFrom 1218 n_ConductingEquipment; SClass n_SeriesCompensator (Some n_ConductingEquipment)])(* CIM15/CDPSM/Geographical/IEC61970/Wires/SeriesCompensator.py:21-23 *);
  (1240, Mod n_ShuntCompensator [1224; 1216; 1209; 1090; 1089] false [SFrom 1218 n_ConductingEquipment; SClass n_ShuntCompensator (Some n_ConductingEquipment)])(* CIM15/CDPSM/Geographical/IEC61970/Wires/ShuntCompensator.py:21-23 *);
  (1241, Mod n_SynchronousMachine [1224; 1216; 1209; 1090; 1089] false [SFrom 1218 n_ConductingEquipment; SClass n_SynchronousMachine (Some n_ConductingEquipment)])(* CIM15/CDPSM/Geographical/IEC61970/Wires/SynchronousMachine.py:21-23 *);
  (1242, Mod n_CombinedVersion [1089] false [SFrom 1243 n_Element; SClass n_CombinedVersion (Some n_Element)])(* CIM15/CombinedVersion.py:21-23 *);
  (1243, Mod n_Element [1089] false [SClass n_Element None])(* CIM15/Element.py:22-22 *);
  (1244, Mod i_IEC61968 [1089] true [SFrom 1298 n_IEC61968CIMVersion; SAssign i_nsURI; SAssign i_nsPrefix])(* CIM15/IEC61968/__init__.py:24-27 *);
  (1245, Mod i_AssetModels [1244; 1089] true [SFrom 1254 n_ShortCircuitTest; SFrom 1249 n_EndDeviceInfo; SFrom 1261 n_WireType; SFrom 1256 n_TapeShieldCableInfo; SFrom 1248 n_ConductorInfo; SFrom 1255 n_TapChangerInfo; SFrom 1258 n_TransformerTankInfo; SFrom 1253 n_PowerTransformerInfo; SFrom 1251 n_OpenCircuitTest; SFrom 1246 n_CableInfo; SFrom 1257 n_TransformerEndInfo; SFrom 1250 n_NoLoadTest; SFrom 1252 n_OverheadConductorInfo; SFrom 1247 n_ConcentricNeutralCableInfo; SFrom 1260 n_WireArrangement; SFrom 1259 n_TransformerTest; SAssign i_nsURI; SAssign i_nsPrefix; SClass n_CableOuterJacketKind None; SClass n_ConductorMaterialKind None; SClass n_ConductorUsageKind None; SClass n_CableConstructionKind None; SClass n_CableShieldMaterialKind None; SClass n_ConductorInsulationKind None])(* CIM15/IEC61968/AssetModels/__init__.py:24-70 *);
  (1246, Mod n_CableInfo [1245; 1244; 1089] false [SFrom 1248 n_ConductorInfo; SClass n_CableInfo (Some n_ConductorInfo)])(* CIM15/IEC61968/AssetModels/CableInfo.py:21-23 *);
  (1247, Mod n_ConcentricNeutralCableInfo [1245; 1244; 1089] false [SFrom 1246 n_CableInfo; SClass n_ConcentricNeutralCableInfo (Some n_CableInfo)])(* CIM15/IEC61968/AssetModels/ConcentricNeutralCableInfo.py:21-23 *);
  (1248, Mod n_ConductorInfo [1245; 1244; 1089] false [SFrom 1267 n_AssetInfo; SClass n_ConductorInfo (Some n_AssetInfo)])(* CIM15/IEC61968/AssetModels/ConductorInfo.py:21-23 *);
  (1249, Mod n_EndDeviceInfo [1245; 1244; 1089] false [SFrom 1267 n_AssetInfo; SClass n_EndDeviceInfo (Some n_AssetInfo)])(* CIM15/IEC61968/AssetModels/EndDeviceInfo.py:21-23 *);
  (1250, Mod n_NoLoadTest [1245; 1244; 1089] false [SFrom 1259 n_TransformerTest; SClass n_NoLoadTest (Some n_TransformerTest)])(* CIM15/IEC61968/AssetModels/NoLoadTest.py:21-23 *);
  (1251, Mod n_OpenCircuitTest [1245; 1244; 1089] false [SFrom 1259 n_TransformerTest; SClass n_OpenCircuitTest (Some n_TransformerTest)])(* CIM15/IEC61968/AssetModels/OpenCircuitTest.py:21-23 *);
  (1252, Mod n_OverheadConductorInfo [1245; 1244; 1089] false [SFrom 1248 n_ConductorInfo; SClass n_OverheadConductorInfo (Some n_ConductorInfo)])(* CIM15/IEC61968/AssetModels/OverheadConductorInfo.py:21-23 *);
  (1253, Mod n_PowerTransformerInfo [1245; 1244; 1089] false [SFrom 1267 n_AssetInfo; SClass n_PowerTransformerInfo (Some n_AssetInfo)])(* CIM15/IEC61968/AssetModels/PowerTransformerInfo.py:21-23 *);
  (1254, Mod n_ShortCircuitTest [1245; 1244; 1089] false [SFrom 1259 n_TransformerTest; SClass n_ShortCircuitTest (Some n_TransformerTest)])(* CIM15/IEC61968/AssetModels/ShortCircuitTest.py:21-23 *);
  (1255, Mod n_TapChangerInfo [1245; 1244; 1089] false [SFrom 1267 n_AssetInfo; SClass n_TapChangerInfo (Some n_AssetInfo)])(* CIM15/IEC61968/AssetModels/TapChangerInfo.py:21-23 *);
  (1256, Mod n_TapeShieldCableInfo [1245; 1244; 1089] false [SFrom 1246 n_CableInfo; SClass n_TapeShieldCableInfo (Some n_CableInfo)])(* CIM15/IEC61968/AssetModels/TapeShieldCableInfo.py:21-23 *);
  (1257, Mod n_TransformerEndInfo [1245; 1244; 1089] false [SFrom 1267 n_AssetInfo; SClass n_TransformerEndInfo (Some n_AssetInfo)])(* CIM15/IEC61968/AssetModels/TransformerEndInfo.py:21-23 *);
  (1258, Mod n_TransformerTankInfo [1245; 1244; 1089] false [SFrom 1267 n_AssetInfo; SClass n_TransformerTankInfo (Some n_AssetInfo)])(* CIM15/IEC61968/AssetModels/TransformerTankInfo.py:21-23 *);
  (1259, Mod n_TransformerTest [1245; 1244; 1089] false [SFrom 1386 n_IdentifiedObject; SClass n_TransformerTest (Some n_IdentifiedObject)])(* CIM15/IEC61968/AssetModels/TransformerTest.py:21-23 *);
  (1260, Mod n_WireArrangement [1245; 1244; 1089] false [SFrom 1386 n_IdentifiedObject; SClass n_WireArrangement (Some n_IdentifiedObject)])(* CIM15/IEC61968/AssetModels/WireArrangement.py:21-23 *);
  (1261, Mod n_WireType [1245; 1244; 1089] false [SFrom 1386 n_IdentifiedObject; SClass n_WireType (Some n_IdentifiedObject)])(* CIM15/IEC61968/AssetModels/WireType.py:21-23 *);
  (1262, Mod n_Assets [1244; 1089] true [SFrom 1270 n_ProductAssetModel; SFrom 1268 n_AssetModel; SFrom 1264 n_Asset; SFrom 1269 n_ComMedia; SFrom 1265 n_AssetContainer; SFrom 1266 n_AssetFunction; SFrom 1271 n_Seal; SFrom 1267 n_AssetInfo; SFrom 1263 n_AcceptanceTest; SAssign i_nsURI; SAssign i_nsPrefix; SClass n_CorporateStandardKind None; SClass n_SealConditionKind None; SClass n_SealKind None; SClass n_AssetModelUsageKind None])(* CIM15/IEC61968/Assets/__init__.py:24-53 *);
  (1263, Mod n_AcceptanceTest [1262; 1244; 1089] false [SClass n_AcceptanceTest None])(* CIM15/IEC61968/Assets/AcceptanceTest.py:22-22 *);
  (1264, Mod n_Asset [1262; 1244; 1089] false [SFrom 1386 n_IdentifiedObject; SClass n_Asset (Some n_IdentifiedObject)])(* CIM15/IEC61968/Assets/Asset.py:21-23 *);
  (1265, Mod n_AssetContainer [1262; 1244; 1089] false [SFrom 1264 n_Asset; SClass n_AssetContainer (Some n_Asset)])(* CIM15/IEC61968/Assets/AssetContainer.py:21-23 *);
  (1266, Mod n_AssetFunction [1262; 1244; 1089] false [SFrom 1386 n_IdentifiedObject; SClass n_AssetFunction (Some n_IdentifiedObject)])(* CIM15/IEC61968/Assets/AssetFunction.py:21-23 *);
  (1267, Mod n_AssetInfo [1262; 1244; 1089] false [SFrom 1386 n_IdentifiedObject; SClass n_AssetInfo (Some n_IdentifiedObject)])(* CIM15/IEC61968/Assets/AssetInfo.py:21-23 *);
  (1268, Mod n_AssetModel [1262; 1244; 1089] false [SFrom 1386 n_IdentifiedObject; SClass n_AssetModel (Some n_IdentifiedObject)])(* CIM15/IEC61968/Assets/AssetModel.py:21-23 *);
  (1269, Mod n_ComMedia [1262; 1244; 1089] false [SFrom 1264 n_Asset; SClass n_ComMedia (Some n_Asset)])(* CIM15/IEC61968/Assets/ComMedia.py:21-23 *);
  (1270, Mod n_ProductAssetModel [1262; 1244; 1089] false [SFrom 1268 n_AssetModel; SClass n_ProductAssetModel (Some n_AssetModel)])(* CIM15/IEC61968/Assets/ProductAssetModel.py:21-23 *);
  (1271, Mod n_Seal [1262; 1244; 1089] false [SFrom 1386 n_IdentifiedObject; SClass n_Seal (Some n_IdentifiedObject)])(* CIM15/IEC61968/Assets/Seal.py:21-23 *);
  (1272, Mod i_Common [1244; 1089] true [SFrom 1281 n_PostalAddress; SFrom 1282 n_Status; SFrom 1277 n_ElectronicAddress; SFrom 1278 n_Location; SFrom 1288 n_TownDetail; SFrom 1275 n_CoordinateSystem; SFrom 1276 n_Document; SFrom 1280 n_PositionPoint; SFrom 1289 n_UserAttribute; SFrom 1283 n_StreetAddress; SFrom 1284 n_StreetDetail; SFrom 1287 n_TimeSchedule; SFrom 1273 n_ActivityRecord; SFrom 1286 n_TimePoint; SFrom 1279 n_Organisation; SFrom 1285 n_TelephoneNumber; SFrom 1274 n_Agreement; SAssign i_nsURI; SAssign i_nsPrefix])(* CIM15/IEC61968/Common/__init__.py:24-43 *);
  (1273, Mod n_ActivityRecord [1272; 1244; 1089] false [SFrom 1386 n_IdentifiedObject; SClass n_ActivityRecord (Some n_IdentifiedObject)])(* CIM15/IEC61968/Common/ActivityRecord.py:21-23 *);
  (1274, Mod n_Agreement [1272; 1244; 1089] false [SFrom 1276 n_Document; SClass n_Agreement (Some n_Document)])(* CIM15/IEC61968/Common/Agreement.py:21-23 *);
  (1275, Mod n_CoordinateSystem [1272; 1244; 1089] false [SFrom 1386 n_IdentifiedObject; SClass n_CoordinateSystem (Some n_IdentifiedObject)])(* CIM15/IEC61968/Common/CoordinateSystem.py:21-23 *);
  (1276, Mod n_Document [1272; 1244; 1089] false [SFrom 1386 n_IdentifiedObject; SClass n_Document (Some n_IdentifiedObject)])(* CIM15/IEC61968/Common/Document.py:21-23 *);
  (1277, Mod n_ElectronicAddress [1272; 1244; 1089] false [SClass n_ElectronicAddress None])(* CIM15/IEC61968/Common/ElectronicAddress.py:22-22 *);
  (1278, Mod n_Location [1272; 1244; 1089] false [SFrom 1386 n_IdentifiedObject; SClass n_Location (Some n_IdentifiedObject)])(* CIM15/IEC61968/Common/Location.py:21-23 *);
  (1279, Mod n_Organisation [1272; 1244; 1089] false [SFrom 1386 n_IdentifiedObject; SClass n_Organisation (Some n_IdentifiedObject)])(* CIM15/IEC61968/Common/Organisation.py:21-23 *);
  (1280, Mod n_PositionPoint [1272; 1244; 1089] false [SFrom 1243 n_Element; SClass n_PositionPoint (Some n_Element)])(* CIM15/IEC61968/Common/PositionPoint.py:21-23 *);
  (1281, Mod n_PostalAddress [1272; 1244; 1089] false [SClass n_PostalAddress None])(* CIM15/IEC61968/Common/PostalAddress.py:22-22 *);
  (1282, Mod n_Status [1272; 1244; 1089] false [SClass n_Status None])(* CIM15/IEC61968/Common/Status.py:22-22 *);
  (1283, Mod n_StreetAddress [1272; 1244; 1089] false [SClass n_StreetAddress None])(* CIM15/IEC61968/Common/StreetAddress.py:22-22 *);
  (1284, Mod n_StreetDetail [1272; 1244; 1089] false [SClass n_StreetDetail None])(* CIM15/IEC61968/Common/StreetDetail.py:22-22 *);
  (1285, Mod n_TelephoneNumber [1272; 1244; 1089] false [SClass n_TelephoneNumber None])(* CIM15/IEC61968/Common/TelephoneNumber.py:22-22 *);
  (1286, Mod n_TimePoint [1272; 1244; 1089] false [SFrom 1386 n_IdentifiedObject; SClass n_TimePoint (Some n_IdentifiedObject)])(* CIM15/IEC61968/Common/TimePoint.py:21-23 *);
  (1287, Mod n_TimeSchedule [1272; 1244; 1089] false [SFrom 1276 n_Document; SClass n_TimeSchedule (Some n_Document)])(* CIM15/IEC61968/Common/TimeSchedule.py:21-23 *);
  (1288, Mod n_TownDetail [1272; 1244; 1089] false [SClass n_TownDetail None])(* CIM15/IEC61968/Common/TownDetail.py:22-22 *);
  (1289, Mod n_UserAttribute [1272; 1244; 1089] false [SFrom 1243 n_Element; SClass n_UserAttribute (Some n_Element)])(* CIM15/IEC61968/Common/UserAttribute.py:21-23 *);
  (1290, Mod n_Customers [1244; 1089] true [SFrom 1297 n_Tariff; SFrom 1292 n_CustomerAccount; SFrom 1296 n_ServiceLocation; SFrom 1293 n_CustomerAgreement; SFrom 1295 n_ServiceCategory; SFrom 1294 n_PricingStructure; SFrom 1291 n_Customer; SAssign i_nsURI; SAssign i_nsPrefix; SClass n_CustomerKind None; SClass n_RevenueKind None; SClass n_ServiceKind None])(* CIM15/IEC61968/Customers/__init__.py:24-46 *);
  (1291, Mod n_Customer [1290; 1244; 1089] false [SFrom 1279 n_Organisation; SClass n_Customer (Some n_Organisation)])(* CIM15/IEC61968/Customers/Customer.py:21-23 *);
  (1292, Mod n_CustomerAccount [1290; 1244; 1089] false [SFrom 1276 n_Document; SClass n_CustomerAccount (Some n_Document)])(* CIM15/IEC61968/Customers/CustomerAccount.py:21-23 *);
  (1293, Mod n_CustomerAgreement [1290; 1244; 1089] false [SFrom 1274 n_Agreement; SClass n_CustomerAgreement (Some n_Agreement)])(* CIM15/IEC61968/Customers/CustomerAgreement.py:21-23 *);
  (1294, Mod n_PricingStructure [1290; 1244; 1089] false [SFrom 1276 n_Document; SClass n_PricingStructure (Some n_Document)])(* CIM15/IEC61968/Customers/PricingStructure.py:21-23 *);
  (1295, Mod n_ServiceCategory [1290; 1244; 1089] false [SFrom 1386 n_IdentifiedObject; SClass n_ServiceCategory (Some n_IdentifiedObject)])(* CIM15/IEC61968/Customers/ServiceCategory.py:21-23 *);
  (1296, Mod n_ServiceLocation [1290; 1244; 1089] false [SFrom 1278 n_Location; SClass n_ServiceLocation (Some n_Location)])(* CIM15/IEC61968/Customers/ServiceLocation.py:21-23 *);
  (1297, Mod n_Tariff [1290; 1244; 1089] false [SFrom 1276 n_Document; SClass n_Tariff (Some n_Document)])(* CIM15/IEC61968/Customers/Tariff.py:21-23 *);
  (1298, Mod n_IEC61968CIMVersion [1244; 1089] false [SFrom 1243 n_Element; SClass n_IEC61968CIMVersion (Some n_Element)])(* CIM15/IEC61968/IEC61968CIMVersion.py:21-23 *);
  (1299, Mod i_LoadControl [1244; 1089] true [SFrom 1300 n_ConnectDisconnectFunction; SFrom 1301 n_RemoteConnectDisconnectInfo; SAssign i_nsURI; SAssign i_nsPrefix])(* CIM15/IEC61968/LoadControl/__init__.py:24-28 *);
  (1300, Mod n_ConnectDisconnectFunction [1299; 1244; 1089] false [SFrom 1310 n_EndDeviceFunction; SClass n_ConnectDisconnectFunction (Some n_EndDeviceFunction)])(* CIM15/IEC61968/LoadControl/ConnectDisconnectFunction.py:21-23 *);
  (1301, Mod n_RemoteConnectDisconnectInfo [1299; 1244; 1089] false [SClass n_RemoteConnectDisconnectInfo None])(* CIM15/IEC61968/LoadControl/RemoteConnectDisconnectInfo.py:22-22 *);
  (1302, Mod i_Metering [1244; 1089] true [SFrom 1323 n_SDPLocation; SFrom 1318 n_Reading; SFrom 1324 n_ServiceDeliveryPoint; SFrom 1306 n_ElectricMeteringFunction; SFrom 1304 n_DemandResponseProgram; SFrom 1319 n_ReadingMultiplier; SFrom 1315 n_MeterReading; SFrom 1320 n_ReadingQuality; SFrom 1309 n_EndDeviceEvent; SFrom 1313 n_IntervalReading; SFrom 1314 n_Meter; SFrom 1316 n_MeterServiceWork; SFrom 1317 n_PendingCalculation; SFrom 1312 n_IntervalBlock; SFrom 1310 n_EndDeviceFunction; SFrom 1303 n_ComFunction; SFrom 1307 n_EndDevice; SFrom 1325 n_SimpleEndDeviceFunction; SFrom 1311 n_EndDeviceGroup; SFrom 1322 n_Register; SFrom 1308 n_EndDeviceControl; SFrom 1305 n_DynamicDemand; SFrom 1321 n_ReadingType; SAssign i_nsURI; SAssign i_nsPrefix; SClass n_EndDeviceFunctionKind None; SClass n_ReadingKind None; SClass n_DemandKind None])(* CIM15/IEC61968/Metering/__init__.py:24-62 *);
  (1303, Mod n_ComFunction [1302; 1244; 1089] false [SFrom 1310 n_EndDeviceFunction; SClass n_ComFunction (Some n_EndDeviceFunction)])(* CIM15/IEC61968/Metering/ComFunction.py:21-23 *);
  (1304, Mod n_DemandResponseProgram [1302; 1244; 1089] false [SFrom 1386 n_IdentifiedObject; SClass n_DemandResponseProgram (Some n_IdentifiedObject)])(* CIM15/IEC61968/Metering/DemandResponseProgram.py:21-23 *);
  (1305, Mod n_DynamicDemand [1302; 1244; 1089] false [SClass n_DynamicDemand None])(* CIM15/IEC61968/Metering/DynamicDemand.py:22-22 *);
  (1306, Mod n_ElectricMeteringFunction [1302; 1244; 1089] false [SFrom 1310 n_EndDeviceFunction; SClass n_ElectricMeteringFunction (Some n_EndDeviceFunction)])(* CIM15/IEC61968/Metering/ElectricMeteringFunction.py:21-23 *);
  (1307, Mod n_EndDevice [1302; 1244; 1089] false [SFrom 1265 n_AssetContainer; SClass n_EndDevice (Some n_AssetContainer)])(* CIM15/IEC61968/Metering/EndDevice.py:21-23 *);
  (1308, Mod n_EndDeviceControl [1302; 1244; 1089] false [SFrom 1386 n_IdentifiedObject; SClass n_EndDeviceControl (Some n_IdentifiedObject)])(* CIM15/IEC61968/Metering/EndDeviceControl.py:21-23 *);
  (1309, Mod n_EndDeviceEvent [1302; 1244; 1089] false [SFrom 1273 n_ActivityRecord; SClass n_EndDeviceEvent (Some n_ActivityRecord)])(* CIM15/IEC61968/Metering/EndDeviceEvent.py:21-23 *);
  (1310, Mod n_EndDeviceFunction [1302; 1244; 1089] false [SFrom 1266 n_AssetFunction; SClass n_EndDeviceFunction (Some n_AssetFunction)])(* CIM15/IEC61968/Metering/EndDeviceFunction.py:21-23 *);
  (1311, Mod n_EndDeviceGroup [1302; 1244; 1089] false [SFrom 1386 n_IdentifiedObject; SClass n_EndDeviceGroup (Some n_IdentifiedObject)])(* CIM15/IEC61968/Metering/EndDeviceGroup.py:21-23 *);
  (1312, Mod n_IntervalBlock [1302; 1244; 1089] false [SFrom 1243 n_Element; SClass n_IntervalBlock (Some n_Element)])(* CIM15/IEC61968/Metering/IntervalBlock.py:21-23 *);
  (1313, Mod n_IntervalReading [1302; 1244; 1089] false [SFrom 1764 n_MeasurementValue; SClass n_IntervalReading (Some n_MeasurementValue)])(* CIM15/IEC61968/Metering/IntervalReading.py:21-23 *);
  (1314, Mod n_Meter [1302; 1244; 1089] false [SFrom 1307 n_EndDevice; SClass n_Meter (Some n_EndDevice)])(* CIM15/IEC61968/Metering/Meter.py:21-23 *);
  (1315, Mod n_MeterReading [1302; 1244; 1089] false [SFrom 1386 n_IdentifiedObject; SClass n_MeterReading (Some n_IdentifiedObject)])(* CIM15/IEC61968/Metering/MeterReading.py:21-23 *);
  (1316, Mod n_MeterServiceWork [1302; 1244; 1089] false [SFrom 1354 n_Work; SClass n_MeterServiceWork (Some n_Work)])(* CIM15/IEC61968/Metering/MeterServiceWork.py:21-23 *);
  (1317, Mod n_PendingCalculation [1302; 1244; 1089] false [SFrom 1243 n_Element; SClass n_PendingCalculation (Some n_Element)])(* CIM15/IEC61968/Metering/PendingCalculation.py:21-23 *);
  (1318, Mod n_Reading [1302; 1244; 1089] false [SFrom 1764 n_MeasurementValue; SClass n_Reading (Some n_MeasurementValue)])(* CIM15/IEC61968/Metering/Reading.py:21-23 *);
  (1319, Mod n_ReadingMultiplier [1302; 1244; 1089] false [SClass n_ReadingMultiplier None])(* CIM15/IEC61968/Metering/ReadingMultiplier.py:22-22 *);
  (1320, Mod n_ReadingQuality [1302; 1244; 1089] false [SFrom 1243 n_Element; SClass n_ReadingQuality (Some n_Element)])(* CIM15/IEC61968/Metering/ReadingQuality.py:21-23 *);
  (1321, Mod n_ReadingType [1302; 1244; 1089] false [SFrom 1386 n_IdentifiedObject; SClass n_ReadingType (Some n_IdentifiedObject)])(* CIM15/IEC61968/Metering/ReadingType.py:21-23 *);
  (1322, Mod n_Register [1302; 1244; 1089] false [SFrom 1386 n_IdentifiedObject; SClass n_Register (Some n_IdentifiedObject)])(* CIM15/IEC61968/Metering/Register.py:21-23 *);
  (1323, Mod n_SDPLocation [1302; 1244; 1089] false [SFrom 1278 n_Location; SClass n_SDPLocation (Some n_Location)])(* CIM15/IEC61968/Metering/SDPLocation.py:21-23 *);
  (1324, Mod n_ServiceDeliveryPoint [1302; 1244; 1089] false [SFrom 1386 n_IdentifiedObject; SClass n_ServiceDeliveryPoint (Some n_IdentifiedObject)])(* CIM15/IEC61968/Metering/ServiceDeliveryPoint.py:21-23 *);
  (1325, Mod n_SimpleEndDeviceFunction [1302; 1244; 1089] false [SFrom 1310 n_EndDeviceFunction; SClass n_SimpleEndDeviceFunction (Some n_EndDeviceFunction)])(* CIM15/IEC61968/Metering/SimpleEndDeviceFunction.py:21-23 *);
  (1326, Mod i_PaymentMetering [1244; 1089] true [SFrom 1352 n_VendorShift; SFrom 1350 n_Transactor; SFrom 1334 n_CashierShift; SFrom 1346 n_TariffProfile; SFrom 1328 n_AccountingUnit; SFrom 1349 n_Transaction; SFrom 1348 n_TimeTariffInterval; SFrom 1335 n_Charge; SFrom 1330 n_AuxiliaryAgreement; SFrom 1347 n_Tender; SFrom 1344 n_ServiceSupplier; SFrom 1341 n_MerchantAgreement; SFrom 1339 n_LineDetail; SFrom 1337 n_ConsumptionTariffInterval; SFrom 1351 n_Vendor; SFrom 1336 n_Cheque; SFrom 1327 n_AccountMovement; SFrom 1345 n_Shift; SFrom 1343 n_Receipt; SFrom 1338 n_Due; SFrom 1331 n_BankAccountDetail; SFrom 1329 n_AuxiliaryAccount; SFrom 1333 n_Cashier; SFrom 1332 n_Card; SFrom 1340 n_MerchantAccount; SFrom 1342 n_PointOfSale; SAssign i_nsURI; SAssign i_nsPrefix; SClass n_TenderKind None; SClass n_ChequeKind None; SClass n_ChargeKind None; SClass n_TransactionKind None; SClass n_SupplierKind None])(* CIM15/IEC61968/PaymentMetering/__init__.py:24-75 *);
  (1327, Mod n_AccountMovement [1326; 1244; 1089] false [SClass n_AccountMovement None])(* CIM15/IEC61968/PaymentMetering/AccountMovement.py:22-22 *);
  (1328, Mod n_AccountingUnit [1326; 1244; 1089] false [SClass n_AccountingUnit None])(* CIM15/IEC61968/PaymentMetering/AccountingUnit.py:22-22 *);
  (1329, Mod n_AuxiliaryAccount [1326; 1244; 1089] false [SFrom 1276 n_Document; SClass n_AuxiliaryAccount (Some n_Document)])(* CIM15/IEC61968/PaymentMetering/AuxiliaryAccount.py:21-23 *);
  (1330, Mod n_AuxiliaryAgreement [1326; 1244; 1089] false [SFrom 1274 n_Agreement; SClass n_AuxiliaryAgreement (Some n_Agreement)])(* CIM15/IEC61968/PaymentMetering/AuxiliaryAgreement.py:21-23 *);
  (1331, Mod n_BankAccountDetail [1326; 1244; 1089] false [SClass n_BankAccountDetail None])(* CIM15/IEC61968/PaymentMetering/BankAccountDetail.py:22-22 *);
  (1332, Mod n_Card [1326; 1244; 1089] false [SFrom 1243 n_Element; SClass n_Card (Some n_Element)])(* CIM15/IEC61968/PaymentMetering/Card.py:21-23 *);
  (1333, Mod n_Cashier [1326; 1244; 1089] false [SFrom 1386 n_IdentifiedObject; SClass n_Cashier (Some n_IdentifiedObject)])(* CIM15/IEC61968/PaymentMetering/Cashier.py:21-23 *);
  (1334, Mod n_CashierShift [1326; 1244; 1089] false [SFrom 1345 n_Shift; SClass n_CashierShift (Some n_Shift)])(* CIM15/IEC61968/PaymentMetering/CashierShift.py:21-23 *);
  (1335, Mod n_Charge [1326; 1244; 1089] false [SFrom 1386 n_IdentifiedObject; SClass n_Charge (Some n_IdentifiedObject)])(* CIM15/IEC61968/PaymentMetering/Charge.py:21-23 *);
  (1336, Mod n_Cheque [1326; 1244; 1089] false [SFrom 1243 n_Element; SClass n_Cheque (Some n_Element)])(* CIM15/IEC61968/PaymentMetering/Cheque.py:21-23 *);
  (1337, Mod n_ConsumptionTariffInterval [1326; 1244; 1089] false [SFrom 1243 n_Element; SClass n_ConsumptionTariffInterval (Some n_Element)])(* CIM15/IEC61968/PaymentMetering/ConsumptionTariffInterval.py:21-23 *);
  (1338, Mod n_Due [1326; 1244; 1089] false [SClass n_Due None])(* CIM15/IEC61968/PaymentMetering/Due.py:22-22 *);
  (1339, Mod n_LineDetail [1326; 1244; 1089] false [SClass n_LineDetail None])(* CIM15/IEC61968/PaymentMetering/LineDetail.py:22-22 *);
  (1340, Mod n_MerchantAccount [1326; 1244; 1089] false [SFrom 1276 n_Document; SClass n_MerchantAccount (Some n_Document)])(* CIM15/IEC61968/PaymentMetering/MerchantAccount.py:21-23 *);
  (1341, Mod n_MerchantAgreement [1326; 1244; 1089] false [SFrom 1274 n_Agreement; SClass n_MerchantAgreement (Some n_Agreement)])(* CIM15/IEC61968/PaymentMetering/MerchantAgreement.py:21-23 *);
  (1342, Mod n_PointOfSale [1326; 1244; 1089] false [SFrom 1386 n_IdentifiedObject; SClass n_PointOfSale (Some n_IdentifiedObject)])(* CIM15/IEC61968/PaymentMetering/PointOfSale.py:21-23 *);
  (1343, Mod n_Receipt [1326; 1244; 1089] false [SFrom 1386 n_IdentifiedObject; SClass n_Receipt (Some n_IdentifiedObject)])(* CIM15/IEC61968/PaymentMetering/Receipt.py:21-23 *);
  (1344, Mod n_ServiceSupplier [1326; 1244; 1089] false [SFrom 1279 n_Organisation; SClass n_ServiceSupplier (Some n_Organisation)])(* CIM15/IEC61968/PaymentMetering/ServiceSupplier.py:21-23 *);
  (1345, Mod n_Shift [1326; 1244; 1089] false [SFrom 1386 n_IdentifiedObject; SClass n_Shift (Some n_IdentifiedObject)])(* CIM15/IEC61968/PaymentMetering/Shift.py:21-23 *);
  (1346, Mod n_TariffProfile [1326; 1244; 1089] false [SFrom 1276 n_Document; SClass n_TariffProfile (Some n_Document)])(* CIM15/IEC61968/PaymentMetering/TariffProfile.py:21-23 *);
  (1347, Mod n_Tender [1326; 1244; 1089] false [SFrom 1386 n_IdentifiedObject; SClass n_Tender (Some n_IdentifiedObject)])(* CIM15/IEC61968/PaymentMetering/Tender.py:21-23 *);
  (1348, Mod n_TimeTariffInterval [1326; 1244; 1089] false [SFrom 1243 n_Element; SClass n_TimeTariffInterval (Some n_Element)])(* CIM15/IEC61968/PaymentMetering/TimeTariffInterval.py:21-23 *);
  (1349, Mod n_Transaction [1326; 1244; 1089] false [SFrom 1386 n_IdentifiedObject; SClass n_Transaction (Some n_IdentifiedObject)])(* CIM15/IEC61968/PaymentMetering/Transaction.py:21-23 *);
  (1350, Mod n_Transactor [1326; 1244; 1089] false [SFrom 1386 n_IdentifiedObject; SClass n_Transactor (Some n_IdentifiedObject)])(* CIM15/IEC61968/PaymentMetering/Transactor.py:21-23 *);
  (1351, Mod n_Vendor [1326; 1244; 1089] false [SFrom 1386 n_IdentifiedObject; SClass n_Vendor (Some n_IdentifiedObject)])(* CIM15/IEC61968/PaymentMetering/Vendor.py:21-23 *);
  (1352, Mod n_VendorShift [1326; 1244; 1089] false [SFrom 1345 n_Shift; SClass n_VendorShift (Some n_Shift)])(* CIM15/IEC61968/PaymentMetering/VendorShift.py:21-23 *);
  (1353, Mod n_Work [1244; 1089] true [SFrom 1354 n_Work; SAssign i_nsURI; SAssign i_nsPrefix; SClass n_WorkKind None])(* CIM15/IEC61968/Work/__init__.py:24-30 *);
  (1354, Mod n_Work [1353; 1244; 1089] false [SFrom 1276 n_Document; SClass n_Work (Some n_Document)])(* CIM15/IEC61968/Work/Work.py:21-23 *);
  (1355, Mod i_IEC61970 [1089] true [SFrom 1474 n_IEC61970CIMVersion; SAssign i_nsURI; SAssign i_nsPrefix])(* CIM15/IEC61970/__init__.py:24-27 *);
  (1356, Mod n_AuxiliaryEquipment [1355; 1089] true [SFrom 1360 n_PotentialTransformer; SFrom 1361 n_Sensor; SFrom 1357 n_AuxiliaryEquipment; SFrom 1358 n_CurrentTransformer; SFrom 1362 n_SurgeProtector; SFrom 1359 n_FaultIndicator; SAssign i_nsURI; SAssign i_nsPrefix])(* CIM15/IEC61970/AuxiliaryEquipment/__init__.py:22-30 *);
  (1357, Mod n_AuxiliaryEquipment [1356; 1355; 1089] false [SFrom 1383 n_Equipment; SClass n_AuxiliaryEquipment (Some n_Equipment)])(* CIM15/IEC61970/AuxiliaryEquipment/AuxiliaryEquipment.py:21-23 *);
  (1358, Mod n_CurrentTransformer [1356; 1355; 1089] false [SFrom 1361 n_Sensor; SClass n_CurrentTransformer (Some n_Sensor)])(* CIM15/IEC61970/AuxiliaryEquipment/CurrentTransformer.py:21-23 *);
  (1359, Mod n_FaultIndicator [1356; 1355; 1089] false [SFrom 1357 n_AuxiliaryEquipment; SClass n_FaultIndicator (Some n_AuxiliaryEquipment)])(* CIM15/IEC61970/AuxiliaryEquipment/FaultIndicator.py:21-23 *);
  (1360, Mod n_PotentialTransformer [1356; 1355; 1089] false [SFrom 1361 n_Sensor; SClass n_PotentialTransformer (Some n_Sensor)])(* CIM15/IEC61970/AuxiliaryEquipment/PotentialTransformer.py:21-23 *);
  (1361, Mod n_Sensor [1356; 1355; 1089] false [SFrom 1357 n_AuxiliaryEquipment; SClass n_Sensor (Some n_AuxiliaryEquipment)])(* CIM15/IEC61970/AuxiliaryEquipment/Sensor.py:21-23 *);
  (1362, Mod n_SurgeProtector [1356; 1355; 1089] false [SFrom 1357 n_AuxiliaryEquipment; SClass n_SurgeProtector (Some n_AuxiliaryEquipment)])(* CIM15/IEC61970/AuxiliaryEquipment/SurgeProtector.py:21-23 *);
  (1363, Mod n_Contingency [1355; 1089] true [SFrom 1366 n_ContingencyEquipment; SFrom 1364 n_Contingency; SFrom 1365 n_ContingencyElement; SAssign i_nsURI; SAssign i_nsPrefix; SClass n_ContingencyEquipmentStatusKind None])(* CIM15/IEC61970/Contingency/__init__.py:24-32 *);
  (1364, Mod n_Contingency [1363; 1355; 1089] false [SFrom 1386 n_IdentifiedObject; SClass n_Contingency (Some n_IdentifiedObject)])(* CIM15/IEC61970/Contingency/Contingency.py:21-23 *);
  (1365, Mod n_ContingencyElement [1363; 1355; 1089] false [SFrom 1386 n_IdentifiedObject; SClass n_ContingencyElement (Some n_IdentifiedObject)])(* CIM15/IEC61970/Contingency/ContingencyElement.py:21-23 *);
  (1366, Mod n_ContingencyEquipment [1363; 1355; 1089] false [SFrom 1365 n_ContingencyElement; SClass n_ContingencyEquipment (Some n_ContingencyElement)])(* CIM15/IEC61970/Contingency/ContingencyEquipment.py:21-23 *);
  (1367, Mod n_ControlArea [1355; 1089] true [SFrom 1369 n_AltTieMeas; SFrom 1368 n_AltGeneratingUnitMeas; SFrom 1372 n_TieFlow; SFrom 1370 n_ControlArea; SFrom 1371 n_ControlAreaGeneratingUnit; SAssign i_nsURI; SAssign i_nsPrefix; SClass n_ControlAreaTypeKind None])(* CIM15/IEC61970/ControlArea/__init__.py:24-34 *);
  (1368, Mod n_AltGeneratingUnitMeas [1367; 1355; 1089] false [SFrom 1243 n_Element; SClass n_AltGeneratingUnitMeas (Some n_Element)])(* CIM15/IEC61970/ControlArea/AltGeneratingUnitMeas.py:21-23 *);
  (1369, Mod n_AltTieMeas [1367; 1355; 1089] false [SFrom 1243 n_Element; SClass n_AltTieMeas (Some n_Element)])(* CIM15/IEC61970/ControlArea/AltTieMeas.py:21-23 *);
  (1370, Mod n_ControlArea [1367; 1355; 1089] false [SFrom 1395 n_PowerSystemResource; SClass n_ControlArea (Some n_PowerSystemResource)])(* CIM15/IEC61970/ControlArea/ControlArea.py:21-23 *);
  (1371, Mod n_ControlAreaGeneratingUnit [1367; 1355; 1089] false [SFrom 1243 n_Element; SClass n_ControlAreaGeneratingUnit (Some n_Element)])(* CIM15/IEC61970/ControlArea/ControlAreaGeneratingUnit.py:21-23 *);
  (1372, Mod n_TieFlow [1367; 1355; 1089] false [SFrom 1243 n_Element; SClass n_TieFlow (Some n_Element)])(* CIM15/IEC61970/ControlArea/TieFlow.py:21-23 *);
  (1373, Mod i_Core [1355; 1089] true [SFrom 1395 n_PowerSystemResource; SFrom 1391 n_NameTypeAuthority; SFrom 1383 n_Equipment; SFrom 1378 n_ConductingEquipment; SFrom 1398 n_RegularTimePoint; SFrom 1379 n_ConnectivityNode; SFrom 1394 n_PSRType; SFrom 1380 n_ConnectivityNodeContainer; SFrom 1377 n_Bay; SFrom 1384 n_EquipmentContainer; SFrom 1399 n_ReportingGroup; SFrom 1374 n_BasePower; SFrom 1396 n_PsrList; SFrom 1386 n_IdentifiedObject; SFrom 1376 n_BasicIntervalSchedule; SFrom 1381 n_Curve; SFrom 1385 n_GeographicalRegion; SFrom 1382 n_CurveData; SFrom 1401 n_SubGeographicalRegion; SFrom 1390 n_NameType; SFrom 1402 n_Substation; SFrom 1389 n_Name; SFrom 1375 n_BaseVoltage; SFrom 1403 n_Terminal; SFrom 1387 n_IrregularIntervalSchedule; SFrom 1397 n_RegularIntervalSchedule; SFrom 1392 n_OperatingParticipant; SFrom 1393 n_OperatingShare; SFrom 1404 n_VoltageLevel; SFrom 1400 n_ReportingSuperGroup; SFrom 1388 n_IrregularTimePoint; SAssign i_nsURI; SAssign i_nsPrefix; SClass n_BreakerConfiguration None; SClass i_CompanyType None; SClass n_PhaseCode None; SClass n_CurveStyle None; SClass n_BusbarConfiguration None])(* CIM15/IEC61970/Core/__init__.py:24-80 *);
  (1374, Mod n_BasePower [1373; 1355; 1089] false [SFrom 1386 n_IdentifiedObject; SClass n_BasePower (Some n_IdentifiedObject)])(* CIM15/IEC61970/Core/BasePower.py:21-23 *);
  (1375, Mod n_BaseVoltage [1373; 1355; 1089] false [SFrom 1386 n_IdentifiedObject; SClass n_BaseVoltage (Some n_IdentifiedObject)])(* CIM15/IEC61970/Core/BaseVoltage.py:21-23 *);
  (1376, Mod n_BasicIntervalSchedule [1373; 1355; 1089] false [SFrom 1386 n_IdentifiedObject; SClass n_BasicIntervalSchedule (Some n_IdentifiedObject)])(* CIM15/IEC61970/Core/BasicIntervalSchedule.py:21-23 *);
  (1377, Mod n_Bay [1373; 1355; 1089] false [SFrom 1384 n_EquipmentContainer; SClass n_Bay (Some n_EquipmentContainer)])(* CIM15/IEC61970/Core/Bay.py:21-23 *);
  (1378, Mod n_ConductingEquipment [1373; 1355; 1089] false [SFrom 1383 n_Equipment; SClass n_ConductingEquipment (Some n_Equipment)])(* CIM15/IEC61970/Core/ConductingEquipment.py:21-23 *);
  (1379, Mod n_ConnectivityNode [1373; 1355; 1089] false [SFrom 1386 n_IdentifiedObject; SClass n_ConnectivityNode (Some n_IdentifiedObject)])(* CIM15/IEC61970/Core/ConnectivityNode.py:21-23 *);
  (1380, Mod n_ConnectivityNodeContainer [1373; 1355; 1089] false [SFrom 1395 n_PowerSystemResource; SClass n_ConnectivityNodeContainer (Some n_PowerSystemResource)])(* CIM15/IEC61970/Core/ConnectivityNodeContainer.py:21-23 *);
  (1381, Mod n_Curve [1373; 1355; 1089] false [SFrom 1386 n_IdentifiedObject; SClass n_Curve (Some n_IdentifiedObject)])(* CIM15/IEC61970/Core/Curve.py:21-23 *);
  (1382, Mod n_CurveData [1373; 1355; 1089] false [SFrom 1243 n_Element; SClass n_CurveData (Some n_Element)])(* CIM15/IEC61970/Core/CurveData.py:21-23 *);
  (1383, Mod n_Equipment [1373; 1355; 1089] false [SFrom 1395 n_PowerSystemResource; SClass n_Equipment (Some n_PowerSystemResource)])(* CIM15/IEC61970/Core/Equipment.py:21-24 *);
  (1384, Mod n_EquipmentContainer [1373; 1355; 1089] false [SFrom 1380 n_ConnectivityNodeContainer; SClass n_EquipmentContainer (Some n_ConnectivityNodeContainer)])(* CIM15/IEC61970/Core/EquipmentContainer.py:21-23 *);
  (1385, Mod n_GeographicalRegion [1373; 1355; 1089] false [SFrom 1386 n_IdentifiedObject; SClass n_GeographicalRegion (Some n_IdentifiedObject)])(* CIM15/IEC61970/Core/GeographicalRegion.py:21-23 *);
  (1386, Mod n_IdentifiedObject [1373; 1355; 1089] false [SFrom 1243 n_Element; SClass n_IdentifiedObject (Some n_Element)])(* CIM15/IEC61970/Core/IdentifiedObject.py:21-23 *);
  (1387, Mod n_IrregularIntervalSchedule [1373; 1355; 1089] false [SFrom 1376 n_BasicIntervalSchedule; SClass n_IrregularIntervalSchedule (Some n_BasicIntervalSchedule)])(* CIM15/IEC61970/Core/IrregularIntervalSchedule.py:21-23 *);
  (1388, Mod n_IrregularTimePoint [1373; 1355; 1089] false [SFrom 1243 n_Element; SClass n_IrregularTimePoint (Some n_Element)])(* CIM15/IEC61970/Core/IrregularTimePoint.py:21-23 *);
  (1389, Mod n_Name [1373; 1355; 1089] false [SFrom 1243 n_Element; SClass n_Name (Some n_Element)])(* CIM15/IEC61970/Core/Name.py:21-23 *);
  (1390, Mod n_NameType [1373; 1355; 1089] false [SFrom 1243 n_Element; SClass n_NameType (Some n_Element)])(* CIM15/IEC61970/Core/NameType.py:21-23 *);
  (1391, Mod n_NameTypeAuthority [1373; 1355; 1089] false [SFrom 1243 n_Element; SClass n_NameTypeAuthority (Some n_Element)])(* CIM15/IEC61970/Core/NameTypeAuthority.py:21-23 *);
  (1392, Mod n_OperatingParticipant [1373; 1355; 1089] false [SFrom 1386 n_IdentifiedObject; SClass n_OperatingParticipant (Some n_IdentifiedObject)])(* CIM15/IEC61970/Core/OperatingParticipant.py:21-23 *);
  (1393, Mod n_OperatingShare [1373; 1355; 1089] false [SFrom 1243 n_Element; SClass n_OperatingShare (Some n_Element)])(* CIM15/IEC61970/Core/OperatingShare.py:21-23 *);
  (1394, Mod n_PSRType [1373; 1355; 1089] false [SFrom 1386 n_IdentifiedObject; SClass n_PSRType (Some n_IdentifiedObject)])(* CIM15/IEC61970/Core/PSRType.py:21-23 *);
  (1395, Mod n_PowerSystemResource [1373; 1355; 1089] false [SFrom 1386 n_IdentifiedObject; SClass n_PowerSystemResource (Some n_IdentifiedObject)])(* CIM15/IEC61970/Core/PowerSystemResource.py:21-23 *);
  (1396, Mod n_PsrList [1373; 1355; 1089] false [SFrom 1386 n_IdentifiedObject; SClass n_PsrList (Some n_IdentifiedObject)])(* CIM15/IEC61970/Core/PsrList.py:21-23 *);
  (1397, Mod n_RegularIntervalSchedule [1373; 1355; 1089] false [SFrom 1376 n_BasicIntervalSchedule; SClass n_RegularIntervalSchedule (Some n_BasicIntervalSchedule)])(* CIM15/IEC61970/Core/RegularIntervalSchedule.py:21-23 *);
  (1398, Mod n_RegularTimePoint [1373; 1355; 1089] false [SFrom 1243 n_Element; SClass n_RegularTimePoint (Some n_Element)])(* CIM15/IEC61970/Core/RegularTimePoint.py:21-23 *);
  (1399, Mod n_ReportingGroup [1373; 1355; 1089] false [SFrom 1386 n_IdentifiedObject; SClass n_ReportingGroup (Some n_IdentifiedObject)])(* CIM15/IEC61970/Core/ReportingGroup.py:21-23 *);
  (1400, Mod n_ReportingSuperGroup [1373; 1355; 1089] false [SFrom 1386 n_IdentifiedObject; SClass n_ReportingSuperGroup (Some n_IdentifiedObject)])(* CIM15/IEC61970/Core/ReportingSuperGroup.py:21-23 *);
  (1401, Mod n_SubGeographicalRegion [1373; 1355; 1089] false [SFrom 1386 n_IdentifiedObject; SClass n_SubGeographicalRegion (Some n_IdentifiedObject)])(* CIM15/IEC61970/Core/SubGeographicalRegion.py:21-23 *);
  (1402, Mod n_Substation [1373; 1355; 1089] false [SFrom 1384 n_EquipmentContainer; SClass n_Substation (Some n_EquipmentContainer)])(* CIM15/IEC61970/Core/Substation.py:21-23 *);
  (1403, Mod n_Terminal [1373; 1355; 1089] false [SFrom 1386 n_IdentifiedObject; SClass n_Terminal (Some n_IdentifiedObject)])(* CIM15/IEC61970/Core/Terminal.py:21-23 *);
  (1404, Mod n_VoltageLevel [1373; 1355; 1089] false [SFrom 1384 n_EquipmentContainer; SClass n_VoltageLevel (Some n_EquipmentContainer)])(* CIM15/IEC61970/Core/VoltageLevel.py:21-23 *);
  (1405, Mod i_CutsJumpers [1355; 1089] true [SFrom 1407 n_Cut; SFrom 1406 n_Clamp; SAssign i_nsURI; SAssign i_nsPrefix])(* CIM15/IEC61970/CutsJumpers/__init__.py:22-26 *);
  (1406, Mod n_Clamp [1405; 1355; 1089] false [SFrom 1378 n_ConductingEquipment; SClass n_Clamp (Some n_ConductingEquipment)])(* CIM15/IEC61970/CutsJumpers/Clamp.py:21-23 *);
  (1407, Mod n_Cut [1405; 1355; 1089] false [SFrom 1868 n_Switch; SClass n_Cut (Some n_Switch)])(* CIM15/IEC61970/CutsJumpers/Cut.py:21-23 *);
  (1408, Mod i_Domain [1355; 1089] true [SFrom 1409 n_DateTimeInterval; SAssign i_nsURI; SAssign i_nsPrefix; SClass n_UnitSymbol None; SClass n_Currency None; SClass n_UnitMultiplier None; SClass i_ReactancePerLength None; SClass i_ApparentPower None; SClass i_Damping None; SClass i_Susceptance None; SClass i_ResistancePerLength None; SClass i_PU None; SClass i_CurrentFlow None; SClass i_AngleDegrees None; SClass i_CostRate None; SClass i_CostPerEnergyUnit None; SClass i_Displacement None; SClass i_Voltage None; SClass i_Reactance None; SClass i_Pressure None; SClass i_Temperature None; SClass i_RotationSpeed None; SClass i_SusceptancePerLength None; SClass i_StringQuantity None; SClass i_ActivePowerChangeRate None; SClass i_AbsoluteDate None; SClass i_ActivePower None; SClass i_Volume None; SClass i_Conductance None; SClass i_Inductance None; SClass i_ReactivePower None; SClass i_AngleRadians None; SClass i_Frequency None; SClass i_Capacitance None; SClass i_Money None; SClass i_RealEnergy None; SClass i_KWActivePower None; SClass i_Minutes None; SClass i_Impedance None; SClass i_VoltagePerReactivePower None; SClass i_VolumeFlowRate None; SClass i_ConductancePerLength None; SClass i_PerCent None; SClass i_Weight None; SClass i_Resistance None; SClass i_Seconds None; SClass i_FloatQuantity None; SClass i_WaterLevel None; SClass i_Length None; SClass i_Hours None; SClass i_IntegerQuantity None; SClass i_CostPerVolume None])(* CIM15/IEC61970/Domain/__init__.py:24-266 *);
  (1409, Mod n_DateTimeInterval [1408; 1355; 1089] false [SClass n_DateTimeInterval None])(* CIM15/IEC61970/Domain/DateTimeInterval.py:22-22 *);
  (1410, Mod i_Equivalents [1355; 1089] true [SFrom 1415 n_EquivalentShunt; SFrom 1412 n_EquivalentEquipment; SFrom 1414 n_EquivalentNetwork; SFrom 1413 n_EquivalentInjection; SFrom 1411 n_EquivalentBranch; SAssign i_nsURI; SAssign i_nsPrefix])(* CIM15/IEC61970/Equivalents/__init__.py:24-31 *);
  (1411, Mod n_EquivalentBranch [1410; 1355; 1089] false [SFrom 1412 n_EquivalentEquipment; SClass n_EquivalentBranch (Some n_EquivalentEquipment)])(* CIM15/IEC61970/Equivalents/EquivalentBranch.py:21-23 *);
  (1412, Mod n_EquivalentEquipment [1410; 1355; 1089] false [SFrom 1378 n_ConductingEquipment; SClass n_EquivalentEquipment (Some n_ConductingEquipment)])(* CIM15/IEC61970/Equivalents/EquivalentEquipment.py:21-23 *);
  (1413, Mod n_EquivalentInjection [1410; 1355; 1089] false [SFrom 1412 n_EquivalentEquipment; SClass n_EquivalentInjection (Some n_EquivalentEquipment)])(* CIM15/IEC61970/Equivalents/EquivalentInjection.py:21-23 *);
  (1414, Mod n_EquivalentNetwork [1410; 1355; 1089] false [SFrom 1380 n_ConnectivityNodeContainer; SClass n_EquivalentNetwork (Some n_ConnectivityNodeContainer)])(* CIM15/IEC61970/Equivalents/EquivalentNetwork.py:21-23 *);
  (1415, Mod n_EquivalentShunt [1410; 1355; 1089] false [SFrom 1412 n_EquivalentEquipment; SClass n_EquivalentShunt (Some n_EquivalentEquipment)])(* CIM15/IEC61970/Equivalents/EquivalentShunt.py:21-23 *);
  (1416, Mod i_Generation [1355; 1089] true [SAssign i_nsURI; SAssign i_nsPrefix])(* CIM15/IEC61970/Generation/__init__.py:25-26 *);
  (1417, Mod i_GenerationDynamics [1416; 1355; 1089] true [SFrom 1418 n_BWRSteamSupply; SFrom 1424 n_HydroTurbine; SFrom 1428 n_SteamTurbine; SFrom 1427 n_SteamSupply; SFrom 1422 n_FossilSteamSupply; SFrom 1429 n_Subcritical; SFrom 1425 n_PWRSteamSupply; SFrom 1426 n_PrimeMover; SFrom 1420 n_CombustionTurbine; SFrom 1423 n_HeatRecoveryBoiler; SFrom 1430 n_Supercritical; SFrom 1421 n_DrumBoiler; SFrom 1419 n_CTTempActivePowerCurve; SAssign i_nsURI; SAssign i_nsPrefix; SClass n_TurbineType None; SClass n_BoilerControlMode None])(* CIM15/IEC61970/Generation/GenerationDynamics/__init__.py:24-47 *);
  (1418, Mod n_BWRSteamSupply [1417; 1416; 1355; 1089] false [SFrom 1427 n_SteamSupply; SClass n_BWRSteamSupply (Some n_SteamSupply)])(* CIM15/IEC61970/Generation/GenerationDynamics/BWRSteamSupply.py:21-23 *);
  (1419, Mod n_CTTempActivePowerCurve [1417; 1416; 1355; 1089] false [SFrom 1381 n_Curve; SClass n_CTTempActivePowerCurve (Some n_Curve)])(* CIM15/IEC61970/Generation/GenerationDynamics/CTTempActivePowerCurve.py:21-23 *);
  (1420, Mod n_CombustionTurbine [1417; 1416; 1355; 1089] false [SFrom 1426 n_PrimeMover; SClass n_CombustionTurbine (Some n_PrimeMover)])(* CIM15/IEC61970/Generation/GenerationDynamics/CombustionTurbine.py:21-23 *);
  (1421, Mod n_DrumBoiler [1417; 1416; 1355; 1089] false [SFrom 1422 n_FossilSteamSupply; SClass n_DrumBoiler (Some n_FossilSteamSupply)])(* CIM15/IEC61970/Generation/GenerationDynamics/DrumBoiler.py:21-23 *);
  (1422, Mod n_FossilSteamSupply [1417; 1416; 1355; 1089] false [SFrom 1427 n_SteamSupply; SClass n_FossilSteamSupply (Some n_SteamSupply)])(* CIM15/IEC61970/Generation/GenerationDynamics/FossilSteamSupply.py:21-23 *);
  (1423, Mod n_HeatRecoveryBoiler [1417; 1416; 1355; 1089] false [SFrom 1422 n_FossilSteamSupply; SClass n_HeatRecoveryBoiler (Some n_FossilSteamSupply)])(* CIM15/IEC61970/Generation/GenerationDynamics/HeatRecoveryBoiler.py:21-23 *);
  (1424, Mod n_HydroTurbine [1417; 1416; 1355; 1089] false [SFrom 1426 n_PrimeMover; SClass n_HydroTurbine (Some n_PrimeMover)])(* CIM15/IEC61970/Generation/GenerationDynamics/HydroTurbine.py:21-23 *);
  (1425, Mod n_PWRSteamSupply [1417; 1416; 1355; 1089] false [SFrom 1427 n_SteamSupply; SClass n_PWRSteamSupply (Some n_SteamSupply)])(* CIM15/IEC61970/Generation/GenerationDynamics/PWRSteamSupply.py:21-23 *);
  (1426, Mod n_PrimeMover [1417; 1416; 1355; 1089] false [SFrom 1395 n_PowerSystemResource; SClass n_PrimeMover (Some n_PowerSystemResource)])(* CIM15/IEC61970/Generation/GenerationDynamics/PrimeMover.py:21-23 *);
  (1427, Mod n_SteamSupply [1417; 1416; 1355; 1089] false [SFrom 1395 n_PowerSystemResource; SClass n_SteamSupply (Some n_PowerSystemResource)])(* CIM15/IEC61970/Generation/GenerationDynamics/SteamSupply.py:21-23 *);
  (1428, Mod n_SteamTurbine [1417; 1416; 1355; 1089] false [SFrom 1426 n_PrimeMover; SClass n_SteamTurbine (Some n_PrimeMover)])(* CIM15/IEC61970/Generation/GenerationDynamics/SteamTurbine.py:21-23 *);
  (1429, Mod n_Subcritical [1417; 1416; 1355; 1089] false [SFrom 1422 n_FossilSteamSupply; SClass n_Subcritical (Some n_FossilSteamSupply)])(* CIM15/IEC61970/Generation/GenerationDynamics/Subcritical.py:21-23 *);
  (1430, Mod n_Supercritical [1417; 1416; 1355; 1089] false [SFrom 1422 n_FossilSteamSupply; SClass n_Supercritical (Some n_FossilSteamSupply)])(* CIM15/IEC61970/Generation/GenerationDynamics/Supercritical.py:21-23 *);
  (1431, Mod i_Production [1416; 1355; 1089] true [SFrom 1456 n_Reservoir; SFrom 1434 n_CogenerationPlant; SFrom 1441 n_GenUnitOpSchedule; SFrom 1439 n_FuelAllocationSchedule; SFrom 1443 n_GrossToNetActivePowerCurve; SFrom 1453 n_LevelVsVolumeCurve; SFrom 1460 n_StartRampCurve; SFrom 1454 n_NuclearGeneratingUnit; SFrom 1437 n_EmissionCurve; SFrom 1450 n_HydroPumpOpSchedule; SFrom 1462 n_SteamSendoutSchedule; SFrom 1464 n_TargetLevelSchedule; SFrom 1435 n_CombinedCyclePlant; SFrom 1445 n_HeatRateCurve; SFrom 1465 n_ThermalGeneratingUnit; SFrom 1436 n_EmissionAccount; SFrom 1455 n_PenstockLossCurve; SFrom 1461 n_StartupModel; SFrom 1447 n_HydroGeneratingUnit; SFrom 1440 n_GenUnitOpCostCurve; SFrom 1451 n_IncrementalHeatRateCurve; SFrom 1438 n_FossilFuel; SFrom 1442 n_GeneratingUnit; SFrom 1458 n_StartIgnFuelCurve; SFrom 1459 n_StartMainFuelCurve; SFrom 1463 n_TailbayLossCurve; SFrom 1449 n_HydroPump; SFrom 1452 n_InflowForecast; SFrom 1446 n_HydroGeneratingEfficiencyCurve; SFrom 1457 n_ShutdownCurve; SFrom 1448 n_HydroPowerPlant; SFrom 1433 n_CAESPlant; SFrom 1432 n_AirCompressor; SFrom 1444 n_HeatInputCurve; SFrom 1466 n_WindGeneratingUnit; SAssign i_nsURI; SAssign i_nsPrefix; SClass n_FuelType None; SClass n_GeneratorOperatingMode None; SClass n_GeneratorControlMode None; SClass n_HydroPlantType None; SClass n_HydroEnergyConversionKind None; SClass n_PenstockType None; SClass n_EmissionValueSource None; SClass n_GeneratorControlSource None; SClass n_SpillwayGateType None; SClass n_SurgeTankCode None; SClass n_EmissionType None; SClass i_Classification None; SClass i_HeatRate None; SClass i_CostPerHeatUnit None; SClass i_Emission None])(* CIM15/IEC61970/Generation/Production/__init__.py:24-128 *);
  (1432, Mod n_AirCompressor [1431; 1416; 1355; 1089] false [SFrom 1395 n_PowerSystemResource; SClass n_AirCompressor (Some n_PowerSystemResource)])(* CIM15/IEC61970/Generation/Production/AirCompressor.py:21-23 *);
  (1433, Mod n_CAESPlant [1431; 1416; 1355; 1089] false [SFrom 1395 n_PowerSystemResource; SClass n_CAESPlant (Some n_PowerSystemResource)])(* CIM15/IEC61970/Generation/Production/CAESPlant.py:21-23 *);
  (1434, Mod n_CogenerationPlant [1431; 1416; 1355; 1089] false [SFrom 1395 n_PowerSystemResource; SClass n_CogenerationPlant (Some n_PowerSystemResource)])(* CIM15/IEC61970/Generation/Production/CogenerationPlant.py:21-23 *);
  (1435, Mod n_CombinedCyclePlant [1431; 1416; 1355; 1089] false [SFrom 1395 n_PowerSystemResource; SClass n_CombinedCyclePlant (Some n_PowerSystemResource)])(* CIM15/IEC61970/Generation/Production/CombinedCyclePlant.py:21-23 *);
  (1436, Mod n_EmissionAccount [1431; 1416; 1355; 1089] false [SFrom 1381 n_Curve; SClass n_EmissionAccount (Some n_Curve)])(* CIM15/IEC61970/Generation/Production/EmissionAccount.py:21-23 *);
  (1437, Mod n_EmissionCurve [1431; 1416; 1355; 1089] false [SFrom 1381 n_Curve; SClass n_EmissionCurve (Some n_Curve)])(* CIM15/IEC61970/Generation/Production/EmissionCurve.py:21-23 *);
  (1438, Mod n_FossilFuel [1431; 1416; 1355; 1089] false [SFrom 1386 n_IdentifiedObject; SClass n_FossilFuel (Some n_IdentifiedObject)])(* CIM15/IEC61970/Generation/Production/FossilFuel.py:21-23 *);
  (1439, Mod n_FuelAllocationSchedule [1431; 1416; 1355; 1089] false [SFrom 1381 n_Curve; SClass n_FuelAllocationSchedule (Some n_Curve)])(* CIM15/IEC61970/Generation/Production/FuelAllocationSchedule.py:21-23 *);
  (1440, Mod n_GenUnitOpCostCurve [1431; 1416; 1355; 1089] false [SFrom 1381 n_Curve; SClass n_GenUnitOpCostCurve (Some n_Curve)])(* CIM15/IEC61970/Generation/Production/GenUnitOpCostCurve.py:21-23 *);
  (1441, Mod n_GenUnitOpSchedule [1431; 1416; 1355; 1089] false [SFrom 1397 n_RegularIntervalSchedule; SClass n_GenUnitOpSchedule (Some n_RegularIntervalSchedule)])(* CIM15/IEC61970/Generation/Production/GenUnitOpSchedule.py:21-23 *);
  (1442, Mod n_GeneratingUnit [1431; 1416; 1355; 1089] false [SFrom 1383 n_Equipment; SClass n_GeneratingUnit (Some n_Equipment)])(* CIM15/IEC61970/Generation/Production/GeneratingUnit.py:21-23 *);
  (1443, Mod n_GrossToNetActivePowerCurve [1431; 1416; 1355; 1089] false [SFrom 1381 n_Curve; SClass n_GrossToNetActivePowerCurve (Some n_Curve)])(* CIM15/IEC61970/Generation/Production/GrossToNetActivePowerCurve.py:21-23 *);
  (1444, Mod n_HeatInputCurve [1431; 1416; 1355; 1089] false [SFrom 1381 n_Curve; SClass n_HeatInputCurve (Some n_Curve)])(* CIM15/IEC61970/Generation/Production/HeatInputCurve.py:21-23 *);
  (1445, Mod n_HeatRateCurve [1431; 1416; 1355; 1089] false [SFrom 1381 n_Curve; SClass n_HeatRateCurve (Some n_Curve)])(* CIM15/IEC61970/Generation/Production/HeatRateCurve.py:21-23 *);
  (1446, Mod n_HydroGeneratingEfficiencyCurve [1431; 1416; 1355; 1089] false [SFrom 1381 n_Curve; SClass n_HydroGeneratingEfficiencyCurve (Some n_Curve)])(* CIM15/IEC61970/Generation/Production/HydroGeneratingEfficiencyCurve.py:21-23 *);
  (1447, Mod n_HydroGeneratingUnit [1431; 1416; 1355; 1089] false [SFrom 1442 n_GeneratingUnit; SClass n_HydroGeneratingUnit (Some n_GeneratingUnit)])(* CIM15/IEC61970/Generation/Production/HydroGeneratingUnit.py:21-23 *);
  (1448, Mod n_HydroPowerPlant [1431; 1416; 1355; 1089] false [SFrom 1395 n_PowerSystemResource; SClass n_HydroPowerPlant (Some n_PowerSystemResource)])(* CIM15/IEC61970/Generation/Production/HydroPowerPlant.py:21-23 *);
  (1449, Mod n_HydroPump [1431; 1416; 1355; 1089] false [SFrom 1395 n_PowerSystemResource; SClass n_HydroPump (Some n_PowerSystemResource)])(* CIM15/IEC61970/Generation/Production/HydroPump.py:21-23 *);
  (1450, Mod n_HydroPumpOpSchedule [1431; 1416; 1355; 1089] false [SFrom 1397 n_RegularIntervalSchedule; SClass n_HydroPumpOpSchedule (Some n_RegularIntervalSchedule)])(* CIM15/IEC61970/Generation/Production/HydroPumpOpSchedule.py:21-23 *);
  (1451, Mod n_IncrementalHeatRateCurve [1431; 1416; 1355; 1089] false [SFrom 1381 n_Curve; SClass n_IncrementalHeatRateCurve (Some n_Curve)])(* CIM15/IEC61970/Generation/Production/IncrementalHeatRateCurve.py:21-23 *);
  (1452, Mod n_InflowForecast [1431; 1416; 1355; 1089] false [SFrom 1397 n_RegularIntervalSchedule; SClass n_InflowForecast (Some n_RegularIntervalSchedule)])(* CIM15/IEC61970/Generation/Production/InflowForecast.py:21-23 *);
  (1453, Mod n_LevelVsVolumeCurve [1431; 1416; 1355; 1089] false [SFrom 1381 n_Curve; SClass n_LevelVsVolumeCurve (Some n_Curve)])(* CIM15/IEC61970/Generation/Production/LevelVsVolumeCurve.py:21-23 *);
  (1454, Mod n_NuclearGeneratingUnit [1431; 1416; 1355; 1089] false [SFrom 1442 n_GeneratingUnit; SClass n_NuclearGeneratingUnit (Some n_GeneratingUnit)])(* CIM15/IEC61970/Generation/Production/NuclearGeneratingUnit.py:21-23 *);
  (1455, Mod n_PenstockLossCurve [1431; 1416; 1355; 1089] false [SFrom 1381 n_Curve; SClass n_PenstockLossCurve (Some n_Curve)])(* CIM15/IEC61970/Generation/Production/PenstockLossCurve.py:21-23 *);
  (1456, Mod n_Reservoir [1431; 1416; 1355; 1089] false [SFrom 1395 n_PowerSystemResource; SClass n_Reservoir (Some n_PowerSystemResource)])(* CIM15/IEC61970/Generation/Production/Reservoir.py:21-23 *);
  (1457, Mod n_ShutdownCurve [1431; 1416; 1355; 1089] false [SFrom 1381 n_Curve; SClass n_ShutdownCurve (Some n_Curve)])(* CIM15/IEC61970/Generation/Production/ShutdownCurve.py:21-23 *);
  (1458, Mod n_StartIgnFuelCurve [1431; 1416; 1355; 1089] false [SFrom 1381 n_Curve; SClass n_StartIgnFuelCurve (Some n_Curve)])(* CIM15/IEC61970/Generation/Production/StartIgnFuelCurve.py:21-23 *);
  (1459, Mod n_StartMainFuelCurve [1431; 1416; 1355; 1089] false [SFrom 1381 n_Curve; SClass n_StartMainFuelCurve (Some n_Curve)])(* CIM15/IEC61970/Generation/Production/StartMainFuelCurve.py:21-23 *);
  (1460, Mod n_StartRampCurve [1431; 1416; 1355; 1089] false [SFrom 1381 n_Curve; SClass n_StartRampCurve (Some n_Curve)])(* CIM15/IEC61970/Generation/Production/StartRampCurve.py:21-23 *);
  (1461, Mod n_StartupModel [1431; 1416; 1355; 1089] false [SFrom 1386 n_IdentifiedObject; SClass n_StartupModel (Some n_IdentifiedObject)])(* CIM15/IEC61970/Generation/Production/StartupModel.py:21-23 *);
  (1462, Mod n_SteamSendoutSchedule [1431; 1416; 1355; 1089] false [SFrom 1397 n_RegularIntervalSchedule; SClass n_SteamSendoutSchedule (Some n_RegularIntervalSchedule)])(* CIM15/IEC61970/Generation/Production/SteamSendoutSchedule.py:21-23 *);
  (1463, Mod n_TailbayLossCurve [1431; 1416; 1355; 1089] false [SFrom 1381 n_Curve; SClass n_TailbayLossCurve (Some n_Curve)])(* CIM15/IEC61970/Generation/Production/TailbayLossCurve.py:21-23 *);
  (1464, Mod n_TargetLevelSchedule [1431; 1416; 1355; 1089] false [SFrom 1381 n_Curve; SClass n_TargetLevelSchedule (Some n_Curve)])(* CIM15/IEC61970/Generation/Production/TargetLevelSchedule.py:21-23 *);
  (1465, Mod n_ThermalGeneratingUnit [1431; 1416; 1355; 1089] false [SFrom 1442 n_GeneratingUnit; SClass n_ThermalGeneratingUnit (Some n_GeneratingUnit)])(* CIM15/IEC61970/Generation/Production/ThermalGeneratingUnit.py:21-23 *);
  (1466, Mod n_WindGeneratingUnit [1431; 1416; 1355; 1089] false [SFrom 1442 n_GeneratingUnit; SClass n_WindGeneratingUnit (Some n_GeneratingUnit)])(* CIM15/IEC61970/Generation/Production/WindGeneratingUnit.py:21-23 *);
  (1467, Mod i_Graphics [1355; 1089] true [SFrom 1472 n_TextDiagramObject; SFrom 1469 n_DiagramObjectGluePoint; SFrom 1468 n_DiagramObject; SFrom 1471 n_DiagramObjectStyle; SFrom 1470 n_DiagramObjectPoint; SFrom 1473 n_VisibilityLayer; SAssign i_nsURI; SAssign i_nsPrefix; SClass n_OrientationKind None])(* CIM15/IEC61970/Graphics/__init__.py:22-33 *);
  (1468, Mod n_DiagramObject [1467; 1355; 1089] false [SFrom 1386 n_IdentifiedObject; SClass n_DiagramObject (Some n_IdentifiedObject)])(* CIM15/IEC61970/Graphics/DiagramObject.py:21-23 *);
  (1469, Mod n_DiagramObjectGluePoint [1467; 1355; 1089] false [SFrom 1243 n_Element; SClass n_DiagramObjectGluePoint (Some n_Element)])(* CIM15/IEC61970/Graphics/DiagramObjectGluePoint.py:21-23 *);
  (1470, Mod n_DiagramObjectPoint [1467; 1355; 1089] false [SFrom 1243 n_Element; SClass n_DiagramObjectPoint (Some n_Element)])(* CIM15/IEC61970/Graphics/DiagramObjectPoint.py:21-23 *);
  (1471, Mod n_DiagramObjectStyle [1467; 1355; 1089] false [SFrom 1386 n_IdentifiedObject; SClass n_DiagramObjectStyle (Some n_IdentifiedObject)])(* CIM15/IEC61970/Graphics/DiagramObjectStyle.py:21-23 *);
  (1472, Mod n_TextDiagramObject [1467; 1355; 1089] false [SFrom 1468 n_DiagramObject; SClass n_TextDiagramObject (Some n_DiagramObject)])(* CIM15/IEC61970/Graphics/TextDiagramObject.py:21-23 *);
  (1473, Mod n_VisibilityLayer [1467; 1355; 1089] false [SFrom 1386 n_IdentifiedObject; SClass n_VisibilityLayer (Some n_IdentifiedObject)])(* CIM15/IEC61970/Graphics/VisibilityLayer.py:21-23 *);
  (1474, Mod n_IEC61970CIMVersion [1355; 1089] false [SFrom 1243 n_Element; SClass n_IEC61970CIMVersion (Some n_Element)])(* CIM15/IEC61970/IEC61970CIMVersion.py:21-23 *);
  (1475, Mod i_Informative [1355; 1089] true [SAssign i_nsURI; SAssign i_nsPrefix])(* CIM15/IEC61970/Informative/__init__.py:25-26 *);
  (1476, Mod i_InfAssetModels [1475; 1355; 1089] true [SFrom 1477 n_AssetModelCatalogue; SFrom 1479 n_TransformerAssetModel; SFrom 1478 n_AssetModelCatalogueItem; SAssign i_nsURI; SAssign i_nsPrefix; SClass n_OilPreservationKind None; SClass n_TransformerConstructionKind None; SClass n_WindingInsulationKind None; SClass n_TransformerCoreKind None; SClass n_TransformerFunctionKind None])(* CIM15/IEC61970/Informative/InfAssetModels/__init__.py:22-50 *);
  (1477, Mod n_AssetModelCatalogue [1476; 1475; 1355; 1089] false [SFrom 1386 n_IdentifiedObject; SClass n_AssetModelCatalogue (Some n_IdentifiedObject)])(* CIM15/IEC61970/Informative/InfAssetModels/AssetModelCatalogue.py:21-23 *);
  (1478, Mod n_AssetModelCatalogueItem [1476; 1475; 1355; 1089] false [SFrom 1276 n_Document; SClass n_AssetModelCatalogueItem (Some n_Document)])(* CIM15/IEC61970/Informative/InfAssetModels/AssetModelCatalogueItem.py:21-23 *);
  (1479, Mod n_TransformerAssetModel [1476; 1475; 1355; 1089] false [SFrom 1270 n_ProductAssetModel; SClass n_TransformerAssetModel (Some n_ProductAssetModel)])(* CIM15/IEC61970/Informative/InfAssetModels/TransformerAssetModel.py:21-23 *);
  (1480, Mod i_InfAssets [1475; 1355; 1089] true [SFrom 1496 n_FACTSDevice; SFrom 1492 n_DocAssetRole; SFrom 1494 n_DuctBank; SFrom 1489 n_ConductorAsset; SFrom 1500 n_FinancialInfo; SFrom 1512 n_ProtectionEquipmentInfo; SFrom 1511 n_ProcedureDataSet; SFrom 1532 n_WindingInsulation; SFrom 1518 n_Specification; SFrom 1530 n_UndergroundStructure; SFrom 1508 n_PotentialTransformerInfo; SFrom 1520 n_Structure; SFrom 1490 n_CurrentTransformerInfo; SFrom 1485 n_BushingInsulationPF; SFrom 1502 n_Joint; SFrom 1495 n_ElectricalInfo; SFrom 1533 n_WorkEquipment; SFrom 1499 n_FaultIndicatorInfo; SFrom 1493 n_Duct; SFrom 1509 n_PowerRating; SFrom 1481 n_AssetAssetRole; SFrom 1528 n_TransformerAsset; SFrom 1510 n_Procedure; SFrom 1483 n_BreakerInfo; SFrom 1488 n_CompositeSwitchInfo; SFrom 1486 n_Cabinet; SFrom 1484 n_Bushing; SFrom 1531 n_Vehicle; SFrom 1523 n_SurgeProtectorInfo; SFrom 1521 n_StructureSupport; SFrom 1487 n_ComEquipment; SFrom 1482 n_AssetPropertyCurve; SFrom 1498 n_FailureEvent; SFrom 1491 n_DimensionsInfo; SFrom 1527 n_Tower; SFrom 1504 n_MountingConnection; SFrom 1503 n_Medium; SFrom 1513 n_RecloserInfo; SFrom 1497 n_Facility; SFrom 1517 n_ShuntImpedanceInfo; SFrom 1516 n_ShuntCompensatorInfo; SFrom 1505 n_MountingPoint; SFrom 1522 n_SubstationAsset; SFrom 1519 n_Streetlight; SFrom 1526 n_Tool; SFrom 1515 n_SVC; SFrom 1506 n_OrgAssetRole; SFrom 1525 n_TestDataSet; SFrom 1501 n_GenericAssetModelOrMaterial; SFrom 1514 n_ReliabilityInfo; SFrom 1529 n_TransformerObservation; SFrom 1507 n_Pole; SFrom 1524 n_SwitchInfo; SAssign i_nsURI; SAssign i_nsPrefix; SClass n_AnchorKind None; SClass n_TowerConstructionKind None; SClass n_ProcedureKind None; SClass i_FacilityKind None; SClass n_MediumKind None; SClass n_UndergroundStructureKind None; SClass n_PolePreservativeKind None; SClass n_ShuntImpedanceLocalControlKind None; SClass n_CoolingKind None; SClass n_RegulationBranchKind None; SClass n_VehicleUsageKind None; SClass n_SubstationFunctionKind None; SClass n_JointFillKind None; SClass n_BushingInsulationPfTestKind None; SClass n_PoleTreatmentKind None; SClass n_FaultIndicatorResetKind None; SClass n_ShuntImpedanceControlKind None; SClass n_JointConfigurationKind None; SClass n_PoleBaseKind None; SClass n_FACTSDeviceKind None; SClass n_StructureSupportKind None; SClass n_BushingInsulationKind None; SClass n_StructureMaterialKind None; SClass n_StreetlightLampKind None; SClass n_CompositeSwitchKind None; SClass n_FailureIsolationMethodKind None])(* CIM15/IEC61970/Informative/InfAssets/__init__.py:24-207 *);
  (1481, Mod n_AssetAssetRole [1480; 1475; 1355; 1089] false [SFrom 1543 n_Role; SClass n_AssetAssetRole (Some n_Role)])(* CIM15/IEC61970/Informative/InfAssets/AssetAssetRole.py:21-23 *);
  (1482, Mod n_AssetPropertyCurve [1480; 1475; 1355; 1089] false [SFrom 1381 n_Curve; SClass n_AssetPropertyCurve (Some n_Curve)])(* CIM15/IEC61970/Informative/InfAssets/AssetPropertyCurve.py:21-23 *);
  (1483, Mod n_BreakerInfo [1480; 1475; 1355; 1089] false [SFrom 1524 n_SwitchInfo; SClass n_BreakerInfo (Some n_SwitchInfo)])(* CIM15/IEC61970/Informative/InfAssets/BreakerInfo.py:21-23 *);
  (1484, Mod n_Bushing [1480; 1475; 1355; 1089] false [SFrom 1264 n_Asset; SClass n_Bushing (Some n_Asset)])(* CIM15/IEC61970/Informative/InfAssets/Bushing.py:21-23 *);
  (1485, Mod n_BushingInsulationPF [1480; 1475; 1355; 1089] false [SFrom 1386 n_IdentifiedObject; SClass n_BushingInsulationPF (Some n_IdentifiedObject)])(* CIM15/IEC61970/Informative/InfAssets/BushingInsulationPF.py:21-23 *);
  (1486, Mod n_Cabinet [1480; 1475; 1355; 1089] false [SFrom 1265 n_AssetContainer; SClass n_Cabinet (Some n_AssetContainer)])(* CIM15/IEC61970/Informative/InfAssets/Cabinet.py:21-23 *);
  (1487, Mod n_ComEquipment [1480; 1475; 1355; 1089] false [SFrom 1264 n_Asset; SClass n_ComEquipment (Some n_Asset)])(* CIM15/IEC61970/Informative/InfAssets/ComEquipment.py:21-23 *);
  (1488, Mod n_CompositeSwitchInfo [1480; 1475; 1355; 1089] false [SFrom 1267 n_AssetInfo; SClass n_CompositeSwitchInfo (Some n_AssetInfo)])(* CIM15/IEC61970/Informative/InfAssets/CompositeSwitchInfo.py:21-23 *);
  (1489, Mod n_ConductorAsset [1480; 1475; 1355; 1089] false [SFrom 1264 n_Asset; SClass n_ConductorAsset (Some n_Asset)])(* CIM15/IEC61970/Informative/InfAssets/ConductorAsset.py:21-23 *);
  (1490, Mod n_CurrentTransformerInfo [1480; 1475; 1355; 1089] false [SFrom 1267 n_AssetInfo; SClass n_CurrentTransformerInfo (Some n_AssetInfo)])(* CIM15/IEC61970/Informative/InfAssets/CurrentTransformerInfo.py:21-23 *);
  (1491, Mod n_DimensionsInfo [1480; 1475; 1355; 1089] false [SFrom 1386 n_IdentifiedObject; SClass n_DimensionsInfo (Some n_IdentifiedObject)])(* CIM15/IEC61970/Informative/InfAssets/DimensionsInfo.py:21-23 *);
  (1492, Mod n_DocAssetRole [1480; 1475; 1355; 1089] false [SFrom 1543 n_Role; SClass n_DocAssetRole (Some n_Role)])(* CIM15/IEC61970/Informative/InfAssets/DocAssetRole.py:21-23 *);
  (1493, Mod n_Duct [1480; 1475; 1355; 1089] false [SFrom 1265 n_AssetContainer; SClass n_Duct (Some n_AssetContainer)])(* CIM15/IEC61970/Informative/InfAssets/Duct.py:21-23 *);
  (1494, Mod n_DuctBank [1480; 1475; 1355; 1089] false [SFrom 1265 n_AssetContainer; SClass n_DuctBank (Some n_AssetContainer)])(* CIM15/IEC61970/Informative/InfAssets/DuctBank.py:21-23 *);
  (1495, Mod n_ElectricalInfo [1480; 1475; 1355; 1089] false [SFrom 1267 n_AssetInfo; SClass n_ElectricalInfo (Some n_AssetInfo)])(* CIM15/IEC61970/Informative/InfAssets/ElectricalInfo.py:21-23 *);
  (1496, Mod n_FACTSDevice [1480; 1475; 1355; 1089] false [SFrom 1264 n_Asset; SClass n_FACTSDevice (Some n_Asset)])(* CIM15/IEC61970/Informative/InfAssets/FACTSDevice.py:21-23 *);
  (1497, Mod n_Facility [1480; 1475; 1355; 1089] false [SFrom 1265 n_AssetContainer; SClass n_Facility (Some n_AssetContainer)])(* CIM15/IEC61970/Informative/InfAssets/Facility.py:21-23 *);
  (1498, Mod n_FailureEvent [1480; 1475; 1355; 1089] false [SFrom 1273 n_ActivityRecord; SClass n_FailureEvent (Some n_ActivityRecord)])(* CIM15/IEC61970/Informative/InfAssets/FailureEvent.py:21-23 *);
  (1499, Mod n_FaultIndicatorInfo [1480; 1475; 1355; 1089] false [SFrom 1267 n_AssetInfo; SClass n_FaultIndicatorInfo (Some n_AssetInfo)])(* CIM15/IEC61970/Informative/InfAssets/FaultIndicatorInfo.py:21-23 *);
  (1500, Mod n_FinancialInfo [1480; 1475; 1355; 1089] false [SFrom 1386 n_IdentifiedObject; SClass n_FinancialInfo (Some n_IdentifiedObject)])(* CIM15/IEC61970/Informative/InfAssets/FinancialInfo.py:21-23 *);
  (1501, Mod n_GenericAssetModelOrMaterial [1480; 1475; 1355; 1089] false [SFrom 1268 n_AssetModel; SClass n_GenericAssetModelOrMaterial (Some n_AssetModel)])(* CIM15/IEC61970/Informative/InfAssets/GenericAssetModelOrMaterial.py:21-23 *);
  (1502, Mod n_Joint [1480; 1475; 1355; 1089] false [SFrom 1264 n_Asset; SClass n_Joint (Some n_Asset)])(* CIM15/IEC61970/Informative/InfAssets/Joint.py:21-23 *);
  (1503, Mod n_Medium [1480; 1475; 1355; 1089] false [SFrom 1386 n_IdentifiedObject; SClass n_Medium (Some n_IdentifiedObject)])(* CIM15/IEC61970/Informative/InfAssets/Medium.py:21-23 *);
  (1504, Mod n_MountingConnection [1480; 1475; 1355; 1089] false [SFrom 1386 n_IdentifiedObject; SClass n_MountingConnection (Some n_IdentifiedObject)])(* CIM15/IEC61970/Informative/InfAssets/MountingConnection.py:21-23 *);
  (1505, Mod n_MountingPoint [1480; 1475; 1355; 1089] false [SFrom 1386 n_IdentifiedObject; SClass n_MountingPoint (Some n_IdentifiedObject)])(* CIM15/IEC61970/Informative/InfAssets/MountingPoint.py:21-23 *);
  (1506, Mod n_OrgAssetRole [1480; 1475; 1355; 1089] false [SFrom 1543 n_Role; SClass n_OrgAssetRole (Some n_Role)])(* CIM15/IEC61970/Informative/InfAssets/OrgAssetRole.py:21-23 *);
  (1507, Mod n_Pole [1480; 1475; 1355; 1089] false [SFrom 1520 n_Structure; SClass n_Pole (Some n_Structure)])(* CIM15/IEC61970/Informative/InfAssets/Pole.py:21-23 *);
  (1508, Mod n_PotentialTransformerInfo [1480; 1475; 1355; 1089] false [SFrom 1267 n_AssetInfo; SClass n_PotentialTransformerInfo (Some n_AssetInfo)])(* CIM15/IEC61970/Informative/InfAssets/PotentialTransformerInfo.py:21-23 *);
  (1509, Mod n_PowerRating [1480; 1475; 1355; 1089] false [SFrom 1386 n_IdentifiedObject; SClass n_PowerRating (Some n_IdentifiedObject)])(* CIM15/IEC61970/Informative/InfAssets/PowerRating.py:21-23 *);
  (1510, Mod n_Procedure [1480; 1475; 1355; 1089] false [SFrom 1276 n_Document; SClass n_Procedure (Some n_Document)])(* CIM15/IEC61970/Informative/InfAssets/Procedure.py:21-23 *);
  (1511, Mod n_ProcedureDataSet [1480; 1475; 1355; 1089] false [SFrom 1276 n_Document; SClass n_ProcedureDataSet (Some n_Document)])(* CIM15/IEC61970/Informative/InfAssets/ProcedureDataSet.py:21-23 *);
  (1512, Mod n_ProtectionEquipmentInfo [1480; 1475; 1355; 1089] false [SFrom 1267 n_AssetInfo; SClass n_ProtectionEquipmentInfo (Some n_AssetInfo)])(* CIM15/IEC61970/Informative/InfAssets/ProtectionEquipmentInfo.py:21-23 *);
  (1513, Mod n_RecloserInfo [1480; 1475; 1355; 1089] false [SFrom 1524 n_SwitchInfo; SClass n_RecloserInfo (Some n_SwitchInfo)])(* CIM15/IEC61970/Informative/InfAssets/RecloserInfo.py:21-23 *);
  (1514, Mod n_ReliabilityInfo [1480; 1475; 1355; 1089] false [SFrom 1386 n_IdentifiedObject; SClass n_ReliabilityInfo (Some n_IdentifiedObject)])(* CIM15/IEC61970/Informative/InfAssets/ReliabilityInfo.py:21-23 *);
  (1515, Mod n_SVC [1480; 1475; 1355; 1089] false [SFrom 1496 n_FACTSDevice; SClass n_SVC (Some n_FACTSDevice)])(* CIM15/IEC61970/Informative/InfAssets/SVC.py:21-23 *);
  (1516, Mod n_ShuntCompensatorInfo [1480; 1475; 1355; 1089] false [SFrom 1267 n_AssetInfo; SClass n_ShuntCompensatorInfo (Some n_AssetInfo)])(* CIM15/IEC61970/Informative/InfAssets/ShuntCompensatorInfo.py:21-23 *);
  (1517, Mod n_ShuntImpedanceInfo [1480; 1475; 1355; 1089] false [SFrom 1267 n_AssetInfo; SClass n_ShuntImpedanceInfo (Some n_AssetInfo)])(* CIM15/IEC61970/Informative/InfAssets/ShuntImpedanceInfo.py:21-23 *);
  (1518, Mod n_Specification [1480; 1475; 1355; 1089] false [SFrom 1276 n_Document; SClass n_Specification (Some n_Document)])(* CIM15/IEC61970/Informative/InfAssets/Specification.py:21-23 *);
  (1519, Mod n_Streetlight [1480; 1475; 1355; 1089] false [SFrom 1264 n_Asset; SClass n_Streetlight (Some n_Asset)])(* CIM15/IEC61970/Informative/InfAssets/Streetlight.py:21-23 *);
  (1520, Mod n_Structure [1480; 1475; 1355; 1089] false [SFrom 1265 n_AssetContainer; SClass n_Structure (Some n_AssetContainer)])(* CIM15/IEC61970/Informative/InfAssets/Structure.py:21-23 *);
  (1521, Mod n_StructureSupport [1480; 1475; 1355; 1089] false [SFrom 1264 n_Asset; SClass n_StructureSupport (Some n_Asset)])(* CIM15/IEC61970/Informative/InfAssets/StructureSupport.py:21-23 *);
  (1522, Mod n_SubstationAsset [1480; 1475; 1355; 1089] false [SFrom 1264 n_Asset; SClass n_SubstationAsset (Some n_Asset)])(* CIM15/IEC61970/Informative/InfAssets/SubstationAsset.py:21-23 *);
  (1523, Mod n_SurgeProtectorInfo [1480; 1475; 1355; 1089] false [SFrom 1267 n_AssetInfo; SClass n_SurgeProtectorInfo (Some n_AssetInfo)])(* CIM15/IEC61970/Informative/InfAssets/SurgeProtectorInfo.py:21-23 *);
  (1524, Mod n_SwitchInfo [1480; 1475; 1355; 1089] false [SFrom 1267 n_AssetInfo; SClass n_SwitchInfo (Some n_AssetInfo)])(* CIM15/IEC61970/Informative/InfAssets/SwitchInfo.py:21-23 *);
  (1525, Mod n_TestDataSet [1480; 1475; 1355; 1089] false [SFrom 1511 n_ProcedureDataSet; SClass n_TestDataSet (Some n_ProcedureDataSet)])(* CIM15/IEC61970/Informative/InfAssets/TestDataSet.py:21-23 *);
  (1526, Mod n_Tool [1480; 1475; 1355; 1089] false [SFrom 1264 n_Asset; SClass n_Tool (Some n_Asset)])(* CIM15/IEC61970/Informative/InfAssets/Tool.py:21-23 *);
  (1527, Mod n_Tower [1480; 1475; 1355; 1089] false [SFrom 1520 n_Structure; SClass n_Tower (Some n_Structure)])(* CIM15/IEC61970/Informative/InfAssets/Tower.py:21-23 *);
  (1528, Mod n_TransformerAsset [1480; 1475; 1355; 1089] false [SFrom 1264 n_Asset; SClass n_TransformerAsset (Some n_Asset)])(* CIM15/IEC61970/Informative/InfAssets/TransformerAsset.py:21-23 *);
  (1529, Mod n_TransformerObservation [1480; 1475; 1355; 1089] false [SFrom 1386 n_IdentifiedObject; SClass n_TransformerObservation (Some n_IdentifiedObject)])(* CIM15/IEC61970/Informative/InfAssets/TransformerObservation.py:21-23 *);
  (1530, Mod n_UndergroundStructure [1480; 1475; 1355; 1089] false [SFrom 1520 n_Structure; SClass n_UndergroundStructure (Some n_Structure)])(* CIM15/IEC61970/Informative/InfAssets/UndergroundStructure.py:21-23 *);
  (1531, Mod n_Vehicle [1480; 1475; 1355; 1089] false [SFrom 1264 n_Asset; SClass n_Vehicle (Some n_Asset)])(* CIM15/IEC61970/Informative/InfAssets/Vehicle.py:21-23 *);
  (1532, Mod n_WindingInsulation [1480; 1475; 1355; 1089] false [SFrom 1386 n_IdentifiedObject; SClass n_WindingInsulation (Some n_IdentifiedObject)])(* CIM15/IEC61970/Informative/InfAssets/WindingInsulation.py:21-23 *);
  (1533, Mod n_WorkEquipment [1480; 1475; 1355; 1089] false [SFrom 1264 n_Asset; SClass n_WorkEquipment (Some n_Asset)])(* CIM15/IEC61970/Informative/InfAssets/WorkEquipment.py:21-23 *);
  (1534, Mod i_InfCommon [1475; 1355; 1089] true [SFrom 1543 n_Role; SFrom 1535 n_Bank; SFrom 1546 n_Skill; SFrom 1538 n_BusinessRole; SFrom 1545 n_ScheduledEvent; SFrom 1544 n_ScheduleParameterInfo; SFrom 1541 n_DocPsrRole; SFrom 1542 n_Ratio; SFrom 1536 n_BankAccount; SFrom 1539 n_Craft; SFrom 1540 n_DocDocRole; SFrom 1537 n_BusinessPlan; SAssign i_nsURI; SAssign i_nsPrefix; SClass n_SkillLevelKind None])(* CIM15/IEC61970/Informative/InfCommon/__init__.py:24-41 *);
  (1535, Mod n_Bank [1534; 1475; 1355; 1089] false [SFrom 1279 n_Organisation; SClass n_Bank (Some n_Organisation)])(* CIM15/IEC61970/Informative/InfCommon/Bank.py:21-23 *);
  (1536, Mod n_BankAccount [1534; 1475; 1355; 1089] false [SFrom 1276 n_Document; SClass n_BankAccount (Some n_Document)])(* CIM15/IEC61970/Informative/InfCommon/BankAccount.py:21-23 *);
  (1537, Mod n_BusinessPlan [1534; 1475; 1355; 1089] false [SFrom 1276 n_Document; SClass n_BusinessPlan (Some n_Document)])(* CIM15/IEC61970/Informative/InfCommon/BusinessPlan.py:21-23 *);
  (1538, Mod n_BusinessRole [1534; 1475; 1355; 1089] false [SFrom 1386 n_IdentifiedObject; SClass n_BusinessRole (Some n_IdentifiedObject)])(* CIM15/IEC61970/Informative/InfCommon/BusinessRole.py:21-23 *);
  (1539, Mod n_Craft [1534; 1475; 1355; 1089] false [SFrom 1386 n_IdentifiedObject; SClass n_Craft (Some n_IdentifiedObject)])(* CIM15/IEC61970/Informative/InfCommon/Craft.py:21-23 *);
  (1540, Mod n_DocDocRole [1534; 1475; 1355; 1089] false [SFrom 1543 n_Role; SClass n_DocDocRole (Some n_Role)])(* CIM15/IEC61970/Informative/InfCommon/DocDocRole.py:21-23 *);
  (1541, Mod n_DocPsrRole [1534; 1475; 1355; 1089] false [SFrom 1543 n_Role; SClass n_DocPsrRole (Some n_Role)])(* CIM15/IEC61970/Informative/InfCommon/DocPsrRole.py:21-23 *);
  (1542, Mod n_Ratio [1534; 1475; 1355; 1089] false [SClass n_Ratio None])(* CIM15/IEC61970/Informative/InfCommon/Ratio.py:22-22 *);
  (1543, Mod n_Role [1534; 1475; 1355; 1089] false [SFrom 1386 n_IdentifiedObject; SClass n_Role (Some n_IdentifiedObject)])(* CIM15/IEC61970/Informative/InfCommon/Role.py:21-23 *);
  (1544, Mod n_ScheduleParameterInfo [1534; 1475; 1355; 1089] false [SFrom 1386 n_IdentifiedObject; SClass n_ScheduleParameterInfo (Some n_IdentifiedObject)])(* CIM15/IEC61970/Informative/InfCommon/ScheduleParameterInfo.py:21-23 *);
  (1545, Mod n_ScheduledEvent [1534; 1475; 1355; 1089] false [SFrom 1386 n_IdentifiedObject; SClass n_ScheduledEvent (Some n_IdentifiedObject)])(* CIM15/IEC61970/Informative/InfCommon/ScheduledEvent.py:21-23 *);
  (1546, Mod n_Skill [1534; 1475; 1355; 1089] false [SFrom 1276 n_Document; SClass n_Skill (Some n_Document)])(* CIM15/IEC61970/Informative/InfCommon/Skill.py:21-23 *);
  (1547, Mod i_InfCore [1475; 1355; 1089] true [SFrom 1548 n_ModelingAuthority; SFrom 1549 n_ModelingAuthoritySet; SAssign i_nsURI; SAssign i_nsPrefix])(* CIM15/IEC61970/Informative/InfCore/__init__.py:22-26 *);
  (1548, Mod n_ModelingAuthority [1547; 1475; 1355; 1089] false [SFrom 1386 n_IdentifiedObject; SClass n_ModelingAuthority (Some n_IdentifiedObject)])(* CIM15/IEC61970/Informative/InfCore/ModelingAuthority.py:21-23 *);
  (1549, Mod n_ModelingAuthoritySet [1547; 1475; 1355; 1089] false [SFrom 1386 n_IdentifiedObject; SClass n_ModelingAuthoritySet (Some n_IdentifiedObject)])(* CIM15/IEC61970/Informative/InfCore/ModelingAuthoritySet.py:21-23 *);
  (1550, Mod i_InfCustomers [1475; 1355; 1089] true [SFrom 1557 n_StandardIndustryCode; SFrom 1554 n_OutageHistory; SFrom 1551 n_ComplianceEvent; SFrom 1552 n_CustomerBillingInfo; SFrom 1556 n_ServiceGuarantee; SFrom 1558 n_SubscribePowerCurve; SFrom 1553 n_ExternalCustomerAgreement; SFrom 1555 n_PowerQualityPricing; SFrom 1559 n_WorkBillingInfo; SAssign i_nsURI; SAssign i_nsPrefix; SClass n_CustomerBillingKind None])(* CIM15/IEC61970/Informative/InfCustomers/__init__.py:24-38 *);
  (1551, Mod n_ComplianceEvent [1550; 1475; 1355; 1089] false [SFrom 1273 n_ActivityRecord; SClass n_ComplianceEvent (Some n_ActivityRecord)])(* CIM15/IEC61970/Informative/InfCustomers/ComplianceEvent.py:21-23 *);
  (1552, Mod n_CustomerBillingInfo [1550; 1475; 1355; 1089] false [SFrom 1276 n_Document; SClass n_CustomerBillingInfo (Some n_Document)])(* CIM15/IEC61970/Informative/InfCustomers/CustomerBillingInfo.py:21-23 *);
  (1553, Mod n_ExternalCustomerAgreement [1550; 1475; 1355; 1089] false [SFrom 1274 n_Agreement; SClass n_ExternalCustomerAgreement (Some n_Agreement)])(* CIM15/IEC61970/Informative/InfCustomers/ExternalCustomerAgreement.py:21-23 *);
  (1554, Mod n_OutageHistory [1550; 1475; 1355; 1089] false [SFrom 1276 n_Document; SClass n_OutageHistory (Some n_Document)])(* CIM15/IEC61970/Informative/InfCustomers/OutageHistory.py:21-23 *);
  (1555, Mod n_PowerQualityPricing [1550; 1475; 1355; 1089] false [SFrom 1276 n_Document; SClass n_PowerQualityPricing (Some n_Document)])(* CIM15/IEC61970/Informative/InfCustomers/PowerQualityPricing.py:21-23 *);
  (1556, Mod n_ServiceGuarantee [1550; 1475; 1355; 1089] false [SFrom 1276 n_Document; SClass n_ServiceGuarantee (Some n_Document)])(* CIM15/IEC61970/Informative/InfCustomers/ServiceGuarantee.py:21-23 *);
  (1557, Mod n_StandardIndustryCode [1550; 1475; 1355; 1089] false [SFrom 1276 n_Document; SClass n_StandardIndustryCode (Some n_Document)])(* CIM15/IEC61970/Informative/InfCustomers/StandardIndustryCode.py:21-23 *);
  (1558, Mod n_SubscribePowerCurve [1550; 1475; 1355; 1089] false [SFrom 1381 n_Curve; SClass n_SubscribePowerCurve (Some n_Curve)])(* CIM15/IEC61970/Informative/InfCustomers/SubscribePowerCurve.py:21-23 *);
  (1559, Mod n_WorkBillingInfo [1550; 1475; 1355; 1089] false [SFrom 1276 n_Document; SClass n_WorkBillingInfo (Some n_Document)])(* CIM15/IEC61970/Informative/InfCustomers/WorkBillingInfo.py:21-23 *);
  (1560, Mod i_InfERPSupport [1475; 1355; 1089] true [SFrom 1592 n_ErpRecDelvLineItem; SFrom 1579 n_ErpLedgerBudget; SFrom 1600 n_ErpTimeEntry; SFrom 1567 n_ErpCompetency; SFrom 1589 n_ErpPurchaseOrder; SFrom 1568 n_ErpEngChangeOrder; SFrom 1588 n_ErpProjectAccounting; SFrom 1593 n_ErpRecLineItem; SFrom 1584 n_ErpPayableLineItem; SFrom 1577 n_ErpLedBudLineItem; SFrom 1597 n_ErpRequisition; SFrom 1581 n_ErpOrganisation; SFrom 1571 n_ErpInvoice; SFrom 1561 n_DocErpPersonRole; SFrom 1564 n_ErpBankAccount; SFrom 1590 n_ErpQuote; SFrom 1586 n_ErpPerson; SFrom 1574 n_ErpItemMaster; SFrom 1563 n_ErpBOM; SFrom 1570 n_ErpInventoryCount; SFrom 1573 n_ErpIssueInventory; SFrom 1583 n_ErpPayable; SFrom 1578 n_ErpLedger; SFrom 1582 n_ErpPOLineItem; SFrom 1580 n_ErpLedgerEntry; SFrom 1585 n_ErpPayment; SFrom 1594 n_ErpReceivable; SFrom 1562 n_DocOrgRole; SFrom 1596 n_ErpReqLineItem; SFrom 1601 n_ErpTimeSheet; SFrom 1569 n_ErpInventory; SFrom 1566 n_ErpChartOfAccounts; SFrom 1599 n_ErpSiteLevelData; SFrom 1602 n_OrgErpPersonRole; SFrom 1595 n_ErpReceiveDelivery; SFrom 1598 n_ErpSalesOrder; SFrom 1576 n_ErpJournalEntry; SFrom 1572 n_ErpInvoiceLineItem; SFrom 1603 n_OrgOrgRole; SFrom 1575 n_ErpJournal; SFrom 1587 n_ErpPersonnel; SFrom 1591 n_ErpQuoteLineItem; SFrom 1565 n_ErpBomItemData; SAssign i_nsURI; SAssign i_nsPrefix; SClass n_ErpInvoiceLineItemKind None; SClass n_ErpInvoiceKind None; SClass n_ErpAccountKind None; SClass n_BillMediaKind None])(* CIM15/IEC61970/Informative/InfERPSupport/__init__.py:24-87 *);
  (1561, Mod n_DocErpPersonRole [1560; 1475; 1355; 1089] false [SFrom 1543 n_Role; SClass n_DocErpPersonRole (Some n_Role)])(* CIM15/IEC61970/Informative/InfERPSupport/DocErpPersonRole.py:21-23 *);
  (1562, Mod n_DocOrgRole [1560; 1475; 1355; 1089] false [SFrom 1543 n_Role; SClass n_DocOrgRole (Some n_Role)])(* CIM15/IEC61970/Informative/InfERPSupport/DocOrgRole.py:21-23 *);
  (1563, Mod n_ErpBOM [1560; 1475; 1355; 1089] false [SFrom 1276 n_Document; SClass n_ErpBOM (Some n_Document)])(* CIM15/IEC61970/Informative/InfERPSupport/ErpBOM.py:21-23 *);
  (1564, Mod n_ErpBankAccount [1560; 1475; 1355; 1089] false [SFrom 1536 n_BankAccount; SClass n_ErpBankAccount (Some n_BankAccount)])(* CIM15/IEC61970/Informative/InfERPSupport/ErpBankAccount.py:21-23 *);
  (1565, Mod n_ErpBomItemData [1560; 1475; 1355; 1089] false [SFrom 1386 n_IdentifiedObject; SClass n_ErpBomItemData (Some n_IdentifiedObject)])(* CIM15/IEC61970/Informative/InfERPSupport/ErpBomItemData.py:21-23 *);
  (1566, Mod n_ErpChartOfAccounts [1560; 1475; 1355; 1089] false [SFrom 1276 n_Document; SClass n_ErpChartOfAccounts (Some n_Document)])(* CIM15/IEC61970/Informative/InfERPSupport/ErpChartOfAccounts.py:21-23 *);
  (1567, Mod n_ErpCompetency [1560; 1475; 1355; 1089] false [SFrom 1386 n_IdentifiedObject; SClass n_ErpCompetency (Some n_IdentifiedObject)])(* CIM15/IEC61970/Informative/InfERPSupport/ErpCompetency.py:21-23 *);
  (1568, Mod n_ErpEngChangeOrder [1560; 1475; 1355; 1089] false [SFrom 1276 n_Document; SClass n_ErpEngChangeOrder (Some n_Document)])(* CIM15/IEC61970/Informative/InfERPSupport/ErpEngChangeOrder.py:21-23 *);
  (1569, Mod n_ErpInventory [1560; 1475; 1355; 1089] false [SFrom 1386 n_IdentifiedObject; SClass n_ErpInventory (Some n_IdentifiedObject)])(* CIM15/IEC61970/Informative/InfERPSupport/ErpInventory.py:21-23 *);
  (1570, Mod n_ErpInventoryCount [1560; 1475; 1355; 1089] false [SFrom 1386 n_IdentifiedObject; SClass n_ErpInventoryCount (Some n_IdentifiedObject)])(* CIM15/IEC61970/Informative/InfERPSupport/ErpInventoryCount.py:21-23 *);
  (1571, Mod n_ErpInvoice [1560; 1475; 1355; 1089] false [SFrom 1276 n_Document; SClass n_ErpInvoice (Some n_Document)])(* CIM15/IEC61970/Informative/InfERPSupport/ErpInvoice.py:21-23 *);
  (1572, Mod n_ErpInvoiceLineItem [1560; 1475; 1355; 1089] false [SFrom 1276 n_Document; SClass n_ErpInvoiceLineItem (Some n_Document)])(* CIM15/IEC61970/Informative/InfERPSupport/ErpInvoiceLineItem.py:21-23 *);
  (1573, Mod n_ErpIssueInventory [1560; 1475; 1355; 1089] false [SFrom 1386 n_IdentifiedObject; SClass n_ErpIssueInventory (Some n_IdentifiedObject)])(* CIM15/IEC61970/Informative/InfERPSupport/ErpIssueInventory.py:21-23 *);
  (1574, Mod n_ErpItemMaster [1560; 1475; 1355; 1089] false [SFrom 1386 n_IdentifiedObject; SClass n_ErpItemMaster (Some n_IdentifiedObject)])(* CIM15/IEC61970/Informative/InfERPSupport/ErpItemMaster.py:21-23 *);
  (1575, Mod n_ErpJournal [1560; 1475; 1355; 1089] false [SFrom 1276 n_Document; SClass n_ErpJournal (Some n_Document)])(* CIM15/IEC61970/Informative/InfERPSupport/ErpJournal.py:21-23 *);
  (1576, Mod n_ErpJournalEntry [1560; 1475; 1355; 1089] false [SFrom 1386 n_IdentifiedObject; SClass n_ErpJournalEntry (Some n_IdentifiedObject)])(* CIM15/IEC61970/Informative/InfERPSupport/ErpJournalEntry.py:21-23 *);
  (1577, Mod n_ErpLedBudLineItem [1560; 1475; 1355; 1089] false [SFrom 1386 n_IdentifiedObject; SClass n_ErpLedBudLineItem (Some n_IdentifiedObject)])(* CIM15/IEC61970/Informative/InfERPSupport/ErpLedBudLineItem.py:21-23 *);
  (1578, Mod n_ErpLedger [1560; 1475; 1355; 1089] false [SFrom 1276 n_Document; SClass n_ErpLedger (Some n_Document)])(* CIM15/IEC61970/Informative/InfERPSupport/ErpLedger.py:21-23 *);
  (1579, Mod n_ErpLedgerBudget [1560; 1475; 1355; 1089] false [SFrom 1276 n_Document; SClass n_ErpLedgerBudget (Some n_Document)])(* CIM15/IEC61970/Informative/InfERPSupport/ErpLedgerBudget.py:21-23 *);
  (1580, Mod n_ErpLedgerEntry [1560; 1475; 1355; 1089] false [SFrom 1386 n_IdentifiedObject; SClass n_ErpLedgerEntry (Some n_IdentifiedObject)])(* CIM15/IEC61970/Informative/InfERPSupport/ErpLedgerEntry.py:21-23 *);
  (1581, Mod n_ErpOrganisation [1560; 1475; 1355; 1089] false [SFrom 1279 n_Organisation; SClass n_ErpOrganisation (Some n_Organisation)])(* CIM15/IEC61970/Informative/InfERPSupport/ErpOrganisation.py:21-23 *);
  (1582, Mod n_ErpPOLineItem [1560; 1475; 1355; 1089] false [SFrom 1276 n_Document; SClass n_ErpPOLineItem (Some n_Document)])(* CIM15/IEC61970/Informative/InfERPSupport/ErpPOLineItem.py:21-23 *);
  (1583, Mod n_ErpPayable [1560; 1475; 1355; 1089] false [SFrom 1276 n_Document; SClass n_ErpPayable (Some n_Document)])(* CIM15/IEC61970/Informative/InfERPSupport/ErpPayable.py:21-23 *);
  (1584, Mod n_ErpPayableLineItem [1560; 1475; 1355; 1089] false [SFrom 1386 n_IdentifiedObject; SClass n_ErpPayableLineItem (Some n_IdentifiedObject)])(* CIM15/IEC61970/Informative/InfERPSupport/ErpPayableLineItem.py:21-23 *);
  (1585, Mod n_ErpPayment [1560; 1475; 1355; 1089] false [SFrom 1276 n_Document; SClass n_ErpPayment (Some n_Document)])(* CIM15/IEC61970/Informative/InfERPSupport/ErpPayment.py:21-23 *);
  (1586, Mod n_ErpPerson [1560; 1475; 1355; 1089] false [SFrom 1386 n_IdentifiedObject; SClass n_ErpPerson (Some n_IdentifiedObject)])(* CIM15/IEC61970/Informative/InfERPSupport/ErpPerson.py:21-23 *);
  (1587, Mod n_ErpPersonnel [1560; 1475; 1355; 1089] false [SFrom 1386 n_IdentifiedObject; SClass n_ErpPersonnel (Some n_IdentifiedObject)])(* CIM15/IEC61970/Informative/InfERPSupport/ErpPersonnel.py:21-23 *);
  (1588, Mod n_ErpProjectAccounting [1560; 1475; 1355; 1089] false [SFrom 1276 n_Document; SClass n_ErpProjectAccounting (Some n_Document)])(* CIM15/IEC61970/Informative/InfERPSupport/ErpProjectAccounting.py:21-23 *);
  (1589, Mod n_ErpPurchaseOrder [1560; 1475; 1355; 1089] false [SFrom 1276 n_Document; SClass n_ErpPurchaseOrder (Some n_Document)])(* CIM15/IEC61970/Informative/InfERPSupport/ErpPurchaseOrder.py:21-23 *);
  (1590, Mod n_ErpQuote [1560; 1475; 1355; 1089] false [SFrom 1276 n_Document; SClass n_ErpQuote (Some n_Document)])(* CIM15/IEC61970/Informative/InfERPSupport/ErpQuote.py:21-23 *);
  (1591, Mod n_ErpQuoteLineItem [1560; 1475; 1355; 1089] false [SFrom 1386 n_IdentifiedObject; SClass n_ErpQuoteLineItem (Some n_IdentifiedObject)])(* CIM15/IEC61970/Informative/InfERPSupport/ErpQuoteLineItem.py:21-23 *);
  (1592, Mod n_ErpRecDelvLineItem [1560; 1475; 1355; 1089] false [SFrom 1386 n_IdentifiedObject; SClass n_ErpRecDelvLineItem (Some n_IdentifiedObject)])(* CIM15/IEC61970/Informative/InfERPSupport/ErpRecDelvLineItem.py:21-23 *);
  (1593, Mod n_ErpRecLineItem [1560; 1475; 1355; 1089] false [SFrom 1386 n_IdentifiedObject; SClass n_ErpRecLineItem (Some n_IdentifiedObject)])(* CIM15/IEC61970/Informative/InfERPSupport/ErpRecLineItem.py:21-23 *);
  (1594, Mod n_ErpReceivable [1560; 1475; 1355; 1089] false [SFrom 1276 n_Document; SClass n_ErpReceivable (Some n_Document)])(* CIM15/IEC61970/Informative/InfERPSupport/ErpReceivable.py:21-23 *);
  (1595, Mod n_ErpReceiveDelivery [1560; 1475; 1355; 1089] false [SFrom 1276 n_Document; SClass n_ErpReceiveDelivery (Some n_Document)])(* CIM15/IEC61970/Informative/InfERPSupport/ErpReceiveDelivery.py:21-23 *);
  (1596, Mod n_ErpReqLineItem [1560; 1475; 1355; 1089] false [SFrom 1386 n_IdentifiedObject; SClass n_ErpReqLineItem (Some n_IdentifiedObject)])(* CIM15/IEC61970/Informative/InfERPSupport/ErpReqLineItem.py:21-23 *);
  (1597, Mod n_ErpRequisition [1560; 1475; 1355; 1089] false [SFrom 1276 n_Document; SClass n_ErpRequisition (Some n_Document)])(* CIM15/IEC61970/Informative/InfERPSupport/ErpRequisition.py:21-23 *);
  (1598, Mod n_ErpSalesOrder [1560; 1475; 1355; 1089] false [SFrom 1276 n_Document; SClass n_ErpSalesOrder (Some n_Document)])(* CIM15/IEC61970/Informative/InfERPSupport/ErpSalesOrder.py:21-23 *);
  (1599, Mod n_ErpSiteLevelData [1560; 1475; 1355; 1089] false [SFrom 1386 n_IdentifiedObject; SClass n_ErpSiteLevelData (Some n_IdentifiedObject)])(* CIM15/IEC61970/Informative/InfERPSupport/ErpSiteLevelData.py:21-23 *);
  (1600, Mod n_ErpTimeEntry [1560; 1475; 1355; 1089] false [SFrom 1386 n_IdentifiedObject; SClass n_ErpTimeEntry (Some n_IdentifiedObject)])(* CIM15/IEC61970/Informative/InfERPSupport/ErpTimeEntry.py:21-23 *);
  (1601, Mod n_ErpTimeSheet [1560; 1475; 1355; 1089] false [SFrom 1276 n_Document; SClass n_ErpTimeSheet (Some n_Document)])(* CIM15/IEC61970/Informative/InfERPSupport/ErpTimeSheet.py:21-23 *);
  (1602, Mod n_OrgErpPersonRole [1560; 1475; 1355; 1089] false [SFrom 1543 n_Role; SClass n_OrgErpPersonRole (Some n_Role)])(* CIM15/IEC61970/Informative/InfERPSupport/OrgErpPersonRole.py:21-23 *);
  (1603, Mod n_OrgOrgRole [1560; 1475; 1355; 1089] false [SFrom 1543 n_Role; SClass n_OrgOrgRole (Some n_Role)])(* CIM15/IEC61970/Informative/InfERPSupport/OrgOrgRole.py:21-23 *);
  (1604, Mod i_InfGMLSupport [1475; 1355; 1089] true [SFrom 1610 n_GmlFeatureType; SFrom 1635 n_Map; SFrom 1622 n_GmlPointGeometry; SFrom 1615 n_GmlHalo; SFrom 1607 n_GmlColour; SFrom 1612 n_GmlFont; SFrom 1625 n_GmlPolygonSymbol; SFrom 1629 n_GmlStroke; SFrom 1606 n_GmlBaseSymbol; SFrom 1626 n_GmlPosition; SFrom 1632 n_GmlTextSymbol; SFrom 1624 n_GmlPolygonGeometry; SFrom 1621 n_GmlObservation; SFrom 1620 n_GmlMark; SFrom 1614 n_GmlGraphic; SFrom 1616 n_GmlLabelPlacement; SFrom 1613 n_GmlGeometryStyle; SFrom 1618 n_GmlLineGeometry; SFrom 1634 n_GmlValue; SFrom 1619 n_GmlLineSymbol; SFrom 1608 n_GmlDiagramObject; SFrom 1623 n_GmlPointSymbol; SFrom 1633 n_GmlTopologyStyle; SFrom 1628 n_GmlSelector; SFrom 1630 n_GmlSvgParameter; SFrom 1617 n_GmlLabelStyle; SFrom 1611 n_GmlFill; SFrom 1605 n_Diagram; SFrom 1631 n_GmlSymbol; SFrom 1609 n_GmlFeatureStyle; SFrom 1627 n_GmlRasterSymbol; SAssign i_nsURI; SAssign i_nsPrefix; SClass n_QueryGrammarKind None; SClass n_DiagramKind None])(* CIM15/IEC61970/Informative/InfGMLSupport/__init__.py:24-65 *);
  (1605, Mod n_Diagram [1604; 1475; 1355; 1089] false [SFrom 1276 n_Document; SClass n_Diagram (Some n_Document)])(* CIM15/IEC61970/Informative/InfGMLSupport/Diagram.py:21-23 *);
  (1606, Mod n_GmlBaseSymbol [1604; 1475; 1355; 1089] false [SFrom 1386 n_IdentifiedObject; SClass n_GmlBaseSymbol (Some n_IdentifiedObject)])(* CIM15/IEC61970/Informative/InfGMLSupport/GmlBaseSymbol.py:21-23 *);
  (1607, Mod n_GmlColour [1604; 1475; 1355; 1089] false [SFrom 1386 n_IdentifiedObject; SClass n_GmlColour (Some n_IdentifiedObject)])(* CIM15/IEC61970/Informative/InfGMLSupport/GmlColour.py:21-23 *);
  (1608, Mod n_GmlDiagramObject [1604; 1475; 1355; 1089] false [SFrom 1386 n_IdentifiedObject; SClass n_GmlDiagramObject (Some n_IdentifiedObject)])(* CIM15/IEC61970/Informative/InfGMLSupport/GmlDiagramObject.py:21-23 *);
  (1609, Mod n_GmlFeatureStyle [1604; 1475; 1355; 1089] false [SFrom 1386 n_IdentifiedObject; SClass n_GmlFeatureStyle (Some n_IdentifiedObject)])(* CIM15/IEC61970/Informative/InfGMLSupport/GmlFeatureStyle.py:21-23 *);
  (1610, Mod n_GmlFeatureType [1604; 1475; 1355; 1089] false [SFrom 1386 n_IdentifiedObject; SClass n_GmlFeatureType (Some n_IdentifiedObject)])(* CIM15/IEC61970/Informative/InfGMLSupport/GmlFeatureType.py:21-23 *);
  (1611, Mod n_GmlFill [1604; 1475; 1355; 1089] false [SFrom 1386 n_IdentifiedObject; SClass n_GmlFill (Some n_IdentifiedObject)])(* CIM15/IEC61970/Informative/InfGMLSupport/GmlFill.py:21-23 *);
  (1612, Mod n_GmlFont [1604; 1475; 1355; 1089] false [SFrom 1386 n_IdentifiedObject; SClass n_GmlFont (Some n_IdentifiedObject)])(* CIM15/IEC61970/Informative/InfGMLSupport/GmlFont.py:21-23 *);
  (1613, Mod n_GmlGeometryStyle [1604; 1475; 1355; 1089] false [SFrom 1386 n_IdentifiedObject; SClass n_GmlGeometryStyle (Some n_IdentifiedObject)])(* CIM15/IEC61970/Informative/InfGMLSupport/GmlGeometryStyle.py:21-23 *);
  (1614, Mod n_GmlGraphic [1604; 1475; 1355; 1089] false [SFrom 1386 n_IdentifiedObject; SClass n_GmlGraphic (Some n_IdentifiedObject)])(* CIM15/IEC61970/Informative/InfGMLSupport/GmlGraphic.py:21-23 *);
  (1615, Mod n_GmlHalo [1604; 1475; 1355; 1089] false [SFrom 1386 n_IdentifiedObject; SClass n_GmlHalo (Some n_IdentifiedObject)])(* CIM15/IEC61970/Informative/InfGMLSupport/GmlHalo.py:21-23 *);
  (1616, Mod n_GmlLabelPlacement [1604; 1475; 1355; 1089] false [SFrom 1386 n_IdentifiedObject; SClass n_GmlLabelPlacement (Some n_IdentifiedObject)])(* CIM15/IEC61970/Informative/InfGMLSupport/GmlLabelPlacement.py:21-23 *);
  (1617, Mod n_GmlLabelStyle [1604; 1475; 1355; 1089] false [SFrom 1386 n_IdentifiedObject; SClass n_GmlLabelStyle (Some n_IdentifiedObject)])(* CIM15/IEC61970/Informative/InfGMLSupport/GmlLabelStyle.py:21-23 *);
  (1618, Mod n_GmlLineGeometry [1604; 1475; 1355; 1089] false [SFrom 1608 n_GmlDiagramObject; SClass n_GmlLineGeometry (Some n_GmlDiagramObject)])(* CIM15/IEC61970/Informative/InfGMLSupport/GmlLineGeometry.py:21-23 *);
  (1619, Mod n_GmlLineSymbol [1604; 1475; 1355; 1089] false [SFrom 1631 n_GmlSymbol; SClass n_GmlLineSymbol (Some n_GmlSymbol)])(* CIM15/IEC61970/Informative/InfGMLSupport/GmlLineSymbol.py:21-23 *);
  (1620, Mod n_GmlMark [1604; 1475; 1355; 1089] false [SFrom 1386 n_IdentifiedObject; SClass n_GmlMark (Some n_IdentifiedObject)])(* CIM15/IEC61970/Informative/InfGMLSupport/GmlMark.py:21-23 *);
  (1621, Mod n_GmlObservation [1604; 1475; 1355; 1089] false [SFrom 1243 n_Element; SClass n_GmlObservation (Some n_Element)])(* CIM15/IEC61970/Informative/InfGMLSupport/GmlObservation.py:21-23 *);
  (1622, Mod n_GmlPointGeometry [1604; 1475; 1355; 1089] false [SFrom 1608 n_GmlDiagramObject; SClass n_GmlPointGeometry (Some n_GmlDiagramObject)])(* CIM15/IEC61970/Informative/InfGMLSupport/GmlPointGeometry.py:21-23 *);
  (1623, Mod n_GmlPointSymbol [1604; 1475; 1355; 1089] false [SFrom 1631 n_GmlSymbol; SClass n_GmlPointSymbol (Some n_GmlSymbol)])(* CIM15/IEC61970/Informative/InfGMLSupport/GmlPointSymbol.py:21-23 *);
  (1624, Mod n_GmlPolygonGeometry [1604; 1475; 1355; 1089] false [SFrom 1608 n_GmlDiagramObject; SClass n_GmlPolygonGeometry (Some n_GmlDiagramObject)])(* CIM15/IEC61970/Informative/InfGMLSupport/GmlPolygonGeometry.py:21-23 *);
  (1625, Mod n_GmlPolygonSymbol [1604; 1475; 1355; 1089] false [SFrom 1631 n_GmlSymbol; SClass n_GmlPolygonSymbol (Some n_GmlSymbol)])(* CIM15/IEC61970/Informative/InfGMLSupport/GmlPolygonSymbol.py:21-23 *);
  (1626, Mod n_GmlPosition [1604; 1475; 1355; 1089] false [SFrom 1280 n_PositionPoint; SClass n_GmlPosition (Some n_PositionPoint)])(* CIM15/IEC61970/Informative/InfGMLSupport/GmlPosition.py:21-23 *);
  (1627, Mod n_GmlRasterSymbol [1604; 1475; 1355; 1089] false [SFrom 1631 n_GmlSymbol; SClass n_GmlRasterSymbol (Some n_GmlSymbol)])(* CIM15/IEC61970/Informative/InfGMLSupport/GmlRasterSymbol.py:21-23 *);
  (1628, Mod n_GmlSelector [1604; 1475; 1355; 1089] false [SFrom 1386 n_IdentifiedObject; SClass n_GmlSelector (Some n_IdentifiedObject)])(* CIM15/IEC61970/Informative/InfGMLSupport/GmlSelector.py:21-23 *);
  (1629, Mod n_GmlStroke [1604; 1475; 1355; 1089] false [SFrom 1386 n_IdentifiedObject; SClass n_GmlStroke (Some n_IdentifiedObject)])(* CIM15/IEC61970/Informative/InfGMLSupport/GmlStroke.py:21-23 *);
  (1630, Mod n_GmlSvgParameter [1604; 1475; 1355; 1089] false [SFrom 1386 n_IdentifiedObject; SClass n_GmlSvgParameter (Some n_IdentifiedObject)])(* CIM15/IEC61970/Informative/InfGMLSupport/GmlSvgParameter.py:21-23 *);
  (1631, Mod n_GmlSymbol [1604; 1475; 1355; 1089] false [SFrom 1386 n_IdentifiedObject; SClass n_GmlSymbol (Some n_IdentifiedObject)])(* CIM15/IEC61970/Informative/InfGMLSupport/GmlSymbol.py:21-23 *);
  (1632, Mod n_GmlTextSymbol [1604; 1475; 1355; 1089] false [SFrom 1631 n_GmlSymbol; SClass n_GmlTextSymbol (Some n_GmlSymbol)])(* CIM15/IEC61970/Informative/InfGMLSupport/GmlTextSymbol.py:21-23 *);
  (1633, Mod n_GmlTopologyStyle [1604; 1475; 1355; 1089] false [SFrom 1386 n_IdentifiedObject; SClass n_GmlTopologyStyle (Some n_IdentifiedObject)])(* CIM15/IEC61970/Informative/InfGMLSupport/GmlTopologyStyle.py:21-23 *);
  (1634, Mod n_GmlValue [1604; 1475; 1355; 1089] false [SFrom 1386 n_IdentifiedObject; SClass n_GmlValue (Some n_IdentifiedObject)])(* CIM15/IEC61970/Informative/InfGMLSupport/GmlValue.py:21-23 *);
  (1635, Mod n_Map [1604; 1475; 1355; 1089] false [SFrom 1605 n_Diagram; SClass n_Map (Some n_Diagram)])(* CIM15/IEC61970/Informative/InfGMLSupport/Map.py:21-23 *);
  (1636, Mod i_InfLoadControl [1475; 1355; 1089] true [SFrom 1639 n_LoadMgmtRecord; SFrom 1640 n_LoadShedFunction; SFrom 1638 n_LoadMgmtFunction; SFrom 1637 n_LoadLimitFunction; SAssign i_nsURI; SAssign i_nsPrefix; SClass n_LoadMgmtKind None; SClass n_LoadStateKind None])(* CIM15/IEC61970/Informative/InfLoadControl/__init__.py:22-36 *);
  (1637, Mod n_LoadLimitFunction [1636; 1475; 1355; 1089] false [SFrom 1638 n_LoadMgmtFunction; SClass n_LoadLimitFunction (Some n_LoadMgmtFunction)])(* CIM15/IEC61970/Informative/InfLoadControl/LoadLimitFunction.py:21-23 *);
  (1638, Mod n_LoadMgmtFunction [1636; 1475; 1355; 1089] false [SFrom 1310 n_EndDeviceFunction; SClass n_LoadMgmtFunction (Some n_EndDeviceFunction)])(* CIM15/IEC61970/Informative/InfLoadControl/LoadMgmtFunction.py:21-23 *);
  (1639, Mod n_LoadMgmtRecord [1636; 1475; 1355; 1089] false [SFrom 1273 n_ActivityRecord; SClass n_LoadMgmtRecord (Some n_ActivityRecord)])(* CIM15/IEC61970/Informative/InfLoadControl/LoadMgmtRecord.py:21-23 *);
  (1640, Mod n_LoadShedFunction [1636; 1475; 1355; 1089] false [SFrom 1638 n_LoadMgmtFunction; SClass n_LoadShedFunction (Some n_LoadMgmtFunction)])(* CIM15/IEC61970/Informative/InfLoadControl/LoadShedFunction.py:21-23 *);
  (1641, Mod i_InfLocations [1475; 1355; 1089] true [SFrom 1645 n_LocationGrant; SFrom 1649 n_RightOfWay; SFrom 1647 n_PersonPropertyRole; SFrom 1651 n_Zone; SFrom 1648 n_RedLine; SFrom 1650 n_Route; SFrom 1646 n_OrgPropertyRole; SFrom 1642 n_Direction; SFrom 1644 n_LandProperty; SFrom 1643 n_Hazard; SAssign i_nsURI; SAssign i_nsPrefix; SClass n_LandPropertyKind None; SClass n_DemographicKind None; SClass n_ZoneKind None])(* CIM15/IEC61970/Informative/InfLocations/__init__.py:22-47 *);
  (1642, Mod n_Direction [1641; 1475; 1355; 1089] false [SFrom 1243 n_Element; SClass n_Direction (Some n_Element)])(* CIM15/IEC61970/Informative/InfLocations/Direction.py:21-23 *);
  (1643, Mod n_Hazard [1641; 1475; 1355; 1089] false [SFrom 1386 n_IdentifiedObject; SClass n_Hazard (Some n_IdentifiedObject)])(* CIM15/IEC61970/Informative/InfLocations/Hazard.py:21-23 *);
  (1644, Mod n_LandProperty [1641; 1475; 1355; 1089] false [SFrom 1386 n_IdentifiedObject; SClass n_LandProperty (Some n_IdentifiedObject)])(* CIM15/IEC61970/Informative/InfLocations/LandProperty.py:21-23 *);
  (1645, Mod n_LocationGrant [1641; 1475; 1355; 1089] false [SFrom 1274 n_Agreement; SClass n_LocationGrant (Some n_Agreement)])(* CIM15/IEC61970/Informative/InfLocations/LocationGrant.py:21-23 *);
  (1646, Mod n_OrgPropertyRole [1641; 1475; 1355; 1089] false [SFrom 1543 n_Role; SClass n_OrgPropertyRole (Some n_Role)])(* CIM15/IEC61970/Informative/InfLocations/OrgPropertyRole.py:21-23 *);
  (1647, Mod n_PersonPropertyRole [1641; 1475; 1355; 1089] false [SFrom 1543 n_Role; SClass n_PersonPropertyRole (Some n_Role)])(* CIM15/IEC61970/Informative/InfLocations/PersonPropertyRole.py:21-23 *);
  (1648, Mod n_RedLine [1641; 1475; 1355; 1089] false [SFrom 1386 n_IdentifiedObject; SClass n_RedLine (Some n_IdentifiedObject)])(* CIM15/IEC61970/Informative/InfLocations/RedLine.py:21-23 *);
  (1649, Mod n_RightOfWay [1641; 1475; 1355; 1089] false [SFrom 1274 n_Agreement; SClass n_RightOfWay (Some n_Agreement)])(* CIM15/IEC61970/Informative/InfLocations/RightOfWay.py:21-23 *);
  (1650, Mod n_Route [1641; 1475; 1355; 1089] false [SFrom 1386 n_IdentifiedObject; SClass n_Route (Some n_IdentifiedObject)])(* CIM15/IEC61970/Informative/InfLocations/Route.py:21-23 *);
  (1651, Mod n_Zone [1641; 1475; 1355; 1089] false [SFrom 1278 n_Location; SClass n_Zone (Some n_Location)])(* CIM15/IEC61970/Informative/InfLocations/Zone.py:21-23 *);
  (1652, Mod i_InfMetering [1475; 1355; 1089] true [SFrom 1653 n_GasMeteringFunction; SFrom 1654 n_WaterMeteringFunction; SAssign i_nsURI; SAssign i_nsPrefix])(* CIM15/IEC61970/Informative/InfMetering/__init__.py:22-26 *);
  (1653, Mod n_GasMeteringFunction [1652; 1475; 1355; 1089] false [SFrom 1310 n_EndDeviceFunction; SClass n_GasMeteringFunction (Some n_EndDeviceFunction)])(* CIM15/IEC61970/Informative/InfMetering/GasMeteringFunction.py:21-23 *);
  (1654, Mod n_WaterMeteringFunction [1652; 1475; 1355; 1089] false [SFrom 1310 n_EndDeviceFunction; SClass n_WaterMeteringFunction (Some n_EndDeviceFunction)])(* CIM15/IEC61970/Informative/InfMetering/WaterMeteringFunction.py:21-23 *);
  (1655, Mod i_InfOperations [1475; 1355; 1089] true [SFrom 1670 n_OutageRecord; SFrom 1671 n_OutageReport; SFrom 1657 n_ChangeItem; SFrom 1674 n_PSREvent; SFrom 1675 n_PlannedOutage; SFrom 1660 n_CircuitSection; SFrom 1676 n_SafetyDocument; SFrom 1666 n_OperationalRestriction; SFrom 1658 n_ChangeSet; SFrom 1677 n_SwitchingSchedule; SFrom 1659 n_Circuit; SFrom 1665 n_NetworkDataSet; SFrom 1672 n_OutageStep; SFrom 1667 n_OrgPsrRole; SFrom 1668 n_OutageCode; SFrom 1662 n_IncidentCode; SFrom 1664 n_LandBase; SFrom 1661 n_ErpPersonScheduleStepRole; SFrom 1678 n_SwitchingStep; SFrom 1656 n_CallBack; SFrom 1679 n_TroubleTicket; SFrom 1663 n_IncidentRecord; SFrom 1669 n_OutageNotification; SFrom 1673 n_OutageStepPsrRole; SAssign i_nsURI; SAssign i_nsPrefix; SClass n_SwitchingStepStatusKind None; SClass n_CircuitConnectionKind None; SClass n_PSREventKind None; SClass n_TroubleReportingKind None; SClass n_ChangeItemKind None; SClass n_OutageKind None])(* CIM15/IEC61970/Informative/InfOperations/__init__.py:24-78 *);
  (1656, Mod n_CallBack [1655; 1475; 1355; 1089] false [SFrom 1386 n_IdentifiedObject; SClass n_CallBack (Some n_IdentifiedObject)])(* CIM15/IEC61970/Informative/InfOperations/CallBack.py:21-23 *);
  (1657, Mod n_ChangeItem [1655; 1475; 1355; 1089] false [SFrom 1386 n_IdentifiedObject; SClass n_ChangeItem (Some n_IdentifiedObject)])(* CIM15/IEC61970/Informative/InfOperations/ChangeItem.py:21-23 *);
  (1658, Mod n_ChangeSet [1655; 1475; 1355; 1089] false [SFrom 1386 n_IdentifiedObject; SClass n_ChangeSet (Some n_IdentifiedObject)])(* CIM15/IEC61970/Informative/InfOperations/ChangeSet.py:21-23 *);
  (1659, Mod n_Circuit [1655; 1475; 1355; 1089] false [SFrom 1384 n_EquipmentContainer; SClass n_Circuit (Some n_EquipmentContainer)])(* CIM15/IEC61970/Informative/InfOperations/Circuit.py:21-23 *);
  (1660, Mod n_CircuitSection [1655; 1475; 1355; 1089] false [SFrom 1386 n_IdentifiedObject; SClass n_CircuitSection (Some n_IdentifiedObject)])(* CIM15/IEC61970/Informative/InfOperations/CircuitSection.py:21-23 *);
  (1661, Mod n_ErpPersonScheduleStepRole [1655; 1475; 1355; 1089] false [SFrom 1543 n_Role; SClass n_ErpPersonScheduleStepRole (Some n_Role)])(* CIM15/IEC61970/Informative/InfOperations/ErpPersonScheduleStepRole.py:21-23 *);
  (1662, Mod n_IncidentCode [1655; 1475; 1355; 1089] false [SFrom 1386 n_IdentifiedObject; SClass n_IncidentCode (Some n_IdentifiedObject)])(* CIM15/IEC61970/Informative/InfOperations/IncidentCode.py:21-23 *);
  (1663, Mod n_IncidentRecord [1655; 1475; 1355; 1089] false [SFrom 1276 n_Document; SClass n_IncidentRecord (Some n_Document)])(* CIM15/IEC61970/Informative/InfOperations/IncidentRecord.py:21-23 *);
  (1664, Mod n_LandBase [1655; 1475; 1355; 1089] false [SFrom 1276 n_Document; SClass n_LandBase (Some n_Document)])(* CIM15/IEC61970/Informative/InfOperations/LandBase.py:21-23 *);
  (1665, Mod n_NetworkDataSet [1655; 1475; 1355; 1089] false [SFrom 1386 n_IdentifiedObject; SClass n_NetworkDataSet (Some n_IdentifiedObject)])(* CIM15/IEC61970/Informative/InfOperations/NetworkDataSet.py:21-23 *);
  (1666, Mod n_OperationalRestriction [1655; 1475; 1355; 1089] false [SFrom 1276 n_Document; SClass n_OperationalRestriction (Some n_Document)])(* CIM15/IEC61970/Informative/InfOperations/OperationalRestriction.py:21-23 *);
  (1667, Mod n_OrgPsrRole [1655; 1475; 1355; 1089] false [SFrom 1543 n_Role; SClass n_OrgPsrRole (Some n_Role)])(* CIM15/IEC61970/Informative/InfOperations/OrgPsrRole.py:21-23 *);
  (1668, Mod n_OutageCode [1655; 1475; 1355; 1089] false [SFrom 1386 n_IdentifiedObject; SClass n_OutageCode (Some n_IdentifiedObject)])(* CIM15/IEC61970/Informative/InfOperations/OutageCode.py:21-23 *);
  (1669, Mod n_OutageNotification [1655; 1475; 1355; 1089] false [SFrom 1276 n_Document; SClass n_OutageNotification (Some n_Document)])(* CIM15/IEC61970/Informative/InfOperations/OutageNotification.py:21-23 *);
  (1670, Mod n_OutageRecord [1655; 1475; 1355; 1089] false [SFrom 1276 n_Document; SClass n_OutageRecord (Some n_Document)])(* CIM15/IEC61970/Informative/InfOperations/OutageRecord.py:21-23 *);
  (1671, Mod n_OutageReport [1655; 1475; 1355; 1089] false [SFrom 1276 n_Document; SClass n_OutageReport (Some n_Document)])(* CIM15/IEC61970/Informative/InfOperations/OutageReport.py:21-23 *);
  (1672, Mod n_OutageStep [1655; 1475; 1355; 1089] false [SFrom 1386 n_IdentifiedObject; SClass n_OutageStep (Some n_IdentifiedObject)])(* CIM15/IEC61970/Informative/InfOperations/OutageStep.py:21-23 *);
  (1673, Mod n_OutageStepPsrRole [1655; 1475; 1355; 1089] false [SFrom 1543 n_Role; SClass n_OutageStepPsrRole (Some n_Role)])(* CIM15/IEC61970/Informative/InfOperations/OutageStepPsrRole.py:21-23 *);
  (1674, Mod n_PSREvent [1655; 1475; 1355; 1089] false [SFrom 1273 n_ActivityRecord; SClass n_PSREvent (Some n_ActivityRecord)])(* CIM15/IEC61970/Informative/InfOperations/PSREvent.py:21-23 *);
  (1675, Mod n_PlannedOutage [1655; 1475; 1355; 1089] false [SFrom 1276 n_Document; SClass n_PlannedOutage (Some n_Document)])(* CIM15/IEC61970/Informative/InfOperations/PlannedOutage.py:21-23 *);
  (1676, Mod n_SafetyDocument [1655; 1475; 1355; 1089] false [SFrom 1276 n_Document; SClass n_SafetyDocument (Some n_Document)])(* CIM15/IEC61970/Informative/InfOperations/SafetyDocument.py:21-23 *);
  (1677, Mod n_SwitchingSchedule [1655; 1475; 1355; 1089] false [SFrom 1276 n_Document; SClass n_SwitchingSchedule (Some n_Document)])(* CIM15/IEC61970/Informative/InfOperations/SwitchingSchedule.py:21-23 *);
  (1678, Mod n_SwitchingStep [1655; 1475; 1355; 1089] false [SFrom 1386 n_IdentifiedObject; SClass n_SwitchingStep (Some n_IdentifiedObject)])(* CIM15/IEC61970/Informative/InfOperations/SwitchingStep.py:21-23 *);
  (1679, Mod n_TroubleTicket [1655; 1475; 1355; 1089] false [SFrom 1276 n_Document; SClass n_TroubleTicket (Some n_Document)])(* CIM15/IEC61970/Informative/InfOperations/TroubleTicket.py:21-23 *);
  (1680, Mod i_InfTypeAsset [1475; 1355; 1089] true [SFrom 1682 n_TypeAssetCatalogue; SFrom 1681 n_GeneratorTypeAsset; SAssign i_nsURI; SAssign i_nsPrefix])(* CIM15/IEC61970/Informative/InfTypeAsset/__init__.py:22-26 *);
  (1681, Mod n_GeneratorTypeAsset [1680; 1475; 1355; 1089] false [SFrom 1501 n_GenericAssetModelOrMaterial; SClass n_GeneratorTypeAsset (Some n_GenericAssetModelOrMaterial)])(* CIM15/IEC61970/Informative/InfTypeAsset/GeneratorTypeAsset.py:21-23 *);
  (1682, Mod n_TypeAssetCatalogue [1680; 1475; 1355; 1089] false [SFrom 1386 n_IdentifiedObject; SClass n_TypeAssetCatalogue (Some n_IdentifiedObject)])(* CIM15/IEC61970/Informative/InfTypeAsset/TypeAssetCatalogue.py:21-23 *);
  (1683, Mod i_InfWork [1475; 1355; 1089] true [SFrom 1706 n_EquipmentItem; SFrom 1685 n_Appointment; SFrom 1728 n_WorkStatusEntry; SFrom 1687 n_BusinessCase; SFrom 1722 n_TypeMaterial; SFrom 1703 n_DesignLocation; SFrom 1715 n_OverheadCost; SFrom 1701 n_Crew; SFrom 1705 n_DiagnosisDataSet; SFrom 1689 n_CUAsset; SFrom 1720 n_Request; SFrom 1702 n_Design; SFrom 1729 n_WorkTask; SFrom 1698 n_ConditionFactor; SFrom 1718 n_QualificationRequirement; SFrom 1727 n_WorkLocation; SFrom 1700 n_CostType; SFrom 1694 n_CUMaterialItem; SFrom 1717 n_PropertyUnit; SFrom 1716 n_Project; SFrom 1693 n_CULaborItem; SFrom 1709 n_LaborItem; SFrom 1726 n_WorkFlowStep; SFrom 1708 n_InspectionDataSet; SFrom 1724 n_WorkCostDetail; SFrom 1697 n_CompatibleUnit; SFrom 1725 n_WorkCostSummary; SFrom 1713 n_NonStandardItem; SFrom 1707 n_InfoQuestion; SFrom 1719 n_Regulation; SFrom 1699 n_ContractorItem; SFrom 1688 n_CUAllowableAction; SFrom 1692 n_CULaborCode; SFrom 1684 n_AccessPermit; SFrom 1695 n_CUWorkEquipmentItem; SFrom 1704 n_DesignLocationCU; SFrom 1710 n_MaintenanceDataSet; SFrom 1712 n_MiscCostItem; SFrom 1711 n_MaterialItem; SFrom 1721 n_ShiftPattern; SFrom 1696 n_Capability; SFrom 1723 n_Usage; SFrom 1714 n_OneCallRequest; SFrom 1686 n_Assignment; SFrom 1690 n_CUContractorItem; SFrom 1691 n_CUGroup; SAssign i_nsURI; SAssign i_nsPrefix; SClass n_ConditionFactorKind None; SClass n_WorkActionKind None; SClass n_DesignKind None])(* CIM15/IEC61970/Informative/InfWork/__init__.py:24-85 *);
  (1684, Mod n_AccessPermit [1683; 1475; 1355; 1089] false [SFrom 1276 n_Document; SClass n_AccessPermit (Some n_Document)])(* CIM15/IEC61970/Informative/InfWork/AccessPermit.py:21-23 *);
  (1685, Mod n_Appointment [1683; 1475; 1355; 1089] false [SFrom 1545 n_ScheduledEvent; SClass n_Appointment (Some n_ScheduledEvent)])(* CIM15/IEC61970/Informative/InfWork/Appointment.py:21-23 *);
  (1686, Mod n_Assignment [1683; 1475; 1355; 1089] false [SFrom 1276 n_Document; SClass n_Assignment (Some n_Document)])(* CIM15/IEC61970/Informative/InfWork/Assignment.py:21-23 *);
  (1687, Mod n_BusinessCase [1683; 1475; 1355; 1089] false [SFrom 1276 n_Document; SClass n_BusinessCase (Some n_Document)])(* CIM15/IEC61970/Informative/InfWork/BusinessCase.py:21-23 *);
  (1688, Mod n_CUAllowableAction [1683; 1475; 1355; 1089] false [SFrom 1386 n_IdentifiedObject; SClass n_CUAllowableAction (Some n_IdentifiedObject)])(* CIM15/IEC61970/Informative/InfWork/CUAllowableAction.py:21-23 *);
  (1689, Mod n_CUAsset [1683; 1475; 1355; 1089] false [SFrom 1386 n_IdentifiedObject; SClass n_CUAsset (Some n_IdentifiedObject)])(* CIM15/IEC61970/Informative/InfWork/CUAsset.py:21-23 *);
  (1690, Mod n_CUContractorItem [1683; 1475; 1355; 1089] false [SFrom 1386 n_IdentifiedObject; SClass n_CUContractorItem (Some n_IdentifiedObject)])(* CIM15/IEC61970/Informative/InfWork/CUContractorItem.py:21-23 *);
  (1691, Mod n_CUGroup [1683; 1475; 1355; 1089] false [SFrom 1386 n_IdentifiedObject; SClass n_CUGroup (Some n_IdentifiedObject)])(* CIM15/IEC61970/Informative/InfWork/CUGroup.py:21-23 *);
  (1692, Mod n_CULaborCode [1683; 1475; 1355; 1089] false [SFrom 1386 n_IdentifiedObject; SClass n_CULaborCode (Some n_IdentifiedObject)])(* CIM15/IEC61970/Informative/InfWork/CULaborCode.py:21-23 *);
  (1693, Mod n_CULaborItem [1683; 1475; 1355; 1089] false [SFrom 1386 n_IdentifiedObject; SClass n_CULaborItem (Some n_IdentifiedObject)])(* CIM15/IEC61970/Informative/InfWork/CULaborItem.py:21-23 *);
  (1694, Mod n_CUMaterialItem [1683; 1475; 1355; 1089] false [SFrom 1386 n_IdentifiedObject; SClass n_CUMaterialItem (Some n_IdentifiedObject)])(* CIM15/IEC61970/Informative/InfWork/CUMaterialItem.py:21-23 *);
  (1695, Mod n_CUWorkEquipmentItem [1683; 1475; 1355; 1089] false [SFrom 1386 n_IdentifiedObject; SClass n_CUWorkEquipmentItem (Some n_IdentifiedObject)])(* CIM15/IEC61970/Informative/InfWork/CUWorkEquipmentItem.py:21-23 *);
  (1696, Mod n_Capability [1683; 1475; 1355; 1089] false [SFrom 1386 n_IdentifiedObject; SClass n_Capability (Some n_IdentifiedObject)])(* CIM15/IEC61970/Informative/InfWork/Capability.py:21-23 *);
  (1697, Mod n_CompatibleUnit [1683; 1475; 1355; 1089] false [SFrom 1276 n_Document; SClass n_CompatibleUnit (Some n_Document)])(* CIM15/IEC61970/Informative/InfWork/CompatibleUnit.py:21-23 *);
  (1698, Mod n_ConditionFactor [1683; 1475; 1355; 1089] false [SFrom 1386 n_IdentifiedObject; SClass n_ConditionFactor (Some n_IdentifiedObject)])(* CIM15/IEC61970/Informative/InfWork/ConditionFactor.py:21-23 *);
  (1699, Mod n_ContractorItem [1683; 1475; 1355; 1089] false [SFrom 1386 n_IdentifiedObject; SClass n_ContractorItem (Some n_IdentifiedObject)])(* CIM15/IEC61970/Informative/InfWork/ContractorItem.py:21-23 *);
  (1700, Mod n_CostType [1683; 1475; 1355; 1089] false [SFrom 1386 n_IdentifiedObject; SClass n_CostType (Some n_IdentifiedObject)])(* CIM15/IEC61970/Informative/InfWork/CostType.py:21-23 *);
  (1701, Mod n_Crew [1683; 1475; 1355; 1089] false [SFrom 1386 n_IdentifiedObject; SClass n_Crew (Some n_IdentifiedObject)])(* CIM15/IEC61970/Informative/InfWork/Crew.py:21-23 *);
  (1702, Mod n_Design [1683; 1475; 1355; 1089] false [SFrom 1276 n_Document; SClass n_Design (Some n_Document)])(* CIM15/IEC61970/Informative/InfWork/Design.py:21-23 *);
  (1703, Mod n_DesignLocation [1683; 1475; 1355; 1089] false [SFrom 1386 n_IdentifiedObject; SClass n_DesignLocation (Some n_IdentifiedObject)])(* CIM15/IEC61970/Informative/InfWork/DesignLocation.py:21-23 *);
  (1704, Mod n_DesignLocationCU [1683; 1475; 1355; 1089] false [SFrom 1386 n_IdentifiedObject; SClass n_DesignLocationCU (Some n_IdentifiedObject)])(* CIM15/IEC61970/Informative/InfWork/DesignLocationCU.py:21-23 *);
  (1705, Mod n_DiagnosisDataSet [1683; 1475; 1355; 1089] false [SFrom 1511 n_ProcedureDataSet; SClass n_DiagnosisDataSet (Some n_ProcedureDataSet)])(* CIM15/IEC61970/Informative/InfWork/DiagnosisDataSet.py:21-23 *);
  (1706, Mod n_EquipmentItem [1683; 1475; 1355; 1089] false [SFrom 1386 n_IdentifiedObject; SClass n_EquipmentItem (Some n_IdentifiedObject)])(* CIM15/IEC61970/Informative/InfWork/EquipmentItem.py:21-23 *);
  (1707, Mod n_InfoQuestion [1683; 1475; 1355; 1089] false [SFrom 1276 n_Document; SClass n_InfoQuestion (Some n_Document)])(* CIM15/IEC61970/Informative/InfWork/InfoQuestion.py:21-23 *);
  (1708, Mod n_InspectionDataSet [1683; 1475; 1355; 1089] false [SFrom 1511 n_ProcedureDataSet; SClass n_InspectionDataSet (Some n_ProcedureDataSet)])(* CIM15/IEC61970/Informative/InfWork/InspectionDataSet.py:21-23 *);
  (1709, Mod n_LaborItem [1683; 1475; 1355; 1089] false [SFrom 1386 n_IdentifiedObject; SClass n_LaborItem (Some n_IdentifiedObject)])(* CIM15/IEC61970/Informative/InfWork/LaborItem.py:21-23 *);
  (1710, Mod n_MaintenanceDataSet [1683; 1475; 1355; 1089] false [SFrom 1511 n_ProcedureDataSet; SClass n_MaintenanceDataSet (Some n_ProcedureDataSet)])(* CIM15/IEC61970/Informative/InfWork/MaintenanceDataSet.py:21-23 *);
  (1711, Mod n_MaterialItem [1683; 1475; 1355; 1089] false [SFrom 1386 n_IdentifiedObject; SClass n_MaterialItem (Some n_IdentifiedObject)])(* CIM15/IEC61970/Informative/InfWork/MaterialItem.py:21-23 *);
  (1712, Mod n_MiscCostItem [1683; 1475; 1355; 1089] false [SFrom 1386 n_IdentifiedObject; SClass n_MiscCostItem (Some n_IdentifiedObject)])(* CIM15/IEC61970/Informative/InfWork/MiscCostItem.py:21-23 *);
  (1713, Mod n_NonStandardItem [1683; 1475; 1355; 1089] false [SFrom 1276 n_Document; SClass n_NonStandardItem (Some n_Document)])(* CIM15/IEC61970/Informative/InfWork/NonStandardItem.py:21-23 *);
  (1714, Mod n_OneCallRequest [1683; 1475; 1355; 1089] false [SFrom 1276 n_Document; SClass n_OneCallRequest (Some n_Document)])(* CIM15/IEC61970/Informative/InfWork/OneCallRequest.py:21-23 *);
  (1715, Mod n_OverheadCost [1683; 1475; 1355; 1089] false [SFrom 1386 n_IdentifiedObject; SClass n_OverheadCost (Some n_IdentifiedObject)])(* CIM15/IEC61970/Informative/InfWork/OverheadCost.py:21-23 *);
  (1716, Mod n_Project [1683; 1475; 1355; 1089] false [SFrom 1276 n_Document; SClass n_Project (Some n_Document)])(* CIM15/IEC61970/Informative/InfWork/Project.py:21-23 *);
  (1717, Mod n_PropertyUnit [1683; 1475; 1355; 1089] false [SFrom 1386 n_IdentifiedObject; SClass n_PropertyUnit (Some n_IdentifiedObject)])(* CIM15/IEC61970/Informative/InfWork/PropertyUnit.py:21-23 *);
  (1718, Mod n_QualificationRequirement [1683; 1475; 1355; 1089] false [SFrom 1386 n_IdentifiedObject; SClass n_QualificationRequirement (Some n_IdentifiedObject)])(* CIM15/IEC61970/Informative/InfWork/QualificationRequirement.py:21-23 *);
  (1719, Mod n_Regulation [1683; 1475; 1355; 1089] false [SFrom 1276 n_Document; SClass n_Regulation (Some n_Document)])(* CIM15/IEC61970/Informative/InfWork/Regulation.py:21-23 *);
  (1720, Mod n_Request [1683; 1475; 1355; 1089] false [SFrom 1276 n_Document; SClass n_Request (Some n_Document)])(* CIM15/IEC61970/Informative/InfWork/Request.py:21-23 *);
  (1721, Mod n_ShiftPattern [1683; 1475; 1355; 1089] false [SFrom 1386 n_IdentifiedObject; SClass n_ShiftPattern (Some n_IdentifiedObject)])(* CIM15/IEC61970/Informative/InfWork/ShiftPattern.py:21-23 *);
  (1722, Mod n_TypeMaterial [1683; 1475; 1355; 1089] false [SFrom 1276 n_Document; SClass n_TypeMaterial (Some n_Document)])(* CIM15/IEC61970/Informative/InfWork/TypeMaterial.py:21-23 *);
  (1723, Mod n_Usage [1683; 1475; 1355; 1089] false [SFrom 1386 n_IdentifiedObject; SClass n_Usage (Some n_IdentifiedObject)])(* CIM15/IEC61970/Informative/InfWork/Usage.py:21-23 *);
  (1724, Mod n_WorkCostDetail [1683; 1475; 1355; 1089] false [SFrom 1276 n_Document; SClass n_WorkCostDetail (Some n_Document)])(* CIM15/IEC61970/Informative/InfWork/WorkCostDetail.py:21-23 *);
  (1725, Mod n_WorkCostSummary [1683; 1475; 1355; 1089] false [SFrom 1276 n_Document; SClass n_WorkCostSummary (Some n_Document)])(* CIM15/IEC61970/Informative/InfWork/WorkCostSummary.py:21-23 *);
  (1726, Mod n_WorkFlowStep [1683; 1475; 1355; 1089] false [SFrom 1386 n_IdentifiedObject; SClass n_WorkFlowStep (Some n_IdentifiedObject)])(* CIM15/IEC61970/Informative/InfWork/WorkFlowStep.py:21-23 *);
  (1727, Mod n_WorkLocation [1683; 1475; 1355; 1089] false [SFrom 1278 n_Location; SClass n_WorkLocation (Some n_Location)])(* CIM15/IEC61970/Informative/InfWork/WorkLocation.py:21-23 *);
  (1728, Mod n_WorkStatusEntry [1683; 1475; 1355; 1089] false [SFrom 1273 n_ActivityRecord; SClass n_WorkStatusEntry (Some n_ActivityRecord)])(* CIM15/IEC61970/Informative/InfWork/WorkStatusEntry.py:21-23 *);
  (1729, Mod n_WorkTask [1683; 1475; 1355; 1089] false [SFrom 1276 n_Document; SClass n_WorkTask (Some n_Document)])(* CIM15/IEC61970/Informative/InfWork/WorkTask.py:21-23 *);
  (1730, Mod i_LoadModel [1355; 1089] true [SFrom 1731 n_ConformLoad; SFrom 1732 n_ConformLoadGroup; SFrom 1744 n_SeasonDayTypeSchedule; SFrom 1737 n_LoadGroup; SFrom 1733 n_ConformLoadSchedule; SFrom 1736 n_LoadArea; SFrom 1742 n_PowerCutZone; SFrom 1738 n_LoadResponseCharacteristic; SFrom 1739 n_NonConformLoad; SFrom 1745 n_StationSupply; SFrom 1735 n_EnergyArea; SFrom 1741 n_NonConformLoadSchedule; SFrom 1740 n_NonConformLoadGroup; SFrom 1734 n_DayType; SFrom 1746 n_SubLoadArea; SFrom 1743 n_Season; SAssign i_nsURI; SAssign i_nsPrefix; SClass n_SeasonName None])(* CIM15/IEC61970/LoadModel/__init__.py:24-45 *);
  (1731, Mod n_ConformLoad [1730; 1355; 1089] false [SFrom 1829 n_EnergyConsumer; SClass n_ConformLoad (Some n_EnergyConsumer)])(* CIM15/IEC61970/LoadModel/ConformLoad.py:21-23 *);
  (1732, Mod n_ConformLoadGroup [1730; 1355; 1089] false [SFrom 1737 n_LoadGroup; SClass n_ConformLoadGroup (Some n_LoadGroup)])(* CIM15/IEC61970/LoadModel/ConformLoadGroup.py:21-23 *);
  (1733, Mod n_ConformLoadSchedule [1730; 1355; 1089] false [SFrom 1744 n_SeasonDayTypeSchedule; SClass n_ConformLoadSchedule (Some n_SeasonDayTypeSchedule)])(* CIM15/IEC61970/LoadModel/ConformLoadSchedule.py:21-23 *);
  (1734, Mod n_DayType [1730; 1355; 1089] false [SFrom 1386 n_IdentifiedObject; SClass n_DayType (Some n_IdentifiedObject)])(* CIM15/IEC61970/LoadModel/DayType.py:21-23 *);
  (1735, Mod n_EnergyArea [1730; 1355; 1089] false [SFrom 1386 n_IdentifiedObject; SClass n_EnergyArea (Some n_IdentifiedObject)])(* CIM15/IEC61970/LoadModel/EnergyArea.py:21-23 *);
  (1736, Mod n_LoadArea [1730; 1355; 1089] false [SFrom 1735 n_EnergyArea; SClass n_LoadArea (Some n_EnergyArea)])(* CIM15/IEC61970/LoadModel/LoadArea.py:21-23 *);
  (1737, Mod n_LoadGroup [1730; 1355; 1089] false [SFrom 1386 n_IdentifiedObject; SClass n_LoadGroup (Some n_IdentifiedObject)])(* CIM15/IEC61970/LoadModel/LoadGroup.py:21-23 *);
  (1738, Mod n_LoadResponseCharacteristic [1730; 1355; 1089] false [SFrom 1386 n_IdentifiedObject; SClass n_LoadResponseCharacteristic (Some n_IdentifiedObject)])(* CIM15/IEC61970/LoadModel/LoadResponseCharacteristic.py:21-23 *);
  (1739, Mod n_NonConformLoad [1730; 1355; 1089] false [SFrom 1829 n_EnergyConsumer; SClass n_NonConformLoad (Some n_EnergyConsumer)])(* CIM15/IEC61970/LoadModel/NonConformLoad.py:21-23 *);
  (1740, Mod n_NonConformLoadGroup [1730; 1355; 1089] false [SFrom 1737 n_LoadGroup; SClass n_NonConformLoadGroup (Some n_LoadGroup)])(* CIM15/IEC61970/LoadModel/NonConformLoadGroup.py:21-23 *);
  (1741, Mod n_NonConformLoadSchedule [1730; 1355; 1089] false [SFrom 1744 n_SeasonDayTypeSchedule; SClass n_NonConformLoadSchedule (Some n_SeasonDayTypeSchedule)])(* CIM15/IEC61970/LoadModel/NonConformLoadSchedule.py:21-23 *);
  (1742, Mod n_PowerCutZone [1730; 1355; 1089] false [SFrom 1395 n_PowerSystemResource; SClass n_PowerCutZone (Some n_PowerSystemResource)])(* CIM15/IEC61970/LoadModel/PowerCutZone.py:21-23 *);
  (1743, Mod n_Season [1730; 1355; 1089] false [SFrom 1243 n_Element; SClass n_Season (Some n_Element)])(* CIM15/IEC61970/LoadModel/Season.py:21-23 *);
  (1744, Mod n_SeasonDayTypeSchedule [1730; 1355; 1089] false [SFrom 1397 n_RegularIntervalSchedule; SClass n_SeasonDayTypeSchedule (Some n_RegularIntervalSchedule)])(* CIM15/IEC61970/LoadModel/SeasonDayTypeSchedule.py:21-23 *);
  (1745, Mod n_StationSupply [1730; 1355; 1089] false [SFrom 1829 n_EnergyConsumer; SClass n_StationSupply (Some n_EnergyConsumer)])(* CIM15/IEC61970/LoadModel/StationSupply.py:21-23 *);
  (1746, Mod n_SubLoadArea [1730; 1355; 1089] false [SFrom 1735 n_EnergyArea; SClass n_SubLoadArea (Some n_EnergyArea)])(* CIM15/IEC61970/LoadModel/SubLoadArea.py:21-23 *);
  (1747, Mod i_Meas [1355; 1089] true [SFrom 1749 n_AccumulatorLimit; SFrom 1772 n_ValueToAlias; SFrom 1766 n_MeasurementValueSource; SFrom 1752 n_Analog; SFrom 1755 n_AnalogValue; SFrom 1763 n_Measurement; SFrom 1758 n_ControlType; SFrom 1770 n_StringMeasurementValue; SFrom 1769 n_StringMeasurement; SFrom 1753 n_AnalogLimit; SFrom 1768 n_SetPoint; SFrom 1761 n_Limit; SFrom 1759 n_Discrete; SFrom 1771 n_ValueAliasSet; SFrom 1767 n_Quality61850; SFrom 1751 n_AccumulatorValue; SFrom 1756 n_Command; SFrom 1748 n_Accumulator; SFrom 1765 n_MeasurementValueQuality; SFrom 1764 n_MeasurementValue; SFrom 1760 n_DiscreteValue; SFrom 1754 n_AnalogLimitSet; SFrom 1762 n_LimitSet; SFrom 1750 n_AccumulatorLimitSet; SFrom 1757 n_Control; SAssign i_nsURI; SAssign i_nsPrefix; SClass n_Validity None])(* CIM15/IEC61970/Meas/__init__.py:24-54 *);
  (1748, Mod n_Accumulator [1747; 1355; 1089] false [SFrom 1763 n_Measurement; SClass n_Accumulator (Some n_Measurement)])(* CIM15/IEC61970/Meas/Accumulator.py:21-23 *);
  (1749, Mod n_AccumulatorLimit [1747; 1355; 1089] false [SFrom 1761 n_Limit; SClass n_AccumulatorLimit (Some n_Limit)])(* CIM15/IEC61970/Meas/AccumulatorLimit.py:21-23 *);
  (1750, Mod n_AccumulatorLimitSet [1747; 1355; 1089] false [SFrom 1762 n_LimitSet; SClass n_AccumulatorLimitSet (Some n_LimitSet)])(* CIM15/IEC61970/Meas/AccumulatorLimitSet.py:21-23 *);
  (1751, Mod n_AccumulatorValue [1747; 1355; 1089] false [SFrom 1764 n_MeasurementValue; SClass n_AccumulatorValue (Some n_MeasurementValue)])(* CIM15/IEC61970/Meas/AccumulatorValue.py:21-23 *);
  (1752, Mod n_Analog [1747; 1355; 1089] false [SFrom 1763 n_Measurement; SClass n_Analog (Some n_Measurement)])(* CIM15/IEC61970/Meas/Analog.py:21-23 *);
  (1753, Mod n_AnalogLimit [1747; 1355; 1089] false [SFrom 1761 n_Limit; SClass n_AnalogLimit (Some n_Limit)])(* CIM15/IEC61970/Meas/AnalogLimit.py:21-23 *);
  (1754, Mod n_AnalogLimitSet [1747; 1355; 1089] false [SFrom 1762 n_LimitSet; SClass n_AnalogLimitSet (Some n_LimitSet)])(* CIM15/IEC61970/Meas/AnalogLimitSet.py:21-23 *);
  (1755, Mod n_AnalogValue [1747; 1355; 1089] false [SFrom 1764 n_MeasurementValue; SClass n_AnalogValue (Some n_MeasurementValue)])(* CIM15/IEC61970/Meas/AnalogValue.py:21-23 *);
  (1756, Mod n_Command [1747; 1355; 1089] false [SFrom 1757 n_Control; SClass n_Command (Some n_Control)])(* CIM15/IEC61970/Meas/Command.py:21-23 *);
  (1757, Mod n_Control [1747; 1355; 1089] false [SFrom 1386 n_IdentifiedObject; SClass n_Control (Some n_IdentifiedObject)])(* CIM15/IEC61970/Meas/Control.py:21-23 *);
  (1758, Mod n_ControlType [1747; 1355; 1089] false [SFrom 1386 n_IdentifiedObject; SClass n_ControlType (Some n_IdentifiedObject)])(* CIM15/IEC61970/Meas/ControlType.py:21-23 *);
  (1759, Mod n_Discrete [1747; 1355; 1089] false [SFrom 1763 n_Measurement; SClass n_Discrete (Some n_Measurement)])(* CIM15/IEC61970/Meas/Discrete.py:21-23 *);
  (1760, Mod n_DiscreteValue [1747; 1355; 1089] false [SFrom 1764 n_MeasurementValue; SClass n_DiscreteValue (Some n_MeasurementValue)])(* CIM15/IEC61970/Meas/DiscreteValue.py:21-23 *);
  (1761, Mod n_Limit [1747; 1355; 1089] false [SFrom 1386 n_IdentifiedObject; SClass n_Limit (Some n_IdentifiedObject)])(* CIM15/IEC61970/Meas/Limit.py:21-23 *);
  (1762, Mod n_LimitSet [1747; 1355; 1089] false [SFrom 1386 n_IdentifiedObject; SClass n_LimitSet (Some n_IdentifiedObject)])(* CIM15/IEC61970/Meas/LimitSet.py:21-23 *);
  (1763, Mod n_Measurement [1747; 1355; 1089] false [SFrom 1386 n_IdentifiedObject; SClass n_Measurement (Some n_IdentifiedObject)])(* CIM15/IEC61970/Meas/Measurement.py:21-23 *);
  (1764, Mod n_MeasurementValue [1747; 1355; 1089] false [SFrom 1386 n_IdentifiedObject; SClass n_MeasurementValue (Some n_IdentifiedObject)])(* CIM15/IEC61970/Meas/MeasurementValue.py:21-23 *);
  (1765, Mod n_MeasurementValueQuality [1747; 1355; 1089] false [SFrom 1767 n_Quality61850; SClass n_MeasurementValueQuality (Some n_Quality61850)])(* CIM15/IEC61970/Meas/MeasurementValueQuality.py:21-23 *);
  (1766, Mod n_MeasurementValueSource [1747; 1355; 1089] false [SFrom 1386 n_IdentifiedObject; SClass n_MeasurementValueSource (Some n_IdentifiedObject)])(* CIM15/IEC61970/Meas/MeasurementValueSource.py:21-23 *);
  (1767, Mod n_Quality61850 [1747; 1355; 1089] false [SFrom 1243 n_Element; SClass n_Quality61850 (Some n_Element)])(* CIM15/IEC61970/Meas/Quality61850.py:21-23 *);
  (1768, Mod n_SetPoint [1747; 1355; 1089] false [SFrom 1757 n_Control; SClass n_SetPoint (Some n_Control)])(* CIM15/IEC61970/Meas/SetPoint.py:21-23 *);
  (1769, Mod n_StringMeasurement [1747; 1355; 1089] false [SFrom 1763 n_Measurement; SClass n_StringMeasurement (Some n_Measurement)])(* CIM15/IEC61970/Meas/StringMeasurement.py:21-23 *);
  (1770, Mod n_StringMeasurementValue [1747; 1355; 1089] false [SFrom 1764 n_MeasurementValue; SClass n_StringMeasurementValue (Some n_MeasurementValue)])(* CIM15/IEC61970/Meas/StringMeasurementValue.py:21-23 *);
  (1771, Mod n_ValueAliasSet [1747; 1355; 1089] false [SFrom 1386 n_IdentifiedObject; SClass n_ValueAliasSet (Some n_IdentifiedObject)])(* CIM15/IEC61970/Meas/ValueAliasSet.py:21-23 *);
  (1772, Mod n_ValueToAlias [1747; 1355; 1089] false [SFrom 1386 n_IdentifiedObject; SClass n_ValueToAlias (Some n_IdentifiedObject)])(* CIM15/IEC61970/Meas/ValueToAlias.py:21-23 *);
  (1773, Mod i_OperationalLimits [1355; 1089] true [SFrom 1776 n_ApparentPowerLimit; SFrom 1774 n_ActivePowerLimit; SFrom 1785 n_OperationalLimitType; SFrom 1778 n_BranchGroup; SFrom 1784 n_OperationalLimitSet; SFrom 1775 n_ActivePowerLimitSet; SFrom 1781 n_CurrentLimit; SFrom 1782 n_CurrentLimitSet; SFrom 1777 n_ApparentPowerLimitSet; SFrom 1779 n_BranchGroupTerminal; SFrom 1788 n_VoltageLimitSet; SFrom 1787 n_VoltageLimit; SFrom 1783 n_OperationalLimit; SFrom 1780 n_CheckPoint; SFrom 1786 n_VoltageCheckPoint; SFrom 1789 n_VoltageTimeCurve; SAssign i_nsURI; SAssign i_nsPrefix; SClass n_OperationalLimitDirectionKind None])(* CIM15/IEC61970/OperationalLimits/__init__.py:24-45 *);
  (1774, Mod n_ActivePowerLimit [1773; 1355; 1089] false [SFrom 1783 n_OperationalLimit; SClass n_ActivePowerLimit (Some n_OperationalLimit)])(* CIM15/IEC61970/OperationalLimits/ActivePowerLimit.py:21-23 *);
  (1775, Mod n_ActivePowerLimitSet [1773; 1355; 1089] false [SFrom 1784 n_OperationalLimitSet; SClass n_ActivePowerLimitSet (Some n_OperationalLimitSet)])(* CIM15/IEC61970/OperationalLimits/ActivePowerLimitSet.py:21-23 *);
  (1776, Mod n_ApparentPowerLimit [1773; 1355; 1089] false [SFrom 1783 n_OperationalLimit; SClass n_ApparentPowerLimit (Some n_OperationalLimit)])(* CIM15/IEC61970/OperationalLimits/ApparentPowerLimit.py:21-23 *);
  (1777, Mod n_ApparentPowerLimitSet [1773; 1355; 1089] false [SFrom 1784 n_OperationalLimitSet; SClass n_ApparentPowerLimitSet (Some n_OperationalLimitSet)])(* CIM15/IEC61970/OperationalLimits/ApparentPowerLimitSet.py:21-23 *);
  (1778, Mod n_BranchGroup [1773; 1355; 1089] false [SFrom 1386 n_IdentifiedObject; SClass n_BranchGroup (Some n_IdentifiedObject)])(* CIM15/IEC61970/OperationalLimits/BranchGroup.py:21-23 *);
  (1779, Mod n_BranchGroupTerminal [1773; 1355; 1089] false [SFrom 1243 n_Element; SClass n_BranchGroupTerminal (Some n_Element)])(* CIM15/IEC61970/OperationalLimits/BranchGroupTerminal.py:21-23 *);
  (1780, Mod n_CheckPoint [1773; 1355; 1089] false [SFrom 1386 n_IdentifiedObject; SClass n_CheckPoint (Some n_IdentifiedObject)])(* CIM15/IEC61970/OperationalLimits/CheckPoint.py:21-24 *);
  (1781, Mod n_CurrentLimit [1773; 1355; 1089] false [SFrom 1783 n_OperationalLimit; SClass n_CurrentLimit (Some n_OperationalLimit)])(* CIM15/IEC61970/OperationalLimits/CurrentLimit.py:21-23 *);
  (1782, Mod n_CurrentLimitSet [1773; 1355; 1089] false [SFrom 1784 n_OperationalLimitSet; SClass n_CurrentLimitSet (Some n_OperationalLimitSet)])(* CIM15/IEC61970/OperationalLimits/CurrentLimitSet.py:21-23 *);
  (1783, Mod n_OperationalLimit [1773; 1355; 1089] false [SFrom 1386 n_IdentifiedObject; SClass n_OperationalLimit (Some n_IdentifiedObject)])(* CIM15/IEC61970/OperationalLimits/OperationalLimit.py:21-23 *);
  (1784, Mod n_OperationalLimitSet [1773; 1355; 1089] false [SFrom 1386 n_IdentifiedObject; SClass n_OperationalLimitSet (Some n_IdentifiedObject)])(* CIM15/IEC61970/OperationalLimits/OperationalLimitSet.py:21-23 *);
  (1785, Mod n_OperationalLimitType [1773; 1355; 1089] false [SFrom 1386 n_IdentifiedObject; SClass n_OperationalLimitType (Some n_IdentifiedObject)])(* CIM15/IEC61970/OperationalLimits/OperationalLimitType.py:21-23 *);
  (1786, Mod n_VoltageCheckPoint [1773; 1355; 1089] false [SFrom 1780 n_CheckPoint; SClass n_VoltageCheckPoint (Some n_CheckPoint)])(* CIM15/IEC61970/OperationalLimits/VoltageCheckPoint.py:21-24 *);
  (1787, Mod n_VoltageLimit [1773; 1355; 1089] false [SFrom 1783 n_OperationalLimit; SClass n_VoltageLimit (Some n_OperationalLimit)])(* CIM15/IEC61970/OperationalLimits/VoltageLimit.py:21-23 *);
  (1788, Mod n_VoltageLimitSet [1773; 1355; 1089] false [SFrom 1784 n_OperationalLimitSet; SClass n_VoltageLimitSet (Some n_OperationalLimitSet)])(* CIM15/IEC61970/OperationalLimits/VoltageLimitSet.py:21-23 *);
  (1789, Mod n_VoltageTimeCurve [1773; 1355; 1089] false [SFrom 1381 n_Curve; SClass n_VoltageTimeCurve (Some n_Curve)])(* CIM15/IEC61970/OperationalLimits/VoltageTimeCurve.py:21-24 *);
  (1790, Mod i_Outage [1355; 1089] true [SFrom 1794 n_SwitchingOperation; SFrom 1793 n_OutageSchedule; SFrom 1792 n_ClearanceTagType; SFrom 1791 n_ClearanceTag; SAssign i_nsURI; SAssign i_nsPrefix; SClass n_SwitchState None])(* CIM15/IEC61970/Outage/__init__.py:24-33 *);
  (1791, Mod n_ClearanceTag [1790; 1355; 1089] false [SFrom 1386 n_IdentifiedObject; SClass n_ClearanceTag (Some n_IdentifiedObject)])(* CIM15/IEC61970/Outage/ClearanceTag.py:21-23 *);
  (1792, Mod n_ClearanceTagType [1790; 1355; 1089] false [SFrom 1386 n_IdentifiedObject; SClass n_ClearanceTagType (Some n_IdentifiedObject)])(* CIM15/IEC61970/Outage/ClearanceTagType.py:21-23 *);
  (1793, Mod n_OutageSchedule [1790; 1355; 1089] false [SFrom 1387 n_IrregularIntervalSchedule; SClass n_OutageSchedule (Some n_IrregularIntervalSchedule)])(* CIM15/IEC61970/Outage/OutageSchedule.py:21-23 *);
  (1794, Mod n_SwitchingOperation [1790; 1355; 1089] false [SFrom 1386 n_IdentifiedObject; SClass n_SwitchingOperation (Some n_IdentifiedObject)])(* CIM15/IEC61970/Outage/SwitchingOperation.py:21-23 *);
  (1795, Mod i_Protection [1355; 1089] true [SFrom 1798 n_RecloseSequence; SFrom 1799 n_SynchrocheckRelay; SFrom 1796 n_CurrentRelay; SFrom 1797 n_ProtectionEquipment; SAssign i_nsURI; SAssign i_nsPrefix])(* CIM15/IEC61970/Protection/__init__.py:24-30 *);
  (1796, Mod n_CurrentRelay [1795; 1355; 1089] false [SFrom 1797 n_ProtectionEquipment; SClass n_CurrentRelay (Some n_ProtectionEquipment)])(* CIM15/IEC61970/Protection/CurrentRelay.py:21-23 *);
  (1797, Mod n_ProtectionEquipment [1795; 1355; 1089] false [SFrom 1383 n_Equipment; SClass n_ProtectionEquipment (Some n_Equipment)])(* CIM15/IEC61970/Protection/ProtectionEquipment.py:21-23 *);
  (1798, Mod n_RecloseSequence [1795; 1355; 1089] false [SFrom 1386 n_IdentifiedObject; SClass n_RecloseSequence (Some n_IdentifiedObject)])(* CIM15/IEC61970/Protection/RecloseSequence.py:21-23 *);
  (1799, Mod n_SynchrocheckRelay [1795; 1355; 1089] false [SFrom 1797 n_ProtectionEquipment; SClass n_SynchrocheckRelay (Some n_ProtectionEquipment)])(* CIM15/IEC61970/Protection/SynchrocheckRelay.py:21-23 *);
  (1800, Mod i_SCADA [1355; 1089] true [SFrom 1804 n_RemoteSource; SFrom 1803 n_RemotePoint; SFrom 1805 n_RemoteUnit; SFrom 1802 n_RemoteControl; SFrom 1801 n_CommunicationLink; SAssign i_nsURI; SAssign i_nsPrefix; SClass n_RemoteUnitType None; SClass n_Source None])(* CIM15/IEC61970/SCADA/__init__.py:24-39 *);
  (1801, Mod n_CommunicationLink [1800; 1355; 1089] false [SFrom 1395 n_PowerSystemResource; SClass n_CommunicationLink (Some n_PowerSystemResource)])(* CIM15/IEC61970/SCADA/CommunicationLink.py:21-23 *);
  (1802, Mod n_RemoteControl [1800; 1355; 1089] false [SFrom 1803 n_RemotePoint; SClass n_RemoteControl (Some n_RemotePoint)])(* CIM15/IEC61970/SCADA/RemoteControl.py:21-23 *);
  (1803, Mod n_RemotePoint [1800; 1355; 1089] false [SFrom 1386 n_IdentifiedObject; SClass n_RemotePoint (Some n_IdentifiedObject)])(* CIM15/IEC61970/SCADA/RemotePoint.py:21-23 *);
  (1804, Mod n_RemoteSource [1800; 1355; 1089] false [SFrom 1803 n_RemotePoint; SClass n_RemoteSource (Some n_RemotePoint)])(* CIM15/IEC61970/SCADA/RemoteSource.py:21-23 *);
  (1805, Mod n_RemoteUnit [1800; 1355; 1089] false [SFrom 1395 n_PowerSystemResource; SClass n_RemoteUnit (Some n_PowerSystemResource)])(* CIM15/IEC61970/SCADA/RemoteUnit.py:21-23 *);
  (1806, Mod i_StateVariables [1355; 1089] true [SFrom 1814 n_SvVoltage; SFrom 1810 n_SvShortCircuit; SFrom 1811 n_SvShuntCompensatorSections; SFrom 1807 n_StateVariable; SFrom 1813 n_SvTapStep; SFrom 1812 n_SvStatus; SFrom 1808 n_SvInjection; SFrom 1809 n_SvPowerFlow; SFrom 1815 n_TopologicalIsland; SAssign i_nsURI; SAssign i_nsPrefix])(* CIM15/IEC61970/StateVariables/__init__.py:24-35 *);
  (1807, Mod n_StateVariable [1806; 1355; 1089] false [SFrom 1243 n_Element; SClass n_StateVariable (Some n_Element)])(* CIM15/IEC61970/StateVariables/StateVariable.py:21-23 *);
  (1808, Mod n_SvInjection [1806; 1355; 1089] false [SFrom 1807 n_StateVariable; SClass n_SvInjection (Some n_StateVariable)])(* CIM15/IEC61970/StateVariables/SvInjection.py:21-23 *);
  (1809, Mod n_SvPowerFlow [1806; 1355; 1089] false [SFrom 1807 n_StateVariable; SClass n_SvPowerFlow (Some n_StateVariable)])(* CIM15/IEC61970/StateVariables/SvPowerFlow.py:21-23 *);
  (1810, Mod n_SvShortCircuit [1806; 1355; 1089] false [SFrom 1807 n_StateVariable; SClass n_SvShortCircuit (Some n_StateVariable)])(* CIM15/IEC61970/StateVariables/SvShortCircuit.py:21-23 *);
  (1811, Mod n_SvShuntCompensatorSections [1806; 1355; 1089] false [SFrom 1807 n_StateVariable; SClass n_SvShuntCompensatorSections (Some n_StateVariable)])(* CIM15/IEC61970/StateVariables/SvShuntCompensatorSections.py:21-23 *);
  (1812, Mod n_SvStatus [1806; 1355; 1089] false [SFrom 1807 n_StateVariable; SClass n_SvStatus (Some n_StateVariable)])(* CIM15/IEC61970/StateVariables/SvStatus.py:21-23 *);
  (1813, Mod n_SvTapStep [1806; 1355; 1089] false [SFrom 1807 n_StateVariable; SClass n_SvTapStep (Some n_StateVariable)])(* CIM15/IEC61970/StateVariables/SvTapStep.py:21-23 *);
  (1814, Mod n_SvVoltage [1806; 1355; 1089] false [SFrom 1807 n_StateVariable; SClass n_SvVoltage (Some n_StateVariable)])(* CIM15/IEC61970/StateVariables/SvVoltage.py:21-23 *);
  (1815, Mod n_TopologicalIsland [1806; 1355; 1089] false [SFrom 1386 n_IdentifiedObject; SClass n_TopologicalIsland (Some n_IdentifiedObject)])(* CIM15/IEC61970/StateVariables/TopologicalIsland.py:21-23 *);
  (1816, Mod i_Topology [1355; 1089] true [SFrom 1817 n_BusNameMarker; SFrom 1818 n_TopologicalNode; SAssign i_nsURI; SAssign i_nsPrefix])(* CIM15/IEC61970/Topology/__init__.py:24-28 *);
  (1817, Mod n_BusNameMarker [1816; 1355; 1089] false [SFrom 1386 n_IdentifiedObject; SClass n_BusNameMarker (Some n_IdentifiedObject)])(* CIM15/IEC61970/Topology/BusNameMarker.py:21-23 *);
  (1818, Mod n_TopologicalNode [1816; 1355; 1089] false [SFrom 1386 n_IdentifiedObject; SClass n_TopologicalNode (Some n_IdentifiedObject)])(* CIM15/IEC61970/Topology/TopologicalNode.py:21-23 *);
  (1819, Mod i_Wires [1355; 1089] true [SFrom 1842 n_PhaseImpedanceData; SFrom 1873 n_TapSchedule; SFrom 1877 n_TransformerStarImpedance; SFrom 1858 n_Recloser; SFrom 1856 n_RatioTapChangerTabularPoint; SFrom 1848 n_PhaseTapChangerTabular; SFrom 1854 n_RatioTapChanger; SFrom 1845 n_PhaseTapChangerLinear; SFrom 1820 n_ACLineSegment; SFrom 1852 n_PowerTransformerEnd; SFrom 1836 n_Junction; SFrom 1860 n_RegulatingCondEq; SFrom 1864 n_Sectionaliser; SFrom 1855 n_RatioTapChangerTabular; SFrom 1851 n_PowerTransformer; SFrom 1832 n_Fuse; SFrom 1829 n_EnergyConsumer; SFrom 1828 n_Disconnector; SFrom 1825 n_Connector; SFrom 1857 n_ReactiveCapabilityCurve; SFrom 1826 n_CurrentTemperatureCurve; SFrom 1850 n_Plant; SFrom 1834 n_GroundDisconnector; SFrom 1863 n_Resistor; SFrom 1870 n_SynchronousMachine; SFrom 1844 n_PhaseTapChangerAsymetrical; SFrom 1859 n_RectifierInverter; SFrom 1865 n_SeriesCompensator; SFrom 1872 n_TapChangerControl; SFrom 1861 n_RegulatingControl; SFrom 1853 n_ProtectedSwitch; SFrom 1843 n_PhaseTapChanger; SFrom 1833 n_Ground; SFrom 1823 n_CompositeSwitch; SFrom 1862 n_RegulationSchedule; SFrom 1879 n_TransformerTankEnd; SFrom 1821 n_Breaker; SFrom 1839 n_MutualCoupling; SFrom 1837 n_Line; SFrom 1840 n_PerLengthPhaseImpedance; SFrom 1831 n_FrequencyConverter; SFrom 1866 n_ShuntCompensator; SFrom 1880 n_VoltageControlZone; SFrom 1838 n_LoadBreakSwitch; SFrom 1822 n_BusbarSection; SFrom 1875 n_TransformerEnd; SFrom 1874 n_TransformerCoreAdmittance; SFrom 1867 n_StaticVarCompensator; SFrom 1868 n_Switch; SFrom 1841 n_PerLengthSequenceImpedance; SFrom 1876 n_TransformerMeshImpedance; SFrom 1869 n_SwitchSchedule; SFrom 1830 n_EnergySource; SFrom 1878 n_TransformerTank; SFrom 1849 n_PhaseTapChangerTabularPoint; SFrom 1827 n_DCLineSegment; SFrom 1871 n_TapChanger; SFrom 1824 n_Conductor; SFrom 1846 n_PhaseTapChangerNonLinear; SFrom 1847 n_PhaseTapChangerSymetrical; SFrom 1835 n_Jumper; SAssign i_nsURI; SAssign i_nsPrefix; SClass i_TapChangerKind None; SClass n_WindingType None; SClass n_SynchronousMachineOperatingMode None; SClass n_TransformerControlMode None; SClass n_CoolantType None; SClass n_SynchronousMachineType None; SClass n_PhaseTapChangerKind None; SClass n_SVCControlMode None; SClass n_RegulatingControlModeKind None; SClass n_WindingConnection None; SClass i_CompositeSwitchType None; SClass i_OperatingMode None])(* CIM15/IEC61970/Wires/__init__.py:24-145 *);
  (1820, Mod n_ACLineSegment [1819; 1355; 1089] false [SFrom 1824 n_Conductor; SFrom 1840 n_PerLengthPhaseImpedance; SFrom 1841 n_PerLengthSequenceImpedance; SClass n_ACLineSegment (Some n_Conductor)])(* CIM15/IEC61970/Wires/ACLineSegment.py:21-25 *);
  (1821, Mod n_Breaker [1819; 1355; 1089] false [SFrom 1853 n_ProtectedSwitch; SClass n_Breaker (Some n_ProtectedSwitch)])(* CIM15/IEC61970/Wires/Breaker.py:21-23 *);
  (1822, Mod n_BusbarSection [1819; 1355; 1089] false [SFrom 1825 n_Connector; SClass n_BusbarSection (Some n_Connector)])(* CIM15/IEC61970/Wires/BusbarSection.py:21-23 *);
  (1823, Mod n_CompositeSwitch [1819; 1355; 1089] false [SFrom 1383 n_Equipment; SClass n_CompositeSwitch (Some n_Equipment)])(* CIM15/IEC61970/Wires/CompositeSwitch.py:21-23 *);
  (1824, Mod n_Conductor [1819; 1355; 1089] false [SFrom 1378 n_ConductingEquipment; SClass n_Conductor (Some n_ConductingEquipment)])(* CIM15/IEC61970/Wires/Conductor.py:21-23 *);
  (1825, Mod n_Connector [1819; 1355; 1089] false [SFrom 1378 n_ConductingEquipment; SClass n_Connector (Some n_ConductingEquipment)])(* CIM15/IEC61970/Wires/Connector.py:21-23 *);
  (1826, Mod n_CurrentTemperatureCurve [1819; 1355; 1089] false [SFrom 1381 n_Curve; SClass n_CurrentTemperatureCurve (Some n_Curve)])(* CIM15/IEC61970/Wires/CurrentTemperatureCurve.py:21-24 *);
  (1827, Mod n_DCLineSegment [1819; 1355; 1089] false [SFrom 1824 n_Conductor; SClass n_DCLineSegment (Some n_Conductor)])(* CIM15/IEC61970/Wires/DCLineSegment.py:21-23 *);
  (1828, Mod n_Disconnector [1819; 1355; 1089] false [SFrom 1868 n_Switch; SClass n_Disconnector (Some n_Switch)])(* CIM15/IEC61970/Wires/Disconnector.py:21-23 *);
  (1829, Mod n_EnergyConsumer [1819; 1355; 1089] false [SFrom 1378 n_ConductingEquipment; SClass n_EnergyConsumer (Some n_ConductingEquipment)])(* CIM15/IEC61970/Wires/EnergyConsumer.py:21-23 *);
  (1830, Mod n_EnergySource [1819; 1355; 1089] false [SFrom 1378 n_ConductingEquipment; SClass n_EnergySource (Some n_ConductingEquipment)])(* CIM15/IEC61970/Wires/EnergySource.py:21-23 *);
  (1831, Mod n_FrequencyConverter [1819; 1355; 1089] false [SFrom 1860 n_RegulatingCondEq; SClass n_FrequencyConverter (Some n_RegulatingCondEq)])(* CIM15/IEC61970/Wires/FrequencyConverter.py:21-23 *);
  (1832, Mod n_Fuse [1819; 1355; 1089] false [SFrom 1868 n_Switch; SClass n_Fuse (Some n_Switch)])(* CIM15/IEC61970/Wires/Fuse.py:21-23 *);
  (1833, Mod n_Ground [1819; 1355; 1089] false [SFrom 1378 n_ConductingEquipment; SClass n_Ground (Some n_ConductingEquipment)])(* CIM15/IEC61970/Wires/Ground.py:21-23 *);
  (1834, Mod n_GroundDisconnector [1819; 1355; 1089] false [SFrom 1868 n_Switch; SClass n_GroundDisconnector (Some n_Switch)])(* CIM15/IEC61970/Wires/GroundDisconnector.py:21-23 *);
  (1835, Mod n_Jumper [1819; 1355; 1089] false [SFrom 1868 n_Switch; SClass n_Jumper (Some n_Switch)])(* CIM15/IEC61970/Wires/Jumper.py:21-23 *);
  (1836, Mod n_Junction [1819; 1355; 1089] false [SFrom 1825 n_Connector; SClass n_Junction (Some n_Connector)])(* CIM15/IEC61970/Wires/Junction.py:21-23 *);
  (1837, Mod n_Line [1819; 1355; 1089] false [SFrom 1384 n_EquipmentContainer; SClass n_Line (Some n_EquipmentContainer)])(* CIM15/IEC61970/Wires/Line.py:21-23 *);
  (1838, Mod n_LoadBreakSwitch [1819; 1355; 1089] false [SFrom 1853 n_ProtectedSwitch; SClass n_LoadBreakSwitch (Some n_ProtectedSwitch)])(* CIM15/IEC61970/Wires/LoadBreakSwitch.py:21-23 *);
  (1839, Mod n_MutualCoupling [1819; 1355; 1089] false [SFrom 1386 n_IdentifiedObject; SClass n_MutualCoupling (Some n_IdentifiedObject)])(* CIM15/IEC61970/Wires/MutualCoupling.py:21-23 *);
  (1840, Mod n_PerLengthPhaseImpedance [1819; 1355; 1089] false [SFrom 1386 n_IdentifiedObject; SClass n_PerLengthPhaseImpedance (Some n_IdentifiedObject)])(* CIM15/IEC61970/Wires/PerLengthPhaseImpedance.py:21-23 *);
  (1841, Mod n_PerLengthSequenceImpedance [1819; 1355; 1089] false [SFrom 1386 n_IdentifiedObject; SClass n_PerLengthSequenceImpedance (Some n_IdentifiedObject)])(* CIM15/IEC61970/Wires/PerLengthSequenceImpedance.py:21-23 *);
  (1842, Mod n_PhaseImpedanceData [1819; 1355; 1089] false [SFrom 1243 n_Element; SClass n_PhaseImpedanceData (Some n_Element)])(* CIM15/IEC61970/Wires/PhaseImpedanceData.py:21-23 *);
  (1843, Mod n_PhaseTapChanger [1819; 1355; 1089] false [SFrom 1871 n_TapChanger; SClass n_PhaseTapChanger (Some n_TapChanger)])(* CIM15/IEC61970/Wires/PhaseTapChanger.py:21-23 *);
  (1844, Mod n_PhaseTapChangerAsymetrical [1819; 1355; 1089] false [SFrom 1846 n_PhaseTapChangerNonLinear; SClass n_PhaseTapChangerAsymetrical (Some n_PhaseTapChangerNonLinear)])(* CIM15/IEC61970/Wires/PhaseTapChangerAsymetrical.py:21-23 *);
  (1845, Mod n_PhaseTapChangerLinear [1819; 1355; 1089] false [SFrom 1843 n_PhaseTapChanger; SClass n_PhaseTapChangerLinear (Some n_PhaseTapChanger)])(* CIM15/IEC61970/Wires/PhaseTapChangerLinear.py:21-23 *);
  (1846, Mod n_PhaseTapChangerNonLinear [1819; 1355; 1089] false [SFrom 1843 n_PhaseTapChanger; SClass n_PhaseTapChangerNonLinear (Some n_PhaseTapChanger)])(* CIM15/IEC61970/Wires/PhaseTapChangerNonLinear.py:21-23 *);
  (1847, Mod n_PhaseTapChangerSymetrical [1819; 1355; 1089] false [SFrom 1846 n_PhaseTapChangerNonLinear; SClass n_PhaseTapChangerSymetrical (Some n_PhaseTapChangerNonLinear)])(* CIM15/IEC61970/Wires/PhaseTapChangerSymetrical.py:21-23 *);
  (1848, Mod n_PhaseTapChangerTabular [1819; 1355; 1089] false [SFrom 1243 n_Element; SClass n_PhaseTapChangerTabular (Some n_Element)])(* CIM15/IEC61970/Wires/PhaseTapChangerTabular.py:21-23 *);
  (1849, Mod n_PhaseTapChangerTabularPoint [1819; 1355; 1089] false [SFrom 1243 n_Element; SClass n_PhaseTapChangerTabularPoint (Some n_Element)])(* CIM15/IEC61970/Wires/PhaseTapChangerTabularPoint.py:21-23 *);
  (1850, Mod n_Plant [1819; 1355; 1089] false [SFrom 1384 n_EquipmentContainer; SClass n_Plant (Some n_EquipmentContainer)])(* CIM15/IEC61970/Wires/Plant.py:21-23 *);
  (1851, Mod n_PowerTransformer [1819; 1355; 1089] false [SFrom 1378 n_ConductingEquipment; SClass n_PowerTransformer (Some n_ConductingEquipment)])(* CIM15/IEC61970/Wires/PowerTransformer.py:21-23 *);
  (1852, Mod n_PowerTransformerEnd [1819; 1355; 1089] false [SFrom 1875 n_TransformerEnd; SClass n_PowerTransformerEnd (Some n_TransformerEnd)])(* CIM15/IEC61970/Wires/PowerTransformerEnd.py:21-23 *);
  (1853, Mod n_ProtectedSwitch [1819; 1355; 1089] false [SFrom 1868 n_Switch; SClass n_ProtectedSwitch (Some n_Switch)])(* CIM15/IEC61970/Wires/ProtectedSwitch.py:21-23 *);
  (1854, Mod n_RatioTapChanger [1819; 1355; 1089] false [SFrom 1871 n_TapChanger; SClass n_RatioTapChanger (Some n_TapChanger)])(* CIM15/IEC61970/Wires/RatioTapChanger.py:21-23 *);
  (1855, Mod n_RatioTapChangerTabular [1819; 1355; 1089] false [SFrom 1243 n_Element; SClass n_RatioTapChangerTabular (Some n_Element)])(* CIM15/IEC61970/Wires/RatioTapChangerTabular.py:21-23 *);
  (1856, Mod n_RatioTapChangerTabularPoint [1819; 1355; 1089] false [SFrom 1243 n_Element; SClass n_RatioTapChangerTabularPoint (Some n_Element)])(* CIM15/IEC61970/Wires/RatioTapChangerTabularPoint.py:21-23 *);
  (1857, Mod n_ReactiveCapabilityCurve [1819; 1355; 1089] false [SFrom 1381 n_Curve; SClass n_ReactiveCapabilityCurve (Some n_Curve)])(* CIM15/IEC61970/Wires/ReactiveCapabilityCurve.py:21-23 *);
  (1858, Mod n_Recloser [1819; 1355; 1089] false [SFrom 1853 n_ProtectedSwitch; SClass n_Recloser (Some n_ProtectedSwitch)])(* CIM15/IEC61970/Wires/Recloser.py:21-23 *);
  (1859, Mod n_RectifierInverter [1819; 1355; 1089] false [SFrom 1378 n_ConductingEquipment; SClass n_RectifierInverter (Some n_ConductingEquipment)])(* CIM15/IEC61970/Wires/RectifierInverter.py:21-23 *);
  (1860, Mod n_RegulatingCondEq [1819; 1355; 1089] false [SFrom 1378 n_ConductingEquipment; SClass n_RegulatingCondEq (Some n_ConductingEquipment)])(* CIM15/IEC61970/Wires/RegulatingCondEq.py:21-23 *);
  (1861, Mod n_RegulatingControl [1819; 1355; 1089] false [SFrom 1395 n_PowerSystemResource; SClass n_RegulatingControl (Some n_PowerSystemResource)])(* CIM15/IEC61970/Wires/RegulatingControl.py:21-23 *);
  (1862, Mod n_RegulationSchedule [1819; 1355; 1089] false [SFrom 1744 n_SeasonDayTypeSchedule; SClass n_RegulationSchedule (Some n_SeasonDayTypeSchedule)])(* CIM15/IEC61970/Wires/RegulationSchedule.py:21-23 *);
  (1863, Mod n_Resistor [1819; 1355; 1089] false [SFrom 1378 n_ConductingEquipment; SClass n_Resistor (Some n_ConductingEquipment)])(* CIM15/IEC61970/Wires/Resistor.py:21-23 *);
  (1864, Mod n_Sectionaliser [1819; 1355; 1089] false [SFrom 1868 n_Switch; SClass n_Sectionaliser (Some n_Switch)])(* CIM15/IEC61970/Wires/Sectionaliser.py:21-23 *);
  (1865, Mod n_SeriesCompensator [1819; 1355; 1089] false [SFrom 1378 n_ConductingEquipment; SClass n_SeriesCompensator (Some n_ConductingEquipment)])(* CIM15/IEC61970/Wires/SeriesCompensator.py:21-23 *);
  (1866, Mod n_ShuntCompensator [1819; 1355; 1089] false [SFrom 1860 n_RegulatingCondEq; SClass n_ShuntCompensator (Some n_RegulatingCondEq)])(* CIM15/IEC61970/Wires/ShuntCompensator.py:21-23 *);
  (1867, Mod n_StaticVarCompensator [1819; 1355; 1089] false [SFrom 1860 n_RegulatingCondEq; SClass n_StaticVarCompensator (Some n_RegulatingCondEq)])(* CIM15/IEC61970/Wires/StaticVarCompensator.py:21-23 *);
  (1868, Mod n_Switch [1819; 1355; 1089] false [SFrom 1378 n_ConductingEquipment; SClass n_Switch (Some n_ConductingEquipment)])(* CIM15/IEC61970/Wires/Switch.py:21-23 *);
  (1869, Mod n_SwitchSchedule [1819; 1355; 1089] false [SFrom 1744 n_SeasonDayTypeSchedule; SClass n_SwitchSchedule (Some n_SeasonDayTypeSchedule)])(* CIM15/IEC61970/Wires/SwitchSchedule.py:21-23 *);
  (1870, Mod n_SynchronousMachine [1819; 1355; 1089] false [SFrom 1860 n_RegulatingCondEq; SClass n_SynchronousMachine (Some n_RegulatingCondEq)])(* CIM15/IEC61970/Wires/SynchronousMachine.py:21-23 *);
  (1871, Mod n_TapChanger [1819; 1355; 1089] false [SFrom 1395 n_PowerSystemResource; SClass n_TapChanger (Some n_PowerSystemResource)])(* CIM15/IEC61970/Wires/TapChanger.py:21-23 *);
  (1872, Mod n_TapChangerControl [1819; 1355; 1089] false [SFrom 1861 n_RegulatingControl; SClass n_TapChangerControl (Some n_RegulatingControl)])(* CIM15/IEC61970/Wires/TapChangerControl.py:21-23 *);
  (1873, Mod n_TapSchedule [1819; 1355; 1089] false [SFrom 1744 n_SeasonDayTypeSchedule; SClass n_TapSchedule (Some n_SeasonDayTypeSchedule)])(* CIM15/IEC61970/Wires/TapSchedule.py:21-23 *);
  (1874, Mod n_TransformerCoreAdmittance [1819; 1355; 1089] false [SFrom 1386 n_IdentifiedObject; SClass n_TransformerCoreAdmittance (Some n_IdentifiedObject)])(* CIM15/IEC61970/Wires/TransformerCoreAdmittance.py:21-23 *);
  (1875, Mod n_TransformerEnd [1819; 1355; 1089] false [SFrom 1386 n_IdentifiedObject; SClass n_TransformerEnd (Some n_IdentifiedObject)])(* CIM15/IEC61970/Wires/TransformerEnd.py:21-23 *);
  (1876, Mod n_TransformerMeshImpedance [1819; 1355; 1089] false [SFrom 1386 n_IdentifiedObject; SClass n_TransformerMeshImpedance (Some n_IdentifiedObject)])(* CIM15/IEC61970/Wires/TransformerMeshImpedance.py:21-23 *);
  (1877, Mod n_TransformerStarImpedance [1819; 1355; 1089] false [SFrom 1386 n_IdentifiedObject; SClass n_TransformerStarImpedance (Some n_IdentifiedObject)])(* CIM15/IEC61970/Wires/TransformerStarImpedance.py:21-23 *);
  (1878, Mod n_TransformerTank [1819; 1355; 1089] false [SFrom 1383 n_Equipment; SClass n_TransformerTank (Some n_Equipment)])(* CIM15/IEC61970/Wires/TransformerTank.py:21-23 *);
  (1879, Mod n_TransformerTankEnd [1819; 1355; 1089] false [SFrom 1875 n_TransformerEnd; SClass n_TransformerTankEnd (Some n_TransformerEnd)])(* CIM15/IEC61970/Wires/TransformerTankEnd.py:21-23 *);
  (1880, Mod n_VoltageControlZone [1819; 1355; 1089] false [SFrom 1395 n_PowerSystemResource; SClass n_VoltageControlZone (Some n_PowerSystemResource)])(* CIM15/IEC61970/Wires/VoltageControlZone.py:21-23 *);
  (1881, Mod i_WiresPhaseModel [1355; 1089] true [SFrom 1885 n_SwitchPhase; SFrom 1884 n_ShuntCompensatorPhase; SFrom 1883 n_EnergyConsumerPhase; SFrom 1882 n_ACLineSegmentPhase; SAssign i_nsURI; SAssign i_nsPrefix; SClass n_SinglePhaseKind None])(* CIM15/IEC61970/WiresPhaseModel/__init__.py:22-31 *);
  (1882, Mod n_ACLineSegmentPhase [1881; 1355; 1089] false [SFrom 1395 n_PowerSystemResource; SClass n_ACLineSegmentPhase (Some n_PowerSystemResource)])(* CIM15/IEC61970/WiresPhaseModel/ACLineSegmentPhase.py:21-24 *);
  (1883, Mod n_EnergyConsumerPhase [1881; 1355; 1089] false [SFrom 1395 n_PowerSystemResource; SClass n_EnergyConsumerPhase (Some n_PowerSystemResource)])(* CIM15/IEC61970/WiresPhaseModel/EnergyConsumerPhase.py:21-23 *);
  (1884, Mod n_ShuntCompensatorPhase [1881; 1355; 1089] false [SFrom 1395 n_PowerSystemResource; SClass n_ShuntCompensatorPhase (Some n_PowerSystemResource)])(* CIM15/IEC61970/WiresPhaseModel/ShuntCompensatorPhase.py:21-23 *);
  (1885, Mod n_SwitchPhase [1881; 1355; 1089] false [SFrom 1395 n_PowerSystemResource; SClass n_SwitchPhase (Some n_PowerSystemResource)])(* CIM15/IEC61970/WiresPhaseModel/SwitchPhase.py:21-23 *);
  (1886, Mod i_IEC62325 [1089] true [SFrom 1888 n_MarketParticipant; SFrom 1887 n_IEC62325CIMVersion; SFrom 1889 n_MarketRole; SAssign i_nsURI; SAssign i_nsPrefix; SClass n_MarketRoleKind None])(* CIM15/IEC62325/__init__.py:22-30 *);
  (1887, Mod n_IEC62325CIMVersion [1886; 1089] false [SFrom 1243 n_Element; SClass n_IEC62325CIMVersion (Some n_Element)])(* CIM15/IEC62325/IEC62325CIMVersion.py:21-23 *);
  (1888, Mod n_MarketParticipant [1886; 1089] false [SFrom 1279 n_Organisation; SClass n_MarketParticipant (Some n_Organisation)])(* CIM15/IEC62325/MarketParticipant.py:21-23 *);
  (1889, Mod n_MarketRole [1886; 1089] false [SFrom 1386 n_IdentifiedObject; SClass n_MarketRole (Some n_IdentifiedObject)])(* CIM15/IEC62325/MarketRole.py:21-23 *);
  (1890, Mod n_Package [1089] false [SFrom 1243 n_Element; SClass n_Package (Some n_Element)])(* CIM15/Package.py:21-23 *);
  (1891, Mod i_PackageDependencies [1089] true [SFrom 1892 n_PackageDependenciesCIMVeresion; SAssign i_nsURI; SAssign i_nsPrefix])(* CIM15/PackageDependencies/__init__.py:24-27 *);
  (1892, Mod n_PackageDependenciesCIMVeresion [1891; 1089] false [SFrom 1243 n_Element; SClass n_PackageDependenciesCIMVeresion (Some n_Element)])(* CIM15/PackageDependencies/PackageDependenciesCIMVeresion.py:21-23 *);
  (1893, Mod n_Stereotype [1089] false [SFrom 1243 n_Element; SClass n_Stereotype (Some n_Element)])(* CIM15/Stereotype.py:21-23 *)
].

(** packageMap as it is written, CIM14/__init__.py:30-502: tag to package. *)
Definition cim14_packages : list (name * positive) := [
  (n_CombinedVersion, 1);
  (n_Element, 1);
  (n_IEC61970CIMVersion, 698);
  (n_IdentifiedObject, 709);
  (n_PowerSystemResource, 709);
  (n_Equipment, 709);
  (n_ConductingEquipment, 709);
  (n_Curve, 709);
  (n_BasicIntervalSchedule, 709);
  (n_IrregularIntervalSchedule, 709);
  (n_RegularIntervalSchedule, 709);
  (n_ConnectivityNodeContainer, 709);
  (n_EquipmentContainer, 709);
  (n_CurveData, 709);
  (n_Bay, 709);
  (n_PSRType, 709);
  (n_GeographicalRegion, 709);
  (n_Terminal, 709);
  (n_OperatingParticipant, 709);
  (n_VoltageLevel, 709);
  (n_ConnectivityNode, 709);
  (n_BasePower, 709);
  (n_Unit, 709);
  (n_BaseVoltage, 709);
  (n_SubGeographicalRegion, 709);
  (n_PsrList, 709);
  (n_Substation, 709);
  (n_ReportingGroup, 709);
  (n_ReportingSuperGroup, 709);
  (n_RegularTimePoint, 709);
  (n_IrregularTimePoint, 709);
  (n_OperatingShare, 709);
  (n_PowerTransformer, 1043);
  (n_RegulatingCondEq, 1043);
  (n_FrequencyConverter, 1043);
  (n_ShuntCompensator, 1043);
  (n_HeatExchanger, 1043);
  (n_RegulatingControl, 1043);
  (n_ReactiveCapabilityCurve, 1043);
  (n_Line, 1043);
  (n_Connector, 1043);
  (n_Junction, 1043);
  (n_Ground, 1043);
  (n_Conductor, 1043);
  (n_TransformerWinding, 1043);
  (n_SynchronousMachine, 1043);
  (n_EnergyConsumer, 1043);
  (n_TapChanger, 1043);
  (n_RatioTapChanger, 1043);
  (n_Switch, 1043);
  (n_ProtectedSwitch, 1043);
  (n_LoadBreakSwitch, 1043);
  (n_ACLineSegment, 1043);
  (n_Plant, 1043);
  (n_RegulationSchedule, 1043);
  (n_WindingTest, 1043);
  (n_PhaseVariationCurve, 1043);
  (n_MutualCoupling, 1043);
  (n_Disconnector, 1043);
  (n_SeriesCompensator, 1043);
  (n_GroundDisconnector, 1043);
  (n_RatioVariationCurve, 1043);
  (n_Resistor, 1043);
  (n_CompositeSwitch, 1043);
  (n_PhaseTapChanger, 1043);
  (n_RectifierInverter, 1043);
  (n_StaticVarCompensator, 1043);
  (n_TapSchedule, 1043);
  (n_VoltageControlZone, 1043);
  (n_EnergySource, 1043);
  (n_Fuse, 1043);
  (n_Jumper, 1043);
  (n_ImpedanceVariationCurve, 1043);
  (n_DCLineSegment, 1043);
  (n_SwitchSchedule, 1043);
  (n_Breaker, 1043);
  (n_BusbarSection, 1043);
  (n_TopologicalIsland, 1030);
  (n_StateVariable, 1030);
  (n_SvVoltage, 1030);
  (n_SvShortCircuit, 1030);
  (n_SvShuntCompensatorSections, 1030);
  (n_SvPowerFlow, 1030);
  (n_SvStatus, 1030);
  (n_SvTapStep, 1030);
  (n_SvInjection, 1030);
  (n_ClearanceTag, 1012);
  (n_ClearanceTagType, 1012);
  (n_OutageSchedule, 1012);
  (n_SwitchingOperation, 1012);
  (n_SteamSupply, 902);
  (n_FossilSteamSupply, 902);
  (n_HeatRecoveryBoiler, 902);
  (n_PWRSteamSupply, 902);
  (n_PrimeMover, 902);
  (n_Supercritical, 902);
  (n_CombustionTurbine, 902);
  (n_HydroTurbine, 902);
  (n_Subcritical, 902);
  (n_CTTempActivePowerCurve, 902);
  (n_SteamTurbine, 902);
  (n_DrumBoiler, 902);
  (n_BWRSteamSupply, 902);
  (n_LevelVsVolumeCurve, 916);
  (n_FossilFuel, 916);
  (n_SteamSendoutSchedule, 916);
  (n_EmissionCurve, 916);
  (n_CombinedCyclePlant, 916);
  (n_StartIgnFuelCurve, 916);
  (n_HydroGeneratingEfficiencyCurve, 916);
  (n_StartRampCurve, 916);
  (n_GeneratingUnit, 916);
  (n_NuclearGeneratingUnit, 916);
  (n_WindGeneratingUnit, 916);
  (n_StartMainFuelCurve, 916);
  (n_StartupModel, 916);
  (n_AirCompressor, 916);
  (n_HeatInputCurve, 916);
  (n_CogenerationPlant, 916);
  (n_ShutdownCurve, 916);
  (n_InflowForecast, 916);
  (n_HydroGeneratingUnit, 916);
  (n_TargetLevelSchedule, 916);
  (n_EmissionAccount, 916);
  (n_GrossToNetActivePowerCurve, 916);
  (n_HydroPumpOpSchedule, 916);
  (n_Reservoir, 916);
  (n_CAESPlant, 916);
  (n_GenUnitOpCostCurve, 916);
  (n_PenstockLossCurve, 916);
  (n_HydroPump, 916);
  (n_GenUnitOpSchedule, 916);
  (n_FuelAllocationSchedule, 916);
  (n_HeatRateCurve, 916);
  (n_IncrementalHeatRateCurve, 916);
  (n_ThermalGeneratingUnit, 916);
  (n_TailbayLossCurve, 916);
  (n_HydroPowerPlant, 916);
  (n_PowerCutZone, 957);
  (n_LoadResponseCharacteristic, 957);
  (n_EnergyArea, 957);
  (n_LoadArea, 957);
  (n_StationSupply, 957);
  (n_SubLoadArea, 957);
  (n_LoadGroup, 957);
  (n_NonConformLoadGroup, 957);
  (n_SeasonDayTypeSchedule, 957);
  (n_Season, 957);
  (n_ConformLoadSchedule, 957);
  (n_NonConformLoad, 957);
  (n_ConformLoad, 957);
  (n_NonConformLoadSchedule, 957);
  (n_DayType, 957);
  (n_ConformLoadGroup, 957);
  (n_OperationalLimit, 1002);
  (n_CurrentLimit, 1002);
  (n_BranchGroup, 1002);
  (n_BranchGroupTerminal, 1002);
  (n_ApparentPowerLimit, 1002);
  (n_OperationalLimitSet, 1002);
  (n_VoltageLimit, 1002);
  (n_ActivePowerLimit, 1002);
  (n_OperationalLimitType, 1002);
  (n_MeasurementValue, 974);
  (n_Control, 974);
  (n_Measurement, 974);
  (n_StringMeasurement, 974);
  (n_Discrete, 974);
  (n_CurrentTransformer, 974);
  (n_ValueAliasSet, 974);
  (n_DiscreteValue, 974);
  (n_Limit, 974);
  (n_AnalogLimit, 974);
  (n_LimitSet, 974);
  (n_AccumulatorLimitSet, 974);
  (n_SetPoint, 974);
  (n_Command, 974);
  (n_StringMeasurementValue, 974);
  (n_PotentialTransformer, 974);
  (n_ValueToAlias, 974);
  (n_ControlType, 974);
  (n_Accumulator, 974);
  (n_AnalogLimitSet, 974);
  (n_AccumulatorLimit, 974);
  (n_MeasurementValueSource, 974);
  (n_AnalogValue, 974);
  (n_Analog, 974);
  (n_Quality61850, 974);
  (n_MeasurementValueQuality, 974);
  (n_AccumulatorValue, 974);
  (n_RemotePoint, 1024);
  (n_RemoteControl, 1024);
  (n_RemoteUnit, 1024);
  (n_CommunicationLink, 1024);
  (n_RemoteSource, 1024);
  (n_EquivalentEquipment, 895);
  (n_EquivalentShunt, 895);
  (n_EquivalentBranch, 895);
  (n_EquivalentInjection, 895);
  (n_EquivalentNetwork, 895);
  (n_ContingencyElement, 699);
  (n_ContingencyEquipment, 699);
  (n_Contingency, 699);
  (n_RecloseSequence, 1017);
  (n_ProtectionEquipment, 1017);
  (n_CurrentRelay, 1017);
  (n_SurgeProtector, 1017);
  (n_FaultIndicator, 1017);
  (n_SynchrocheckRelay, 1017);
  (n_AltTieMeas, 703);
  (n_AltGeneratingUnitMeas, 703);
  (n_ControlArea, 703);
  (n_TieFlow, 703);
  (n_ControlAreaGeneratingUnit, 703);
  (n_ModelingAuthority, 954);
  (n_ModelingAuthoritySet, 954);
  (n_TopologicalNode, 1040);
  (n_BusNameMarker, 1040);
  (n_BlockConnection, 740);
  (n_RotatingMachine, 740);
  (n_AsynchronousMachine, 740);
  (n_BlockUsageInputReference, 740);
  (n_MetaBlockConnectable, 740);
  (n_MetaBlockOutput, 740);
  (n_MetaBlockConOutput, 740);
  (n_MetaBlock, 740);
  (n_MetaBlockInput, 740);
  (n_SlotReference, 740);
  (n_MetaBlockInputReference, 740);
  (n_MetaBlockParameter, 740);
  (n_MetaBlockParameterReference, 740);
  (n_CompositeModel, 740);
  (n_BlockInputType, 740);
  (n_BlockConnectivity, 740);
  (n_SlotInput, 740);
  (n_MetaBlockSignal, 740);
  (n_MetaBlockStateReference, 740);
  (n_BlockConstant, 740);
  (n_SourceModels, 740);
  (n_SlotConnection, 740);
  (n_Block, 740);
  (n_ConnectionFrame, 740);
  (n_MetaBlockConInput, 740);
  (n_StaticVarDevice, 740);
  (n_AttributeBlockParameter, 740);
  (n_UserBlockParameter, 740);
  (n_MetaBlockConnection, 740);
  (n_Slot, 740);
  (n_MetaBlockReference, 740);
  (n_BlockInputReference, 740);
  (n_BlockParameter, 740);
  (n_MetaBlockConSignal, 740);
  (n_BlockOutputReference, 740);
  (n_ExcitationSystemLimiter, 740);
  (n_BlockType, 740);
  (n_SlotOutput, 740);
  (n_ProtectiveDevice, 740);
  (n_MetaBlockState, 740);
  (n_BlockUsageOutputReference, 740);
  (n_TieToMeasurement, 740);
  (n_MetaBlockConnectivity, 740);
  (n_MetaBlockOutputReference, 740);
  (n_BlockOutputType, 740);
  (n_MechanicalLoad, 824);
  (n_MotorSync, 824);
  (n_MechLoad1, 824);
  (n_MotorAsync, 824);
  (n_ExcitationSystem, 758);
  (n_ExcDC4B, 758);
  (n_ExcAC1A, 758);
  (n_ExcSEXS, 758);
  (n_ExcAC6A, 758);
  (n_ExcDC3A, 758);
  (n_ExcBBC, 758);
  (n_ExcST7B, 758);
  (n_ExcSCRX, 758);
  (n_ExcAC5A, 758);
  (n_ExcREXS, 758);
  (n_ExcELIN1, 758);
  (n_ExcST3A, 758);
  (n_ExcSK2, 758);
  (n_ExcPIC, 758);
  (n_ExcST5B, 758);
  (n_ExcCZ, 758);
  (n_ExcST1A, 758);
  (n_ExcDC1A, 758);
  (n_ExcAC3A, 758);
  (n_ExcAC4A, 758);
  (n_ExcAC2A, 758);
  (n_ExcWT2E, 758);
  (n_ExcDC2A, 758);
  (n_ExcAC8B, 758);
  (n_ExcST2A, 758);
  (n_ExcHU, 758);
  (n_ExcBAS, 758);
  (n_ExcSK, 758);
  (n_ExcWT3E, 758);
  (n_ExcST6B, 758);
  (n_ExcELIN2, 758);
  (n_ExcST4B, 758);
  (n_ExcAC7B, 758);
  (n_ExcWT4E, 758);
  (n_TurbineGovernor, 852);
  (n_GovSteamFV2, 852);
  (n_GovWT3P, 852);
  (n_GovSteamSGO, 852);
  (n_GovGASM, 852);
  (n_GovHydroR, 852);
  (n_GovWT4T, 852);
  (n_GovGAST2, 852);
  (n_GovSteamCC, 852);
  (n_GovRAV, 852);
  (n_GovSteam1, 852);
  (n_TLCFB1, 852);
  (n_GovHydro4, 852);
  (n_GovCT2, 852);
  (n_GovHydro1, 852);
  (n_GovGAST, 852);
  (n_GovWT3T, 852);
  (n_GovHydroWPID, 852);
  (n_GovWT1T, 852);
  (n_GovWT2T, 852);
  (n_Class1, 852);
  (n_GovWT4P, 852);
  (n_GovHydroPID, 852);
  (n_GovHydroWEH, 852);
  (n_GovHydroDD, 852);
  (n_GovWT1P, 852);
  (n_GovWT2P, 852);
  (n_GovSteamEU, 852);
  (n_GovHydro3, 852);
  (n_GovSteam0, 852);
  (n_GovHydroPID2, 852);
  (n_GovHydro2, 852);
  (n_GovCT1, 852);
  (n_GovHydro0, 852);
  (n_GovGASTWD, 852);
  (n_GovSteamFV3, 852);
  (n_GovDUM, 852);
  (n_GenLoad, 794);
  (n_GenEquiv, 794);
  (n_GenAsync, 794);
  (n_PowerSystemStabilizer, 829);
  (n_PssIEEE3B, 829);
  (n_PssSK, 829);
  (n_PssIEEE4B, 829);
  (n_PssIEEE1A, 829);
  (n_PssPTIST1, 829);
  (n_PssIEEE2B, 829);
  (n_PssSB, 829);
  (n_PssSB4, 829);
  (n_PssSH, 829);
  (n_PssPTIST3, 829);
  (n_PssWSCC, 829);
  (n_AggregateLoad, 798);
  (n_LoadStatic, 798);
  (n_LoadStaticSystem, 798);
  (n_LoadStaticOwner, 798);
  (n_LoadStaticZone, 798);
  (n_LoadStaticBus, 798);
  (n_LoadStaticArea, 798);
  (n_LoadMotor, 798);
  (n_VoltageCompensator, 891);
  (n_VcompCross, 891);
  (n_VcompIEEE, 891);
  (n_IEC61968CIMVersion, 582);
  (n_AssetFunction, 599);
  (n_Asset, 599);
  (n_AssetContainer, 599);
  (n_AcceptanceTest, 599);
  (n_Seal, 599);
  (n_ComMediaAsset, 599);
  (n_DeviceFunction, 637);
  (n_ComFunction, 637);
  (n_Register, 637);
  (n_EndDeviceControl, 637);
  (n_Reading, 637);
  (n_EndDeviceAsset, 637);
  (n_MeterAsset, 637);
  (n_ElectricMeteringFunction, 637);
  (n_EndDeviceGroup, 637);
  (n_Pending, 637);
  (n_IntervalReading, 637);
  (n_MeterReading, 637);
  (n_DemandResponseProgram, 637);
  (n_EndDeviceEvent, 637);
  (n_DynamicDemand, 637);
  (n_MeterServiceWork, 637);
  (n_ServiceDeliveryPoint, 637);
  (n_ReadingType, 637);
  (n_SDPLocation, 637);
  (n_ReadingQuality, 637);
  (n_IntervalBlock, 637);
  (n_AssetModel, 583);
  (n_EndDeviceModel, 583);
  (n_WireArrangement, 583);
  (n_DistributionWindingTest, 583);
  (n_ShortCircuitTest, 583);
  (n_TransformerInfo, 583);
  (n_WireType, 583);
  (n_OpenCircuitTest, 583);
  (n_ConductorInfo, 583);
  (n_OverheadConductorInfo, 583);
  (n_CableInfo, 583);
  (n_TapeShieldCableInfo, 583);
  (n_WindingInfo, 583);
  (n_ToWindingSpec, 583);
  (n_ConcentricNeutralCableInfo, 583);
  (n_Organisation, 606);
  (n_Status, 606);
  (n_Document, 606);
  (n_TimeSchedule, 606);
  (n_TownDetail, 606);
  (n_Location, 606);
  (n_PostalAddress, 606);
  (n_PositionPoint, 606);
  (n_ActivityRecord, 606);
  (n_StreetAddress, 606);
  (n_TimePoint, 606);
  (n_Agreement, 606);
  (n_DateTimeInterval, 606);
  (n_StreetDetail, 606);
  (n_ElectronicAddress, 606);
  (n_TelephoneNumber, 606);
  (n_UserAttribute, 606);
  (n_CoordinateSystem, 606);
  (n_ServiceSupplier, 659);
  (n_Shift, 659);
  (n_Tender, 659);
  (n_TariffProfile, 659);
  (n_ConsumptionTariffInterval, 659);
  (n_BankAccountDetail, 659);
  (n_Cheque, 659);
  (n_CashierShift, 659);
  (n_Due, 659);
  (n_AccountingUnit, 659);
  (n_Card, 659);
  (n_AuxiliaryAccount, 659);
  (n_MerchantAgreement, 659);
  (n_LineDetail, 659);
  (n_Transactor, 659);
  (n_MerchantAccount, 659);
  (n_Vendor, 659);
  (n_Transaction, 659);
  (n_Charge, 659);
  (n_VendorShift, 659);
  (n_TimeTariffInterval, 659);
  (n_Cashier, 659);
  (n_PointOfSale, 659);
  (n_Receipt, 659);
  (n_AuxiliaryAgreement, 659);
  (n_AccountMovement, 659);
  (n_TransformerBank, 686);
  (n_PhaseImpedanceData, 686);
  (n_DistributionTapChanger, 686);
  (n_PerLengthPhaseImpedance, 686);
  (n_PerLengthSequenceImpedance, 686);
  (n_WindingPiImpedance, 686);
  (n_DistributionLineSegment, 686);
  (n_DistributionTransformer, 686);
  (n_DistributionTransformerWinding, 686);
  (n_Customer, 625);
  (n_CustomerAccount, 625);
  (n_ServiceCategory, 625);
  (n_PricingStructure, 625);
  (n_ServiceLocation, 625);
  (n_CustomerAgreement, 625);
  (n_Tariff, 625);
  (n_Work, 696);
  (n_RemoteConnectDisconnectInfo, 634);
  (n_ConnectDisconnectFunction, 634)
].

(** packageMap as it is written, CIM15/__init__.py:32-638: tag to package. *)
Definition cim15_packages : list (name * positive) := [
  (n_CombinedVersion, 1089);
  (n_Element, 1089);
  (n_Stereotype, 1089);
  (n_Package, 1089);
  (n_IEC61970CIMVersion, 1355);
  (n_RemoteSource, 1800);
  (n_RemotePoint, 1800);
  (n_RemoteUnit, 1800);
  (n_RemoteControl, 1800);
  (n_CommunicationLink, 1800);
  (n_Reservoir, 1431);
  (n_CogenerationPlant, 1431);
  (n_GenUnitOpSchedule, 1431);
  (n_FuelAllocationSchedule, 1431);
  (n_GrossToNetActivePowerCurve, 1431);
  (n_LevelVsVolumeCurve, 1431);
  (n_StartRampCurve, 1431);
  (n_NuclearGeneratingUnit, 1431);
  (n_EmissionCurve, 1431);
  (n_HydroPumpOpSchedule, 1431);
  (n_SteamSendoutSchedule, 1431);
  (n_TargetLevelSchedule, 1431);
  (n_CombinedCyclePlant, 1431);
  (n_HeatRateCurve, 1431);
  (n_ThermalGeneratingUnit, 1431);
  (n_EmissionAccount, 1431);
  (n_PenstockLossCurve, 1431);
  (n_StartupModel, 1431);
  (n_HydroGeneratingUnit, 1431);
  (n_GenUnitOpCostCurve, 1431);
  (n_IncrementalHeatRateCurve, 1431);
  (n_FossilFuel, 1431);
  (n_GeneratingUnit, 1431);
  (n_StartIgnFuelCurve, 1431);
  (n_StartMainFuelCurve, 1431);
  (n_TailbayLossCurve, 1431);
  (n_HydroPump, 1431);
  (n_InflowForecast, 1431);
  (n_HydroGeneratingEfficiencyCurve, 1431);
  (n_ShutdownCurve, 1431);
  (n_HydroPowerPlant, 1431);
  (n_CAESPlant, 1431);
  (n_AirCompressor, 1431);
  (n_HeatInputCurve, 1431);
  (n_WindGeneratingUnit, 1431);
  (n_BWRSteamSupply, 1417);
  (n_HydroTurbine, 1417);
  (n_SteamTurbine, 1417);
  (n_SteamSupply, 1417);
  (n_FossilSteamSupply, 1417);
  (n_Subcritical, 1417);
  (n_PWRSteamSupply, 1417);
  (n_PrimeMover, 1417);
  (n_CombustionTurbine, 1417);
  (n_HeatRecoveryBoiler, 1417);
  (n_Supercritical, 1417);
  (n_DrumBoiler, 1417);
  (n_CTTempActivePowerCurve, 1417);
  (n_EquipmentItem, 1683);
  (n_Appointment, 1683);
  (n_WorkStatusEntry, 1683);
  (n_BusinessCase, 1683);
  (n_TypeMaterial, 1683);
  (n_DesignLocation, 1683);
  (n_OverheadCost, 1683);
  (n_Crew, 1683);
  (n_DiagnosisDataSet, 1683);
  (n_CUAsset, 1683);
  (n_Request, 1683);
  (n_Design, 1683);
  (n_WorkTask, 1683);
  (n_ConditionFactor, 1683);
  (n_QualificationRequirement, 1683);
  (n_WorkLocation, 1683);
  (n_CostType, 1683);
  (n_CUMaterialItem, 1683);
  (n_PropertyUnit, 1683);
  (n_Project, 1683);
  (n_CULaborItem, 1683);
  (n_LaborItem, 1683);
  (n_WorkFlowStep, 1683);
  (n_InspectionDataSet, 1683);
  (n_WorkCostDetail, 1683);
  (n_CompatibleUnit, 1683);
  (n_WorkCostSummary, 1683);
  (n_NonStandardItem, 1683);
  (n_InfoQuestion, 1683);
  (n_Regulation, 1683);
  (n_ContractorItem, 1683);
  (n_CUAllowableAction, 1683);
  (n_CULaborCode, 1683);
  (n_AccessPermit, 1683);
  (n_CUWorkEquipmentItem, 1683);
  (n_DesignLocationCU, 1683);
  (n_MaintenanceDataSet, 1683);
  (n_MiscCostItem, 1683);
  (n_MaterialItem, 1683);
  (n_ShiftPattern, 1683);
  (n_Capability, 1683);
  (n_Usage, 1683);
  (n_OneCallRequest, 1683);
  (n_Assignment, 1683);
  (n_CUContractorItem, 1683);
  (n_CUGroup, 1683);
  (n_ErpRecDelvLineItem, 1560);
  (n_ErpLedgerBudget, 1560);
  (n_ErpTimeEntry, 1560);
  (n_ErpCompetency, 1560);
  (n_ErpPurchaseOrder, 1560);
  (n_ErpEngChangeOrder, 1560);
  (n_ErpProjectAccounting, 1560);
  (n_ErpRecLineItem, 1560);
  (n_ErpPayableLineItem, 1560);
  (n_ErpLedBudLineItem, 1560);
  (n_ErpRequisition, 1560);
  (n_ErpOrganisation, 1560);
  (n_ErpInvoice, 1560);
  (n_DocErpPersonRole, 1560);
  (n_ErpBankAccount, 1560);
  (n_ErpQuote, 1560);
  (n_ErpPerson, 1560);
  (n_ErpItemMaster, 1560);
  (n_ErpBOM, 1560);
  (n_ErpInventoryCount, 1560);
  (n_ErpIssueInventory, 1560);
  (n_ErpPayable, 1560);
  (n_ErpLedger, 1560);
  (n_ErpPOLineItem, 1560);
  (n_ErpLedgerEntry, 1560);
  (n_ErpPayment, 1560);
  (n_ErpReceivable, 1560);
  (n_DocOrgRole, 1560);
  (n_ErpReqLineItem, 1560);
  (n_ErpTimeSheet, 1560);
  (n_ErpInventory, 1560);
  (n_ErpChartOfAccounts, 1560);
  (n_ErpSiteLevelData, 1560);
  (n_OrgErpPersonRole, 1560);
  (n_ErpReceiveDelivery, 1560);
  (n_ErpSalesOrder, 1560);
  (n_ErpJournalEntry, 1560);
  (n_ErpInvoiceLineItem, 1560);
  (n_OrgOrgRole, 1560);
  (n_ErpJournal, 1560);
  (n_ErpPersonnel, 1560);
  (n_ErpQuoteLineItem, 1560);
  (n_ErpBomItemData, 1560);
  (n_Role, 1534);
  (n_Bank, 1534);
  (n_Skill, 1534);
  (n_BusinessRole, 1534);
  (n_ScheduledEvent, 1534);
  (n_ScheduleParameterInfo, 1534);
  (n_DocPsrRole, 1534);
  (n_Ratio, 1534);
  (n_BankAccount, 1534);
  (n_Craft, 1534);
  (n_DocDocRole, 1534);
  (n_BusinessPlan, 1534);
  (n_FACTSDevice, 1480);
  (n_DocAssetRole, 1480);
  (n_DuctBank, 1480);
  (n_ConductorAsset, 1480);
  (n_FinancialInfo, 1480);
  (n_ProtectionEquipmentInfo, 1480);
  (n_ProcedureDataSet, 1480);
  (n_WindingInsulation, 1480);
  (n_Specification, 1480);
  (n_UndergroundStructure, 1480);
  (n_PotentialTransformerInfo, 1480);
  (n_Structure, 1480);
  (n_CurrentTransformerInfo, 1480);
  (n_BushingInsulationPF, 1480);
  (n_Joint, 1480);
  (n_ElectricalInfo, 1480);
  (n_WorkEquipment, 1480);
  (n_FaultIndicatorInfo, 1480);
  (n_Duct, 1480);
  (n_PowerRating, 1480);
  (n_AssetAssetRole, 1480);
  (n_TransformerAsset, 1480);
  (n_Procedure, 1480);
  (n_BreakerInfo, 1480);
  (n_CompositeSwitchInfo, 1480);
  (n_Cabinet, 1480);
  (n_Bushing, 1480);
  (n_Vehicle, 1480);
  (n_SurgeProtectorInfo, 1480);
  (n_StructureSupport, 1480);
  (n_ComEquipment, 1480);
  (n_AssetPropertyCurve, 1480);
  (n_FailureEvent, 1480);
  (n_DimensionsInfo, 1480);
  (n_Tower, 1480);
  (n_MountingConnection, 1480);
  (n_Medium, 1480);
  (n_RecloserInfo, 1480);
  (n_Facility, 1480);
  (n_ShuntImpedanceInfo, 1480);
  (n_ShuntCompensatorInfo, 1480);
  (n_MountingPoint, 1480);
  (n_SubstationAsset, 1480);
  (n_Streetlight, 1480);
  (n_Tool, 1480);
  (n_SVC, 1480);
  (n_OrgAssetRole, 1480);
  (n_TestDataSet, 1480);
  (n_GenericAssetModelOrMaterial, 1480);
  (n_ReliabilityInfo, 1480);
  (n_TransformerObservation, 1480);
  (n_Pole, 1480);
  (n_SwitchInfo, 1480);
  (n_StandardIndustryCode, 1550);
  (n_OutageHistory, 1550);
  (n_ComplianceEvent, 1550);
  (n_CustomerBillingInfo, 1550);
  (n_ServiceGuarantee, 1550);
  (n_SubscribePowerCurve, 1550);
  (n_ExternalCustomerAgreement, 1550);
  (n_PowerQualityPricing, 1550);
  (n_WorkBillingInfo, 1550);
  (n_OutageRecord, 1655);
  (n_OutageReport, 1655);
  (n_ChangeItem, 1655);
  (n_PSREvent, 1655);
  (n_PlannedOutage, 1655);
  (n_CircuitSection, 1655);
  (n_SafetyDocument, 1655);
  (n_OperationalRestriction, 1655);
  (n_ChangeSet, 1655);
  (n_SwitchingSchedule, 1655);
  (n_Circuit, 1655);
  (n_NetworkDataSet, 1655);
  (n_OutageStep, 1655);
  (n_OrgPsrRole, 1655);
  (n_OutageCode, 1655);
  (n_IncidentCode, 1655);
  (n_LandBase, 1655);
  (n_ErpPersonScheduleStepRole, 1655);
  (n_SwitchingStep, 1655);
  (n_CallBack, 1655);
  (n_TroubleTicket, 1655);
  (n_IncidentRecord, 1655);
  (n_OutageNotification, 1655);
  (n_OutageStepPsrRole, 1655);
  (n_LocationGrant, 1641);
  (n_RightOfWay, 1641);
  (n_PersonPropertyRole, 1641);
  (n_Zone, 1641);
  (n_RedLine, 1641);
  (n_Route, 1641);
  (n_OrgPropertyRole, 1641);
  (n_Direction, 1641);
  (n_LandProperty, 1641);
  (n_Hazard, 1641);
  (n_GmlFeatureType, 1604);
  (n_Map, 1604);
  (n_GmlPointGeometry, 1604);
  (n_GmlHalo, 1604);
  (n_GmlColour, 1604);
  (n_GmlFont, 1604);
  (n_GmlPolygonSymbol, 1604);
  (n_GmlStroke, 1604);
  (n_GmlBaseSymbol, 1604);
  (n_GmlPosition, 1604);
  (n_GmlTextSymbol, 1604);
  (n_GmlPolygonGeometry, 1604);
  (n_GmlObservation, 1604);
  (n_GmlMark, 1604);
  (n_GmlGraphic, 1604);
  (n_GmlLabelPlacement, 1604);
  (n_GmlGeometryStyle, 1604);
  (n_GmlLineGeometry, 1604);
  (n_GmlValue, 1604);
  (n_GmlLineSymbol, 1604);
  (n_GmlDiagramObject, 1604);
  (n_GmlPointSymbol, 1604);
  (n_GmlTopologyStyle, 1604);
  (n_GmlSelector, 1604);
  (n_GmlSvgParameter, 1604);
  (n_GmlLabelStyle, 1604);
  (n_GmlFill, 1604);
  (n_Diagram, 1604);
  (n_GmlSymbol, 1604);
  (n_GmlFeatureStyle, 1604);
  (n_GmlRasterSymbol, 1604);
  (n_ModelingAuthority, 1547);
  (n_ModelingAuthoritySet, 1547);
  (n_LoadMgmtRecord, 1636);
  (n_LoadShedFunction, 1636);
  (n_LoadMgmtFunction, 1636);
  (n_LoadLimitFunction, 1636);
  (n_GasMeteringFunction, 1652);
  (n_WaterMeteringFunction, 1652);
  (n_AssetModelCatalogue, 1476);
  (n_TransformerAssetModel, 1476);
  (n_AssetModelCatalogueItem, 1476);
  (n_TypeAssetCatalogue, 1680);
  (n_GeneratorTypeAsset, 1680);
  (n_SvVoltage, 1806);
  (n_SvShortCircuit, 1806);
  (n_SvShuntCompensatorSections, 1806);
  (n_StateVariable, 1806);
  (n_SvTapStep, 1806);
  (n_SvStatus, 1806);
  (n_SvInjection, 1806);
  (n_SvPowerFlow, 1806);
  (n_TopologicalIsland, 1806);
  (n_PhaseImpedanceData, 1819);
  (n_TapSchedule, 1819);
  (n_TransformerStarImpedance, 1819);
  (n_Recloser, 1819);
  (n_RatioTapChangerTabularPoint, 1819);
  (n_PhaseTapChangerTabular, 1819);
  (n_RatioTapChanger, 1819);
  (n_PhaseTapChangerLinear, 1819);
  (n_ACLineSegment, 1819);
  (n_ACLineSegmentPhase, 1881);
  (n_PowerTransformerEnd, 1819);
  (n_Junction, 1819);
  (n_RegulatingCondEq, 1819);
  (n_Sectionaliser, 1819);
  (n_RatioTapChangerTabular, 1819);
  (n_PowerTransformer, 1819);
  (n_Fuse, 1819);
  (n_EnergyConsumer, 1819);
  (n_Disconnector, 1819);
  (n_Connector, 1819);
  (n_ReactiveCapabilityCurve, 1819);
  (n_Plant, 1819);
  (n_GroundDisconnector, 1819);
  (n_Resistor, 1819);
  (n_SynchronousMachine, 1819);
  (n_PhaseTapChangerAsymetrical, 1819);
  (n_RectifierInverter, 1819);
  (n_SeriesCompensator, 1819);
  (n_TapChangerControl, 1819);
  (n_RegulatingControl, 1819);
  (n_ProtectedSwitch, 1819);
  (n_PhaseTapChanger, 1819);
  (n_Ground, 1819);
  (n_CompositeSwitch, 1819);
  (n_RegulationSchedule, 1819);
  (n_TransformerTankEnd, 1819);
  (n_Breaker, 1819);
  (n_MutualCoupling, 1819);
  (n_Line, 1819);
  (n_PerLengthPhaseImpedance, 1819);
  (n_FrequencyConverter, 1819);
  (n_ShuntCompensator, 1819);
  (n_VoltageControlZone, 1819);
  (n_LoadBreakSwitch, 1819);
  (n_BusbarSection, 1819);
  (n_TransformerEnd, 1819);
  (n_TransformerCoreAdmittance, 1819);
  (n_StaticVarCompensator, 1819);
  (n_Switch, 1819);
  (n_PerLengthSequenceImpedance, 1819);
  (n_TransformerMeshImpedance, 1819);
  (n_SwitchSchedule, 1819);
  (n_EnergySource, 1819);
  (n_TransformerTank, 1819);
  (n_PhaseTapChangerTabularPoint, 1819);
  (n_DCLineSegment, 1819);
  (n_TapChanger, 1819);
  (n_Conductor, 1819);
  (n_PhaseTapChangerNonLinear, 1819);
  (n_PhaseTapChangerSymetrical, 1819);
  (n_Jumper, 1819);
  (n_AccumulatorLimit, 1747);
  (n_ValueToAlias, 1747);
  (n_MeasurementValueSource, 1747);
  (n_Analog, 1747);
  (n_AnalogValue, 1747);
  (n_Measurement, 1747);
  (n_ControlType, 1747);
  (n_StringMeasurementValue, 1747);
  (n_StringMeasurement, 1747);
  (n_AnalogLimit, 1747);
  (n_SetPoint, 1747);
  (n_Limit, 1747);
  (n_Discrete, 1747);
  (n_ValueAliasSet, 1747);
  (n_Quality61850, 1747);
  (n_AccumulatorValue, 1747);
  (n_Command, 1747);
  (n_Accumulator, 1747);
  (n_MeasurementValueQuality, 1747);
  (n_MeasurementValue, 1747);
  (n_DiscreteValue, 1747);
  (n_AnalogLimitSet, 1747);
  (n_LimitSet, 1747);
  (n_AccumulatorLimitSet, 1747);
  (n_Control, 1747);
  (n_ConformLoad, 1730);
  (n_ConformLoadGroup, 1730);
  (n_SeasonDayTypeSchedule, 1730);
  (n_LoadGroup, 1730);
  (n_ConformLoadSchedule, 1730);
  (n_LoadArea, 1730);
  (n_PowerCutZone, 1730);
  (n_LoadResponseCharacteristic, 1730);
  (n_NonConformLoad, 1730);
  (n_StationSupply, 1730);
  (n_EnergyArea, 1730);
  (n_NonConformLoadSchedule, 1730);
  (n_NonConformLoadGroup, 1730);
  (n_DayType, 1730);
  (n_SubLoadArea, 1730);
  (n_Season, 1730);
  (n_SwitchPhase, 1881);
  (n_ShuntCompensatorPhase, 1881);
  (n_EnergyConsumerPhase, 1881);
  (n_AltTieMeas, 1367);
  (n_AltGeneratingUnitMeas, 1367);
  (n_TieFlow, 1367);
  (n_ControlArea, 1367);
  (n_ControlAreaGeneratingUnit, 1367);
  (n_PotentialTransformer, 1356);
  (n_Sensor, 1356);
  (n_AuxiliaryEquipment, 1356);
  (n_CurrentTransformer, 1356);
  (n_SurgeProtector, 1356);
  (n_FaultIndicator, 1356);
  (n_DateTimeInterval, 1408);
  (n_PowerSystemResource, 1373);
  (n_NameTypeAuthority, 1373);
  (n_Equipment, 1373);
  (n_ConductingEquipment, 1373);
  (n_RegularTimePoint, 1373);
  (n_ConnectivityNode, 1373);
  (n_PSRType, 1373);
  (n_ConnectivityNodeContainer, 1373);
  (n_Bay, 1373);
  (n_EquipmentContainer, 1373);
  (n_ReportingGroup, 1373);
  (n_BasePower, 1373);
  (n_PsrList, 1373);
  (n_IdentifiedObject, 1373);
  (n_BasicIntervalSchedule, 1373);
  (n_Curve, 1373);
  (n_GeographicalRegion, 1373);
  (n_CurveData, 1373);
  (n_SubGeographicalRegion, 1373);
  (n_NameType, 1373);
  (n_Substation, 1373);
  (n_Name, 1373);
  (n_BaseVoltage, 1373);
  (n_Terminal, 1373);
  (n_IrregularIntervalSchedule, 1373);
  (n_RegularIntervalSchedule, 1373);
  (n_OperatingParticipant, 1373);
  (n_OperatingShare, 1373);
  (n_VoltageLevel, 1373);
  (n_ReportingSuperGroup, 1373);
  (n_IrregularTimePoint, 1373);
  (n_TextDiagramObject, 1467);
  (n_DiagramObjectGluePoint, 1467);
  (n_DiagramObject, 1467);
  (n_DiagramObjectStyle, 1467);
  (n_DiagramObjectPoint, 1467);
  (n_VisibilityLayer, 1467);
  (n_ApparentPowerLimit, 1773);
  (n_ActivePowerLimit, 1773);
  (n_OperationalLimitType, 1773);
  (n_BranchGroup, 1773);
  (n_OperationalLimitSet, 1773);
  (n_ActivePowerLimitSet, 1773);
  (n_CurrentLimit, 1773);
  (n_CurrentLimitSet, 1773);
  (n_ApparentPowerLimitSet, 1773);
  (n_BranchGroupTerminal, 1773);
  (n_VoltageLimitSet, 1773);
  (n_VoltageLimit, 1773);
  (n_OperationalLimit, 1773);
  (n_SwitchingOperation, 1790);
  (n_OutageSchedule, 1790);
  (n_ClearanceTagType, 1790);
  (n_ClearanceTag, 1790);
  (n_Cut, 1405);
  (n_Clamp, 1405);
  (n_RecloseSequence, 1795);
  (n_SynchrocheckRelay, 1795);
  (n_CurrentRelay, 1795);
  (n_ProtectionEquipment, 1795);
  (n_EquivalentShunt, 1410);
  (n_EquivalentEquipment, 1410);
  (n_EquivalentNetwork, 1410);
  (n_EquivalentInjection, 1410);
  (n_EquivalentBranch, 1410);
  (n_ContingencyEquipment, 1363);
  (n_Contingency, 1363);
  (n_ContingencyElement, 1363);
  (n_BusNameMarker, 1816);
  (n_TopologicalNode, 1816);
  (n_IEC61968CIMVersion, 1244);
  (n_PostalAddress, 1272);
  (n_Status, 1272);
  (n_ElectronicAddress, 1272);
  (n_Location, 1272);
  (n_TownDetail, 1272);
  (n_CoordinateSystem, 1272);
  (n_Document, 1272);
  (n_PositionPoint, 1272);
  (n_UserAttribute, 1272);
  (n_StreetAddress, 1272);
  (n_StreetDetail, 1272);
  (n_TimeSchedule, 1272);
  (n_ActivityRecord, 1272);
  (n_TimePoint, 1272);
  (n_Organisation, 1272);
  (n_TelephoneNumber, 1272);
  (n_Agreement, 1272);
  (n_ShortCircuitTest, 1245);
  (n_EndDeviceInfo, 1245);
  (n_WireType, 1245);
  (n_TapeShieldCableInfo, 1245);
  (n_ConductorInfo, 1245);
  (n_TapChangerInfo, 1245);
  (n_TransformerTankInfo, 1245);
  (n_PowerTransformerInfo, 1245);
  (n_OpenCircuitTest, 1245);
  (n_CableInfo, 1245);
  (n_TransformerEndInfo, 1245);
  (n_NoLoadTest, 1245);
  (n_OverheadConductorInfo, 1245);
  (n_ConcentricNeutralCableInfo, 1245);
  (n_WireArrangement, 1245);
  (n_TransformerTest, 1245);
  (n_SDPLocation, 1302);
  (n_Reading, 1302);
  (n_ServiceDeliveryPoint, 1302);
  (n_ElectricMeteringFunction, 1302);
  (n_DemandResponseProgram, 1302);
  (n_ReadingMultiplier, 1302);
  (n_MeterReading, 1302);
  (n_ReadingQuality, 1302);
  (n_EndDeviceEvent, 1302);
  (n_IntervalReading, 1302);
  (n_Meter, 1302);
  (n_MeterServiceWork, 1302);
  (n_PendingCalculation, 1302);
  (n_IntervalBlock, 1302);
  (n_EndDeviceFunction, 1302);
  (n_ComFunction, 1302);
  (n_EndDevice, 1302);
  (n_SimpleEndDeviceFunction, 1302);
  (n_EndDeviceGroup, 1302);
  (n_Register, 1302);
  (n_EndDeviceControl, 1302);
  (n_DynamicDemand, 1302);
  (n_ReadingType, 1302);
  (n_VendorShift, 1326);
  (n_Transactor, 1326);
  (n_CashierShift, 1326);
  (n_TariffProfile, 1326);
  (n_AccountingUnit, 1326);
  (n_Transaction, 1326);
  (n_TimeTariffInterval, 1326);
  (n_Charge, 1326);
  (n_AuxiliaryAgreement, 1326);
  (n_Tender, 1326);
  (n_ServiceSupplier, 1326);
  (n_MerchantAgreement, 1326);
  (n_LineDetail, 1326);
  (n_ConsumptionTariffInterval, 1326);
  (n_Vendor, 1326);
  (n_Cheque, 1326);
  (n_AccountMovement, 1326);
  (n_Shift, 1326);
  (n_Receipt, 1326);
  (n_Due, 1326);
  (n_BankAccountDetail, 1326);
  (n_AuxiliaryAccount, 1326);
  (n_Cashier, 1326);
  (n_Card, 1326);
  (n_MerchantAccount, 1326);
  (n_PointOfSale, 1326);
  (n_ProductAssetModel, 1262);
  (n_AssetModel, 1262);
  (n_Asset, 1262);
  (n_ComMedia, 1262);
  (n_AssetContainer, 1262);
  (n_AssetFunction, 1262);
  (n_Seal, 1262);
  (n_AssetInfo, 1262);
  (n_AcceptanceTest, 1262);
  (n_Work, 1353);
  (n_Tariff, 1290);
  (n_CustomerAccount, 1290);
  (n_ServiceLocation, 1290);
  (n_CustomerAgreement, 1290);
  (n_ServiceCategory, 1290);
  (n_PricingStructure, 1290);
  (n_Customer, 1290);
  (n_ConnectDisconnectFunction, 1299);
  (n_RemoteConnectDisconnectInfo, 1299);
  (n_MarketParticipant, 1886);
  (n_IEC62325CIMVersion, 1886);
  (n_MarketRole, 1886);
  (n_PackageDependenciesCIMVeresion, 1891);
  (n_CurrentTemperatureCurve, 1819);
  (n_CheckPoint, 1773);
  (n_VoltageCheckPoint, 1773);
  (n_VoltageTimeCurve, 1773)
].

(** packageMap as it is written, CIM14/CDPSM/Balanced/__init__.py:29-91: tag to package. *)
Definition cim14_cdpsm_balanced_packages : list (name * positive) := [
  (n_Element, 3);
  (n_DistributionTransformerWinding, 24);
  (n_DistributionLineSegment, 24);
  (n_WindingPiImpedance, 24);
  (n_DistributionTapChanger, 24);
  (n_PerLengthSequenceImpedance, 24);
  (n_TransformerBank, 24);
  (n_PerLengthPhaseImpedance, 24);
  (n_DistributionTransformer, 24);
  (n_PhaseImpedanceData, 24);
  (n_TransformerInfo, 6);
  (n_ToWindingSpec, 6);
  (n_WireArrangement, 6);
  (n_CableInfo, 6);
  (n_OpenCircuitTest, 6);
  (n_ConcentricNeutralCableInfo, 6);
  (n_ConductorInfo, 6);
  (n_DistributionWindingTest, 6);
  (n_WireType, 6);
  (n_WindingInfo, 6);
  (n_OverheadConductorInfo, 6);
  (n_TapeShieldCableInfo, 6);
  (n_ShortCircuitTest, 6);
  (n_GeoLocation, 20);
  (n_Location, 20);
  (n_PositionPoint, 20);
  (n_IEC61970CIMVersion, 34);
  (n_BusbarSection, 60);
  (n_LoadBreakSwitch, 60);
  (n_TapChanger, 60);
  (n_Fuse, 60);
  (n_Junction, 60);
  (n_ACLineSegment, 60);
  (n_Disconnector, 60);
  (n_EnergySource, 60);
  (n_SynchronousMachine, 60);
  (n_RatioTapChanger, 60);
  (n_EnergyConsumer, 60);
  (n_Switch, 60);
  (n_Line, 60);
  (n_ShuntCompensator, 60);
  (n_Breaker, 60);
  (n_Conductor, 60);
  (n_ConnectivityNodeContainer, 35);
  (n_VoltageLevel, 35);
  (n_Bay, 35);
  (n_Equipment, 35);
  (n_BaseVoltage, 35);
  (n_PSRType, 35);
  (n_EquipmentContainer, 35);
  (n_IdentifiedObject, 35);
  (n_Substation, 35);
  (n_ConductingEquipment, 35);
  (n_SubGeographicalRegion, 35);
  (n_Terminal, 35);
  (n_GeographicalRegion, 35);
  (n_PowerSystemResource, 35);
  (n_GeneratingUnit, 51);
  (n_LoadResponseCharacteristic, 54);
  (n_SvTapStep, 56);
  (n_ConnectivityNode, 58)
].

(** packageMap as it is written, CIM14/CDPSM/GIS_Connectivity/__init__.py:29-91: tag to package. *)
Definition cim14_cdpsm_gis_connectivity_packages : list (name * positive) := [
  (n_Element, 77);
  (n_DistributionTransformerWinding, 98);
  (n_DistributionLineSegment, 98);
  (n_WindingPiImpedance, 98);
  (n_DistributionTapChanger, 98);
  (n_PerLengthSequenceImpedance, 98);
  (n_TransformerBank, 98);
  (n_PerLengthPhaseImpedance, 98);
  (n_DistributionTransformer, 98);
  (n_PhaseImpedanceData, 98);
  (n_TransformerInfo, 80);
  (n_ToWindingSpec, 80);
  (n_WireArrangement, 80);
  (n_CableInfo, 80);
  (n_OpenCircuitTest, 80);
  (n_ConcentricNeutralCableInfo, 80);
  (n_ConductorInfo, 80);
  (n_DistributionWindingTest, 80);
  (n_WireType, 80);
  (n_WindingInfo, 80);
  (n_OverheadConductorInfo, 80);
  (n_TapeShieldCableInfo, 80);
  (n_ShortCircuitTest, 80);
  (n_GeoLocation, 94);
  (n_Location, 94);
  (n_PositionPoint, 94);
  (n_IEC61970CIMVersion, 108);
  (n_BusbarSection, 134);
  (n_LoadBreakSwitch, 134);
  (n_TapChanger, 134);
  (n_Fuse, 134);
  (n_Junction, 134);
  (n_ACLineSegment, 134);
  (n_Disconnector, 134);
  (n_EnergySource, 134);
  (n_SynchronousMachine, 134);
  (n_RatioTapChanger, 134);
  (n_EnergyConsumer, 134);
  (n_Switch, 134);
  (n_Line, 134);
  (n_ShuntCompensator, 134);
  (n_Breaker, 134);
  (n_Conductor, 134);
  (n_ConnectivityNodeContainer, 109);
  (n_VoltageLevel, 109);
  (n_Bay, 109);
  (n_Equipment, 109);
  (n_BaseVoltage, 109);
  (n_PSRType, 109);
  (n_EquipmentContainer, 109);
  (n_IdentifiedObject, 109);
  (n_Substation, 109);
  (n_ConductingEquipment, 109);
  (n_SubGeographicalRegion, 109);
  (n_Terminal, 109);
  (n_GeographicalRegion, 109);
  (n_PowerSystemResource, 109);
  (n_GeneratingUnit, 125);
  (n_LoadResponseCharacteristic, 128);
  (n_SvTapStep, 130);
  (n_ConnectivityNode, 132)
].

(** packageMap as it is written, CIM14/CDPSM/Unbalanced/__init__.py:29-91: tag to package. *)
Definition cim14_cdpsm_unbalanced_packages : list (name * positive) := [
  (n_Element, 151);
  (n_DistributionTransformerWinding, 172);
  (n_DistributionLineSegment, 172);
  (n_WindingPiImpedance, 172);
  (n_DistributionTapChanger, 172);
  (n_PerLengthSequenceImpedance, 172);
  (n_TransformerBank, 172);
  (n_PerLengthPhaseImpedance, 172);
  (n_DistributionTransformer, 172);
  (n_PhaseImpedanceData, 172);
  (n_TransformerInfo, 154);
  (n_ToWindingSpec, 154);
  (n_WireArrangement, 154);
  (n_CableInfo, 154);
  (n_OpenCircuitTest, 154);
  (n_ConcentricNeutralCableInfo, 154);
  (n_ConductorInfo, 154);
  (n_DistributionWindingTest, 154);
  (n_WireType, 154);
  (n_WindingInfo, 154);
  (n_OverheadConductorInfo, 154);
  (n_TapeShieldCableInfo, 154);
  (n_ShortCircuitTest, 154);
  (n_GeoLocation, 168);
  (n_Location, 168);
  (n_PositionPoint, 168);
  (n_IEC61970CIMVersion, 182);
  (n_BusbarSection, 208);
  (n_LoadBreakSwitch, 208);
  (n_TapChanger, 208);
  (n_Fuse, 208);
  (n_Junction, 208);
  (n_ACLineSegment, 208);
  (n_Disconnector, 208);
  (n_EnergySource, 208);
  (n_SynchronousMachine, 208);
  (n_RatioTapChanger, 208);
  (n_EnergyConsumer, 208);
  (n_Switch, 208);
  (n_Line, 208);
  (n_ShuntCompensator, 208);
  (n_Breaker, 208);
  (n_Conductor, 208);
  (n_ConnectivityNodeContainer, 183);
  (n_VoltageLevel, 183);
  (n_Bay, 183);
  (n_Equipment, 183);
  (n_BaseVoltage, 183);
  (n_PSRType, 183);
  (n_EquipmentContainer, 183);
  (n_IdentifiedObject, 183);
  (n_Substation, 183);
  (n_ConductingEquipment, 183);
  (n_SubGeographicalRegion, 183);
  (n_Terminal, 183);
  (n_GeographicalRegion, 183);
  (n_PowerSystemResource, 183);
  (n_GeneratingUnit, 199);
  (n_LoadResponseCharacteristic, 202);
  (n_SvTapStep, 204);
  (n_ConnectivityNode, 206)
].

(** packageMap as it is written, CIM14/CPSM/Equipment/__init__.py:30-128: tag to package. *)
Definition cim14_cpsm_equipment_packages : list (name * positive) := [
  (n_Element, 226);
  (n_IEC61970CIMVersion, 226);
  (n_FossilFuel, 261);
  (n_HydroGeneratingUnit, 261);
  (n_GrossToNetActivePowerCurve, 261);
  (n_ThermalGeneratingUnit, 261);
  (n_HydroPump, 261);
  (n_WindGeneratingUnit, 261);
  (n_GeneratingUnit, 261);
  (n_NuclearGeneratingUnit, 261);
  (n_EquivalentShunt, 254);
  (n_EquivalentBranch, 254);
  (n_EquivalentInjection, 254);
  (n_EquivalentEquipment, 254);
  (n_EquivalentNetwork, 254);
  (n_ApparentPowerLimit, 297);
  (n_OperationalLimit, 297);
  (n_CurrentLimit, 297);
  (n_VoltageLimit, 297);
  (n_ActivePowerLimit, 297);
  (n_OperationalLimitSet, 297);
  (n_OperationalLimitType, 297);
  (n_EnergyArea, 271);
  (n_Season, 271);
  (n_SubLoadArea, 271);
  (n_NonConformLoadSchedule, 271);
  (n_LoadResponseCharacteristic, 271);
  (n_ConformLoadSchedule, 271);
  (n_NonConformLoadGroup, 271);
  (n_ConformLoadGroup, 271);
  (n_ConformLoad, 271);
  (n_NonConformLoad, 271);
  (n_StationSupply, 271);
  (n_SeasonDayTypeSchedule, 271);
  (n_LoadArea, 271);
  (n_DayType, 271);
  (n_LoadGroup, 271);
  (n_ControlAreaGeneratingUnit, 227);
  (n_TieFlow, 227);
  (n_ControlArea, 227);
  (n_AccumulatorValue, 287);
  (n_Accumulator, 287);
  (n_Discrete, 287);
  (n_AnalogValue, 287);
  (n_Analog, 287);
  (n_MeasurementValueSource, 287);
  (n_Measurement, 287);
  (n_DiscreteValue, 287);
  (n_MeasurementValue, 287);
  (n_LoadBreakSwitch, 305);
  (n_TransformerWinding, 305);
  (n_SwitchSchedule, 305);
  (n_PhaseVariationCurve, 305);
  (n_RegulatingControl, 305);
  (n_ACLineSegment, 305);
  (n_PhaseTapChanger, 305);
  (n_SeriesCompensator, 305);
  (n_PowerTransformer, 305);
  (n_EnergyConsumer, 305);
  (n_Switch, 305);
  (n_RegulationSchedule, 305);
  (n_ShuntCompensator, 305);
  (n_Conductor, 305);
  (n_BusbarSection, 305);
  (n_TapChanger, 305);
  (n_ImpedanceVariationCurve, 305);
  (n_ReactiveCapabilityCurve, 305);
  (n_Disconnector, 305);
  (n_RatioVariationCurve, 305);
  (n_TapSchedule, 305);
  (n_MutualCoupling, 305);
  (n_SynchronousMachine, 305);
  (n_RatioTapChanger, 305);
  (n_RegulatingCondEq, 305);
  (n_Line, 305);
  (n_StaticVarCompensator, 305);
  (n_Breaker, 305);
  (n_ConnectivityNodeContainer, 231);
  (n_RegularIntervalSchedule, 231);
  (n_RegularTimePoint, 231);
  (n_Bay, 231);
  (n_Equipment, 231);
  (n_EquipmentContainer, 231);
  (n_IdentifiedObject, 231);
  (n_SubGeographicalRegion, 231);
  (n_PowerSystemResource, 231);
  (n_BasicIntervalSchedule, 231);
  (n_Curve, 231);
  (n_VoltageLevel, 231);
  (n_Unit, 231);
  (n_BaseVoltage, 231);
  (n_ConnectivityNode, 231);
  (n_Substation, 231);
  (n_ConductingEquipment, 231);
  (n_Terminal, 231);
  (n_GeographicalRegion, 231);
  (n_CurveData, 231)
].

(** packageMap as it is written, CIM14/CPSM/StateVariables/__init__.py:29-42: tag to package. *)
Definition cim14_cpsm_statevariables_packages : list (name * positive) := [
  (n_Element, 334);
  (n_TopologicalNode, 346);
  (n_Terminal, 335);
  (n_SvTapStep, 338);
  (n_SvInjection, 338);
  (n_SvVoltage, 338);
  (n_TopologicalIsland, 338);
  (n_SvPowerFlow, 338);
  (n_SvShortCircuit, 338);
  (n_SvShuntCompensatorSections, 338);
  (n_ShuntCompensator, 348);
  (n_TapChanger, 348)
].

(** packageMap as it is written, CIM14/CPSM/Topology/__init__.py:29-36: tag to package. *)
Definition cim14_cpsm_topology_packages : list (name * positive) := [
  (n_Element, 351);
  (n_ConnectivityNode, 352);
  (n_Terminal, 352);
  (n_IdentifiedObject, 352);
  (n_BaseVoltage, 352);
  (n_TopologicalNode, 358)
].

(** packageMap as it is written, CIM14/ENTSOE/Dynamics/__init__.py:30-116: tag to package. *)
Definition cim14_entsoe_dynamics_packages : list (name * positive) := [
  (n_Element, 362);
  (n_Thing, 362);
  (n_AssetsAsset, 365);
  (n_CustomersCustomerAgreement, 369);
  (n_CommonLocation, 367);
  (n_CoreEquipment, 374);
  (n_CoreIdentifiedObject, 374);
  (n_CorePSRType, 374);
  (n_CoreBaseVoltage, 374);
  (n_CoreEquipmentContainer, 374);
  (n_CoreTerminal, 374);
  (n_CorePowerSystemResource, 374);
  (n_CoreOperatingShare, 374);
  (n_CoreReportingGroup, 374);
  (n_CoreConductingEquipment, 374);
  (n_CorePsrList, 374);
  (n_ContingencyContingencyEquipment, 372);
  (n_WiresSynchronousMachine, 466);
  (n_WiresRegulatingControl, 466);
  (n_WiresRegulatingCondEq, 466);
  (n_OutageOutageSchedule, 459);
  (n_OutageClearanceTag, 459);
  (n_OperationalLimitsOperationalLimitSet, 457);
  (n_InfCoreModelingAuthoritySet, 452);
  (n_MeasMeasurement, 454);
  (n_MeasControl, 454);
  (n_StateVariablesSvStatus, 464);
  (n_ProtectionProtectionEquipment, 462);
  (n_DynamicsMetaBlockState, 386);
  (n_DynamicsMetaBlockConSignal, 386);
  (n_DynamicsMetaBlockReference, 386);
  (n_DynamicsMetaBlockSignal, 386);
  (n_DynamicsAttributeBlockParameter, 386);
  (n_DynamicsMetaBlockConnection, 386);
  (n_DynamicsMetaBlockConOutput, 386);
  (n_DynamicsMetaBlockInput, 386);
  (n_DynamicsMetaBlockOutputReference, 386);
  (n_DynamicsMetaBlockStateReference, 386);
  (n_DynamicsBlockConnection, 386);
  (n_DynamicsMetaBlockConnectivity, 386);
  (n_DynamicsMetaBlock, 386);
  (n_DynamicsMetaBlockConInput, 386);
  (n_DynamicsMetaBlockParameter, 386);
  (n_DynamicsMetaBlockConnectable, 386);
  (n_DynamicsMetaBlockInputReference, 386);
  (n_DynamicsRotatingMachine, 386);
  (n_DynamicsBlockConnectivity, 386);
  (n_DynamicsMetaBlockParameterReference, 386);
  (n_DynamicsAsynchronousMachine, 386);
  (n_DynamicsBlockParameter, 386);
  (n_DynamicsBlock, 386);
  (n_DynamicsMetaBlockOutput, 386);
  (n_ExcitationSystemsExcDC4B, 411);
  (n_ExcitationSystemsExcDC2A, 411);
  (n_ExcitationSystemsExcDC1A, 411);
  (n_ExcitationSystemsExcAC3A, 411);
  (n_ExcitationSystemsExcAC2A, 411);
  (n_ExcitationSystemsExcAC1A, 411);
  (n_ExcitationSystemsExcAC8B, 411);
  (n_ExcitationSystemsExcST5B, 411);
  (n_ExcitationSystemsExcAC7B, 411);
  (n_ExcitationSystemsExcAC4A, 411);
  (n_ExcitationSystemsExcST4B, 411);
  (n_ExcitationSystemsExcST6B, 411);
  (n_ExcitationSystemsExcAC6A, 411);
  (n_ExcitationSystemsExcAC5A, 411);
  (n_ExcitationSystemsExcSCRX, 411);
  (n_ExcitationSystemsExcSEXS, 411);
  (n_ExcitationSystemsExcST7B, 411);
  (n_ExcitationSystemsExcST2A, 411);
  (n_ExcitationSystemsExcST1A, 411);
  (n_ExcitationSystemsExcDC3A, 411);
  (n_ExcitationSystemsExcST3A, 411);
  (n_GeneratorsGenEquiv, 433);
  (n_TurbineGovernorsGovHydro2, 442);
  (n_TurbineGovernorsGovSteam0, 442);
  (n_TurbineGovernorsGovHydro1, 442);
  (n_TurbineGovernorsGovSteam1, 442);
  (n_TurbineGovernorsGovCT1, 442);
  (n_LoadsLoadStatic, 435);
  (n_LoadsLoadMotor, 435);
  (n_MotorsMechLoad1, 438);
  (n_VoltageCompensatorVcompCross, 448);
  (n_VoltageCompensatorVcompIEEE, 448);
  (n_PowerSystemStabilizersPssIEEE2B, 440)
].

(** packageMap as it is written, CIM14/ENTSOE/Equipment/__init__.py:31-106: tag to package. *)
Definition cim14_entsoe_equipment_packages : list (name * positive) := [
  (n_Element, 471);
  (n_OperationalLimit, 527);
  (n_IEC61970CIMVersion, 471);
  (n_ControlArea, 472);
  (n_ControlAreaGeneratingUnit, 472);
  (n_TieFlow, 472);
  (n_BusbarSection, 533);
  (n_LoadBreakSwitch, 533);
  (n_TapChanger, 533);
  (n_TransformerWinding, 533);
  (n_RegulatingControl, 533);
  (n_ReactiveCapabilityCurve, 533);
  (n_ACLineSegment, 533);
  (n_Disconnector, 533);
  (n_PhaseTapChanger, 533);
  (n_SeriesCompensator, 533);
  (n_MutualCoupling, 533);
  (n_SynchronousMachine, 533);
  (n_RatioTapChanger, 533);
  (n_PowerTransformer, 533);
  (n_EnergyConsumer, 533);
  (n_Switch, 533);
  (n_RegulatingCondEq, 533);
  (n_Line, 533);
  (n_StaticVarCompensator, 533);
  (n_ShuntCompensator, 533);
  (n_Breaker, 533);
  (n_Conductor, 533);
  (n_Measurement, 522);
  (n_MeasurementValueSource, 522);
  (n_MeasurementValue, 522);
  (n_Curve, 476);
  (n_ConnectivityNodeContainer, 476);
  (n_RegularIntervalSchedule, 476);
  (n_VoltageLevel, 476);
  (n_Unit, 476);
  (n_Equipment, 476);
  (n_BaseVoltage, 476);
  (n_ConnectivityNode, 476);
  (n_EquipmentContainer, 476);
  (n_IdentifiedObject, 476);
  (n_Substation, 476);
  (n_ConductingEquipment, 476);
  (n_SubGeographicalRegion, 476);
  (n_Terminal, 476);
  (n_GeographicalRegion, 476);
  (n_PowerSystemResource, 476);
  (n_CurveData, 476);
  (n_BasicIntervalSchedule, 476);
  (n_VoltageLimit, 527);
  (n_CurrentLimit, 527);
  (n_OperationalLimitSet, 527);
  (n_OperationalLimitType, 527);
  (n_EquivalentEquipment, 497);
  (n_EquivalentNetwork, 497);
  (n_WindGeneratingUnit, 501);
  (n_GeneratingUnit, 501);
  (n_FossilFuel, 501);
  (n_NuclearGeneratingUnit, 501);
  (n_HydroGeneratingUnit, 501);
  (n_ThermalGeneratingUnit, 501);
  (n_HydroPump, 501);
  (n_NonConformLoad, 510);
  (n_EnergyArea, 510);
  (n_Season, 510);
  (n_SubLoadArea, 510);
  (n_LoadResponseCharacteristic, 510);
  (n_NonConformLoadGroup, 510);
  (n_SeasonDayTypeSchedule, 510);
  (n_ConformLoadGroup, 510);
  (n_DayType, 510);
  (n_LoadGroup, 510);
  (n_ConformLoad, 510)
].

(** packageMap as it is written, CIM14/ENTSOE/StateVariables/__init__.py:29-41: tag to package. *)
Definition cim14_entsoe_statevariables_packages : list (name * positive) := [
  (n_Element, 556);
  (n_Terminal, 557);
  (n_SvTapStep, 560);
  (n_SvInjection, 560);
  (n_SvVoltage, 560);
  (n_SvPowerFlow, 560);
  (n_SvShortCircuit, 560);
  (n_SvShuntCompensatorSections, 560);
  (n_TopologicalNode, 567);
  (n_ShuntCompensator, 569);
  (n_TapChanger, 569)
].

(** packageMap as it is written, CIM14/ENTSOE/Topology/__init__.py:29-36: tag to package. *)
Definition cim14_entsoe_topology_packages : list (name * positive) := [
  (n_Element, 572);
  (n_Terminal, 573);
  (n_IdentifiedObject, 573);
  (n_BaseVoltage, 573);
  (n_ConnectivityNodeContainer, 573);
  (n_TopologicalNode, 579)
].

(** packageMap as it is written, CIM15/CDPSM/Asset/__init__.py:29-55: tag to package. *)
Definition cim15_cdpsm_asset_packages : list (name * positive) := [
  (n_Element, 1091);
  (n_PerLengthSequenceImpedance, 1114);
  (n_ACLineSegment, 1114);
  (n_TransformerCoreAdmittance, 1114);
  (n_TransformerTank, 1114);
  (n_TransformerTankEnd, 1114);
  (n_TransformerStarImpedance, 1114);
  (n_PerLengthPhaseImpedance, 1114);
  (n_TransformerEnd, 1114);
  (n_NameType, 1110);
  (n_IdentifiedObject, 1110);
  (n_Name, 1110);
  (n_ConductorInfo, 1094);
  (n_WireArrangement, 1094);
  (n_WireType, 1094);
  (n_EndDeviceInfo, 1094);
  (n_OverheadConductorInfo, 1094);
  (n_TapChangerInfo, 1094);
  (n_TransformerTankInfo, 1094);
  (n_CableInfo, 1094);
  (n_ConcentricNeutralCableInfo, 1094);
  (n_TapeShieldCableInfo, 1094);
  (n_TransformerEndInfo, 1094);
  (n_PowerTransformerInfo, 1094);
  (n_AssetInfo, 1107)
].

(** packageMap as it is written, CIM15/CDPSM/Balanced/__init__.py:29-58: tag to package. *)
Definition cim15_cdpsm_balanced_packages : list (name * positive) := [
  (n_Element, 1123);
  (n_PhaseTapChangerLinear, 1135);
  (n_EnergyConsumer, 1135);
  (n_ACLineSegment, 1135);
  (n_TransformerCoreAdmittance, 1135);
  (n_SynchronousMachine, 1135);
  (n_PowerTransformerEnd, 1135);
  (n_PhaseTapChangerAsymetrical, 1135);
  (n_TransformerMeshImpedance, 1135);
  (n_ProtectedSwitch, 1135);
  (n_PhaseTapChangerNonLinear, 1135);
  (n_RatioTapChanger, 1135);
  (n_SeriesCompensator, 1135);
  (n_PhaseTapChanger, 1135);
  (n_TransformerTankEnd, 1135);
  (n_DCLineSegment, 1135);
  (n_TapChanger, 1135);
  (n_PhaseTapChangerSymetrical, 1135);
  (n_TransformerStarImpedance, 1135);
  (n_PowerTransformer, 1135);
  (n_TransformerEnd, 1135);
  (n_EnergySource, 1135);
  (n_ShuntCompensator, 1135);
  (n_LoadResponseCharacteristic, 1133);
  (n_GeneratingUnit, 1131);
  (n_NameType, 1126);
  (n_IdentifiedObject, 1126);
  (n_Name, 1126)
].

(** packageMap as it is written, CIM15/CDPSM/Connectivity/__init__.py:29-76: tag to package. *)
Definition cim15_cdpsm_connectivity_packages : list (name * positive) := [
  (n_Element, 1158);
  (n_Fuse, 1180);
  (n_EnergyConsumer, 1180);
  (n_Switch, 1180);
  (n_Disconnector, 1180);
  (n_ACLineSegment, 1180);
  (n_SynchronousMachine, 1180);
  (n_BusbarSection, 1180);
  (n_LoadBreakSwitch, 1180);
  (n_TransformerTank, 1180);
  (n_GroundDisconnector, 1180);
  (n_PowerTransformerEnd, 1180);
  (n_Junction, 1180);
  (n_SeriesCompensator, 1180);
  (n_Breaker, 1180);
  (n_TransformerTankEnd, 1180);
  (n_Sectionaliser, 1180);
  (n_DCLineSegment, 1180);
  (n_Line, 1180);
  (n_Conductor, 1180);
  (n_PowerTransformer, 1180);
  (n_Ground, 1180);
  (n_TransformerEnd, 1180);
  (n_ShuntCompensator, 1180);
  (n_EnergySource, 1180);
  (n_Jumper, 1180);
  (n_ShuntCompensatorPhase, 1206);
  (n_SwitchPhase, 1206);
  (n_Terminal, 1161);
  (n_Bay, 1161);
  (n_NameTypeAuthority, 1161);
  (n_VoltageLevel, 1161);
  (n_SubGeographicalRegion, 1161);
  (n_PSRType, 1161);
  (n_EquipmentContainer, 1161);
  (n_ConductingEquipment, 1161);
  (n_GeographicalRegion, 1161);
  (n_NameType, 1161);
  (n_Equipment, 1161);
  (n_IdentifiedObject, 1161);
  (n_ConnectivityNodeContainer, 1161);
  (n_Substation, 1161);
  (n_ConnectivityNode, 1161);
  (n_Name, 1161);
  (n_BaseVoltage, 1161);
  (n_PowerSystemResource, 1161)
].

(** packageMap as it is written, CIM15/CDPSM/Geographical/__init__.py:29-57: tag to package. *)
Definition cim15_cdpsm_geographical_packages : list (name * positive) := [
  (n_Element, 1209);
  (n_Fuse, 1224);
  (n_EnergyConsumer, 1224);
  (n_Disconnector, 1224);
  (n_ACLineSegment, 1224);
  (n_SynchronousMachine, 1224);
  (n_BusbarSection, 1224);
  (n_LoadBreakSwitch, 1224);
  (n_GroundDisconnector, 1224);
  (n_SeriesCompensator, 1224);
  (n_Junction, 1224);
  (n_Breaker, 1224);
  (n_DCLineSegment, 1224);
  (n_Line, 1224);
  (n_PowerTransformer, 1224);
  (n_EnergySource, 1224);
  (n_ShuntCompensator, 1224);
  (n_Jumper, 1224);
  (n_ConductingEquipment, 1217);
  (n_NameType, 1217);
  (n_Equipment, 1217);
  (n_IdentifiedObject, 1217);
  (n_Name, 1217);
  (n_PowerSystemResource, 1217);
  (n_Location, 1212);
  (n_CoordinateSystem, 1212);
  (n_PositionPoint, 1212)
].

(** In the order of [Tables.tables]: CIM14/__init__.py, CIM15/__init__.py and the profile packages. *)
Definition packages : list (list (name * positive)) := [cim14_packages; cim15_packages; cim14_cdpsm_balanced_packages; cim14_cdpsm_gis_connectivity_packages; cim14_cdpsm_unbalanced_packages; cim14_cpsm_equipment_packages; cim14_cpsm_statevariables_packages; cim14_cpsm_topology_packages; cim14_entsoe_dynamics_packages; cim14_entsoe_equipment_packages; cim14_entsoe_statevariables_packages; cim14_entsoe_topology_packages; cim15_cdpsm_asset_packages; cim15_cdpsm_balanced_packages; cim15_cdpsm_connectivity_packages; cim15_cdpsm_geographical_packages].
