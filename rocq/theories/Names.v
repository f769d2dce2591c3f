(** Generated by tools/gen_tables.py: the identifiers occurring in the class
    tables of CIM14 and CIM15 as Python strings; do not edit. *)
From Coq Require Import String.
From Verif Require Import PyStr PyHeap.

Definition n_ : name := Eval vm_compute in u "".
Definition n_0_0 : name := Eval vm_compute in u "0.0".
Definition n_A : name := Eval vm_compute in u "A".
Definition n_ABC : name := Eval vm_compute in u "ABC".
Definition n_ACLineSegment : name := Eval vm_compute in u "ACLineSegment".
Definition n_ACLineSegmentPhase : name := Eval vm_compute in u "ACLineSegmentPhase".
Definition n_ACLineSegmentPhases : name := Eval vm_compute in u "ACLineSegmentPhases".
Definition n_ACLineSegments : name := Eval vm_compute in u "ACLineSegments".
Definition n_AcceptanceTest : name := Eval vm_compute in u "AcceptanceTest".
Definition n_AccessPermit : name := Eval vm_compute in u "AccessPermit".
Definition n_AccordingToSchedules : name := Eval vm_compute in u "AccordingToSchedules".
Definition n_AccountMovement : name := Eval vm_compute in u "AccountMovement".
Definition n_AccountingUnit : name := Eval vm_compute in u "AccountingUnit".
Definition n_Accumulator : name := Eval vm_compute in u "Accumulator".
Definition n_AccumulatorLimit : name := Eval vm_compute in u "AccumulatorLimit".
Definition n_AccumulatorLimitSet : name := Eval vm_compute in u "AccumulatorLimitSet".
Definition n_AccumulatorValue : name := Eval vm_compute in u "AccumulatorValue".
Definition n_AccumulatorValues : name := Eval vm_compute in u "AccumulatorValues".
Definition n_ActivePowerLimit : name := Eval vm_compute in u "ActivePowerLimit".
Definition n_ActivePowerLimitSet : name := Eval vm_compute in u "ActivePowerLimitSet".
Definition n_ActivePowerLimits : name := Eval vm_compute in u "ActivePowerLimits".
Definition n_ActivityRecord : name := Eval vm_compute in u "ActivityRecord".
Definition n_ActivityRecords : name := Eval vm_compute in u "ActivityRecords".
Definition n_AggregateLoad : name := Eval vm_compute in u "AggregateLoad".
Definition n_Agreement : name := Eval vm_compute in u "Agreement".
Definition n_AirCompressor : name := Eval vm_compute in u "AirCompressor".
Definition n_AltGeneratingUnit : name := Eval vm_compute in u "AltGeneratingUnit".
Definition n_AltGeneratingUnitMeas : name := Eval vm_compute in u "AltGeneratingUnitMeas".
Definition n_AltTieMeas : name := Eval vm_compute in u "AltTieMeas".
Definition n_Analog : name := Eval vm_compute in u "Analog".
Definition n_AnalogLimit : name := Eval vm_compute in u "AnalogLimit".
Definition n_AnalogLimitSet : name := Eval vm_compute in u "AnalogLimitSet".
Definition n_AnalogValue : name := Eval vm_compute in u "AnalogValue".
Definition n_AnalogValues : name := Eval vm_compute in u "AnalogValues".
Definition n_AnchorKind : name := Eval vm_compute in u "AnchorKind".
Definition n_AngleRef_TopologicalIsland : name := Eval vm_compute in u "AngleRef_TopologicalIsland".
Definition n_AngleRef_TopologicalNode : name := Eval vm_compute in u "AngleRef_TopologicalNode".
Definition n_ApparentPowerLimit : name := Eval vm_compute in u "ApparentPowerLimit".
Definition n_ApparentPowerLimitSet : name := Eval vm_compute in u "ApparentPowerLimitSet".
Definition n_ApparentPowerLimits : name := Eval vm_compute in u "ApparentPowerLimits".
Definition n_Appointment : name := Eval vm_compute in u "Appointment".
Definition n_Appointments : name := Eval vm_compute in u "Appointments".
Definition n_Asset : name := Eval vm_compute in u "Asset".
Definition n_AssetAssetRole : name := Eval vm_compute in u "AssetAssetRole".
Definition n_AssetContainer : name := Eval vm_compute in u "AssetContainer".
Definition n_AssetContainers : name := Eval vm_compute in u "AssetContainers".
Definition n_AssetFunction : name := Eval vm_compute in u "AssetFunction".
Definition n_AssetFunctions : name := Eval vm_compute in u "AssetFunctions".
Definition n_AssetInfo : name := Eval vm_compute in u "AssetInfo".
Definition n_AssetInfos : name := Eval vm_compute in u "AssetInfos".
Definition n_AssetModel : name := Eval vm_compute in u "AssetModel".
Definition n_AssetModelCatalogue : name := Eval vm_compute in u "AssetModelCatalogue".
Definition n_AssetModelCatalogueItem : name := Eval vm_compute in u "AssetModelCatalogueItem".
Definition n_AssetModelCatalogueItems : name := Eval vm_compute in u "AssetModelCatalogueItems".
Definition n_AssetModelUsageKind : name := Eval vm_compute in u "AssetModelUsageKind".
Definition n_AssetProperites : name := Eval vm_compute in u "AssetProperites".
Definition n_AssetPropertyCurve : name := Eval vm_compute in u "AssetPropertyCurve".
Definition n_AssetPropertyCurves : name := Eval vm_compute in u "AssetPropertyCurves".
Definition n_AssetRoles : name := Eval vm_compute in u "AssetRoles".
Definition n_Assets : name := Eval vm_compute in u "Assets".
Definition n_AssetsAsset : name := Eval vm_compute in u "AssetsAsset".
Definition n_Assignment : name := Eval vm_compute in u "Assignment".
Definition n_Assignments : name := Eval vm_compute in u "Assignments".
Definition n_AsynchronousMachine : name := Eval vm_compute in u "AsynchronousMachine".
Definition n_AttributeBlockParameter : name := Eval vm_compute in u "AttributeBlockParameter".
Definition n_AuxiliaryAccount : name := Eval vm_compute in u "AuxiliaryAccount".
Definition n_AuxiliaryAccounts : name := Eval vm_compute in u "AuxiliaryAccounts".
Definition n_AuxiliaryAgreement : name := Eval vm_compute in u "AuxiliaryAgreement".
Definition n_AuxiliaryAgreements : name := Eval vm_compute in u "AuxiliaryAgreements".
Definition n_AuxiliaryEquipment : name := Eval vm_compute in u "AuxiliaryEquipment".
Definition n_BWRSteamSupply : name := Eval vm_compute in u "BWRSteamSupply".
Definition n_Bank : name := Eval vm_compute in u "Bank".
Definition n_BankAccount : name := Eval vm_compute in u "BankAccount".
Definition n_BankAccountDetail : name := Eval vm_compute in u "BankAccountDetail".
Definition n_BankAccounts : name := Eval vm_compute in u "BankAccounts".
Definition n_BasePower : name := Eval vm_compute in u "BasePower".
Definition n_BaseVoltage : name := Eval vm_compute in u "BaseVoltage".
Definition n_BasicIntervalSchedule : name := Eval vm_compute in u "BasicIntervalSchedule".
Definition n_Bay : name := Eval vm_compute in u "Bay".
Definition n_Bays : name := Eval vm_compute in u "Bays".
Definition n_BillMediaKind : name := Eval vm_compute in u "BillMediaKind".
Definition n_Block : name := Eval vm_compute in u "Block".
Definition n_BlockConnectable : name := Eval vm_compute in u "BlockConnectable".
Definition n_BlockConnection : name := Eval vm_compute in u "BlockConnection".
Definition n_BlockConnectivity : name := Eval vm_compute in u "BlockConnectivity".
Definition n_BlockConstant : name := Eval vm_compute in u "BlockConstant".
Definition n_BlockInputReference : name := Eval vm_compute in u "BlockInputReference".
Definition n_BlockInputType : name := Eval vm_compute in u "BlockInputType".
Definition n_BlockKind : name := Eval vm_compute in u "BlockKind".
Definition n_BlockOutputReference : name := Eval vm_compute in u "BlockOutputReference".
Definition n_BlockOutputType : name := Eval vm_compute in u "BlockOutputType".
Definition n_BlockParameter : name := Eval vm_compute in u "BlockParameter".
Definition n_BlockType : name := Eval vm_compute in u "BlockType".
Definition n_BlockUsageInputReference : name := Eval vm_compute in u "BlockUsageInputReference".
Definition n_BlockUsageOutputReference : name := Eval vm_compute in u "BlockUsageOutputReference".
Definition n_BlockUsageParameter : name := Eval vm_compute in u "BlockUsageParameter".
Definition n_BoilerControlMode : name := Eval vm_compute in u "BoilerControlMode".
Definition n_BranchGroup : name := Eval vm_compute in u "BranchGroup".
Definition n_BranchGroupTerminal : name := Eval vm_compute in u "BranchGroupTerminal".
Definition n_Breaker : name := Eval vm_compute in u "Breaker".
Definition n_BreakerConfiguration : name := Eval vm_compute in u "BreakerConfiguration".
Definition n_BreakerInfo : name := Eval vm_compute in u "BreakerInfo".
Definition n_BusNameMarker : name := Eval vm_compute in u "BusNameMarker".
Definition n_BusbarConfiguration : name := Eval vm_compute in u "BusbarConfiguration".
Definition n_BusbarSection : name := Eval vm_compute in u "BusbarSection".
Definition n_Bushing : name := Eval vm_compute in u "Bushing".
Definition n_BushingInfo : name := Eval vm_compute in u "BushingInfo".
Definition n_BushingInsulationKind : name := Eval vm_compute in u "BushingInsulationKind".
Definition n_BushingInsulationPF : name := Eval vm_compute in u "BushingInsulationPF".
Definition n_BushingInsulationPFs : name := Eval vm_compute in u "BushingInsulationPFs".
Definition n_BushingInsulationPfTestKind : name := Eval vm_compute in u "BushingInsulationPfTestKind".
Definition n_BushingInsultationPFs : name := Eval vm_compute in u "BushingInsultationPFs".
Definition n_BusinessCase : name := Eval vm_compute in u "BusinessCase".
Definition n_BusinessPlan : name := Eval vm_compute in u "BusinessPlan".
Definition n_BusinessRole : name := Eval vm_compute in u "BusinessRole".
Definition n_BusinessRoles : name := Eval vm_compute in u "BusinessRoles".
Definition n_C : name := Eval vm_compute in u "C".
Definition n_CAD : name := Eval vm_compute in u "CAD".
Definition n_CAESPlant : name := Eval vm_compute in u "CAESPlant".
Definition n_CIM14_CDPSM_Balanced_Element_Element : name := Eval vm_compute in u "CIM14.CDPSM.Balanced.Element.Element".
Definition n_CIM14_CDPSM_Balanced_IEC61968_AssetModels_CableInfo_CableInfo : name := Eval vm_compute in u "CIM14.CDPSM.Balanced.IEC61968.AssetModels.CableInfo.CableInfo".
Definition n_CIM14_CDPSM_Balanced_IEC61968_AssetModels_ConcentricNeutralCableInfo_ConcentricNeutralCableInfo : name := Eval vm_compute in u "CIM14.CDPSM.Balanced.IEC61968.AssetModels.ConcentricNeutralCableInfo.ConcentricNeutralCableInfo".
Definition n_CIM14_CDPSM_Balanced_IEC61968_AssetModels_ConductorInfo_ConductorInfo : name := Eval vm_compute in u "CIM14.CDPSM.Balanced.IEC61968.AssetModels.ConductorInfo.ConductorInfo".
Definition n_CIM14_CDPSM_Balanced_IEC61968_AssetModels_DistributionWindingTest_DistributionWindingTest : name := Eval vm_compute in u "CIM14.CDPSM.Balanced.IEC61968.AssetModels.DistributionWindingTest.DistributionWindingTest".
Definition n_CIM14_CDPSM_Balanced_IEC61968_AssetModels_OpenCircuitTest_OpenCircuitTest : name := Eval vm_compute in u "CIM14.CDPSM.Balanced.IEC61968.AssetModels.OpenCircuitTest.OpenCircuitTest".
Definition n_CIM14_CDPSM_Balanced_IEC61968_AssetModels_OverheadConductorInfo_OverheadConductorInfo : name := Eval vm_compute in u "CIM14.CDPSM.Balanced.IEC61968.AssetModels.OverheadConductorInfo.OverheadConductorInfo".
Definition n_CIM14_CDPSM_Balanced_IEC61968_AssetModels_ShortCircuitTest_ShortCircuitTest : name := Eval vm_compute in u "CIM14.CDPSM.Balanced.IEC61968.AssetModels.ShortCircuitTest.ShortCircuitTest".
Definition n_CIM14_CDPSM_Balanced_IEC61968_AssetModels_TapeShieldCableInfo_TapeShieldCableInfo : name := Eval vm_compute in u "CIM14.CDPSM.Balanced.IEC61968.AssetModels.TapeShieldCableInfo.TapeShieldCableInfo".
Definition n_CIM14_CDPSM_Balanced_IEC61968_AssetModels_ToWindingSpec_ToWindingSpec : name := Eval vm_compute in u "CIM14.CDPSM.Balanced.IEC61968.AssetModels.ToWindingSpec.ToWindingSpec".
Definition n_CIM14_CDPSM_Balanced_IEC61968_AssetModels_TransformerInfo_TransformerInfo : name := Eval vm_compute in u "CIM14.CDPSM.Balanced.IEC61968.AssetModels.TransformerInfo.TransformerInfo".
Definition n_CIM14_CDPSM_Balanced_IEC61968_AssetModels_WindingInfo_WindingInfo : name := Eval vm_compute in u "CIM14.CDPSM.Balanced.IEC61968.AssetModels.WindingInfo.WindingInfo".
Definition n_CIM14_CDPSM_Balanced_IEC61968_AssetModels_WireArrangement_WireArrangement : name := Eval vm_compute in u "CIM14.CDPSM.Balanced.IEC61968.AssetModels.WireArrangement.WireArrangement".
Definition n_CIM14_CDPSM_Balanced_IEC61968_AssetModels_WireType_WireType : name := Eval vm_compute in u "CIM14.CDPSM.Balanced.IEC61968.AssetModels.WireType.WireType".
Definition n_CIM14_CDPSM_Balanced_IEC61968_Common_GeoLocation_GeoLocation : name := Eval vm_compute in u "CIM14.CDPSM.Balanced.IEC61968.Common.GeoLocation.GeoLocation".
Definition n_CIM14_CDPSM_Balanced_IEC61968_Common_Location_Location : name := Eval vm_compute in u "CIM14.CDPSM.Balanced.IEC61968.Common.Location.Location".
Definition n_CIM14_CDPSM_Balanced_IEC61968_Common_PositionPoint_PositionPoint : name := Eval vm_compute in u "CIM14.CDPSM.Balanced.IEC61968.Common.PositionPoint.PositionPoint".
Definition n_CIM14_CDPSM_Balanced_IEC61968_WiresExt_DistributionLineSegment_DistributionLineSegment : name := Eval vm_compute in u "CIM14.CDPSM.Balanced.IEC61968.WiresExt.DistributionLineSegment.DistributionLineSegment".
Definition n_CIM14_CDPSM_Balanced_IEC61968_WiresExt_DistributionTapChanger_DistributionTapChanger : name := Eval vm_compute in u "CIM14.CDPSM.Balanced.IEC61968.WiresExt.DistributionTapChanger.DistributionTapChanger".
Definition n_CIM14_CDPSM_Balanced_IEC61968_WiresExt_DistributionTransformerWinding_DistributionTransformerWinding : name := Eval vm_compute in u "CIM14.CDPSM.Balanced.IEC61968.WiresExt.DistributionTransformerWinding.DistributionTransformerWinding".
Definition n_CIM14_CDPSM_Balanced_IEC61968_WiresExt_DistributionTransformer_DistributionTransformer : name := Eval vm_compute in u "CIM14.CDPSM.Balanced.IEC61968.WiresExt.DistributionTransformer.DistributionTransformer".
Definition n_CIM14_CDPSM_Balanced_IEC61968_WiresExt_PerLengthPhaseImpedance_PerLengthPhaseImpedance : name := Eval vm_compute in u "CIM14.CDPSM.Balanced.IEC61968.WiresExt.PerLengthPhaseImpedance.PerLengthPhaseImpedance".
Definition n_CIM14_CDPSM_Balanced_IEC61968_WiresExt_PerLengthSequenceImpedance_PerLengthSequenceImpedance : name := Eval vm_compute in u "CIM14.CDPSM.Balanced.IEC61968.WiresExt.PerLengthSequenceImpedance.PerLengthSequenceImpedance".
Definition n_CIM14_CDPSM_Balanced_IEC61968_WiresExt_PhaseImpedanceData_PhaseImpedanceData : name := Eval vm_compute in u "CIM14.CDPSM.Balanced.IEC61968.WiresExt.PhaseImpedanceData.PhaseImpedanceData".
Definition n_CIM14_CDPSM_Balanced_IEC61968_WiresExt_TransformerBank_TransformerBank : name := Eval vm_compute in u "CIM14.CDPSM.Balanced.IEC61968.WiresExt.TransformerBank.TransformerBank".
Definition n_CIM14_CDPSM_Balanced_IEC61968_WiresExt_WindingPiImpedance_WindingPiImpedance : name := Eval vm_compute in u "CIM14.CDPSM.Balanced.IEC61968.WiresExt.WindingPiImpedance.WindingPiImpedance".
Definition n_CIM14_CDPSM_Balanced_IEC61970_Core_BaseVoltage_BaseVoltage : name := Eval vm_compute in u "CIM14.CDPSM.Balanced.IEC61970.Core.BaseVoltage.BaseVoltage".
Definition n_CIM14_CDPSM_Balanced_IEC61970_Core_Bay_Bay : name := Eval vm_compute in u "CIM14.CDPSM.Balanced.IEC61970.Core.Bay.Bay".
Definition n_CIM14_CDPSM_Balanced_IEC61970_Core_ConductingEquipment_ConductingEquipment : name := Eval vm_compute in u "CIM14.CDPSM.Balanced.IEC61970.Core.ConductingEquipment.ConductingEquipment".
Definition n_CIM14_CDPSM_Balanced_IEC61970_Core_ConnectivityNodeContainer_ConnectivityNodeContainer : name := Eval vm_compute in u "CIM14.CDPSM.Balanced.IEC61970.Core.ConnectivityNodeContainer.ConnectivityNodeContainer".
Definition n_CIM14_CDPSM_Balanced_IEC61970_Core_EquipmentContainer_EquipmentContainer : name := Eval vm_compute in u "CIM14.CDPSM.Balanced.IEC61970.Core.EquipmentContainer.EquipmentContainer".
Definition n_CIM14_CDPSM_Balanced_IEC61970_Core_Equipment_Equipment : name := Eval vm_compute in u "CIM14.CDPSM.Balanced.IEC61970.Core.Equipment.Equipment".
Definition n_CIM14_CDPSM_Balanced_IEC61970_Core_GeographicalRegion_GeographicalRegion : name := Eval vm_compute in u "CIM14.CDPSM.Balanced.IEC61970.Core.GeographicalRegion.GeographicalRegion".
Definition n_CIM14_CDPSM_Balanced_IEC61970_Core_IdentifiedObject_IdentifiedObject : name := Eval vm_compute in u "CIM14.CDPSM.Balanced.IEC61970.Core.IdentifiedObject.IdentifiedObject".
Definition n_CIM14_CDPSM_Balanced_IEC61970_Core_PSRType_PSRType : name := Eval vm_compute in u "CIM14.CDPSM.Balanced.IEC61970.Core.PSRType.PSRType".
Definition n_CIM14_CDPSM_Balanced_IEC61970_Core_PowerSystemResource_PowerSystemResource : name := Eval vm_compute in u "CIM14.CDPSM.Balanced.IEC61970.Core.PowerSystemResource.PowerSystemResource".
Definition n_CIM14_CDPSM_Balanced_IEC61970_Core_SubGeographicalRegion_SubGeographicalRegion : name := Eval vm_compute in u "CIM14.CDPSM.Balanced.IEC61970.Core.SubGeographicalRegion.SubGeographicalRegion".
Definition n_CIM14_CDPSM_Balanced_IEC61970_Core_Substation_Substation : name := Eval vm_compute in u "CIM14.CDPSM.Balanced.IEC61970.Core.Substation.Substation".
Definition n_CIM14_CDPSM_Balanced_IEC61970_Core_Terminal_Terminal : name := Eval vm_compute in u "CIM14.CDPSM.Balanced.IEC61970.Core.Terminal.Terminal".
Definition n_CIM14_CDPSM_Balanced_IEC61970_Core_VoltageLevel_VoltageLevel : name := Eval vm_compute in u "CIM14.CDPSM.Balanced.IEC61970.Core.VoltageLevel.VoltageLevel".
Definition n_CIM14_CDPSM_Balanced_IEC61970_Generation_Production_GeneratingUnit_GeneratingUnit : name := Eval vm_compute in u "CIM14.CDPSM.Balanced.IEC61970.Generation.Production.GeneratingUnit.GeneratingUnit".
Definition n_CIM14_CDPSM_Balanced_IEC61970_IEC61970CIMVersion_IEC61970CIMVersion : name := Eval vm_compute in u "CIM14.CDPSM.Balanced.IEC61970.IEC61970CIMVersion.IEC61970CIMVersion".
Definition n_CIM14_CDPSM_Balanced_IEC61970_LoadModel_LoadResponseCharacteristic_LoadResponseCharacteristic : name := Eval vm_compute in u "CIM14.CDPSM.Balanced.IEC61970.LoadModel.LoadResponseCharacteristic.LoadResponseCharacteristic".
Definition n_CIM14_CDPSM_Balanced_IEC61970_StateVariables_SvTapStep_SvTapStep : name := Eval vm_compute in u "CIM14.CDPSM.Balanced.IEC61970.StateVariables.SvTapStep.SvTapStep".
Definition n_CIM14_CDPSM_Balanced_IEC61970_Topology_ConnectivityNode_ConnectivityNode : name := Eval vm_compute in u "CIM14.CDPSM.Balanced.IEC61970.Topology.ConnectivityNode.ConnectivityNode".
Definition n_CIM14_CDPSM_Balanced_IEC61970_Wires_ACLineSegment_ACLineSegment : name := Eval vm_compute in u "CIM14.CDPSM.Balanced.IEC61970.Wires.ACLineSegment.ACLineSegment".
Definition n_CIM14_CDPSM_Balanced_IEC61970_Wires_Breaker_Breaker : name := Eval vm_compute in u "CIM14.CDPSM.Balanced.IEC61970.Wires.Breaker.Breaker".
Definition n_CIM14_CDPSM_Balanced_IEC61970_Wires_BusbarSection_BusbarSection : name := Eval vm_compute in u "CIM14.CDPSM.Balanced.IEC61970.Wires.BusbarSection.BusbarSection".
Definition n_CIM14_CDPSM_Balanced_IEC61970_Wires_Conductor_Conductor : name := Eval vm_compute in u "CIM14.CDPSM.Balanced.IEC61970.Wires.Conductor.Conductor".
Definition n_CIM14_CDPSM_Balanced_IEC61970_Wires_Disconnector_Disconnector : name := Eval vm_compute in u "CIM14.CDPSM.Balanced.IEC61970.Wires.Disconnector.Disconnector".
Definition n_CIM14_CDPSM_Balanced_IEC61970_Wires_EnergyConsumer_EnergyConsumer : name := Eval vm_compute in u "CIM14.CDPSM.Balanced.IEC61970.Wires.EnergyConsumer.EnergyConsumer".
Definition n_CIM14_CDPSM_Balanced_IEC61970_Wires_EnergySource_EnergySource : name := Eval vm_compute in u "CIM14.CDPSM.Balanced.IEC61970.Wires.EnergySource.EnergySource".
Definition n_CIM14_CDPSM_Balanced_IEC61970_Wires_Fuse_Fuse : name := Eval vm_compute in u "CIM14.CDPSM.Balanced.IEC61970.Wires.Fuse.Fuse".
Definition n_CIM14_CDPSM_Balanced_IEC61970_Wires_Junction_Junction : name := Eval vm_compute in u "CIM14.CDPSM.Balanced.IEC61970.Wires.Junction.Junction".
Definition n_CIM14_CDPSM_Balanced_IEC61970_Wires_Line_Line : name := Eval vm_compute in u "CIM14.CDPSM.Balanced.IEC61970.Wires.Line.Line".
Definition n_CIM14_CDPSM_Balanced_IEC61970_Wires_LoadBreakSwitch_LoadBreakSwitch : name := Eval vm_compute in u "CIM14.CDPSM.Balanced.IEC61970.Wires.LoadBreakSwitch.LoadBreakSwitch".
Definition n_CIM14_CDPSM_Balanced_IEC61970_Wires_RatioTapChanger_RatioTapChanger : name := Eval vm_compute in u "CIM14.CDPSM.Balanced.IEC61970.Wires.RatioTapChanger.RatioTapChanger".
Definition n_CIM14_CDPSM_Balanced_IEC61970_Wires_ShuntCompensator_ShuntCompensator : name := Eval vm_compute in u "CIM14.CDPSM.Balanced.IEC61970.Wires.ShuntCompensator.ShuntCompensator".
Definition n_CIM14_CDPSM_Balanced_IEC61970_Wires_Switch_Switch : name := Eval vm_compute in u "CIM14.CDPSM.Balanced.IEC61970.Wires.Switch.Switch".
Definition n_CIM14_CDPSM_Balanced_IEC61970_Wires_SynchronousMachine_SynchronousMachine : name := Eval vm_compute in u "CIM14.CDPSM.Balanced.IEC61970.Wires.SynchronousMachine.SynchronousMachine".
Definition n_CIM14_CDPSM_Balanced_IEC61970_Wires_TapChanger_TapChanger : name := Eval vm_compute in u "CIM14.CDPSM.Balanced.IEC61970.Wires.TapChanger.TapChanger".
Definition n_CIM14_CDPSM_GIS_Connectivity_Element_Element : name := Eval vm_compute in u "CIM14.CDPSM.GIS_Connectivity.Element.Element".
Definition n_CIM14_CDPSM_GIS_Connectivity_IEC61968_AssetModels_CableInfo_CableInfo : name := Eval vm_compute in u "CIM14.CDPSM.GIS_Connectivity.IEC61968.AssetModels.CableInfo.CableInfo".
Definition n_CIM14_CDPSM_GIS_Connectivity_IEC61968_AssetModels_ConcentricNeutralCableInfo_ConcentricNeutralCableInfo : name := Eval vm_compute in u "CIM14.CDPSM.GIS_Connectivity.IEC61968.AssetModels.ConcentricNeutralCableInfo.ConcentricNeutralCableInfo".
Definition n_CIM14_CDPSM_GIS_Connectivity_IEC61968_AssetModels_ConductorInfo_ConductorInfo : name := Eval vm_compute in u "CIM14.CDPSM.GIS_Connectivity.IEC61968.AssetModels.ConductorInfo.ConductorInfo".
Definition n_CIM14_CDPSM_GIS_Connectivity_IEC61968_AssetModels_DistributionWindingTest_DistributionWindingTest : name := Eval vm_compute in u "CIM14.CDPSM.GIS_Connectivity.IEC61968.AssetModels.DistributionWindingTest.DistributionWindingTest".
Definition n_CIM14_CDPSM_GIS_Connectivity_IEC61968_AssetModels_OpenCircuitTest_OpenCircuitTest : name := Eval vm_compute in u "CIM14.CDPSM.GIS_Connectivity.IEC61968.AssetModels.OpenCircuitTest.OpenCircuitTest".
Definition n_CIM14_CDPSM_GIS_Connectivity_IEC61968_AssetModels_OverheadConductorInfo_OverheadConductorInfo : name := Eval vm_compute in u "CIM14.CDPSM.GIS_Connectivity.IEC61968.AssetModels.OverheadConductorInfo.OverheadConductorInfo".
Definition n_CIM14_CDPSM_GIS_Connectivity_IEC61968_AssetModels_ShortCircuitTest_ShortCircuitTest : name := Eval vm_compute in u "CIM14.CDPSM.GIS_Connectivity.IEC61968.AssetModels.ShortCircuitTest.ShortCircuitTest".
Definition n_CIM14_CDPSM_GIS_Connectivity_IEC61968_AssetModels_TapeShieldCableInfo_TapeShieldCableInfo : name := Eval vm_compute in u "CIM14.CDPSM.GIS_Connectivity.IEC61968.AssetModels.TapeShieldCableInfo.TapeShieldCableInfo".
Definition n_CIM14_CDPSM_GIS_Connectivity_IEC61968_AssetModels_ToWindingSpec_ToWindingSpec : name := Eval vm_compute in u "CIM14.CDPSM.GIS_Connectivity.IEC61968.AssetModels.ToWindingSpec.ToWindingSpec".
Definition n_CIM14_CDPSM_GIS_Connectivity_IEC61968_AssetModels_TransformerInfo_TransformerInfo : name := Eval vm_compute in u "CIM14.CDPSM.GIS_Connectivity.IEC61968.AssetModels.TransformerInfo.TransformerInfo".
Definition n_CIM14_CDPSM_GIS_Connectivity_IEC61968_AssetModels_WindingInfo_WindingInfo : name := Eval vm_compute in u "CIM14.CDPSM.GIS_Connectivity.IEC61968.AssetModels.WindingInfo.WindingInfo".
Definition n_CIM14_CDPSM_GIS_Connectivity_IEC61968_AssetModels_WireArrangement_WireArrangement : name := Eval vm_compute in u "CIM14.CDPSM.GIS_Connectivity.IEC61968.AssetModels.WireArrangement.WireArrangement".
Definition n_CIM14_CDPSM_GIS_Connectivity_IEC61968_AssetModels_WireType_WireType : name := Eval vm_compute in u "CIM14.CDPSM.GIS_Connectivity.IEC61968.AssetModels.WireType.WireType".
Definition n_CIM14_CDPSM_GIS_Connectivity_IEC61968_Common_GeoLocation_GeoLocation : name := Eval vm_compute in u "CIM14.CDPSM.GIS_Connectivity.IEC61968.Common.GeoLocation.GeoLocation".
Definition n_CIM14_CDPSM_GIS_Connectivity_IEC61968_Common_Location_Location : name := Eval vm_compute in u "CIM14.CDPSM.GIS_Connectivity.IEC61968.Common.Location.Location".
Definition n_CIM14_CDPSM_GIS_Connectivity_IEC61968_Common_PositionPoint_PositionPoint : name := Eval vm_compute in u "CIM14.CDPSM.GIS_Connectivity.IEC61968.Common.PositionPoint.PositionPoint".
Definition n_CIM14_CDPSM_GIS_Connectivity_IEC61968_WiresExt_DistributionLineSegment_DistributionLineSegment : name := Eval vm_compute in u "CIM14.CDPSM.GIS_Connectivity.IEC61968.WiresExt.DistributionLineSegment.DistributionLineSegment".
Definition n_CIM14_CDPSM_GIS_Connectivity_IEC61968_WiresExt_DistributionTapChanger_DistributionTapChanger : name := Eval vm_compute in u "CIM14.CDPSM.GIS_Connectivity.IEC61968.WiresExt.DistributionTapChanger.DistributionTapChanger".
Definition n_CIM14_CDPSM_GIS_Connectivity_IEC61968_WiresExt_DistributionTransformerWinding_DistributionTransformerWinding : name := Eval vm_compute in u "CIM14.CDPSM.GIS_Connectivity.IEC61968.WiresExt.DistributionTransformerWinding.DistributionTransformerWinding".
Definition n_CIM14_CDPSM_GIS_Connectivity_IEC61968_WiresExt_DistributionTransformer_DistributionTransformer : name := Eval vm_compute in u "CIM14.CDPSM.GIS_Connectivity.IEC61968.WiresExt.DistributionTransformer.DistributionTransformer".
Definition n_CIM14_CDPSM_GIS_Connectivity_IEC61968_WiresExt_PerLengthPhaseImpedance_PerLengthPhaseImpedance : name := Eval vm_compute in u "CIM14.CDPSM.GIS_Connectivity.IEC61968.WiresExt.PerLengthPhaseImpedance.PerLengthPhaseImpedance".
Definition n_CIM14_CDPSM_GIS_Connectivity_IEC61968_WiresExt_PerLengthSequenceImpedance_PerLengthSequenceImpedance : name := Eval vm_compute in u "CIM14.CDPSM.GIS_Connectivity.IEC61968.WiresExt.PerLengthSequenceImpedance.PerLengthSequenceImpedance".
Definition n_CIM14_CDPSM_GIS_Connectivity_IEC61968_WiresExt_PhaseImpedanceData_PhaseImpedanceData : name := Eval vm_compute in u "CIM14.CDPSM.GIS_Connectivity.IEC61968.WiresExt.PhaseImpedanceData.PhaseImpedanceData".
Definition n_CIM14_CDPSM_GIS_Connectivity_IEC61968_WiresExt_TransformerBank_TransformerBank : name := Eval vm_compute in u "CIM14.CDPSM.GIS_Connectivity.IEC61968.WiresExt.TransformerBank.TransformerBank".
Definition n_CIM14_CDPSM_GIS_Connectivity_IEC61968_WiresExt_WindingPiImpedance_WindingPiImpedance : name := Eval vm_compute in u "CIM14.CDPSM.GIS_Connectivity.IEC61968.WiresExt.WindingPiImpedance.WindingPiImpedance".
Definition n_CIM14_CDPSM_GIS_Connectivity_IEC61970_Core_BaseVoltage_BaseVoltage : name := Eval vm_compute in u "CIM14.CDPSM.GIS_Connectivity.IEC61970.Core.BaseVoltage.BaseVoltage".
Definition n_CIM14_CDPSM_GIS_Connectivity_IEC61970_Core_Bay_Bay : name := Eval vm_compute in u "CIM14.CDPSM.GIS_Connectivity.IEC61970.Core.Bay.Bay".
Definition n_CIM14_CDPSM_GIS_Connectivity_IEC61970_Core_ConductingEquipment_ConductingEquipment : name := Eval vm_compute in u "CIM14.CDPSM.GIS_Connectivity.IEC61970.Core.ConductingEquipment.ConductingEquipment".
Definition n_CIM14_CDPSM_GIS_Connectivity_IEC61970_Core_ConnectivityNodeContainer_ConnectivityNodeContainer : name := Eval vm_compute in u "CIM14.CDPSM.GIS_Connectivity.IEC61970.Core.ConnectivityNodeContainer.ConnectivityNodeContainer".
Definition n_CIM14_CDPSM_GIS_Connectivity_IEC61970_Core_EquipmentContainer_EquipmentContainer : name := Eval vm_compute in u "CIM14.CDPSM.GIS_Connectivity.IEC61970.Core.EquipmentContainer.EquipmentContainer".
Definition n_CIM14_CDPSM_GIS_Connectivity_IEC61970_Core_Equipment_Equipment : name := Eval vm_compute in u "CIM14.CDPSM.GIS_Connectivity.IEC61970.Core.Equipment.Equipment".
Definition n_CIM14_CDPSM_GIS_Connectivity_IEC61970_Core_GeographicalRegion_GeographicalRegion : name := Eval vm_compute in u "CIM14.CDPSM.GIS_Connectivity.IEC61970.Core.GeographicalRegion.GeographicalRegion".
Definition n_CIM14_CDPSM_GIS_Connectivity_IEC61970_Core_IdentifiedObject_IdentifiedObject : name := Eval vm_compute in u "CIM14.CDPSM.GIS_Connectivity.IEC61970.Core.IdentifiedObject.IdentifiedObject".
Definition n_CIM14_CDPSM_GIS_Connectivity_IEC61970_Core_PSRType_PSRType : name := Eval vm_compute in u "CIM14.CDPSM.GIS_Connectivity.IEC61970.Core.PSRType.PSRType".
Definition n_CIM14_CDPSM_GIS_Connectivity_IEC61970_Core_PowerSystemResource_PowerSystemResource : name := Eval vm_compute in u "CIM14.CDPSM.GIS_Connectivity.IEC61970.Core.PowerSystemResource.PowerSystemResource".
Definition n_CIM14_CDPSM_GIS_Connectivity_IEC61970_Core_SubGeographicalRegion_SubGeographicalRegion : name := Eval vm_compute in u "CIM14.CDPSM.GIS_Connectivity.IEC61970.Core.SubGeographicalRegion.SubGeographicalRegion".
Definition n_CIM14_CDPSM_GIS_Connectivity_IEC61970_Core_Substation_Substation : name := Eval vm_compute in u "CIM14.CDPSM.GIS_Connectivity.IEC61970.Core.Substation.Substation".
Definition n_CIM14_CDPSM_GIS_Connectivity_IEC61970_Core_Terminal_Terminal : name := Eval vm_compute in u "CIM14.CDPSM.GIS_Connectivity.IEC61970.Core.Terminal.Terminal".
Definition n_CIM14_CDPSM_GIS_Connectivity_IEC61970_Core_VoltageLevel_VoltageLevel : name := Eval vm_compute in u "CIM14.CDPSM.GIS_Connectivity.IEC61970.Core.VoltageLevel.VoltageLevel".
Definition n_CIM14_CDPSM_GIS_Connectivity_IEC61970_Generation_Production_GeneratingUnit_GeneratingUnit : name := Eval vm_compute in u "CIM14.CDPSM.GIS_Connectivity.IEC61970.Generation.Production.GeneratingUnit.GeneratingUnit".
Definition n_CIM14_CDPSM_GIS_Connectivity_IEC61970_IEC61970CIMVersion_IEC61970CIMVersion : name := Eval vm_compute in u "CIM14.CDPSM.GIS_Connectivity.IEC61970.IEC61970CIMVersion.IEC61970CIMVersion".
Definition n_CIM14_CDPSM_GIS_Connectivity_IEC61970_LoadModel_LoadResponseCharacteristic_LoadResponseCharacteristic : name := Eval vm_compute in u "CIM14.CDPSM.GIS_Connectivity.IEC61970.LoadModel.LoadResponseCharacteristic.LoadResponseCharacteristic".
Definition n_CIM14_CDPSM_GIS_Connectivity_IEC61970_StateVariables_SvTapStep_SvTapStep : name := Eval vm_compute in u "CIM14.CDPSM.GIS_Connectivity.IEC61970.StateVariables.SvTapStep.SvTapStep".
Definition n_CIM14_CDPSM_GIS_Connectivity_IEC61970_Topology_ConnectivityNode_ConnectivityNode : name := Eval vm_compute in u "CIM14.CDPSM.GIS_Connectivity.IEC61970.Topology.ConnectivityNode.ConnectivityNode".
Definition n_CIM14_CDPSM_GIS_Connectivity_IEC61970_Wires_ACLineSegment_ACLineSegment : name := Eval vm_compute in u "CIM14.CDPSM.GIS_Connectivity.IEC61970.Wires.ACLineSegment.ACLineSegment".
Definition n_CIM14_CDPSM_GIS_Connectivity_IEC61970_Wires_Breaker_Breaker : name := Eval vm_compute in u "CIM14.CDPSM.GIS_Connectivity.IEC61970.Wires.Breaker.Breaker".
Definition n_CIM14_CDPSM_GIS_Connectivity_IEC61970_Wires_BusbarSection_BusbarSection : name := Eval vm_compute in u "CIM14.CDPSM.GIS_Connectivity.IEC61970.Wires.BusbarSection.BusbarSection".
Definition n_CIM14_CDPSM_GIS_Connectivity_IEC61970_Wires_Conductor_Conductor : name := Eval vm_compute in u "CIM14.CDPSM.GIS_Connectivity.IEC61970.Wires.Conductor.Conductor".
Definition n_CIM14_CDPSM_GIS_Connectivity_IEC61970_Wires_Disconnector_Disconnector : name := Eval vm_compute in u "CIM14.CDPSM.GIS_Connectivity.IEC61970.Wires.Disconnector.Disconnector".
Definition n_CIM14_CDPSM_GIS_Connectivity_IEC61970_Wires_EnergyConsumer_EnergyConsumer : name := Eval vm_compute in u "CIM14.CDPSM.GIS_Connectivity.IEC61970.Wires.EnergyConsumer.EnergyConsumer".
Definition n_CIM14_CDPSM_GIS_Connectivity_IEC61970_Wires_EnergySource_EnergySource : name := Eval vm_compute in u "CIM14.CDPSM.GIS_Connectivity.IEC61970.Wires.EnergySource.EnergySource".
Definition n_CIM14_CDPSM_GIS_Connectivity_IEC61970_Wires_Fuse_Fuse : name := Eval vm_compute in u "CIM14.CDPSM.GIS_Connectivity.IEC61970.Wires.Fuse.Fuse".
Definition n_CIM14_CDPSM_GIS_Connectivity_IEC61970_Wires_Junction_Junction : name := Eval vm_compute in u "CIM14.CDPSM.GIS_Connectivity.IEC61970.Wires.Junction.Junction".
Definition n_CIM14_CDPSM_GIS_Connectivity_IEC61970_Wires_Line_Line : name := Eval vm_compute in u "CIM14.CDPSM.GIS_Connectivity.IEC61970.Wires.Line.Line".
Definition n_CIM14_CDPSM_GIS_Connectivity_IEC61970_Wires_LoadBreakSwitch_LoadBreakSwitch : name := Eval vm_compute in u "CIM14.CDPSM.GIS_Connectivity.IEC61970.Wires.LoadBreakSwitch.LoadBreakSwitch".
Definition n_CIM14_CDPSM_GIS_Connectivity_IEC61970_Wires_RatioTapChanger_RatioTapChanger : name := Eval vm_compute in u "CIM14.CDPSM.GIS_Connectivity.IEC61970.Wires.RatioTapChanger.RatioTapChanger".
Definition n_CIM14_CDPSM_GIS_Connectivity_IEC61970_Wires_ShuntCompensator_ShuntCompensator : name := Eval vm_compute in u "CIM14.CDPSM.GIS_Connectivity.IEC61970.Wires.ShuntCompensator.ShuntCompensator".
Definition n_CIM14_CDPSM_GIS_Connectivity_IEC61970_Wires_Switch_Switch : name := Eval vm_compute in u "CIM14.CDPSM.GIS_Connectivity.IEC61970.Wires.Switch.Switch".
Definition n_CIM14_CDPSM_GIS_Connectivity_IEC61970_Wires_SynchronousMachine_SynchronousMachine : name := Eval vm_compute in u "CIM14.CDPSM.GIS_Connectivity.IEC61970.Wires.SynchronousMachine.SynchronousMachine".
Definition n_CIM14_CDPSM_GIS_Connectivity_IEC61970_Wires_TapChanger_TapChanger : name := Eval vm_compute in u "CIM14.CDPSM.GIS_Connectivity.IEC61970.Wires.TapChanger.TapChanger".
Definition n_CIM14_CDPSM_Unbalanced_Element_Element : name := Eval vm_compute in u "CIM14.CDPSM.Unbalanced.Element.Element".
Definition n_CIM14_CDPSM_Unbalanced_IEC61968_AssetModels_CableInfo_CableInfo : name := Eval vm_compute in u "CIM14.CDPSM.Unbalanced.IEC61968.AssetModels.CableInfo.CableInfo".
Definition n_CIM14_CDPSM_Unbalanced_IEC61968_AssetModels_ConcentricNeutralCableInfo_ConcentricNeutralCableInfo : name := Eval vm_compute in u "CIM14.CDPSM.Unbalanced.IEC61968.AssetModels.ConcentricNeutralCableInfo.ConcentricNeutralCableInfo".
Definition n_CIM14_CDPSM_Unbalanced_IEC61968_AssetModels_ConductorInfo_ConductorInfo : name := Eval vm_compute in u "CIM14.CDPSM.Unbalanced.IEC61968.AssetModels.ConductorInfo.ConductorInfo".
Definition n_CIM14_CDPSM_Unbalanced_IEC61968_AssetModels_DistributionWindingTest_DistributionWindingTest : name := Eval vm_compute in u "CIM14.CDPSM.Unbalanced.IEC61968.AssetModels.DistributionWindingTest.DistributionWindingTest".
Definition n_CIM14_CDPSM_Unbalanced_IEC61968_AssetModels_OpenCircuitTest_OpenCircuitTest : name := Eval vm_compute in u "CIM14.CDPSM.Unbalanced.IEC61968.AssetModels.OpenCircuitTest.OpenCircuitTest".
Definition n_CIM14_CDPSM_Unbalanced_IEC61968_AssetModels_OverheadConductorInfo_OverheadConductorInfo : name := Eval vm_compute in u "CIM14.CDPSM.Unbalanced.IEC61968.AssetModels.OverheadConductorInfo.OverheadConductorInfo".
Definition n_CIM14_CDPSM_Unbalanced_IEC61968_AssetModels_ShortCircuitTest_ShortCircuitTest : name := Eval vm_compute in u "CIM14.CDPSM.Unbalanced.IEC61968.AssetModels.ShortCircuitTest.ShortCircuitTest".
Definition n_CIM14_CDPSM_Unbalanced_IEC61968_AssetModels_TapeShieldCableInfo_TapeShieldCableInfo : name := Eval vm_compute in u "CIM14.CDPSM.Unbalanced.IEC61968.AssetModels.TapeShieldCableInfo.TapeShieldCableInfo".
Definition n_CIM14_CDPSM_Unbalanced_IEC61968_AssetModels_ToWindingSpec_ToWindingSpec : name := Eval vm_compute in u "CIM14.CDPSM.Unbalanced.IEC61968.AssetModels.ToWindingSpec.ToWindingSpec".
Definition n_CIM14_CDPSM_Unbalanced_IEC61968_AssetModels_TransformerInfo_TransformerInfo : name := Eval vm_compute in u "CIM14.CDPSM.Unbalanced.IEC61968.AssetModels.TransformerInfo.TransformerInfo".
Definition n_CIM14_CDPSM_Unbalanced_IEC61968_AssetModels_WindingInfo_WindingInfo : name := Eval vm_compute in u "CIM14.CDPSM.Unbalanced.IEC61968.AssetModels.WindingInfo.WindingInfo".
Definition n_CIM14_CDPSM_Unbalanced_IEC61968_AssetModels_WireArrangement_WireArrangement : name := Eval vm_compute in u "CIM14.CDPSM.Unbalanced.IEC61968.AssetModels.WireArrangement.WireArrangement".
Definition n_CIM14_CDPSM_Unbalanced_IEC61968_AssetModels_WireType_WireType : name := Eval vm_compute in u "CIM14.CDPSM.Unbalanced.IEC61968.AssetModels.WireType.WireType".
Definition n_CIM14_CDPSM_Unbalanced_IEC61968_Common_GeoLocation_GeoLocation : name := Eval vm_compute in u "CIM14.CDPSM.Unbalanced.IEC61968.Common.GeoLocation.GeoLocation".
Definition n_CIM14_CDPSM_Unbalanced_IEC61968_Common_Location_Location : name := Eval vm_compute in u "CIM14.CDPSM.Unbalanced.IEC61968.Common.Location.Location".
Definition n_CIM14_CDPSM_Unbalanced_IEC61968_Common_PositionPoint_PositionPoint : name := Eval vm_compute in u "CIM14.CDPSM.Unbalanced.IEC61968.Common.PositionPoint.PositionPoint".
Definition n_CIM14_CDPSM_Unbalanced_IEC61968_WiresExt_DistributionLineSegment_DistributionLineSegment : name := Eval vm_compute in u "CIM14.CDPSM.Unbalanced.IEC61968.WiresExt.DistributionLineSegment.DistributionLineSegment".
Definition n_CIM14_CDPSM_Unbalanced_IEC61968_WiresExt_DistributionTapChanger_DistributionTapChanger : name := Eval vm_compute in u "CIM14.CDPSM.Unbalanced.IEC61968.WiresExt.DistributionTapChanger.DistributionTapChanger".
Definition n_CIM14_CDPSM_Unbalanced_IEC61968_WiresExt_DistributionTransformerWinding_DistributionTransformerWinding : name := Eval vm_compute in u "CIM14.CDPSM.Unbalanced.IEC61968.WiresExt.DistributionTransformerWinding.DistributionTransformerWinding".
Definition n_CIM14_CDPSM_Unbalanced_IEC61968_WiresExt_DistributionTransformer_DistributionTransformer : name := Eval vm_compute in u "CIM14.CDPSM.Unbalanced.IEC61968.WiresExt.DistributionTransformer.DistributionTransformer".
Definition n_CIM14_CDPSM_Unbalanced_IEC61968_WiresExt_PerLengthPhaseImpedance_PerLengthPhaseImpedance : name := Eval vm_compute in u "CIM14.CDPSM.Unbalanced.IEC61968.WiresExt.PerLengthPhaseImpedance.PerLengthPhaseImpedance".
Definition n_CIM14_CDPSM_Unbalanced_IEC61968_WiresExt_PerLengthSequenceImpedance_PerLengthSequenceImpedance : name := Eval vm_compute in u "CIM14.CDPSM.Unbalanced.IEC61968.WiresExt.PerLengthSequenceImpedance.PerLengthSequenceImpedance".
Definition n_CIM14_CDPSM_Unbalanced_IEC61968_WiresExt_PhaseImpedanceData_PhaseImpedanceData : name := Eval vm_compute in u "CIM14.CDPSM.Unbalanced.IEC61968.WiresExt.PhaseImpedanceData.PhaseImpedanceData".
Definition n_CIM14_CDPSM_Unbalanced_IEC61968_WiresExt_TransformerBank_TransformerBank : name := Eval vm_compute in u "CIM14.CDPSM.Unbalanced.IEC61968.WiresExt.TransformerBank.TransformerBank".
Definition n_CIM14_CDPSM_Unbalanced_IEC61968_WiresExt_WindingPiImpedance_WindingPiImpedance : name := Eval vm_compute in u "CIM14.CDPSM.Unbalanced.IEC61968.WiresExt.WindingPiImpedance.WindingPiImpedance".
Definition n_CIM14_CDPSM_Unbalanced_IEC61970_Core_BaseVoltage_BaseVoltage : name := Eval vm_compute in u "CIM14.CDPSM.Unbalanced.IEC61970.Core.BaseVoltage.BaseVoltage".
Definition n_CIM14_CDPSM_Unbalanced_IEC61970_Core_Bay_Bay : name := Eval vm_compute in u "CIM14.CDPSM.Unbalanced.IEC61970.Core.Bay.Bay".
Definition n_CIM14_CDPSM_Unbalanced_IEC61970_Core_ConductingEquipment_ConductingEquipment : name := Eval vm_compute in u "CIM14.CDPSM.Unbalanced.IEC61970.Core.ConductingEquipment.ConductingEquipment".
Definition n_CIM14_CDPSM_Unbalanced_IEC61970_Core_ConnectivityNodeContainer_ConnectivityNodeContainer : name := Eval vm_compute in u "CIM14.CDPSM.Unbalanced.IEC61970.Core.ConnectivityNodeContainer.ConnectivityNodeContainer".
Definition n_CIM14_CDPSM_Unbalanced_IEC61970_Core_EquipmentContainer_EquipmentContainer : name := Eval vm_compute in u "CIM14.CDPSM.Unbalanced.IEC61970.Core.EquipmentContainer.EquipmentContainer".
Definition n_CIM14_CDPSM_Unbalanced_IEC61970_Core_Equipment_Equipment : name := Eval vm_compute in u "CIM14.CDPSM.Unbalanced.IEC61970.Core.Equipment.Equipment".
Definition n_CIM14_CDPSM_Unbalanced_IEC61970_Core_GeographicalRegion_GeographicalRegion : name := Eval vm_compute in u "CIM14.CDPSM.Unbalanced.IEC61970.Core.GeographicalRegion.GeographicalRegion".
Definition n_CIM14_CDPSM_Unbalanced_IEC61970_Core_IdentifiedObject_IdentifiedObject : name := Eval vm_compute in u "CIM14.CDPSM.Unbalanced.IEC61970.Core.IdentifiedObject.IdentifiedObject".
Definition n_CIM14_CDPSM_Unbalanced_IEC61970_Core_PSRType_PSRType : name := Eval vm_compute in u "CIM14.CDPSM.Unbalanced.IEC61970.Core.PSRType.PSRType".
Definition n_CIM14_CDPSM_Unbalanced_IEC61970_Core_PowerSystemResource_PowerSystemResource : name := Eval vm_compute in u "CIM14.CDPSM.Unbalanced.IEC61970.Core.PowerSystemResource.PowerSystemResource".
Definition n_CIM14_CDPSM_Unbalanced_IEC61970_Core_SubGeographicalRegion_SubGeographicalRegion : name := Eval vm_compute in u "CIM14.CDPSM.Unbalanced.IEC61970.Core.SubGeographicalRegion.SubGeographicalRegion".
Definition n_CIM14_CDPSM_Unbalanced_IEC61970_Core_Substation_Substation : name := Eval vm_compute in u "CIM14.CDPSM.Unbalanced.IEC61970.Core.Substation.Substation".
Definition n_CIM14_CDPSM_Unbalanced_IEC61970_Core_Terminal_Terminal : name := Eval vm_compute in u "CIM14.CDPSM.Unbalanced.IEC61970.Core.Terminal.Terminal".
Definition n_CIM14_CDPSM_Unbalanced_IEC61970_Core_VoltageLevel_VoltageLevel : name := Eval vm_compute in u "CIM14.CDPSM.Unbalanced.IEC61970.Core.VoltageLevel.VoltageLevel".
Definition n_CIM14_CDPSM_Unbalanced_IEC61970_Generation_Production_GeneratingUnit_GeneratingUnit : name := Eval vm_compute in u "CIM14.CDPSM.Unbalanced.IEC61970.Generation.Production.GeneratingUnit.GeneratingUnit".
Definition n_CIM14_CDPSM_Unbalanced_IEC61970_IEC61970CIMVersion_IEC61970CIMVersion : name := Eval vm_compute in u "CIM14.CDPSM.Unbalanced.IEC61970.IEC61970CIMVersion.IEC61970CIMVersion".
Definition n_CIM14_CDPSM_Unbalanced_IEC61970_LoadModel_LoadResponseCharacteristic_LoadResponseCharacteristic : name := Eval vm_compute in u "CIM14.CDPSM.Unbalanced.IEC61970.LoadModel.LoadResponseCharacteristic.LoadResponseCharacteristic".
Definition n_CIM14_CDPSM_Unbalanced_IEC61970_StateVariables_SvTapStep_SvTapStep : name := Eval vm_compute in u "CIM14.CDPSM.Unbalanced.IEC61970.StateVariables.SvTapStep.SvTapStep".
Definition n_CIM14_CDPSM_Unbalanced_IEC61970_Topology_ConnectivityNode_ConnectivityNode : name := Eval vm_compute in u "CIM14.CDPSM.Unbalanced.IEC61970.Topology.ConnectivityNode.ConnectivityNode".
Definition n_CIM14_CDPSM_Unbalanced_IEC61970_Wires_ACLineSegment_ACLineSegment : name := Eval vm_compute in u "CIM14.CDPSM.Unbalanced.IEC61970.Wires.ACLineSegment.ACLineSegment".
Definition n_CIM14_CDPSM_Unbalanced_IEC61970_Wires_Breaker_Breaker : name := Eval vm_compute in u "CIM14.CDPSM.Unbalanced.IEC61970.Wires.Breaker.Breaker".
Definition n_CIM14_CDPSM_Unbalanced_IEC61970_Wires_BusbarSection_BusbarSection : name := Eval vm_compute in u "CIM14.CDPSM.Unbalanced.IEC61970.Wires.BusbarSection.BusbarSection".
Definition n_CIM14_CDPSM_Unbalanced_IEC61970_Wires_Conductor_Conductor : name := Eval vm_compute in u "CIM14.CDPSM.Unbalanced.IEC61970.Wires.Conductor.Conductor".
Definition n_CIM14_CDPSM_Unbalanced_IEC61970_Wires_Disconnector_Disconnector : name := Eval vm_compute in u "CIM14.CDPSM.Unbalanced.IEC61970.Wires.Disconnector.Disconnector".
Definition n_CIM14_CDPSM_Unbalanced_IEC61970_Wires_EnergyConsumer_EnergyConsumer : name := Eval vm_compute in u "CIM14.CDPSM.Unbalanced.IEC61970.Wires.EnergyConsumer.EnergyConsumer".
Definition n_CIM14_CDPSM_Unbalanced_IEC61970_Wires_EnergySource_EnergySource : name := Eval vm_compute in u "CIM14.CDPSM.Unbalanced.IEC61970.Wires.EnergySource.EnergySource".
Definition n_CIM14_CDPSM_Unbalanced_IEC61970_Wires_Fuse_Fuse : name := Eval vm_compute in u "CIM14.CDPSM.Unbalanced.IEC61970.Wires.Fuse.Fuse".
Definition n_CIM14_CDPSM_Unbalanced_IEC61970_Wires_Junction_Junction : name := Eval vm_compute in u "CIM14.CDPSM.Unbalanced.IEC61970.Wires.Junction.Junction".
Definition n_CIM14_CDPSM_Unbalanced_IEC61970_Wires_Line_Line : name := Eval vm_compute in u "CIM14.CDPSM.Unbalanced.IEC61970.Wires.Line.Line".
Definition n_CIM14_CDPSM_Unbalanced_IEC61970_Wires_LoadBreakSwitch_LoadBreakSwitch : name := Eval vm_compute in u "CIM14.CDPSM.Unbalanced.IEC61970.Wires.LoadBreakSwitch.LoadBreakSwitch".
Definition n_CIM14_CDPSM_Unbalanced_IEC61970_Wires_RatioTapChanger_RatioTapChanger : name := Eval vm_compute in u "CIM14.CDPSM.Unbalanced.IEC61970.Wires.RatioTapChanger.RatioTapChanger".
Definition n_CIM14_CDPSM_Unbalanced_IEC61970_Wires_ShuntCompensator_ShuntCompensator : name := Eval vm_compute in u "CIM14.CDPSM.Unbalanced.IEC61970.Wires.ShuntCompensator.ShuntCompensator".
Definition n_CIM14_CDPSM_Unbalanced_IEC61970_Wires_Switch_Switch : name := Eval vm_compute in u "CIM14.CDPSM.Unbalanced.IEC61970.Wires.Switch.Switch".
Definition n_CIM14_CDPSM_Unbalanced_IEC61970_Wires_SynchronousMachine_SynchronousMachine : name := Eval vm_compute in u "CIM14.CDPSM.Unbalanced.IEC61970.Wires.SynchronousMachine.SynchronousMachine".
Definition n_CIM14_CDPSM_Unbalanced_IEC61970_Wires_TapChanger_TapChanger : name := Eval vm_compute in u "CIM14.CDPSM.Unbalanced.IEC61970.Wires.TapChanger.TapChanger".
Definition n_CIM14_CPSM_Equipment_ControlArea_ControlAreaGeneratingUnit_ControlAreaGeneratingUnit : name := Eval vm_compute in u "CIM14.CPSM.Equipment.ControlArea.ControlAreaGeneratingUnit.ControlAreaGeneratingUnit".
Definition n_CIM14_CPSM_Equipment_ControlArea_ControlArea_ControlArea : name := Eval vm_compute in u "CIM14.CPSM.Equipment.ControlArea.ControlArea.ControlArea".
Definition n_CIM14_CPSM_Equipment_ControlArea_TieFlow_TieFlow : name := Eval vm_compute in u "CIM14.CPSM.Equipment.ControlArea.TieFlow.TieFlow".
Definition n_CIM14_CPSM_Equipment_Core_BaseVoltage_BaseVoltage : name := Eval vm_compute in u "CIM14.CPSM.Equipment.Core.BaseVoltage.BaseVoltage".
Definition n_CIM14_CPSM_Equipment_Core_BasicIntervalSchedule_BasicIntervalSchedule : name := Eval vm_compute in u "CIM14.CPSM.Equipment.Core.BasicIntervalSchedule.BasicIntervalSchedule".
Definition n_CIM14_CPSM_Equipment_Core_Bay_Bay : name := Eval vm_compute in u "CIM14.CPSM.Equipment.Core.Bay.Bay".
Definition n_CIM14_CPSM_Equipment_Core_ConductingEquipment_ConductingEquipment : name := Eval vm_compute in u "CIM14.CPSM.Equipment.Core.ConductingEquipment.ConductingEquipment".
Definition n_CIM14_CPSM_Equipment_Core_ConnectivityNodeContainer_ConnectivityNodeContainer : name := Eval vm_compute in u "CIM14.CPSM.Equipment.Core.ConnectivityNodeContainer.ConnectivityNodeContainer".
Definition n_CIM14_CPSM_Equipment_Core_ConnectivityNode_ConnectivityNode : name := Eval vm_compute in u "CIM14.CPSM.Equipment.Core.ConnectivityNode.ConnectivityNode".
Definition n_CIM14_CPSM_Equipment_Core_CurveData_CurveData : name := Eval vm_compute in u "CIM14.CPSM.Equipment.Core.CurveData.CurveData".
Definition n_CIM14_CPSM_Equipment_Core_Curve_Curve : name := Eval vm_compute in u "CIM14.CPSM.Equipment.Core.Curve.Curve".
Definition n_CIM14_CPSM_Equipment_Core_EquipmentContainer_EquipmentContainer : name := Eval vm_compute in u "CIM14.CPSM.Equipment.Core.EquipmentContainer.EquipmentContainer".
Definition n_CIM14_CPSM_Equipment_Core_Equipment_Equipment : name := Eval vm_compute in u "CIM14.CPSM.Equipment.Core.Equipment.Equipment".
Definition n_CIM14_CPSM_Equipment_Core_GeographicalRegion_GeographicalRegion : name := Eval vm_compute in u "CIM14.CPSM.Equipment.Core.GeographicalRegion.GeographicalRegion".
Definition n_CIM14_CPSM_Equipment_Core_IdentifiedObject_IdentifiedObject : name := Eval vm_compute in u "CIM14.CPSM.Equipment.Core.IdentifiedObject.IdentifiedObject".
Definition n_CIM14_CPSM_Equipment_Core_PowerSystemResource_PowerSystemResource : name := Eval vm_compute in u "CIM14.CPSM.Equipment.Core.PowerSystemResource.PowerSystemResource".
Definition n_CIM14_CPSM_Equipment_Core_RegularIntervalSchedule_RegularIntervalSchedule : name := Eval vm_compute in u "CIM14.CPSM.Equipment.Core.RegularIntervalSchedule.RegularIntervalSchedule".
Definition n_CIM14_CPSM_Equipment_Core_RegularTimePoint_RegularTimePoint : name := Eval vm_compute in u "CIM14.CPSM.Equipment.Core.RegularTimePoint.RegularTimePoint".
Definition n_CIM14_CPSM_Equipment_Core_SubGeographicalRegion_SubGeographicalRegion : name := Eval vm_compute in u "CIM14.CPSM.Equipment.Core.SubGeographicalRegion.SubGeographicalRegion".
Definition n_CIM14_CPSM_Equipment_Core_Substation_Substation : name := Eval vm_compute in u "CIM14.CPSM.Equipment.Core.Substation.Substation".
Definition n_CIM14_CPSM_Equipment_Core_Terminal_Terminal : name := Eval vm_compute in u "CIM14.CPSM.Equipment.Core.Terminal.Terminal".
Definition n_CIM14_CPSM_Equipment_Core_Unit_Unit : name := Eval vm_compute in u "CIM14.CPSM.Equipment.Core.Unit.Unit".
Definition n_CIM14_CPSM_Equipment_Core_VoltageLevel_VoltageLevel : name := Eval vm_compute in u "CIM14.CPSM.Equipment.Core.VoltageLevel.VoltageLevel".
Definition n_CIM14_CPSM_Equipment_Element_Element : name := Eval vm_compute in u "CIM14.CPSM.Equipment.Element.Element".
Definition n_CIM14_CPSM_Equipment_Equivalents_EquivalentBranch_EquivalentBranch : name := Eval vm_compute in u "CIM14.CPSM.Equipment.Equivalents.EquivalentBranch.EquivalentBranch".
Definition n_CIM14_CPSM_Equipment_Equivalents_EquivalentEquipment_EquivalentEquipment : name := Eval vm_compute in u "CIM14.CPSM.Equipment.Equivalents.EquivalentEquipment.EquivalentEquipment".
Definition n_CIM14_CPSM_Equipment_Equivalents_EquivalentInjection_EquivalentInjection : name := Eval vm_compute in u "CIM14.CPSM.Equipment.Equivalents.EquivalentInjection.EquivalentInjection".
Definition n_CIM14_CPSM_Equipment_Equivalents_EquivalentNetwork_EquivalentNetwork : name := Eval vm_compute in u "CIM14.CPSM.Equipment.Equivalents.EquivalentNetwork.EquivalentNetwork".
Definition n_CIM14_CPSM_Equipment_Equivalents_EquivalentShunt_EquivalentShunt : name := Eval vm_compute in u "CIM14.CPSM.Equipment.Equivalents.EquivalentShunt.EquivalentShunt".
Definition n_CIM14_CPSM_Equipment_Generation_Production_FossilFuel_FossilFuel : name := Eval vm_compute in u "CIM14.CPSM.Equipment.Generation.Production.FossilFuel.FossilFuel".
Definition n_CIM14_CPSM_Equipment_Generation_Production_GeneratingUnit_GeneratingUnit : name := Eval vm_compute in u "CIM14.CPSM.Equipment.Generation.Production.GeneratingUnit.GeneratingUnit".
Definition n_CIM14_CPSM_Equipment_Generation_Production_GrossToNetActivePowerCurve_GrossToNetActivePowerCurve : name := Eval vm_compute in u "CIM14.CPSM.Equipment.Generation.Production.GrossToNetActivePowerCurve.GrossToNetActivePowerCurve".
Definition n_CIM14_CPSM_Equipment_Generation_Production_HydroGeneratingUnit_HydroGeneratingUnit : name := Eval vm_compute in u "CIM14.CPSM.Equipment.Generation.Production.HydroGeneratingUnit.HydroGeneratingUnit".
Definition n_CIM14_CPSM_Equipment_Generation_Production_HydroPump_HydroPump : name := Eval vm_compute in u "CIM14.CPSM.Equipment.Generation.Production.HydroPump.HydroPump".
Definition n_CIM14_CPSM_Equipment_Generation_Production_NuclearGeneratingUnit_NuclearGeneratingUnit : name := Eval vm_compute in u "CIM14.CPSM.Equipment.Generation.Production.NuclearGeneratingUnit.NuclearGeneratingUnit".
Definition n_CIM14_CPSM_Equipment_Generation_Production_ThermalGeneratingUnit_ThermalGeneratingUnit : name := Eval vm_compute in u "CIM14.CPSM.Equipment.Generation.Production.ThermalGeneratingUnit.ThermalGeneratingUnit".
Definition n_CIM14_CPSM_Equipment_Generation_Production_WindGeneratingUnit_WindGeneratingUnit : name := Eval vm_compute in u "CIM14.CPSM.Equipment.Generation.Production.WindGeneratingUnit.WindGeneratingUnit".
Definition n_CIM14_CPSM_Equipment_IEC61970CIMVersion_IEC61970CIMVersion : name := Eval vm_compute in u "CIM14.CPSM.Equipment.IEC61970CIMVersion.IEC61970CIMVersion".
Definition n_CIM14_CPSM_Equipment_LoadModel_ConformLoadGroup_ConformLoadGroup : name := Eval vm_compute in u "CIM14.CPSM.Equipment.LoadModel.ConformLoadGroup.ConformLoadGroup".
Definition n_CIM14_CPSM_Equipment_LoadModel_ConformLoadSchedule_ConformLoadSchedule : name := Eval vm_compute in u "CIM14.CPSM.Equipment.LoadModel.ConformLoadSchedule.ConformLoadSchedule".
Definition n_CIM14_CPSM_Equipment_LoadModel_ConformLoad_ConformLoad : name := Eval vm_compute in u "CIM14.CPSM.Equipment.LoadModel.ConformLoad.ConformLoad".
Definition n_CIM14_CPSM_Equipment_LoadModel_DayType_DayType : name := Eval vm_compute in u "CIM14.CPSM.Equipment.LoadModel.DayType.DayType".
Definition n_CIM14_CPSM_Equipment_LoadModel_EnergyArea_EnergyArea : name := Eval vm_compute in u "CIM14.CPSM.Equipment.LoadModel.EnergyArea.EnergyArea".
Definition n_CIM14_CPSM_Equipment_LoadModel_LoadArea_LoadArea : name := Eval vm_compute in u "CIM14.CPSM.Equipment.LoadModel.LoadArea.LoadArea".
Definition n_CIM14_CPSM_Equipment_LoadModel_LoadGroup_LoadGroup : name := Eval vm_compute in u "CIM14.CPSM.Equipment.LoadModel.LoadGroup.LoadGroup".
Definition n_CIM14_CPSM_Equipment_LoadModel_LoadResponseCharacteristic_LoadResponseCharacteristic : name := Eval vm_compute in u "CIM14.CPSM.Equipment.LoadModel.LoadResponseCharacteristic.LoadResponseCharacteristic".
Definition n_CIM14_CPSM_Equipment_LoadModel_NonConformLoadGroup_NonConformLoadGroup : name := Eval vm_compute in u "CIM14.CPSM.Equipment.LoadModel.NonConformLoadGroup.NonConformLoadGroup".
Definition n_CIM14_CPSM_Equipment_LoadModel_NonConformLoadSchedule_NonConformLoadSchedule : name := Eval vm_compute in u "CIM14.CPSM.Equipment.LoadModel.NonConformLoadSchedule.NonConformLoadSchedule".
Definition n_CIM14_CPSM_Equipment_LoadModel_NonConformLoad_NonConformLoad : name := Eval vm_compute in u "CIM14.CPSM.Equipment.LoadModel.NonConformLoad.NonConformLoad".
Definition n_CIM14_CPSM_Equipment_LoadModel_SeasonDayTypeSchedule_SeasonDayTypeSchedule : name := Eval vm_compute in u "CIM14.CPSM.Equipment.LoadModel.SeasonDayTypeSchedule.SeasonDayTypeSchedule".
Definition n_CIM14_CPSM_Equipment_LoadModel_Season_Season : name := Eval vm_compute in u "CIM14.CPSM.Equipment.LoadModel.Season.Season".
Definition n_CIM14_CPSM_Equipment_LoadModel_StationSupply_StationSupply : name := Eval vm_compute in u "CIM14.CPSM.Equipment.LoadModel.StationSupply.StationSupply".
Definition n_CIM14_CPSM_Equipment_LoadModel_SubLoadArea_SubLoadArea : name := Eval vm_compute in u "CIM14.CPSM.Equipment.LoadModel.SubLoadArea.SubLoadArea".
Definition n_CIM14_CPSM_Equipment_Meas_AccumulatorValue_AccumulatorValue : name := Eval vm_compute in u "CIM14.CPSM.Equipment.Meas.AccumulatorValue.AccumulatorValue".
Definition n_CIM14_CPSM_Equipment_Meas_Accumulator_Accumulator : name := Eval vm_compute in u "CIM14.CPSM.Equipment.Meas.Accumulator.Accumulator".
Definition n_CIM14_CPSM_Equipment_Meas_AnalogValue_AnalogValue : name := Eval vm_compute in u "CIM14.CPSM.Equipment.Meas.AnalogValue.AnalogValue".
Definition n_CIM14_CPSM_Equipment_Meas_Analog_Analog : name := Eval vm_compute in u "CIM14.CPSM.Equipment.Meas.Analog.Analog".
Definition n_CIM14_CPSM_Equipment_Meas_DiscreteValue_DiscreteValue : name := Eval vm_compute in u "CIM14.CPSM.Equipment.Meas.DiscreteValue.DiscreteValue".
Definition n_CIM14_CPSM_Equipment_Meas_Discrete_Discrete : name := Eval vm_compute in u "CIM14.CPSM.Equipment.Meas.Discrete.Discrete".
Definition n_CIM14_CPSM_Equipment_Meas_MeasurementValueSource_MeasurementValueSource : name := Eval vm_compute in u "CIM14.CPSM.Equipment.Meas.MeasurementValueSource.MeasurementValueSource".
Definition n_CIM14_CPSM_Equipment_Meas_MeasurementValue_MeasurementValue : name := Eval vm_compute in u "CIM14.CPSM.Equipment.Meas.MeasurementValue.MeasurementValue".
Definition n_CIM14_CPSM_Equipment_Meas_Measurement_Measurement : name := Eval vm_compute in u "CIM14.CPSM.Equipment.Meas.Measurement.Measurement".
Definition n_CIM14_CPSM_Equipment_OperationalLimits_ActivePowerLimit_ActivePowerLimit : name := Eval vm_compute in u "CIM14.CPSM.Equipment.OperationalLimits.ActivePowerLimit.ActivePowerLimit".
Definition n_CIM14_CPSM_Equipment_OperationalLimits_ApparentPowerLimit_ApparentPowerLimit : name := Eval vm_compute in u "CIM14.CPSM.Equipment.OperationalLimits.ApparentPowerLimit.ApparentPowerLimit".
Definition n_CIM14_CPSM_Equipment_OperationalLimits_CurrentLimit_CurrentLimit : name := Eval vm_compute in u "CIM14.CPSM.Equipment.OperationalLimits.CurrentLimit.CurrentLimit".
Definition n_CIM14_CPSM_Equipment_OperationalLimits_OperationalLimitSet_OperationalLimitSet : name := Eval vm_compute in u "CIM14.CPSM.Equipment.OperationalLimits.OperationalLimitSet.OperationalLimitSet".
Definition n_CIM14_CPSM_Equipment_OperationalLimits_OperationalLimitType_OperationalLimitType : name := Eval vm_compute in u "CIM14.CPSM.Equipment.OperationalLimits.OperationalLimitType.OperationalLimitType".
Definition n_CIM14_CPSM_Equipment_OperationalLimits_OperationalLimit_OperationalLimit : name := Eval vm_compute in u "CIM14.CPSM.Equipment.OperationalLimits.OperationalLimit.OperationalLimit".
Definition n_CIM14_CPSM_Equipment_OperationalLimits_VoltageLimit_VoltageLimit : name := Eval vm_compute in u "CIM14.CPSM.Equipment.OperationalLimits.VoltageLimit.VoltageLimit".
Definition n_CIM14_CPSM_Equipment_Wires_ACLineSegment_ACLineSegment : name := Eval vm_compute in u "CIM14.CPSM.Equipment.Wires.ACLineSegment.ACLineSegment".
Definition n_CIM14_CPSM_Equipment_Wires_Breaker_Breaker : name := Eval vm_compute in u "CIM14.CPSM.Equipment.Wires.Breaker.Breaker".
Definition n_CIM14_CPSM_Equipment_Wires_BusbarSection_BusbarSection : name := Eval vm_compute in u "CIM14.CPSM.Equipment.Wires.BusbarSection.BusbarSection".
Definition n_CIM14_CPSM_Equipment_Wires_Conductor_Conductor : name := Eval vm_compute in u "CIM14.CPSM.Equipment.Wires.Conductor.Conductor".
Definition n_CIM14_CPSM_Equipment_Wires_Disconnector_Disconnector : name := Eval vm_compute in u "CIM14.CPSM.Equipment.Wires.Disconnector.Disconnector".
Definition n_CIM14_CPSM_Equipment_Wires_EnergyConsumer_EnergyConsumer : name := Eval vm_compute in u "CIM14.CPSM.Equipment.Wires.EnergyConsumer.EnergyConsumer".
Definition n_CIM14_CPSM_Equipment_Wires_ImpedanceVariationCurve_ImpedanceVariationCurve : name := Eval vm_compute in u "CIM14.CPSM.Equipment.Wires.ImpedanceVariationCurve.ImpedanceVariationCurve".
Definition n_CIM14_CPSM_Equipment_Wires_Line_Line : name := Eval vm_compute in u "CIM14.CPSM.Equipment.Wires.Line.Line".
Definition n_CIM14_CPSM_Equipment_Wires_LoadBreakSwitch_LoadBreakSwitch : name := Eval vm_compute in u "CIM14.CPSM.Equipment.Wires.LoadBreakSwitch.LoadBreakSwitch".
Definition n_CIM14_CPSM_Equipment_Wires_MutualCoupling_MutualCoupling : name := Eval vm_compute in u "CIM14.CPSM.Equipment.Wires.MutualCoupling.MutualCoupling".
Definition n_CIM14_CPSM_Equipment_Wires_PhaseTapChanger_PhaseTapChanger : name := Eval vm_compute in u "CIM14.CPSM.Equipment.Wires.PhaseTapChanger.PhaseTapChanger".
Definition n_CIM14_CPSM_Equipment_Wires_PhaseVariationCurve_PhaseVariationCurve : name := Eval vm_compute in u "CIM14.CPSM.Equipment.Wires.PhaseVariationCurve.PhaseVariationCurve".
Definition n_CIM14_CPSM_Equipment_Wires_PowerTransformer_PowerTransformer : name := Eval vm_compute in u "CIM14.CPSM.Equipment.Wires.PowerTransformer.PowerTransformer".
Definition n_CIM14_CPSM_Equipment_Wires_RatioTapChanger_RatioTapChanger : name := Eval vm_compute in u "CIM14.CPSM.Equipment.Wires.RatioTapChanger.RatioTapChanger".
Definition n_CIM14_CPSM_Equipment_Wires_RatioVariationCurve_RatioVariationCurve : name := Eval vm_compute in u "CIM14.CPSM.Equipment.Wires.RatioVariationCurve.RatioVariationCurve".
Definition n_CIM14_CPSM_Equipment_Wires_ReactiveCapabilityCurve_ReactiveCapabilityCurve : name := Eval vm_compute in u "CIM14.CPSM.Equipment.Wires.ReactiveCapabilityCurve.ReactiveCapabilityCurve".
Definition n_CIM14_CPSM_Equipment_Wires_RegulatingCondEq_RegulatingCondEq : name := Eval vm_compute in u "CIM14.CPSM.Equipment.Wires.RegulatingCondEq.RegulatingCondEq".
Definition n_CIM14_CPSM_Equipment_Wires_RegulatingControl_RegulatingControl : name := Eval vm_compute in u "CIM14.CPSM.Equipment.Wires.RegulatingControl.RegulatingControl".
Definition n_CIM14_CPSM_Equipment_Wires_RegulationSchedule_RegulationSchedule : name := Eval vm_compute in u "CIM14.CPSM.Equipment.Wires.RegulationSchedule.RegulationSchedule".
Definition n_CIM14_CPSM_Equipment_Wires_SeriesCompensator_SeriesCompensator : name := Eval vm_compute in u "CIM14.CPSM.Equipment.Wires.SeriesCompensator.SeriesCompensator".
Definition n_CIM14_CPSM_Equipment_Wires_ShuntCompensator_ShuntCompensator : name := Eval vm_compute in u "CIM14.CPSM.Equipment.Wires.ShuntCompensator.ShuntCompensator".
Definition n_CIM14_CPSM_Equipment_Wires_StaticVarCompensator_StaticVarCompensator : name := Eval vm_compute in u "CIM14.CPSM.Equipment.Wires.StaticVarCompensator.StaticVarCompensator".
Definition n_CIM14_CPSM_Equipment_Wires_SwitchSchedule_SwitchSchedule : name := Eval vm_compute in u "CIM14.CPSM.Equipment.Wires.SwitchSchedule.SwitchSchedule".
Definition n_CIM14_CPSM_Equipment_Wires_Switch_Switch : name := Eval vm_compute in u "CIM14.CPSM.Equipment.Wires.Switch.Switch".
Definition n_CIM14_CPSM_Equipment_Wires_SynchronousMachine_SynchronousMachine : name := Eval vm_compute in u "CIM14.CPSM.Equipment.Wires.SynchronousMachine.SynchronousMachine".
Definition n_CIM14_CPSM_Equipment_Wires_TapChanger_TapChanger : name := Eval vm_compute in u "CIM14.CPSM.Equipment.Wires.TapChanger.TapChanger".
Definition n_CIM14_CPSM_Equipment_Wires_TapSchedule_TapSchedule : name := Eval vm_compute in u "CIM14.CPSM.Equipment.Wires.TapSchedule.TapSchedule".
Definition n_CIM14_CPSM_Equipment_Wires_TransformerWinding_TransformerWinding : name := Eval vm_compute in u "CIM14.CPSM.Equipment.Wires.TransformerWinding.TransformerWinding".
Definition n_CIM14_CPSM_StateVariables_Core_Terminal_Terminal : name := Eval vm_compute in u "CIM14.CPSM.StateVariables.Core.Terminal.Terminal".
Definition n_CIM14_CPSM_StateVariables_Element_Element : name := Eval vm_compute in u "CIM14.CPSM.StateVariables.Element.Element".
Definition n_CIM14_CPSM_StateVariables_StateVariables_SvInjection_SvInjection : name := Eval vm_compute in u "CIM14.CPSM.StateVariables.StateVariables.SvInjection.SvInjection".
Definition n_CIM14_CPSM_StateVariables_StateVariables_SvPowerFlow_SvPowerFlow : name := Eval vm_compute in u "CIM14.CPSM.StateVariables.StateVariables.SvPowerFlow.SvPowerFlow".
Definition n_CIM14_CPSM_StateVariables_StateVariables_SvShortCircuit_SvShortCircuit : name := Eval vm_compute in u "CIM14.CPSM.StateVariables.StateVariables.SvShortCircuit.SvShortCircuit".
Definition n_CIM14_CPSM_StateVariables_StateVariables_SvShuntCompensatorSections_SvShuntCompensatorSections : name := Eval vm_compute in u "CIM14.CPSM.StateVariables.StateVariables.SvShuntCompensatorSections.SvShuntCompensatorSections".
Definition n_CIM14_CPSM_StateVariables_StateVariables_SvTapStep_SvTapStep : name := Eval vm_compute in u "CIM14.CPSM.StateVariables.StateVariables.SvTapStep.SvTapStep".
Definition n_CIM14_CPSM_StateVariables_StateVariables_SvVoltage_SvVoltage : name := Eval vm_compute in u "CIM14.CPSM.StateVariables.StateVariables.SvVoltage.SvVoltage".
Definition n_CIM14_CPSM_StateVariables_StateVariables_TopologicalIsland_TopologicalIsland : name := Eval vm_compute in u "CIM14.CPSM.StateVariables.StateVariables.TopologicalIsland.TopologicalIsland".
Definition n_CIM14_CPSM_StateVariables_Topology_TopologicalNode_TopologicalNode : name := Eval vm_compute in u "CIM14.CPSM.StateVariables.Topology.TopologicalNode.TopologicalNode".
Definition n_CIM14_CPSM_StateVariables_Wires_ShuntCompensator_ShuntCompensator : name := Eval vm_compute in u "CIM14.CPSM.StateVariables.Wires.ShuntCompensator.ShuntCompensator".
Definition n_CIM14_CPSM_StateVariables_Wires_TapChanger_TapChanger : name := Eval vm_compute in u "CIM14.CPSM.StateVariables.Wires.TapChanger.TapChanger".
Definition n_CIM14_CPSM_Topology_Core_BaseVoltage_BaseVoltage : name := Eval vm_compute in u "CIM14.CPSM.Topology.Core.BaseVoltage.BaseVoltage".
Definition n_CIM14_CPSM_Topology_Core_ConnectivityNode_ConnectivityNode : name := Eval vm_compute in u "CIM14.CPSM.Topology.Core.ConnectivityNode.ConnectivityNode".
Definition n_CIM14_CPSM_Topology_Core_IdentifiedObject_IdentifiedObject : name := Eval vm_compute in u "CIM14.CPSM.Topology.Core.IdentifiedObject.IdentifiedObject".
Definition n_CIM14_CPSM_Topology_Core_Terminal_Terminal : name := Eval vm_compute in u "CIM14.CPSM.Topology.Core.Terminal.Terminal".
Definition n_CIM14_CPSM_Topology_Element_Element : name := Eval vm_compute in u "CIM14.CPSM.Topology.Element.Element".
Definition n_CIM14_CPSM_Topology_Topology_TopologicalNode_TopologicalNode : name := Eval vm_compute in u "CIM14.CPSM.Topology.Topology.TopologicalNode.TopologicalNode".
Definition n_CIM14_CombinedVersion_CombinedVersion : name := Eval vm_compute in u "CIM14.CombinedVersion.CombinedVersion".
Definition n_CIM14_ENTSOE_Dynamics_Element_Element : name := Eval vm_compute in u "CIM14.ENTSOE.Dynamics.Element.Element".
Definition n_CIM14_ENTSOE_Dynamics_IEC61968_Assets_AssetsAsset_AssetsAsset : name := Eval vm_compute in u "CIM14.ENTSOE.Dynamics.IEC61968.Assets.AssetsAsset.AssetsAsset".
Definition n_CIM14_ENTSOE_Dynamics_IEC61968_Common_CommonLocation_CommonLocation : name := Eval vm_compute in u "CIM14.ENTSOE.Dynamics.IEC61968.Common.CommonLocation.CommonLocation".
Definition n_CIM14_ENTSOE_Dynamics_IEC61968_Customers_CustomersCustomerAgreement_CustomersCustomerAgreement : name := Eval vm_compute in u "CIM14.ENTSOE.Dynamics.IEC61968.Customers.CustomersCustomerAgreement.CustomersCustomerAgreement".
Definition n_CIM14_ENTSOE_Dynamics_IEC61970_Contingency_ContingencyContingencyEquipment_ContingencyContingencyEquipment : name := Eval vm_compute in u "CIM14.ENTSOE.Dynamics.IEC61970.Contingency.ContingencyContingencyEquipment.ContingencyContingencyEquipment".
Definition n_CIM14_ENTSOE_Dynamics_IEC61970_Core_CoreBaseVoltage_CoreBaseVoltage : name := Eval vm_compute in u "CIM14.ENTSOE.Dynamics.IEC61970.Core.CoreBaseVoltage.CoreBaseVoltage".
Definition n_CIM14_ENTSOE_Dynamics_IEC61970_Core_CoreConductingEquipment_CoreConductingEquipment : name := Eval vm_compute in u "CIM14.ENTSOE.Dynamics.IEC61970.Core.CoreConductingEquipment.CoreConductingEquipment".
Definition n_CIM14_ENTSOE_Dynamics_IEC61970_Core_CoreEquipmentContainer_CoreEquipmentContainer : name := Eval vm_compute in u "CIM14.ENTSOE.Dynamics.IEC61970.Core.CoreEquipmentContainer.CoreEquipmentContainer".
Definition n_CIM14_ENTSOE_Dynamics_IEC61970_Core_CoreEquipment_CoreEquipment : name := Eval vm_compute in u "CIM14.ENTSOE.Dynamics.IEC61970.Core.CoreEquipment.CoreEquipment".
Definition n_CIM14_ENTSOE_Dynamics_IEC61970_Core_CoreIdentifiedObject_CoreIdentifiedObject : name := Eval vm_compute in u "CIM14.ENTSOE.Dynamics.IEC61970.Core.CoreIdentifiedObject.CoreIdentifiedObject".
Definition n_CIM14_ENTSOE_Dynamics_IEC61970_Core_CoreOperatingShare_CoreOperatingShare : name := Eval vm_compute in u "CIM14.ENTSOE.Dynamics.IEC61970.Core.CoreOperatingShare.CoreOperatingShare".
Definition n_CIM14_ENTSOE_Dynamics_IEC61970_Core_CorePSRType_CorePSRType : name := Eval vm_compute in u "CIM14.ENTSOE.Dynamics.IEC61970.Core.CorePSRType.CorePSRType".
Definition n_CIM14_ENTSOE_Dynamics_IEC61970_Core_CorePowerSystemResource_CorePowerSystemResource : name := Eval vm_compute in u "CIM14.ENTSOE.Dynamics.IEC61970.Core.CorePowerSystemResource.CorePowerSystemResource".
Definition n_CIM14_ENTSOE_Dynamics_IEC61970_Core_CorePsrList_CorePsrList : name := Eval vm_compute in u "CIM14.ENTSOE.Dynamics.IEC61970.Core.CorePsrList.CorePsrList".
Definition n_CIM14_ENTSOE_Dynamics_IEC61970_Core_CoreReportingGroup_CoreReportingGroup : name := Eval vm_compute in u "CIM14.ENTSOE.Dynamics.IEC61970.Core.CoreReportingGroup.CoreReportingGroup".
Definition n_CIM14_ENTSOE_Dynamics_IEC61970_Core_CoreTerminal_CoreTerminal : name := Eval vm_compute in u "CIM14.ENTSOE.Dynamics.IEC61970.Core.CoreTerminal.CoreTerminal".
Definition n_CIM14_ENTSOE_Dynamics_IEC61970_Dynamics_DynamicsAsynchronousMachine_DynamicsAsynchronousMachine : name := Eval vm_compute in u "CIM14.ENTSOE.Dynamics.IEC61970.Dynamics.DynamicsAsynchronousMachine.DynamicsAsynchronousMachine".
Definition n_CIM14_ENTSOE_Dynamics_IEC61970_Dynamics_DynamicsAttributeBlockParameter_DynamicsAttributeBlockParameter : name := Eval vm_compute in u "CIM14.ENTSOE.Dynamics.IEC61970.Dynamics.DynamicsAttributeBlockParameter.DynamicsAttributeBlockParameter".
Definition n_CIM14_ENTSOE_Dynamics_IEC61970_Dynamics_DynamicsBlockConnection_DynamicsBlockConnection : name := Eval vm_compute in u "CIM14.ENTSOE.Dynamics.IEC61970.Dynamics.DynamicsBlockConnection.DynamicsBlockConnection".
Definition n_CIM14_ENTSOE_Dynamics_IEC61970_Dynamics_DynamicsBlockConnectivity_DynamicsBlockConnectivity : name := Eval vm_compute in u "CIM14.ENTSOE.Dynamics.IEC61970.Dynamics.DynamicsBlockConnectivity.DynamicsBlockConnectivity".
Definition n_CIM14_ENTSOE_Dynamics_IEC61970_Dynamics_DynamicsBlockParameter_DynamicsBlockParameter : name := Eval vm_compute in u "CIM14.ENTSOE.Dynamics.IEC61970.Dynamics.DynamicsBlockParameter.DynamicsBlockParameter".
Definition n_CIM14_ENTSOE_Dynamics_IEC61970_Dynamics_DynamicsBlock_DynamicsBlock : name := Eval vm_compute in u "CIM14.ENTSOE.Dynamics.IEC61970.Dynamics.DynamicsBlock.DynamicsBlock".
Definition n_CIM14_ENTSOE_Dynamics_IEC61970_Dynamics_DynamicsMetaBlockConInput_DynamicsMetaBlockConInput : name := Eval vm_compute in u "CIM14.ENTSOE.Dynamics.IEC61970.Dynamics.DynamicsMetaBlockConInput.DynamicsMetaBlockConInput".
Definition n_CIM14_ENTSOE_Dynamics_IEC61970_Dynamics_DynamicsMetaBlockConOutput_DynamicsMetaBlockConOutput : name := Eval vm_compute in u "CIM14.ENTSOE.Dynamics.IEC61970.Dynamics.DynamicsMetaBlockConOutput.DynamicsMetaBlockConOutput".
Definition n_CIM14_ENTSOE_Dynamics_IEC61970_Dynamics_DynamicsMetaBlockConSignal_DynamicsMetaBlockConSignal : name := Eval vm_compute in u "CIM14.ENTSOE.Dynamics.IEC61970.Dynamics.DynamicsMetaBlockConSignal.DynamicsMetaBlockConSignal".
Definition n_CIM14_ENTSOE_Dynamics_IEC61970_Dynamics_DynamicsMetaBlockConnectable_DynamicsMetaBlockConnectable : name := Eval vm_compute in u "CIM14.ENTSOE.Dynamics.IEC61970.Dynamics.DynamicsMetaBlockConnectable.DynamicsMetaBlockConnectable".
Definition n_CIM14_ENTSOE_Dynamics_IEC61970_Dynamics_DynamicsMetaBlockConnection_DynamicsMetaBlockConnection : name := Eval vm_compute in u "CIM14.ENTSOE.Dynamics.IEC61970.Dynamics.DynamicsMetaBlockConnection.DynamicsMetaBlockConnection".
Definition n_CIM14_ENTSOE_Dynamics_IEC61970_Dynamics_DynamicsMetaBlockConnectivity_DynamicsMetaBlockConnectivity : name := Eval vm_compute in u "CIM14.ENTSOE.Dynamics.IEC61970.Dynamics.DynamicsMetaBlockConnectivity.DynamicsMetaBlockConnectivity".
Definition n_CIM14_ENTSOE_Dynamics_IEC61970_Dynamics_DynamicsMetaBlockInputReference_DynamicsMetaBlockInputReference : name := Eval vm_compute in u "CIM14.ENTSOE.Dynamics.IEC61970.Dynamics.DynamicsMetaBlockInputReference.DynamicsMetaBlockInputReference".
Definition n_CIM14_ENTSOE_Dynamics_IEC61970_Dynamics_DynamicsMetaBlockInput_DynamicsMetaBlockInput : name := Eval vm_compute in u "CIM14.ENTSOE.Dynamics.IEC61970.Dynamics.DynamicsMetaBlockInput.DynamicsMetaBlockInput".
Definition n_CIM14_ENTSOE_Dynamics_IEC61970_Dynamics_DynamicsMetaBlockOutputReference_DynamicsMetaBlockOutputReference : name := Eval vm_compute in u "CIM14.ENTSOE.Dynamics.IEC61970.Dynamics.DynamicsMetaBlockOutputReference.DynamicsMetaBlockOutputReference".
Definition n_CIM14_ENTSOE_Dynamics_IEC61970_Dynamics_DynamicsMetaBlockOutput_DynamicsMetaBlockOutput : name := Eval vm_compute in u "CIM14.ENTSOE.Dynamics.IEC61970.Dynamics.DynamicsMetaBlockOutput.DynamicsMetaBlockOutput".
Definition n_CIM14_ENTSOE_Dynamics_IEC61970_Dynamics_DynamicsMetaBlockParameterReference_DynamicsMetaBlockParameterReference : name := Eval vm_compute in u "CIM14.ENTSOE.Dynamics.IEC61970.Dynamics.DynamicsMetaBlockParameterReference.DynamicsMetaBlockParameterReference".
Definition n_CIM14_ENTSOE_Dynamics_IEC61970_Dynamics_DynamicsMetaBlockParameter_DynamicsMetaBlockParameter : name := Eval vm_compute in u "CIM14.ENTSOE.Dynamics.IEC61970.Dynamics.DynamicsMetaBlockParameter.DynamicsMetaBlockParameter".
Definition n_CIM14_ENTSOE_Dynamics_IEC61970_Dynamics_DynamicsMetaBlockReference_DynamicsMetaBlockReference : name := Eval vm_compute in u "CIM14.ENTSOE.Dynamics.IEC61970.Dynamics.DynamicsMetaBlockReference.DynamicsMetaBlockReference".
Definition n_CIM14_ENTSOE_Dynamics_IEC61970_Dynamics_DynamicsMetaBlockSignal_DynamicsMetaBlockSignal : name := Eval vm_compute in u "CIM14.ENTSOE.Dynamics.IEC61970.Dynamics.DynamicsMetaBlockSignal.DynamicsMetaBlockSignal".
Definition n_CIM14_ENTSOE_Dynamics_IEC61970_Dynamics_DynamicsMetaBlockStateReference_DynamicsMetaBlockStateReference : name := Eval vm_compute in u "CIM14.ENTSOE.Dynamics.IEC61970.Dynamics.DynamicsMetaBlockStateReference.DynamicsMetaBlockStateReference".
Definition n_CIM14_ENTSOE_Dynamics_IEC61970_Dynamics_DynamicsMetaBlockState_DynamicsMetaBlockState : name := Eval vm_compute in u "CIM14.ENTSOE.Dynamics.IEC61970.Dynamics.DynamicsMetaBlockState.DynamicsMetaBlockState".
Definition n_CIM14_ENTSOE_Dynamics_IEC61970_Dynamics_DynamicsMetaBlock_DynamicsMetaBlock : name := Eval vm_compute in u "CIM14.ENTSOE.Dynamics.IEC61970.Dynamics.DynamicsMetaBlock.DynamicsMetaBlock".
Definition n_CIM14_ENTSOE_Dynamics_IEC61970_Dynamics_DynamicsRotatingMachine_DynamicsRotatingMachine : name := Eval vm_compute in u "CIM14.ENTSOE.Dynamics.IEC61970.Dynamics.DynamicsRotatingMachine.DynamicsRotatingMachine".
Definition n_CIM14_ENTSOE_Dynamics_IEC61970_Dynamics_ExcitationSystems_ExcitationSystemsExcAC1A_ExcitationSystemsExcAC1A : name := Eval vm_compute in u "CIM14.ENTSOE.Dynamics.IEC61970.Dynamics.ExcitationSystems.ExcitationSystemsExcAC1A.ExcitationSystemsExcAC1A".
Definition n_CIM14_ENTSOE_Dynamics_IEC61970_Dynamics_ExcitationSystems_ExcitationSystemsExcAC2A_ExcitationSystemsExcAC2A : name := Eval vm_compute in u "CIM14.ENTSOE.Dynamics.IEC61970.Dynamics.ExcitationSystems.ExcitationSystemsExcAC2A.ExcitationSystemsExcAC2A".
Definition n_CIM14_ENTSOE_Dynamics_IEC61970_Dynamics_ExcitationSystems_ExcitationSystemsExcAC3A_ExcitationSystemsExcAC3A : name := Eval vm_compute in u "CIM14.ENTSOE.Dynamics.IEC61970.Dynamics.ExcitationSystems.ExcitationSystemsExcAC3A.ExcitationSystemsExcAC3A".
Definition n_CIM14_ENTSOE_Dynamics_IEC61970_Dynamics_ExcitationSystems_ExcitationSystemsExcAC4A_ExcitationSystemsExcAC4A : name := Eval vm_compute in u "CIM14.ENTSOE.Dynamics.IEC61970.Dynamics.ExcitationSystems.ExcitationSystemsExcAC4A.ExcitationSystemsExcAC4A".
Definition n_CIM14_ENTSOE_Dynamics_IEC61970_Dynamics_ExcitationSystems_ExcitationSystemsExcAC5A_ExcitationSystemsExcAC5A : name := Eval vm_compute in u "CIM14.ENTSOE.Dynamics.IEC61970.Dynamics.ExcitationSystems.ExcitationSystemsExcAC5A.ExcitationSystemsExcAC5A".
Definition n_CIM14_ENTSOE_Dynamics_IEC61970_Dynamics_ExcitationSystems_ExcitationSystemsExcAC6A_ExcitationSystemsExcAC6A : name := Eval vm_compute in u "CIM14.ENTSOE.Dynamics.IEC61970.Dynamics.ExcitationSystems.ExcitationSystemsExcAC6A.ExcitationSystemsExcAC6A".
Definition n_CIM14_ENTSOE_Dynamics_IEC61970_Dynamics_ExcitationSystems_ExcitationSystemsExcAC7B_ExcitationSystemsExcAC7B : name := Eval vm_compute in u "CIM14.ENTSOE.Dynamics.IEC61970.Dynamics.ExcitationSystems.ExcitationSystemsExcAC7B.ExcitationSystemsExcAC7B".
Definition n_CIM14_ENTSOE_Dynamics_IEC61970_Dynamics_ExcitationSystems_ExcitationSystemsExcAC8B_ExcitationSystemsExcAC8B : name := Eval vm_compute in u "CIM14.ENTSOE.Dynamics.IEC61970.Dynamics.ExcitationSystems.ExcitationSystemsExcAC8B.ExcitationSystemsExcAC8B".
Definition n_CIM14_ENTSOE_Dynamics_IEC61970_Dynamics_ExcitationSystems_ExcitationSystemsExcDC1A_ExcitationSystemsExcDC1A : name := Eval vm_compute in u "CIM14.ENTSOE.Dynamics.IEC61970.Dynamics.ExcitationSystems.ExcitationSystemsExcDC1A.ExcitationSystemsExcDC1A".
Definition n_CIM14_ENTSOE_Dynamics_IEC61970_Dynamics_ExcitationSystems_ExcitationSystemsExcDC2A_ExcitationSystemsExcDC2A : name := Eval vm_compute in u "CIM14.ENTSOE.Dynamics.IEC61970.Dynamics.ExcitationSystems.ExcitationSystemsExcDC2A.ExcitationSystemsExcDC2A".
Definition n_CIM14_ENTSOE_Dynamics_IEC61970_Dynamics_ExcitationSystems_ExcitationSystemsExcDC3A_ExcitationSystemsExcDC3A : name := Eval vm_compute in u "CIM14.ENTSOE.Dynamics.IEC61970.Dynamics.ExcitationSystems.ExcitationSystemsExcDC3A.ExcitationSystemsExcDC3A".
Definition n_CIM14_ENTSOE_Dynamics_IEC61970_Dynamics_ExcitationSystems_ExcitationSystemsExcDC4B_ExcitationSystemsExcDC4B : name := Eval vm_compute in u "CIM14.ENTSOE.Dynamics.IEC61970.Dynamics.ExcitationSystems.ExcitationSystemsExcDC4B.ExcitationSystemsExcDC4B".
Definition n_CIM14_ENTSOE_Dynamics_IEC61970_Dynamics_ExcitationSystems_ExcitationSystemsExcSCRX_ExcitationSystemsExcSCRX : name := Eval vm_compute in u "CIM14.ENTSOE.Dynamics.IEC61970.Dynamics.ExcitationSystems.ExcitationSystemsExcSCRX.ExcitationSystemsExcSCRX".
Definition n_CIM14_ENTSOE_Dynamics_IEC61970_Dynamics_ExcitationSystems_ExcitationSystemsExcSEXS_ExcitationSystemsExcSEXS : name := Eval vm_compute in u "CIM14.ENTSOE.Dynamics.IEC61970.Dynamics.ExcitationSystems.ExcitationSystemsExcSEXS.ExcitationSystemsExcSEXS".
Definition n_CIM14_ENTSOE_Dynamics_IEC61970_Dynamics_ExcitationSystems_ExcitationSystemsExcST1A_ExcitationSystemsExcST1A : name := Eval vm_compute in u "CIM14.ENTSOE.Dynamics.IEC61970.Dynamics.ExcitationSystems.ExcitationSystemsExcST1A.ExcitationSystemsExcST1A".
Definition n_CIM14_ENTSOE_Dynamics_IEC61970_Dynamics_ExcitationSystems_ExcitationSystemsExcST2A_ExcitationSystemsExcST2A : name := Eval vm_compute in u "CIM14.ENTSOE.Dynamics.IEC61970.Dynamics.ExcitationSystems.ExcitationSystemsExcST2A.ExcitationSystemsExcST2A".
Definition n_CIM14_ENTSOE_Dynamics_IEC61970_Dynamics_ExcitationSystems_ExcitationSystemsExcST3A_ExcitationSystemsExcST3A : name := Eval vm_compute in u "CIM14.ENTSOE.Dynamics.IEC61970.Dynamics.ExcitationSystems.ExcitationSystemsExcST3A.ExcitationSystemsExcST3A".
Definition n_CIM14_ENTSOE_Dynamics_IEC61970_Dynamics_ExcitationSystems_ExcitationSystemsExcST4B_ExcitationSystemsExcST4B : name := Eval vm_compute in u "CIM14.ENTSOE.Dynamics.IEC61970.Dynamics.ExcitationSystems.ExcitationSystemsExcST4B.ExcitationSystemsExcST4B".
Definition n_CIM14_ENTSOE_Dynamics_IEC61970_Dynamics_ExcitationSystems_ExcitationSystemsExcST5B_ExcitationSystemsExcST5B : name := Eval vm_compute in u "CIM14.ENTSOE.Dynamics.IEC61970.Dynamics.ExcitationSystems.ExcitationSystemsExcST5B.ExcitationSystemsExcST5B".
Definition n_CIM14_ENTSOE_Dynamics_IEC61970_Dynamics_ExcitationSystems_ExcitationSystemsExcST6B_ExcitationSystemsExcST6B : name := Eval vm_compute in u "CIM14.ENTSOE.Dynamics.IEC61970.Dynamics.ExcitationSystems.ExcitationSystemsExcST6B.ExcitationSystemsExcST6B".
Definition n_CIM14_ENTSOE_Dynamics_IEC61970_Dynamics_ExcitationSystems_ExcitationSystemsExcST7B_ExcitationSystemsExcST7B : name := Eval vm_compute in u "CIM14.ENTSOE.Dynamics.IEC61970.Dynamics.ExcitationSystems.ExcitationSystemsExcST7B.ExcitationSystemsExcST7B".
Definition n_CIM14_ENTSOE_Dynamics_IEC61970_Dynamics_Generators_GeneratorsGenEquiv_GeneratorsGenEquiv : name := Eval vm_compute in u "CIM14.ENTSOE.Dynamics.IEC61970.Dynamics.Generators.GeneratorsGenEquiv.GeneratorsGenEquiv".
Definition n_CIM14_ENTSOE_Dynamics_IEC61970_Dynamics_Loads_LoadsLoadMotor_LoadsLoadMotor : name := Eval vm_compute in u "CIM14.ENTSOE.Dynamics.IEC61970.Dynamics.Loads.LoadsLoadMotor.LoadsLoadMotor".
Definition n_CIM14_ENTSOE_Dynamics_IEC61970_Dynamics_Loads_LoadsLoadStatic_LoadsLoadStatic : name := Eval vm_compute in u "CIM14.ENTSOE.Dynamics.IEC61970.Dynamics.Loads.LoadsLoadStatic.LoadsLoadStatic".
Definition n_CIM14_ENTSOE_Dynamics_IEC61970_Dynamics_Motors_MotorsMechLoad1_MotorsMechLoad1 : name := Eval vm_compute in u "CIM14.ENTSOE.Dynamics.IEC61970.Dynamics.Motors.MotorsMechLoad1.MotorsMechLoad1".
Definition n_CIM14_ENTSOE_Dynamics_IEC61970_Dynamics_PowerSystemStabilizers_PowerSystemStabilizersPssIEEE2B_PowerSystemStabilizersPssIEEE2B : name := Eval vm_compute in u "CIM14.ENTSOE.Dynamics.IEC61970.Dynamics.PowerSystemStabilizers.PowerSystemStabilizersPssIEEE2B.PowerSystemStabilizersPssIEEE2B".
Definition n_CIM14_ENTSOE_Dynamics_IEC61970_Dynamics_TurbineGovernors_TurbineGovernorsGovCT1_TurbineGovernorsGovCT1 : name := Eval vm_compute in u "CIM14.ENTSOE.Dynamics.IEC61970.Dynamics.TurbineGovernors.TurbineGovernorsGovCT1.TurbineGovernorsGovCT1".
Definition n_CIM14_ENTSOE_Dynamics_IEC61970_Dynamics_TurbineGovernors_TurbineGovernorsGovHydro1_TurbineGovernorsGovHydro1 : name := Eval vm_compute in u "CIM14.ENTSOE.Dynamics.IEC61970.Dynamics.TurbineGovernors.TurbineGovernorsGovHydro1.TurbineGovernorsGovHydro1".
Definition n_CIM14_ENTSOE_Dynamics_IEC61970_Dynamics_TurbineGovernors_TurbineGovernorsGovHydro2_TurbineGovernorsGovHydro2 : name := Eval vm_compute in u "CIM14.ENTSOE.Dynamics.IEC61970.Dynamics.TurbineGovernors.TurbineGovernorsGovHydro2.TurbineGovernorsGovHydro2".
Definition n_CIM14_ENTSOE_Dynamics_IEC61970_Dynamics_TurbineGovernors_TurbineGovernorsGovSteam0_TurbineGovernorsGovSteam0 : name := Eval vm_compute in u "CIM14.ENTSOE.Dynamics.IEC61970.Dynamics.TurbineGovernors.TurbineGovernorsGovSteam0.TurbineGovernorsGovSteam0".
Definition n_CIM14_ENTSOE_Dynamics_IEC61970_Dynamics_TurbineGovernors_TurbineGovernorsGovSteam1_TurbineGovernorsGovSteam1 : name := Eval vm_compute in u "CIM14.ENTSOE.Dynamics.IEC61970.Dynamics.TurbineGovernors.TurbineGovernorsGovSteam1.TurbineGovernorsGovSteam1".
Definition n_CIM14_ENTSOE_Dynamics_IEC61970_Dynamics_VoltageCompensator_VoltageCompensatorVcompCross_VoltageCompensatorVcompCross : name := Eval vm_compute in u "CIM14.ENTSOE.Dynamics.IEC61970.Dynamics.VoltageCompensator.VoltageCompensatorVcompCross.VoltageCompensatorVcompCross".
Definition n_CIM14_ENTSOE_Dynamics_IEC61970_Dynamics_VoltageCompensator_VoltageCompensatorVcompIEEE_VoltageCompensatorVcompIEEE : name := Eval vm_compute in u "CIM14.ENTSOE.Dynamics.IEC61970.Dynamics.VoltageCompensator.VoltageCompensatorVcompIEEE.VoltageCompensatorVcompIEEE".
Definition n_CIM14_ENTSOE_Dynamics_IEC61970_Informative_InfCore_InfCoreModelingAuthoritySet_InfCoreModelingAuthoritySet : name := Eval vm_compute in u "CIM14.ENTSOE.Dynamics.IEC61970.Informative.InfCore.InfCoreModelingAuthoritySet.InfCoreModelingAuthoritySet".
Definition n_CIM14_ENTSOE_Dynamics_IEC61970_Meas_MeasControl_MeasControl : name := Eval vm_compute in u "CIM14.ENTSOE.Dynamics.IEC61970.Meas.MeasControl.MeasControl".
Definition n_CIM14_ENTSOE_Dynamics_IEC61970_Meas_MeasMeasurement_MeasMeasurement : name := Eval vm_compute in u "CIM14.ENTSOE.Dynamics.IEC61970.Meas.MeasMeasurement.MeasMeasurement".
Definition n_CIM14_ENTSOE_Dynamics_IEC61970_OperationalLimits_OperationalLimitsOperationalLimitSet_OperationalLimitsOperationalLimitSet : name := Eval vm_compute in u "CIM14.ENTSOE.Dynamics.IEC61970.OperationalLimits.OperationalLimitsOperationalLimitSet.OperationalLimitsOperationalLimitSet".
Definition n_CIM14_ENTSOE_Dynamics_IEC61970_Outage_OutageClearanceTag_OutageClearanceTag : name := Eval vm_compute in u "CIM14.ENTSOE.Dynamics.IEC61970.Outage.OutageClearanceTag.OutageClearanceTag".
Definition n_CIM14_ENTSOE_Dynamics_IEC61970_Outage_OutageOutageSchedule_OutageOutageSchedule : name := Eval vm_compute in u "CIM14.ENTSOE.Dynamics.IEC61970.Outage.OutageOutageSchedule.OutageOutageSchedule".
Definition n_CIM14_ENTSOE_Dynamics_IEC61970_Protection_ProtectionProtectionEquipment_ProtectionProtectionEquipment : name := Eval vm_compute in u "CIM14.ENTSOE.Dynamics.IEC61970.Protection.ProtectionProtectionEquipment.ProtectionProtectionEquipment".
Definition n_CIM14_ENTSOE_Dynamics_IEC61970_StateVariables_StateVariablesSvStatus_StateVariablesSvStatus : name := Eval vm_compute in u "CIM14.ENTSOE.Dynamics.IEC61970.StateVariables.StateVariablesSvStatus.StateVariablesSvStatus".
Definition n_CIM14_ENTSOE_Dynamics_IEC61970_Wires_WiresRegulatingCondEq_WiresRegulatingCondEq : name := Eval vm_compute in u "CIM14.ENTSOE.Dynamics.IEC61970.Wires.WiresRegulatingCondEq.WiresRegulatingCondEq".
Definition n_CIM14_ENTSOE_Dynamics_IEC61970_Wires_WiresRegulatingControl_WiresRegulatingControl : name := Eval vm_compute in u "CIM14.ENTSOE.Dynamics.IEC61970.Wires.WiresRegulatingControl.WiresRegulatingControl".
Definition n_CIM14_ENTSOE_Dynamics_IEC61970_Wires_WiresSynchronousMachine_WiresSynchronousMachine : name := Eval vm_compute in u "CIM14.ENTSOE.Dynamics.IEC61970.Wires.WiresSynchronousMachine.WiresSynchronousMachine".
Definition n_CIM14_ENTSOE_Dynamics_Thing_Thing : name := Eval vm_compute in u "CIM14.ENTSOE.Dynamics.Thing.Thing".
Definition n_CIM14_ENTSOE_Equipment_ControlArea_ControlAreaGeneratingUnit_ControlAreaGeneratingUnit : name := Eval vm_compute in u "CIM14.ENTSOE.Equipment.ControlArea.ControlAreaGeneratingUnit.ControlAreaGeneratingUnit".
Definition n_CIM14_ENTSOE_Equipment_ControlArea_ControlArea_ControlArea : name := Eval vm_compute in u "CIM14.ENTSOE.Equipment.ControlArea.ControlArea.ControlArea".
Definition n_CIM14_ENTSOE_Equipment_ControlArea_TieFlow_TieFlow : name := Eval vm_compute in u "CIM14.ENTSOE.Equipment.ControlArea.TieFlow.TieFlow".
Definition n_CIM14_ENTSOE_Equipment_Core_BaseVoltage_BaseVoltage : name := Eval vm_compute in u "CIM14.ENTSOE.Equipment.Core.BaseVoltage.BaseVoltage".
Definition n_CIM14_ENTSOE_Equipment_Core_BasicIntervalSchedule_BasicIntervalSchedule : name := Eval vm_compute in u "CIM14.ENTSOE.Equipment.Core.BasicIntervalSchedule.BasicIntervalSchedule".
Definition n_CIM14_ENTSOE_Equipment_Core_ConductingEquipment_ConductingEquipment : name := Eval vm_compute in u "CIM14.ENTSOE.Equipment.Core.ConductingEquipment.ConductingEquipment".
Definition n_CIM14_ENTSOE_Equipment_Core_ConnectivityNodeContainer_ConnectivityNodeContainer : name := Eval vm_compute in u "CIM14.ENTSOE.Equipment.Core.ConnectivityNodeContainer.ConnectivityNodeContainer".
Definition n_CIM14_ENTSOE_Equipment_Core_ConnectivityNode_ConnectivityNode : name := Eval vm_compute in u "CIM14.ENTSOE.Equipment.Core.ConnectivityNode.ConnectivityNode".
Definition n_CIM14_ENTSOE_Equipment_Core_CurveData_CurveData : name := Eval vm_compute in u "CIM14.ENTSOE.Equipment.Core.CurveData.CurveData".
Definition n_CIM14_ENTSOE_Equipment_Core_Curve_Curve : name := Eval vm_compute in u "CIM14.ENTSOE.Equipment.Core.Curve.Curve".
Definition n_CIM14_ENTSOE_Equipment_Core_EquipmentContainer_EquipmentContainer : name := Eval vm_compute in u "CIM14.ENTSOE.Equipment.Core.EquipmentContainer.EquipmentContainer".
Definition n_CIM14_ENTSOE_Equipment_Core_Equipment_Equipment : name := Eval vm_compute in u "CIM14.ENTSOE.Equipment.Core.Equipment.Equipment".
Definition n_CIM14_ENTSOE_Equipment_Core_GeographicalRegion_GeographicalRegion : name := Eval vm_compute in u "CIM14.ENTSOE.Equipment.Core.GeographicalRegion.GeographicalRegion".
Definition n_CIM14_ENTSOE_Equipment_Core_IdentifiedObject_IdentifiedObject : name := Eval vm_compute in u "CIM14.ENTSOE.Equipment.Core.IdentifiedObject.IdentifiedObject".
Definition n_CIM14_ENTSOE_Equipment_Core_PowerSystemResource_PowerSystemResource : name := Eval vm_compute in u "CIM14.ENTSOE.Equipment.Core.PowerSystemResource.PowerSystemResource".
Definition n_CIM14_ENTSOE_Equipment_Core_RegularIntervalSchedule_RegularIntervalSchedule : name := Eval vm_compute in u "CIM14.ENTSOE.Equipment.Core.RegularIntervalSchedule.RegularIntervalSchedule".
Definition n_CIM14_ENTSOE_Equipment_Core_SubGeographicalRegion_SubGeographicalRegion : name := Eval vm_compute in u "CIM14.ENTSOE.Equipment.Core.SubGeographicalRegion.SubGeographicalRegion".
Definition n_CIM14_ENTSOE_Equipment_Core_Substation_Substation : name := Eval vm_compute in u "CIM14.ENTSOE.Equipment.Core.Substation.Substation".
Definition n_CIM14_ENTSOE_Equipment_Core_Terminal_Terminal : name := Eval vm_compute in u "CIM14.ENTSOE.Equipment.Core.Terminal.Terminal".
Definition n_CIM14_ENTSOE_Equipment_Core_Unit_Unit : name := Eval vm_compute in u "CIM14.ENTSOE.Equipment.Core.Unit.Unit".
Definition n_CIM14_ENTSOE_Equipment_Core_VoltageLevel_VoltageLevel : name := Eval vm_compute in u "CIM14.ENTSOE.Equipment.Core.VoltageLevel.VoltageLevel".
Definition n_CIM14_ENTSOE_Equipment_Element_Element : name := Eval vm_compute in u "CIM14.ENTSOE.Equipment.Element.Element".
Definition n_CIM14_ENTSOE_Equipment_Equivalents_EquivalentEquipment_EquivalentEquipment : name := Eval vm_compute in u "CIM14.ENTSOE.Equipment.Equivalents.EquivalentEquipment.EquivalentEquipment".
Definition n_CIM14_ENTSOE_Equipment_Equivalents_EquivalentNetwork_EquivalentNetwork : name := Eval vm_compute in u "CIM14.ENTSOE.Equipment.Equivalents.EquivalentNetwork.EquivalentNetwork".
Definition n_CIM14_ENTSOE_Equipment_Generation_Production_FossilFuel_FossilFuel : name := Eval vm_compute in u "CIM14.ENTSOE.Equipment.Generation.Production.FossilFuel.FossilFuel".
Definition n_CIM14_ENTSOE_Equipment_Generation_Production_GeneratingUnit_GeneratingUnit : name := Eval vm_compute in u "CIM14.ENTSOE.Equipment.Generation.Production.GeneratingUnit.GeneratingUnit".
Definition n_CIM14_ENTSOE_Equipment_Generation_Production_HydroGeneratingUnit_HydroGeneratingUnit : name := Eval vm_compute in u "CIM14.ENTSOE.Equipment.Generation.Production.HydroGeneratingUnit.HydroGeneratingUnit".
Definition n_CIM14_ENTSOE_Equipment_Generation_Production_HydroPump_HydroPump : name := Eval vm_compute in u "CIM14.ENTSOE.Equipment.Generation.Production.HydroPump.HydroPump".
Definition n_CIM14_ENTSOE_Equipment_Generation_Production_NuclearGeneratingUnit_NuclearGeneratingUnit : name := Eval vm_compute in u "CIM14.ENTSOE.Equipment.Generation.Production.NuclearGeneratingUnit.NuclearGeneratingUnit".
Definition n_CIM14_ENTSOE_Equipment_Generation_Production_ThermalGeneratingUnit_ThermalGeneratingUnit : name := Eval vm_compute in u "CIM14.ENTSOE.Equipment.Generation.Production.ThermalGeneratingUnit.ThermalGeneratingUnit".
Definition n_CIM14_ENTSOE_Equipment_Generation_Production_WindGeneratingUnit_WindGeneratingUnit : name := Eval vm_compute in u "CIM14.ENTSOE.Equipment.Generation.Production.WindGeneratingUnit.WindGeneratingUnit".
Definition n_CIM14_ENTSOE_Equipment_IEC61970CIMVersion_IEC61970CIMVersion : name := Eval vm_compute in u "CIM14.ENTSOE.Equipment.IEC61970CIMVersion.IEC61970CIMVersion".
Definition n_CIM14_ENTSOE_Equipment_LoadModel_ConformLoadGroup_ConformLoadGroup : name := Eval vm_compute in u "CIM14.ENTSOE.Equipment.LoadModel.ConformLoadGroup.ConformLoadGroup".
Definition n_CIM14_ENTSOE_Equipment_LoadModel_ConformLoad_ConformLoad : name := Eval vm_compute in u "CIM14.ENTSOE.Equipment.LoadModel.ConformLoad.ConformLoad".
Definition n_CIM14_ENTSOE_Equipment_LoadModel_DayType_DayType : name := Eval vm_compute in u "CIM14.ENTSOE.Equipment.LoadModel.DayType.DayType".
Definition n_CIM14_ENTSOE_Equipment_LoadModel_EnergyArea_EnergyArea : name := Eval vm_compute in u "CIM14.ENTSOE.Equipment.LoadModel.EnergyArea.EnergyArea".
Definition n_CIM14_ENTSOE_Equipment_LoadModel_LoadGroup_LoadGroup : name := Eval vm_compute in u "CIM14.ENTSOE.Equipment.LoadModel.LoadGroup.LoadGroup".
Definition n_CIM14_ENTSOE_Equipment_LoadModel_LoadResponseCharacteristic_LoadResponseCharacteristic : name := Eval vm_compute in u "CIM14.ENTSOE.Equipment.LoadModel.LoadResponseCharacteristic.LoadResponseCharacteristic".
Definition n_CIM14_ENTSOE_Equipment_LoadModel_NonConformLoadGroup_NonConformLoadGroup : name := Eval vm_compute in u "CIM14.ENTSOE.Equipment.LoadModel.NonConformLoadGroup.NonConformLoadGroup".
Definition n_CIM14_ENTSOE_Equipment_LoadModel_NonConformLoad_NonConformLoad : name := Eval vm_compute in u "CIM14.ENTSOE.Equipment.LoadModel.NonConformLoad.NonConformLoad".
Definition n_CIM14_ENTSOE_Equipment_LoadModel_SeasonDayTypeSchedule_SeasonDayTypeSchedule : name := Eval vm_compute in u "CIM14.ENTSOE.Equipment.LoadModel.SeasonDayTypeSchedule.SeasonDayTypeSchedule".
Definition n_CIM14_ENTSOE_Equipment_LoadModel_Season_Season : name := Eval vm_compute in u "CIM14.ENTSOE.Equipment.LoadModel.Season.Season".
Definition n_CIM14_ENTSOE_Equipment_LoadModel_SubLoadArea_SubLoadArea : name := Eval vm_compute in u "CIM14.ENTSOE.Equipment.LoadModel.SubLoadArea.SubLoadArea".
Definition n_CIM14_ENTSOE_Equipment_Meas_MeasurementValueSource_MeasurementValueSource : name := Eval vm_compute in u "CIM14.ENTSOE.Equipment.Meas.MeasurementValueSource.MeasurementValueSource".
Definition n_CIM14_ENTSOE_Equipment_Meas_MeasurementValue_MeasurementValue : name := Eval vm_compute in u "CIM14.ENTSOE.Equipment.Meas.MeasurementValue.MeasurementValue".
Definition n_CIM14_ENTSOE_Equipment_Meas_Measurement_Measurement : name := Eval vm_compute in u "CIM14.ENTSOE.Equipment.Meas.Measurement.Measurement".
Definition n_CIM14_ENTSOE_Equipment_OperationalLimit_OperationalLimit : name := Eval vm_compute in u "CIM14.ENTSOE.Equipment.OperationalLimit.OperationalLimit".
Definition n_CIM14_ENTSOE_Equipment_OperationalLimits_CurrentLimit_CurrentLimit : name := Eval vm_compute in u "CIM14.ENTSOE.Equipment.OperationalLimits.CurrentLimit.CurrentLimit".
Definition n_CIM14_ENTSOE_Equipment_OperationalLimits_OperationalLimitSet_OperationalLimitSet : name := Eval vm_compute in u "CIM14.ENTSOE.Equipment.OperationalLimits.OperationalLimitSet.OperationalLimitSet".
Definition n_CIM14_ENTSOE_Equipment_OperationalLimits_OperationalLimitType_OperationalLimitType : name := Eval vm_compute in u "CIM14.ENTSOE.Equipment.OperationalLimits.OperationalLimitType.OperationalLimitType".
Definition n_CIM14_ENTSOE_Equipment_OperationalLimits_OperationalLimit_OperationalLimit : name := Eval vm_compute in u "CIM14.ENTSOE.Equipment.OperationalLimits.OperationalLimit.OperationalLimit".
Definition n_CIM14_ENTSOE_Equipment_OperationalLimits_VoltageLimit_VoltageLimit : name := Eval vm_compute in u "CIM14.ENTSOE.Equipment.OperationalLimits.VoltageLimit.VoltageLimit".
Definition n_CIM14_ENTSOE_Equipment_Wires_ACLineSegment_ACLineSegment : name := Eval vm_compute in u "CIM14.ENTSOE.Equipment.Wires.ACLineSegment.ACLineSegment".
Definition n_CIM14_ENTSOE_Equipment_Wires_Breaker_Breaker : name := Eval vm_compute in u "CIM14.ENTSOE.Equipment.Wires.Breaker.Breaker".
Definition n_CIM14_ENTSOE_Equipment_Wires_BusbarSection_BusbarSection : name := Eval vm_compute in u "CIM14.ENTSOE.Equipment.Wires.BusbarSection.BusbarSection".
Definition n_CIM14_ENTSOE_Equipment_Wires_Conductor_Conductor : name := Eval vm_compute in u "CIM14.ENTSOE.Equipment.Wires.Conductor.Conductor".
Definition n_CIM14_ENTSOE_Equipment_Wires_Disconnector_Disconnector : name := Eval vm_compute in u "CIM14.ENTSOE.Equipment.Wires.Disconnector.Disconnector".
Definition n_CIM14_ENTSOE_Equipment_Wires_EnergyConsumer_EnergyConsumer : name := Eval vm_compute in u "CIM14.ENTSOE.Equipment.Wires.EnergyConsumer.EnergyConsumer".
Definition n_CIM14_ENTSOE_Equipment_Wires_Line_Line : name := Eval vm_compute in u "CIM14.ENTSOE.Equipment.Wires.Line.Line".
Definition n_CIM14_ENTSOE_Equipment_Wires_LoadBreakSwitch_LoadBreakSwitch : name := Eval vm_compute in u "CIM14.ENTSOE.Equipment.Wires.LoadBreakSwitch.LoadBreakSwitch".
Definition n_CIM14_ENTSOE_Equipment_Wires_MutualCoupling_MutualCoupling : name := Eval vm_compute in u "CIM14.ENTSOE.Equipment.Wires.MutualCoupling.MutualCoupling".
Definition n_CIM14_ENTSOE_Equipment_Wires_PhaseTapChanger_PhaseTapChanger : name := Eval vm_compute in u "CIM14.ENTSOE.Equipment.Wires.PhaseTapChanger.PhaseTapChanger".
Definition n_CIM14_ENTSOE_Equipment_Wires_PowerTransformer_PowerTransformer : name := Eval vm_compute in u "CIM14.ENTSOE.Equipment.Wires.PowerTransformer.PowerTransformer".
Definition n_CIM14_ENTSOE_Equipment_Wires_RatioTapChanger_RatioTapChanger : name := Eval vm_compute in u "CIM14.ENTSOE.Equipment.Wires.RatioTapChanger.RatioTapChanger".
Definition n_CIM14_ENTSOE_Equipment_Wires_ReactiveCapabilityCurve_ReactiveCapabilityCurve : name := Eval vm_compute in u "CIM14.ENTSOE.Equipment.Wires.ReactiveCapabilityCurve.ReactiveCapabilityCurve".
Definition n_CIM14_ENTSOE_Equipment_Wires_RegulatingCondEq_RegulatingCondEq : name := Eval vm_compute in u "CIM14.ENTSOE.Equipment.Wires.RegulatingCondEq.RegulatingCondEq".
Definition n_CIM14_ENTSOE_Equipment_Wires_RegulatingControl_RegulatingControl : name := Eval vm_compute in u "CIM14.ENTSOE.Equipment.Wires.RegulatingControl.RegulatingControl".
Definition n_CIM14_ENTSOE_Equipment_Wires_SeriesCompensator_SeriesCompensator : name := Eval vm_compute in u "CIM14.ENTSOE.Equipment.Wires.SeriesCompensator.SeriesCompensator".
Definition n_CIM14_ENTSOE_Equipment_Wires_ShuntCompensator_ShuntCompensator : name := Eval vm_compute in u "CIM14.ENTSOE.Equipment.Wires.ShuntCompensator.ShuntCompensator".
Definition n_CIM14_ENTSOE_Equipment_Wires_StaticVarCompensator_StaticVarCompensator : name := Eval vm_compute in u "CIM14.ENTSOE.Equipment.Wires.StaticVarCompensator.StaticVarCompensator".
Definition n_CIM14_ENTSOE_Equipment_Wires_Switch_Switch : name := Eval vm_compute in u "CIM14.ENTSOE.Equipment.Wires.Switch.Switch".
Definition n_CIM14_ENTSOE_Equipment_Wires_SynchronousMachine_SynchronousMachine : name := Eval vm_compute in u "CIM14.ENTSOE.Equipment.Wires.SynchronousMachine.SynchronousMachine".
Definition n_CIM14_ENTSOE_Equipment_Wires_TapChanger_TapChanger : name := Eval vm_compute in u "CIM14.ENTSOE.Equipment.Wires.TapChanger.TapChanger".
Definition n_CIM14_ENTSOE_Equipment_Wires_TransformerWinding_TransformerWinding : name := Eval vm_compute in u "CIM14.ENTSOE.Equipment.Wires.TransformerWinding.TransformerWinding".
Definition n_CIM14_ENTSOE_StateVariables_Core_Terminal_Terminal : name := Eval vm_compute in u "CIM14.ENTSOE.StateVariables.Core.Terminal.Terminal".
Definition n_CIM14_ENTSOE_StateVariables_Element_Element : name := Eval vm_compute in u "CIM14.ENTSOE.StateVariables.Element.Element".
Definition n_CIM14_ENTSOE_StateVariables_StateVariables_SvInjection_SvInjection : name := Eval vm_compute in u "CIM14.ENTSOE.StateVariables.StateVariables.SvInjection.SvInjection".
Definition n_CIM14_ENTSOE_StateVariables_StateVariables_SvPowerFlow_SvPowerFlow : name := Eval vm_compute in u "CIM14.ENTSOE.StateVariables.StateVariables.SvPowerFlow.SvPowerFlow".
Definition n_CIM14_ENTSOE_StateVariables_StateVariables_SvShortCircuit_SvShortCircuit : name := Eval vm_compute in u "CIM14.ENTSOE.StateVariables.StateVariables.SvShortCircuit.SvShortCircuit".
Definition n_CIM14_ENTSOE_StateVariables_StateVariables_SvShuntCompensatorSections_SvShuntCompensatorSections : name := Eval vm_compute in u "CIM14.ENTSOE.StateVariables.StateVariables.SvShuntCompensatorSections.SvShuntCompensatorSections".
Definition n_CIM14_ENTSOE_StateVariables_StateVariables_SvTapStep_SvTapStep : name := Eval vm_compute in u "CIM14.ENTSOE.StateVariables.StateVariables.SvTapStep.SvTapStep".
Definition n_CIM14_ENTSOE_StateVariables_StateVariables_SvVoltage_SvVoltage : name := Eval vm_compute in u "CIM14.ENTSOE.StateVariables.StateVariables.SvVoltage.SvVoltage".
Definition n_CIM14_ENTSOE_StateVariables_Topology_TopologicalNode_TopologicalNode : name := Eval vm_compute in u "CIM14.ENTSOE.StateVariables.Topology.TopologicalNode.TopologicalNode".
Definition n_CIM14_ENTSOE_StateVariables_Wires_ShuntCompensator_ShuntCompensator : name := Eval vm_compute in u "CIM14.ENTSOE.StateVariables.Wires.ShuntCompensator.ShuntCompensator".
Definition n_CIM14_ENTSOE_StateVariables_Wires_TapChanger_TapChanger : name := Eval vm_compute in u "CIM14.ENTSOE.StateVariables.Wires.TapChanger.TapChanger".
Definition n_CIM14_ENTSOE_Topology_Core_BaseVoltage_BaseVoltage : name := Eval vm_compute in u "CIM14.ENTSOE.Topology.Core.BaseVoltage.BaseVoltage".
Definition n_CIM14_ENTSOE_Topology_Core_ConnectivityNodeContainer_ConnectivityNodeContainer : name := Eval vm_compute in u "CIM14.ENTSOE.Topology.Core.ConnectivityNodeContainer.ConnectivityNodeContainer".
Definition n_CIM14_ENTSOE_Topology_Core_IdentifiedObject_IdentifiedObject : name := Eval vm_compute in u "CIM14.ENTSOE.Topology.Core.IdentifiedObject.IdentifiedObject".
Definition n_CIM14_ENTSOE_Topology_Core_Terminal_Terminal : name := Eval vm_compute in u "CIM14.ENTSOE.Topology.Core.Terminal.Terminal".
Definition n_CIM14_ENTSOE_Topology_Element_Element : name := Eval vm_compute in u "CIM14.ENTSOE.Topology.Element.Element".
Definition n_CIM14_ENTSOE_Topology_Topology_TopologicalNode_TopologicalNode : name := Eval vm_compute in u "CIM14.ENTSOE.Topology.Topology.TopologicalNode.TopologicalNode".
Definition n_CIM14_Element_Element : name := Eval vm_compute in u "CIM14.Element.Element".
Definition n_CIM14_IEC61968_AssetModels_AssetModel_AssetModel : name := Eval vm_compute in u "CIM14.IEC61968.AssetModels.AssetModel.AssetModel".
Definition n_CIM14_IEC61968_AssetModels_CableInfo_CableInfo : name := Eval vm_compute in u "CIM14.IEC61968.AssetModels.CableInfo.CableInfo".
Definition n_CIM14_IEC61968_AssetModels_ConcentricNeutralCableInfo_ConcentricNeutralCableInfo : name := Eval vm_compute in u "CIM14.IEC61968.AssetModels.ConcentricNeutralCableInfo.ConcentricNeutralCableInfo".
Definition n_CIM14_IEC61968_AssetModels_ConductorInfo_ConductorInfo : name := Eval vm_compute in u "CIM14.IEC61968.AssetModels.ConductorInfo.ConductorInfo".
Definition n_CIM14_IEC61968_AssetModels_DistributionWindingTest_DistributionWindingTest : name := Eval vm_compute in u "CIM14.IEC61968.AssetModels.DistributionWindingTest.DistributionWindingTest".
Definition n_CIM14_IEC61968_AssetModels_EndDeviceModel_EndDeviceModel : name := Eval vm_compute in u "CIM14.IEC61968.AssetModels.EndDeviceModel.EndDeviceModel".
Definition n_CIM14_IEC61968_AssetModels_OpenCircuitTest_OpenCircuitTest : name := Eval vm_compute in u "CIM14.IEC61968.AssetModels.OpenCircuitTest.OpenCircuitTest".
Definition n_CIM14_IEC61968_AssetModels_OverheadConductorInfo_OverheadConductorInfo : name := Eval vm_compute in u "CIM14.IEC61968.AssetModels.OverheadConductorInfo.OverheadConductorInfo".
Definition n_CIM14_IEC61968_AssetModels_ShortCircuitTest_ShortCircuitTest : name := Eval vm_compute in u "CIM14.IEC61968.AssetModels.ShortCircuitTest.ShortCircuitTest".
Definition n_CIM14_IEC61968_AssetModels_TapeShieldCableInfo_TapeShieldCableInfo : name := Eval vm_compute in u "CIM14.IEC61968.AssetModels.TapeShieldCableInfo.TapeShieldCableInfo".
Definition n_CIM14_IEC61968_AssetModels_ToWindingSpec_ToWindingSpec : name := Eval vm_compute in u "CIM14.IEC61968.AssetModels.ToWindingSpec.ToWindingSpec".
Definition n_CIM14_IEC61968_AssetModels_TransformerInfo_TransformerInfo : name := Eval vm_compute in u "CIM14.IEC61968.AssetModels.TransformerInfo.TransformerInfo".
Definition n_CIM14_IEC61968_AssetModels_WindingInfo_WindingInfo : name := Eval vm_compute in u "CIM14.IEC61968.AssetModels.WindingInfo.WindingInfo".
Definition n_CIM14_IEC61968_AssetModels_WireArrangement_WireArrangement : name := Eval vm_compute in u "CIM14.IEC61968.AssetModels.WireArrangement.WireArrangement".
Definition n_CIM14_IEC61968_AssetModels_WireType_WireType : name := Eval vm_compute in u "CIM14.IEC61968.AssetModels.WireType.WireType".
Definition n_CIM14_IEC61968_Assets_AcceptanceTest_AcceptanceTest : name := Eval vm_compute in u "CIM14.IEC61968.Assets.AcceptanceTest.AcceptanceTest".
Definition n_CIM14_IEC61968_Assets_AssetContainer_AssetContainer : name := Eval vm_compute in u "CIM14.IEC61968.Assets.AssetContainer.AssetContainer".
Definition n_CIM14_IEC61968_Assets_AssetFunction_AssetFunction : name := Eval vm_compute in u "CIM14.IEC61968.Assets.AssetFunction.AssetFunction".
Definition n_CIM14_IEC61968_Assets_Asset_Asset : name := Eval vm_compute in u "CIM14.IEC61968.Assets.Asset.Asset".
Definition n_CIM14_IEC61968_Assets_ComMediaAsset_ComMediaAsset : name := Eval vm_compute in u "CIM14.IEC61968.Assets.ComMediaAsset.ComMediaAsset".
Definition n_CIM14_IEC61968_Assets_Seal_Seal : name := Eval vm_compute in u "CIM14.IEC61968.Assets.Seal.Seal".
Definition n_CIM14_IEC61968_Common_ActivityRecord_ActivityRecord : name := Eval vm_compute in u "CIM14.IEC61968.Common.ActivityRecord.ActivityRecord".
Definition n_CIM14_IEC61968_Common_Agreement_Agreement : name := Eval vm_compute in u "CIM14.IEC61968.Common.Agreement.Agreement".
Definition n_CIM14_IEC61968_Common_CoordinateSystem_CoordinateSystem : name := Eval vm_compute in u "CIM14.IEC61968.Common.CoordinateSystem.CoordinateSystem".
Definition n_CIM14_IEC61968_Common_DateTimeInterval_DateTimeInterval : name := Eval vm_compute in u "CIM14.IEC61968.Common.DateTimeInterval.DateTimeInterval".
Definition n_CIM14_IEC61968_Common_Document_Document : name := Eval vm_compute in u "CIM14.IEC61968.Common.Document.Document".
Definition n_CIM14_IEC61968_Common_ElectronicAddress_ElectronicAddress : name := Eval vm_compute in u "CIM14.IEC61968.Common.ElectronicAddress.ElectronicAddress".
Definition n_CIM14_IEC61968_Common_Location_Location : name := Eval vm_compute in u "CIM14.IEC61968.Common.Location.Location".
Definition n_CIM14_IEC61968_Common_Organisation_Organisation : name := Eval vm_compute in u "CIM14.IEC61968.Common.Organisation.Organisation".
Definition n_CIM14_IEC61968_Common_PositionPoint_PositionPoint : name := Eval vm_compute in u "CIM14.IEC61968.Common.PositionPoint.PositionPoint".
Definition n_CIM14_IEC61968_Common_PostalAddress_PostalAddress : name := Eval vm_compute in u "CIM14.IEC61968.Common.PostalAddress.PostalAddress".
Definition n_CIM14_IEC61968_Common_Status_Status : name := Eval vm_compute in u "CIM14.IEC61968.Common.Status.Status".
Definition n_CIM14_IEC61968_Common_StreetAddress_StreetAddress : name := Eval vm_compute in u "CIM14.IEC61968.Common.StreetAddress.StreetAddress".
Definition n_CIM14_IEC61968_Common_StreetDetail_StreetDetail : name := Eval vm_compute in u "CIM14.IEC61968.Common.StreetDetail.StreetDetail".
Definition n_CIM14_IEC61968_Common_TelephoneNumber_TelephoneNumber : name := Eval vm_compute in u "CIM14.IEC61968.Common.TelephoneNumber.TelephoneNumber".
Definition n_CIM14_IEC61968_Common_TimePoint_TimePoint : name := Eval vm_compute in u "CIM14.IEC61968.Common.TimePoint.TimePoint".
Definition n_CIM14_IEC61968_Common_TimeSchedule_TimeSchedule : name := Eval vm_compute in u "CIM14.IEC61968.Common.TimeSchedule.TimeSchedule".
Definition n_CIM14_IEC61968_Common_TownDetail_TownDetail : name := Eval vm_compute in u "CIM14.IEC61968.Common.TownDetail.TownDetail".
Definition n_CIM14_IEC61968_Common_UserAttribute_UserAttribute : name := Eval vm_compute in u "CIM14.IEC61968.Common.UserAttribute.UserAttribute".
Definition n_CIM14_IEC61968_Customers_CustomerAccount_CustomerAccount : name := Eval vm_compute in u "CIM14.IEC61968.Customers.CustomerAccount.CustomerAccount".
Definition n_CIM14_IEC61968_Customers_CustomerAgreement_CustomerAgreement : name := Eval vm_compute in u "CIM14.IEC61968.Customers.CustomerAgreement.CustomerAgreement".
Definition n_CIM14_IEC61968_Customers_Customer_Customer : name := Eval vm_compute in u "CIM14.IEC61968.Customers.Customer.Customer".
Definition n_CIM14_IEC61968_Customers_PricingStructure_PricingStructure : name := Eval vm_compute in u "CIM14.IEC61968.Customers.PricingStructure.PricingStructure".
Definition n_CIM14_IEC61968_Customers_ServiceCategory_ServiceCategory : name := Eval vm_compute in u "CIM14.IEC61968.Customers.ServiceCategory.ServiceCategory".
Definition n_CIM14_IEC61968_Customers_ServiceLocation_ServiceLocation : name := Eval vm_compute in u "CIM14.IEC61968.Customers.ServiceLocation.ServiceLocation".
Definition n_CIM14_IEC61968_Customers_Tariff_Tariff : name := Eval vm_compute in u "CIM14.IEC61968.Customers.Tariff.Tariff".
Definition n_CIM14_IEC61968_IEC61968CIMVersion_IEC61968CIMVersion : name := Eval vm_compute in u "CIM14.IEC61968.IEC61968CIMVersion.IEC61968CIMVersion".
Definition n_CIM14_IEC61968_LoadControl_ConnectDisconnectFunction_ConnectDisconnectFunction : name := Eval vm_compute in u "CIM14.IEC61968.LoadControl.ConnectDisconnectFunction.ConnectDisconnectFunction".
Definition n_CIM14_IEC61968_LoadControl_RemoteConnectDisconnectInfo_RemoteConnectDisconnectInfo : name := Eval vm_compute in u "CIM14.IEC61968.LoadControl.RemoteConnectDisconnectInfo.RemoteConnectDisconnectInfo".
Definition n_CIM14_IEC61968_Metering_ComFunction_ComFunction : name := Eval vm_compute in u "CIM14.IEC61968.Metering.ComFunction.ComFunction".
Definition n_CIM14_IEC61968_Metering_DemandResponseProgram_DemandResponseProgram : name := Eval vm_compute in u "CIM14.IEC61968.Metering.DemandResponseProgram.DemandResponseProgram".
Definition n_CIM14_IEC61968_Metering_DeviceFunction_DeviceFunction : name := Eval vm_compute in u "CIM14.IEC61968.Metering.DeviceFunction.DeviceFunction".
Definition n_CIM14_IEC61968_Metering_DynamicDemand_DynamicDemand : name := Eval vm_compute in u "CIM14.IEC61968.Metering.DynamicDemand.DynamicDemand".
Definition n_CIM14_IEC61968_Metering_ElectricMeteringFunction_ElectricMeteringFunction : name := Eval vm_compute in u "CIM14.IEC61968.Metering.ElectricMeteringFunction.ElectricMeteringFunction".
Definition n_CIM14_IEC61968_Metering_EndDeviceAsset_EndDeviceAsset : name := Eval vm_compute in u "CIM14.IEC61968.Metering.EndDeviceAsset.EndDeviceAsset".
Definition n_CIM14_IEC61968_Metering_EndDeviceControl_EndDeviceControl : name := Eval vm_compute in u "CIM14.IEC61968.Metering.EndDeviceControl.EndDeviceControl".
Definition n_CIM14_IEC61968_Metering_EndDeviceEvent_EndDeviceEvent : name := Eval vm_compute in u "CIM14.IEC61968.Metering.EndDeviceEvent.EndDeviceEvent".
Definition n_CIM14_IEC61968_Metering_EndDeviceGroup_EndDeviceGroup : name := Eval vm_compute in u "CIM14.IEC61968.Metering.EndDeviceGroup.EndDeviceGroup".
Definition n_CIM14_IEC61968_Metering_IntervalBlock_IntervalBlock : name := Eval vm_compute in u "CIM14.IEC61968.Metering.IntervalBlock.IntervalBlock".
Definition n_CIM14_IEC61968_Metering_IntervalReading_IntervalReading : name := Eval vm_compute in u "CIM14.IEC61968.Metering.IntervalReading.IntervalReading".
Definition n_CIM14_IEC61968_Metering_MeterAsset_MeterAsset : name := Eval vm_compute in u "CIM14.IEC61968.Metering.MeterAsset.MeterAsset".
Definition n_CIM14_IEC61968_Metering_MeterReading_MeterReading : name := Eval vm_compute in u "CIM14.IEC61968.Metering.MeterReading.MeterReading".
Definition n_CIM14_IEC61968_Metering_MeterServiceWork_MeterServiceWork : name := Eval vm_compute in u "CIM14.IEC61968.Metering.MeterServiceWork.MeterServiceWork".
Definition n_CIM14_IEC61968_Metering_Pending_Pending : name := Eval vm_compute in u "CIM14.IEC61968.Metering.Pending.Pending".
Definition n_CIM14_IEC61968_Metering_ReadingQuality_ReadingQuality : name := Eval vm_compute in u "CIM14.IEC61968.Metering.ReadingQuality.ReadingQuality".
Definition n_CIM14_IEC61968_Metering_ReadingType_ReadingType : name := Eval vm_compute in u "CIM14.IEC61968.Metering.ReadingType.ReadingType".
Definition n_CIM14_IEC61968_Metering_Reading_Reading : name := Eval vm_compute in u "CIM14.IEC61968.Metering.Reading.Reading".
Definition n_CIM14_IEC61968_Metering_Register_Register : name := Eval vm_compute in u "CIM14.IEC61968.Metering.Register.Register".
Definition n_CIM14_IEC61968_Metering_SDPLocation_SDPLocation : name := Eval vm_compute in u "CIM14.IEC61968.Metering.SDPLocation.SDPLocation".
Definition n_CIM14_IEC61968_Metering_ServiceDeliveryPoint_ServiceDeliveryPoint : name := Eval vm_compute in u "CIM14.IEC61968.Metering.ServiceDeliveryPoint.ServiceDeliveryPoint".
Definition n_CIM14_IEC61968_PaymentMetering_AccountMovement_AccountMovement : name := Eval vm_compute in u "CIM14.IEC61968.PaymentMetering.AccountMovement.AccountMovement".
Definition n_CIM14_IEC61968_PaymentMetering_AccountingUnit_AccountingUnit : name := Eval vm_compute in u "CIM14.IEC61968.PaymentMetering.AccountingUnit.AccountingUnit".
Definition n_CIM14_IEC61968_PaymentMetering_AuxiliaryAccount_AuxiliaryAccount : name := Eval vm_compute in u "CIM14.IEC61968.PaymentMetering.AuxiliaryAccount.AuxiliaryAccount".
Definition n_CIM14_IEC61968_PaymentMetering_AuxiliaryAgreement_AuxiliaryAgreement : name := Eval vm_compute in u "CIM14.IEC61968.PaymentMetering.AuxiliaryAgreement.AuxiliaryAgreement".
Definition n_CIM14_IEC61968_PaymentMetering_BankAccountDetail_BankAccountDetail : name := Eval vm_compute in u "CIM14.IEC61968.PaymentMetering.BankAccountDetail.BankAccountDetail".
Definition n_CIM14_IEC61968_PaymentMetering_Card_Card : name := Eval vm_compute in u "CIM14.IEC61968.PaymentMetering.Card.Card".
Definition n_CIM14_IEC61968_PaymentMetering_CashierShift_CashierShift : name := Eval vm_compute in u "CIM14.IEC61968.PaymentMetering.CashierShift.CashierShift".
Definition n_CIM14_IEC61968_PaymentMetering_Cashier_Cashier : name := Eval vm_compute in u "CIM14.IEC61968.PaymentMetering.Cashier.Cashier".
Definition n_CIM14_IEC61968_PaymentMetering_Charge_Charge : name := Eval vm_compute in u "CIM14.IEC61968.PaymentMetering.Charge.Charge".
Definition n_CIM14_IEC61968_PaymentMetering_Cheque_Cheque : name := Eval vm_compute in u "CIM14.IEC61968.PaymentMetering.Cheque.Cheque".
Definition n_CIM14_IEC61968_PaymentMetering_ConsumptionTariffInterval_ConsumptionTariffInterval : name := Eval vm_compute in u "CIM14.IEC61968.PaymentMetering.ConsumptionTariffInterval.ConsumptionTariffInterval".
Definition n_CIM14_IEC61968_PaymentMetering_Due_Due : name := Eval vm_compute in u "CIM14.IEC61968.PaymentMetering.Due.Due".
Definition n_CIM14_IEC61968_PaymentMetering_LineDetail_LineDetail : name := Eval vm_compute in u "CIM14.IEC61968.PaymentMetering.LineDetail.LineDetail".
Definition n_CIM14_IEC61968_PaymentMetering_MerchantAccount_MerchantAccount : name := Eval vm_compute in u "CIM14.IEC61968.PaymentMetering.MerchantAccount.MerchantAccount".
Definition n_CIM14_IEC61968_PaymentMetering_MerchantAgreement_MerchantAgreement : name := Eval vm_compute in u "CIM14.IEC61968.PaymentMetering.MerchantAgreement.MerchantAgreement".
Definition n_CIM14_IEC61968_PaymentMetering_PointOfSale_PointOfSale : name := Eval vm_compute in u "CIM14.IEC61968.PaymentMetering.PointOfSale.PointOfSale".
Definition n_CIM14_IEC61968_PaymentMetering_Receipt_Receipt : name := Eval vm_compute in u "CIM14.IEC61968.PaymentMetering.Receipt.Receipt".
Definition n_CIM14_IEC61968_PaymentMetering_ServiceSupplier_ServiceSupplier : name := Eval vm_compute in u "CIM14.IEC61968.PaymentMetering.ServiceSupplier.ServiceSupplier".
Definition n_CIM14_IEC61968_PaymentMetering_Shift_Shift : name := Eval vm_compute in u "CIM14.IEC61968.PaymentMetering.Shift.Shift".
Definition n_CIM14_IEC61968_PaymentMetering_TariffProfile_TariffProfile : name := Eval vm_compute in u "CIM14.IEC61968.PaymentMetering.TariffProfile.TariffProfile".
Definition n_CIM14_IEC61968_PaymentMetering_Tender_Tender : name := Eval vm_compute in u "CIM14.IEC61968.PaymentMetering.Tender.Tender".
Definition n_CIM14_IEC61968_PaymentMetering_TimeTariffInterval_TimeTariffInterval : name := Eval vm_compute in u "CIM14.IEC61968.PaymentMetering.TimeTariffInterval.TimeTariffInterval".
Definition n_CIM14_IEC61968_PaymentMetering_Transaction_Transaction : name := Eval vm_compute in u "CIM14.IEC61968.PaymentMetering.Transaction.Transaction".
Definition n_CIM14_IEC61968_PaymentMetering_Transactor_Transactor : name := Eval vm_compute in u "CIM14.IEC61968.PaymentMetering.Transactor.Transactor".
Definition n_CIM14_IEC61968_PaymentMetering_VendorShift_VendorShift : name := Eval vm_compute in u "CIM14.IEC61968.PaymentMetering.VendorShift.VendorShift".
Definition n_CIM14_IEC61968_PaymentMetering_Vendor_Vendor : name := Eval vm_compute in u "CIM14.IEC61968.PaymentMetering.Vendor.Vendor".
Definition n_CIM14_IEC61968_WiresExt_DistributionLineSegment_DistributionLineSegment : name := Eval vm_compute in u "CIM14.IEC61968.WiresExt.DistributionLineSegment.DistributionLineSegment".
Definition n_CIM14_IEC61968_WiresExt_DistributionTapChanger_DistributionTapChanger : name := Eval vm_compute in u "CIM14.IEC61968.WiresExt.DistributionTapChanger.DistributionTapChanger".
Definition n_CIM14_IEC61968_WiresExt_DistributionTransformerWinding_DistributionTransformerWinding : name := Eval vm_compute in u "CIM14.IEC61968.WiresExt.DistributionTransformerWinding.DistributionTransformerWinding".
Definition n_CIM14_IEC61968_WiresExt_DistributionTransformer_DistributionTransformer : name := Eval vm_compute in u "CIM14.IEC61968.WiresExt.DistributionTransformer.DistributionTransformer".
Definition n_CIM14_IEC61968_WiresExt_PerLengthPhaseImpedance_PerLengthPhaseImpedance : name := Eval vm_compute in u "CIM14.IEC61968.WiresExt.PerLengthPhaseImpedance.PerLengthPhaseImpedance".
Definition n_CIM14_IEC61968_WiresExt_PerLengthSequenceImpedance_PerLengthSequenceImpedance : name := Eval vm_compute in u "CIM14.IEC61968.WiresExt.PerLengthSequenceImpedance.PerLengthSequenceImpedance".
Definition n_CIM14_IEC61968_WiresExt_PhaseImpedanceData_PhaseImpedanceData : name := Eval vm_compute in u "CIM14.IEC61968.WiresExt.PhaseImpedanceData.PhaseImpedanceData".
Definition n_CIM14_IEC61968_WiresExt_TransformerBank_TransformerBank : name := Eval vm_compute in u "CIM14.IEC61968.WiresExt.TransformerBank.TransformerBank".
Definition n_CIM14_IEC61968_WiresExt_WindingPiImpedance_WindingPiImpedance : name := Eval vm_compute in u "CIM14.IEC61968.WiresExt.WindingPiImpedance.WindingPiImpedance".
Definition n_CIM14_IEC61968_Work_Work_Work : name := Eval vm_compute in u "CIM14.IEC61968.Work.Work.Work".
Definition n_CIM14_IEC61970_Contingency_ContingencyElement_ContingencyElement : name := Eval vm_compute in u "CIM14.IEC61970.Contingency.ContingencyElement.ContingencyElement".
Definition n_CIM14_IEC61970_Contingency_ContingencyEquipment_ContingencyEquipment : name := Eval vm_compute in u "CIM14.IEC61970.Contingency.ContingencyEquipment.ContingencyEquipment".
Definition n_CIM14_IEC61970_Contingency_Contingency_Contingency : name := Eval vm_compute in u "CIM14.IEC61970.Contingency.Contingency.Contingency".
Definition n_CIM14_IEC61970_ControlArea_AltGeneratingUnitMeas_AltGeneratingUnitMeas : name := Eval vm_compute in u "CIM14.IEC61970.ControlArea.AltGeneratingUnitMeas.AltGeneratingUnitMeas".
Definition n_CIM14_IEC61970_ControlArea_AltTieMeas_AltTieMeas : name := Eval vm_compute in u "CIM14.IEC61970.ControlArea.AltTieMeas.AltTieMeas".
Definition n_CIM14_IEC61970_ControlArea_ControlAreaGeneratingUnit_ControlAreaGeneratingUnit : name := Eval vm_compute in u "CIM14.IEC61970.ControlArea.ControlAreaGeneratingUnit.ControlAreaGeneratingUnit".
Definition n_CIM14_IEC61970_ControlArea_ControlArea_ControlArea : name := Eval vm_compute in u "CIM14.IEC61970.ControlArea.ControlArea.ControlArea".
Definition n_CIM14_IEC61970_ControlArea_TieFlow_TieFlow : name := Eval vm_compute in u "CIM14.IEC61970.ControlArea.TieFlow.TieFlow".
Definition n_CIM14_IEC61970_Core_BasePower_BasePower : name := Eval vm_compute in u "CIM14.IEC61970.Core.BasePower.BasePower".
Definition n_CIM14_IEC61970_Core_BaseVoltage_BaseVoltage : name := Eval vm_compute in u "CIM14.IEC61970.Core.BaseVoltage.BaseVoltage".
Definition n_CIM14_IEC61970_Core_BasicIntervalSchedule_BasicIntervalSchedule : name := Eval vm_compute in u "CIM14.IEC61970.Core.BasicIntervalSchedule.BasicIntervalSchedule".
Definition n_CIM14_IEC61970_Core_Bay_Bay : name := Eval vm_compute in u "CIM14.IEC61970.Core.Bay.Bay".
Definition n_CIM14_IEC61970_Core_ConductingEquipment_ConductingEquipment : name := Eval vm_compute in u "CIM14.IEC61970.Core.ConductingEquipment.ConductingEquipment".
Definition n_CIM14_IEC61970_Core_ConnectivityNodeContainer_ConnectivityNodeContainer : name := Eval vm_compute in u "CIM14.IEC61970.Core.ConnectivityNodeContainer.ConnectivityNodeContainer".
Definition n_CIM14_IEC61970_Core_ConnectivityNode_ConnectivityNode : name := Eval vm_compute in u "CIM14.IEC61970.Core.ConnectivityNode.ConnectivityNode".
Definition n_CIM14_IEC61970_Core_CurveData_CurveData : name := Eval vm_compute in u "CIM14.IEC61970.Core.CurveData.CurveData".
Definition n_CIM14_IEC61970_Core_Curve_Curve : name := Eval vm_compute in u "CIM14.IEC61970.Core.Curve.Curve".
Definition n_CIM14_IEC61970_Core_EquipmentContainer_EquipmentContainer : name := Eval vm_compute in u "CIM14.IEC61970.Core.EquipmentContainer.EquipmentContainer".
Definition n_CIM14_IEC61970_Core_Equipment_Equipment : name := Eval vm_compute in u "CIM14.IEC61970.Core.Equipment.Equipment".
Definition n_CIM14_IEC61970_Core_GeographicalRegion_GeographicalRegion : name := Eval vm_compute in u "CIM14.IEC61970.Core.GeographicalRegion.GeographicalRegion".
Definition n_CIM14_IEC61970_Core_IdentifiedObject_IdentifiedObject : name := Eval vm_compute in u "CIM14.IEC61970.Core.IdentifiedObject.IdentifiedObject".
Definition n_CIM14_IEC61970_Core_IrregularIntervalSchedule_IrregularIntervalSchedule : name := Eval vm_compute in u "CIM14.IEC61970.Core.IrregularIntervalSchedule.IrregularIntervalSchedule".
Definition n_CIM14_IEC61970_Core_IrregularTimePoint_IrregularTimePoint : name := Eval vm_compute in u "CIM14.IEC61970.Core.IrregularTimePoint.IrregularTimePoint".
Definition n_CIM14_IEC61970_Core_OperatingParticipant_OperatingParticipant : name := Eval vm_compute in u "CIM14.IEC61970.Core.OperatingParticipant.OperatingParticipant".
Definition n_CIM14_IEC61970_Core_OperatingShare_OperatingShare : name := Eval vm_compute in u "CIM14.IEC61970.Core.OperatingShare.OperatingShare".
Definition n_CIM14_IEC61970_Core_PSRType_PSRType : name := Eval vm_compute in u "CIM14.IEC61970.Core.PSRType.PSRType".
Definition n_CIM14_IEC61970_Core_PowerSystemResource_PowerSystemResource : name := Eval vm_compute in u "CIM14.IEC61970.Core.PowerSystemResource.PowerSystemResource".
Definition n_CIM14_IEC61970_Core_PsrList_PsrList : name := Eval vm_compute in u "CIM14.IEC61970.Core.PsrList.PsrList".
Definition n_CIM14_IEC61970_Core_RegularIntervalSchedule_RegularIntervalSchedule : name := Eval vm_compute in u "CIM14.IEC61970.Core.RegularIntervalSchedule.RegularIntervalSchedule".
Definition n_CIM14_IEC61970_Core_RegularTimePoint_RegularTimePoint : name := Eval vm_compute in u "CIM14.IEC61970.Core.RegularTimePoint.RegularTimePoint".
Definition n_CIM14_IEC61970_Core_ReportingGroup_ReportingGroup : name := Eval vm_compute in u "CIM14.IEC61970.Core.ReportingGroup.ReportingGroup".
Definition n_CIM14_IEC61970_Core_ReportingSuperGroup_ReportingSuperGroup : name := Eval vm_compute in u "CIM14.IEC61970.Core.ReportingSuperGroup.ReportingSuperGroup".
Definition n_CIM14_IEC61970_Core_SubGeographicalRegion_SubGeographicalRegion : name := Eval vm_compute in u "CIM14.IEC61970.Core.SubGeographicalRegion.SubGeographicalRegion".
Definition n_CIM14_IEC61970_Core_Substation_Substation : name := Eval vm_compute in u "CIM14.IEC61970.Core.Substation.Substation".
Definition n_CIM14_IEC61970_Core_Terminal_Terminal : name := Eval vm_compute in u "CIM14.IEC61970.Core.Terminal.Terminal".
Definition n_CIM14_IEC61970_Core_Unit_Unit : name := Eval vm_compute in u "CIM14.IEC61970.Core.Unit.Unit".
Definition n_CIM14_IEC61970_Core_VoltageLevel_VoltageLevel : name := Eval vm_compute in u "CIM14.IEC61970.Core.VoltageLevel.VoltageLevel".
Definition n_CIM14_IEC61970_Dynamics_AsynchronousMachine_AsynchronousMachine : name := Eval vm_compute in u "CIM14.IEC61970.Dynamics.AsynchronousMachine.AsynchronousMachine".
Definition n_CIM14_IEC61970_Dynamics_AttributeBlockParameter_AttributeBlockParameter : name := Eval vm_compute in u "CIM14.IEC61970.Dynamics.AttributeBlockParameter.AttributeBlockParameter".
Definition n_CIM14_IEC61970_Dynamics_BlockConnection_BlockConnection : name := Eval vm_compute in u "CIM14.IEC61970.Dynamics.BlockConnection.BlockConnection".
Definition n_CIM14_IEC61970_Dynamics_BlockConnectivity_BlockConnectivity : name := Eval vm_compute in u "CIM14.IEC61970.Dynamics.BlockConnectivity.BlockConnectivity".
Definition n_CIM14_IEC61970_Dynamics_BlockConstant_BlockConstant : name := Eval vm_compute in u "CIM14.IEC61970.Dynamics.BlockConstant.BlockConstant".
Definition n_CIM14_IEC61970_Dynamics_BlockInputReference_BlockInputReference : name := Eval vm_compute in u "CIM14.IEC61970.Dynamics.BlockInputReference.BlockInputReference".
Definition n_CIM14_IEC61970_Dynamics_BlockInputType_BlockInputType : name := Eval vm_compute in u "CIM14.IEC61970.Dynamics.BlockInputType.BlockInputType".
Definition n_CIM14_IEC61970_Dynamics_BlockOutputReference_BlockOutputReference : name := Eval vm_compute in u "CIM14.IEC61970.Dynamics.BlockOutputReference.BlockOutputReference".
Definition n_CIM14_IEC61970_Dynamics_BlockOutputType_BlockOutputType : name := Eval vm_compute in u "CIM14.IEC61970.Dynamics.BlockOutputType.BlockOutputType".
Definition n_CIM14_IEC61970_Dynamics_BlockParameter_BlockParameter : name := Eval vm_compute in u "CIM14.IEC61970.Dynamics.BlockParameter.BlockParameter".
Definition n_CIM14_IEC61970_Dynamics_BlockType_BlockType : name := Eval vm_compute in u "CIM14.IEC61970.Dynamics.BlockType.BlockType".
Definition n_CIM14_IEC61970_Dynamics_BlockUsageInputReference_BlockUsageInputReference : name := Eval vm_compute in u "CIM14.IEC61970.Dynamics.BlockUsageInputReference.BlockUsageInputReference".
Definition n_CIM14_IEC61970_Dynamics_BlockUsageOutputReference_BlockUsageOutputReference : name := Eval vm_compute in u "CIM14.IEC61970.Dynamics.BlockUsageOutputReference.BlockUsageOutputReference".
Definition n_CIM14_IEC61970_Dynamics_Block_Block : name := Eval vm_compute in u "CIM14.IEC61970.Dynamics.Block.Block".
Definition n_CIM14_IEC61970_Dynamics_CompositeModel_CompositeModel : name := Eval vm_compute in u "CIM14.IEC61970.Dynamics.CompositeModel.CompositeModel".
Definition n_CIM14_IEC61970_Dynamics_ConnectionFrame_ConnectionFrame : name := Eval vm_compute in u "CIM14.IEC61970.Dynamics.ConnectionFrame.ConnectionFrame".
Definition n_CIM14_IEC61970_Dynamics_ExcitationSystemLimiter_ExcitationSystemLimiter : name := Eval vm_compute in u "CIM14.IEC61970.Dynamics.ExcitationSystemLimiter.ExcitationSystemLimiter".
Definition n_CIM14_IEC61970_Dynamics_ExcitationSystems_ExcAC1A_ExcAC1A : name := Eval vm_compute in u "CIM14.IEC61970.Dynamics.ExcitationSystems.ExcAC1A.ExcAC1A".
Definition n_CIM14_IEC61970_Dynamics_ExcitationSystems_ExcAC2A_ExcAC2A : name := Eval vm_compute in u "CIM14.IEC61970.Dynamics.ExcitationSystems.ExcAC2A.ExcAC2A".
Definition n_CIM14_IEC61970_Dynamics_ExcitationSystems_ExcAC3A_ExcAC3A : name := Eval vm_compute in u "CIM14.IEC61970.Dynamics.ExcitationSystems.ExcAC3A.ExcAC3A".
Definition n_CIM14_IEC61970_Dynamics_ExcitationSystems_ExcAC4A_ExcAC4A : name := Eval vm_compute in u "CIM14.IEC61970.Dynamics.ExcitationSystems.ExcAC4A.ExcAC4A".
Definition n_CIM14_IEC61970_Dynamics_ExcitationSystems_ExcAC5A_ExcAC5A : name := Eval vm_compute in u "CIM14.IEC61970.Dynamics.ExcitationSystems.ExcAC5A.ExcAC5A".
Definition n_CIM14_IEC61970_Dynamics_ExcitationSystems_ExcAC6A_ExcAC6A : name := Eval vm_compute in u "CIM14.IEC61970.Dynamics.ExcitationSystems.ExcAC6A.ExcAC6A".
Definition n_CIM14_IEC61970_Dynamics_ExcitationSystems_ExcAC7B_ExcAC7B : name := Eval vm_compute in u "CIM14.IEC61970.Dynamics.ExcitationSystems.ExcAC7B.ExcAC7B".
Definition n_CIM14_IEC61970_Dynamics_ExcitationSystems_ExcAC8B_ExcAC8B : name := Eval vm_compute in u "CIM14.IEC61970.Dynamics.ExcitationSystems.ExcAC8B.ExcAC8B".
Definition n_CIM14_IEC61970_Dynamics_ExcitationSystems_ExcBAS_ExcBAS : name := Eval vm_compute in u "CIM14.IEC61970.Dynamics.ExcitationSystems.ExcBAS.ExcBAS".
Definition n_CIM14_IEC61970_Dynamics_ExcitationSystems_ExcBBC_ExcBBC : name := Eval vm_compute in u "CIM14.IEC61970.Dynamics.ExcitationSystems.ExcBBC.ExcBBC".
Definition n_CIM14_IEC61970_Dynamics_ExcitationSystems_ExcCZ_ExcCZ : name := Eval vm_compute in u "CIM14.IEC61970.Dynamics.ExcitationSystems.ExcCZ.ExcCZ".
Definition n_CIM14_IEC61970_Dynamics_ExcitationSystems_ExcDC1A_ExcDC1A : name := Eval vm_compute in u "CIM14.IEC61970.Dynamics.ExcitationSystems.ExcDC1A.ExcDC1A".
Definition n_CIM14_IEC61970_Dynamics_ExcitationSystems_ExcDC2A_ExcDC2A : name := Eval vm_compute in u "CIM14.IEC61970.Dynamics.ExcitationSystems.ExcDC2A.ExcDC2A".
Definition n_CIM14_IEC61970_Dynamics_ExcitationSystems_ExcDC3A_ExcDC3A : name := Eval vm_compute in u "CIM14.IEC61970.Dynamics.ExcitationSystems.ExcDC3A.ExcDC3A".
Definition n_CIM14_IEC61970_Dynamics_ExcitationSystems_ExcDC4B_ExcDC4B : name := Eval vm_compute in u "CIM14.IEC61970.Dynamics.ExcitationSystems.ExcDC4B.ExcDC4B".
Definition n_CIM14_IEC61970_Dynamics_ExcitationSystems_ExcELIN1_ExcELIN1 : name := Eval vm_compute in u "CIM14.IEC61970.Dynamics.ExcitationSystems.ExcELIN1.ExcELIN1".
Definition n_CIM14_IEC61970_Dynamics_ExcitationSystems_ExcELIN2_ExcELIN2 : name := Eval vm_compute in u "CIM14.IEC61970.Dynamics.ExcitationSystems.ExcELIN2.ExcELIN2".
Definition n_CIM14_IEC61970_Dynamics_ExcitationSystems_ExcHU_ExcHU : name := Eval vm_compute in u "CIM14.IEC61970.Dynamics.ExcitationSystems.ExcHU.ExcHU".
Definition n_CIM14_IEC61970_Dynamics_ExcitationSystems_ExcPIC_ExcPIC : name := Eval vm_compute in u "CIM14.IEC61970.Dynamics.ExcitationSystems.ExcPIC.ExcPIC".
Definition n_CIM14_IEC61970_Dynamics_ExcitationSystems_ExcREXS_ExcREXS : name := Eval vm_compute in u "CIM14.IEC61970.Dynamics.ExcitationSystems.ExcREXS.ExcREXS".
Definition n_CIM14_IEC61970_Dynamics_ExcitationSystems_ExcSCRX_ExcSCRX : name := Eval vm_compute in u "CIM14.IEC61970.Dynamics.ExcitationSystems.ExcSCRX.ExcSCRX".
Definition n_CIM14_IEC61970_Dynamics_ExcitationSystems_ExcSEXS_ExcSEXS : name := Eval vm_compute in u "CIM14.IEC61970.Dynamics.ExcitationSystems.ExcSEXS.ExcSEXS".
Definition n_CIM14_IEC61970_Dynamics_ExcitationSystems_ExcSK2_ExcSK2 : name := Eval vm_compute in u "CIM14.IEC61970.Dynamics.ExcitationSystems.ExcSK2.ExcSK2".
Definition n_CIM14_IEC61970_Dynamics_ExcitationSystems_ExcSK_ExcSK : name := Eval vm_compute in u "CIM14.IEC61970.Dynamics.ExcitationSystems.ExcSK.ExcSK".
Definition n_CIM14_IEC61970_Dynamics_ExcitationSystems_ExcST1A_ExcST1A : name := Eval vm_compute in u "CIM14.IEC61970.Dynamics.ExcitationSystems.ExcST1A.ExcST1A".
Definition n_CIM14_IEC61970_Dynamics_ExcitationSystems_ExcST2A_ExcST2A : name := Eval vm_compute in u "CIM14.IEC61970.Dynamics.ExcitationSystems.ExcST2A.ExcST2A".
Definition n_CIM14_IEC61970_Dynamics_ExcitationSystems_ExcST3A_ExcST3A : name := Eval vm_compute in u "CIM14.IEC61970.Dynamics.ExcitationSystems.ExcST3A.ExcST3A".
Definition n_CIM14_IEC61970_Dynamics_ExcitationSystems_ExcST4B_ExcST4B : name := Eval vm_compute in u "CIM14.IEC61970.Dynamics.ExcitationSystems.ExcST4B.ExcST4B".
Definition n_CIM14_IEC61970_Dynamics_ExcitationSystems_ExcST5B_ExcST5B : name := Eval vm_compute in u "CIM14.IEC61970.Dynamics.ExcitationSystems.ExcST5B.ExcST5B".
Definition n_CIM14_IEC61970_Dynamics_ExcitationSystems_ExcST6B_ExcST6B : name := Eval vm_compute in u "CIM14.IEC61970.Dynamics.ExcitationSystems.ExcST6B.ExcST6B".
Definition n_CIM14_IEC61970_Dynamics_ExcitationSystems_ExcST7B_ExcST7B : name := Eval vm_compute in u "CIM14.IEC61970.Dynamics.ExcitationSystems.ExcST7B.ExcST7B".
Definition n_CIM14_IEC61970_Dynamics_ExcitationSystems_ExcWT2E_ExcWT2E : name := Eval vm_compute in u "CIM14.IEC61970.Dynamics.ExcitationSystems.ExcWT2E.ExcWT2E".
Definition n_CIM14_IEC61970_Dynamics_ExcitationSystems_ExcWT3E_ExcWT3E : name := Eval vm_compute in u "CIM14.IEC61970.Dynamics.ExcitationSystems.ExcWT3E.ExcWT3E".
Definition n_CIM14_IEC61970_Dynamics_ExcitationSystems_ExcWT4E_ExcWT4E : name := Eval vm_compute in u "CIM14.IEC61970.Dynamics.ExcitationSystems.ExcWT4E.ExcWT4E".
Definition n_CIM14_IEC61970_Dynamics_ExcitationSystems_ExcitationSystem_ExcitationSystem : name := Eval vm_compute in u "CIM14.IEC61970.Dynamics.ExcitationSystems.ExcitationSystem.ExcitationSystem".
Definition n_CIM14_IEC61970_Dynamics_Generators_GenAsync_GenAsync : name := Eval vm_compute in u "CIM14.IEC61970.Dynamics.Generators.GenAsync.GenAsync".
Definition n_CIM14_IEC61970_Dynamics_Generators_GenEquiv_GenEquiv : name := Eval vm_compute in u "CIM14.IEC61970.Dynamics.Generators.GenEquiv.GenEquiv".
Definition n_CIM14_IEC61970_Dynamics_Generators_GenLoad_GenLoad : name := Eval vm_compute in u "CIM14.IEC61970.Dynamics.Generators.GenLoad.GenLoad".
Definition n_CIM14_IEC61970_Dynamics_Loads_AggregateLoad_AggregateLoad : name := Eval vm_compute in u "CIM14.IEC61970.Dynamics.Loads.AggregateLoad.AggregateLoad".
Definition n_CIM14_IEC61970_Dynamics_Loads_LoadMotor_LoadMotor : name := Eval vm_compute in u "CIM14.IEC61970.Dynamics.Loads.LoadMotor.LoadMotor".
Definition n_CIM14_IEC61970_Dynamics_Loads_LoadStaticArea_LoadStaticArea : name := Eval vm_compute in u "CIM14.IEC61970.Dynamics.Loads.LoadStaticArea.LoadStaticArea".
Definition n_CIM14_IEC61970_Dynamics_Loads_LoadStaticBus_LoadStaticBus : name := Eval vm_compute in u "CIM14.IEC61970.Dynamics.Loads.LoadStaticBus.LoadStaticBus".
Definition n_CIM14_IEC61970_Dynamics_Loads_LoadStaticOwner_LoadStaticOwner : name := Eval vm_compute in u "CIM14.IEC61970.Dynamics.Loads.LoadStaticOwner.LoadStaticOwner".
Definition n_CIM14_IEC61970_Dynamics_Loads_LoadStaticSystem_LoadStaticSystem : name := Eval vm_compute in u "CIM14.IEC61970.Dynamics.Loads.LoadStaticSystem.LoadStaticSystem".
Definition n_CIM14_IEC61970_Dynamics_Loads_LoadStaticZone_LoadStaticZone : name := Eval vm_compute in u "CIM14.IEC61970.Dynamics.Loads.LoadStaticZone.LoadStaticZone".
Definition n_CIM14_IEC61970_Dynamics_Loads_LoadStatic_LoadStatic : name := Eval vm_compute in u "CIM14.IEC61970.Dynamics.Loads.LoadStatic.LoadStatic".
Definition n_CIM14_IEC61970_Dynamics_MetaBlockConInput_MetaBlockConInput : name := Eval vm_compute in u "CIM14.IEC61970.Dynamics.MetaBlockConInput.MetaBlockConInput".
Definition n_CIM14_IEC61970_Dynamics_MetaBlockConOutput_MetaBlockConOutput : name := Eval vm_compute in u "CIM14.IEC61970.Dynamics.MetaBlockConOutput.MetaBlockConOutput".
Definition n_CIM14_IEC61970_Dynamics_MetaBlockConSignal_MetaBlockConSignal : name := Eval vm_compute in u "CIM14.IEC61970.Dynamics.MetaBlockConSignal.MetaBlockConSignal".
Definition n_CIM14_IEC61970_Dynamics_MetaBlockConnectable_MetaBlockConnectable : name := Eval vm_compute in u "CIM14.IEC61970.Dynamics.MetaBlockConnectable.MetaBlockConnectable".
Definition n_CIM14_IEC61970_Dynamics_MetaBlockConnection_MetaBlockConnection : name := Eval vm_compute in u "CIM14.IEC61970.Dynamics.MetaBlockConnection.MetaBlockConnection".
Definition n_CIM14_IEC61970_Dynamics_MetaBlockConnectivity_MetaBlockConnectivity : name := Eval vm_compute in u "CIM14.IEC61970.Dynamics.MetaBlockConnectivity.MetaBlockConnectivity".
Definition n_CIM14_IEC61970_Dynamics_MetaBlockInputReference_MetaBlockInputReference : name := Eval vm_compute in u "CIM14.IEC61970.Dynamics.MetaBlockInputReference.MetaBlockInputReference".
Definition n_CIM14_IEC61970_Dynamics_MetaBlockInput_MetaBlockInput : name := Eval vm_compute in u "CIM14.IEC61970.Dynamics.MetaBlockInput.MetaBlockInput".
Definition n_CIM14_IEC61970_Dynamics_MetaBlockOutputReference_MetaBlockOutputReference : name := Eval vm_compute in u "CIM14.IEC61970.Dynamics.MetaBlockOutputReference.MetaBlockOutputReference".
Definition n_CIM14_IEC61970_Dynamics_MetaBlockOutput_MetaBlockOutput : name := Eval vm_compute in u "CIM14.IEC61970.Dynamics.MetaBlockOutput.MetaBlockOutput".
Definition n_CIM14_IEC61970_Dynamics_MetaBlockParameterReference_MetaBlockParameterReference : name := Eval vm_compute in u "CIM14.IEC61970.Dynamics.MetaBlockParameterReference.MetaBlockParameterReference".
Definition n_CIM14_IEC61970_Dynamics_MetaBlockParameter_MetaBlockParameter : name := Eval vm_compute in u "CIM14.IEC61970.Dynamics.MetaBlockParameter.MetaBlockParameter".
Definition n_CIM14_IEC61970_Dynamics_MetaBlockReference_MetaBlockReference : name := Eval vm_compute in u "CIM14.IEC61970.Dynamics.MetaBlockReference.MetaBlockReference".
Definition n_CIM14_IEC61970_Dynamics_MetaBlockSignal_MetaBlockSignal : name := Eval vm_compute in u "CIM14.IEC61970.Dynamics.MetaBlockSignal.MetaBlockSignal".
Definition n_CIM14_IEC61970_Dynamics_MetaBlockStateReference_MetaBlockStateReference : name := Eval vm_compute in u "CIM14.IEC61970.Dynamics.MetaBlockStateReference.MetaBlockStateReference".
Definition n_CIM14_IEC61970_Dynamics_MetaBlockState_MetaBlockState : name := Eval vm_compute in u "CIM14.IEC61970.Dynamics.MetaBlockState.MetaBlockState".
Definition n_CIM14_IEC61970_Dynamics_MetaBlock_MetaBlock : name := Eval vm_compute in u "CIM14.IEC61970.Dynamics.MetaBlock.MetaBlock".
Definition n_CIM14_IEC61970_Dynamics_Motors_MechLoad1_MechLoad1 : name := Eval vm_compute in u "CIM14.IEC61970.Dynamics.Motors.MechLoad1.MechLoad1".
Definition n_CIM14_IEC61970_Dynamics_Motors_MechanicalLoad_MechanicalLoad : name := Eval vm_compute in u "CIM14.IEC61970.Dynamics.Motors.MechanicalLoad.MechanicalLoad".
Definition n_CIM14_IEC61970_Dynamics_Motors_MotorAsync_MotorAsync : name := Eval vm_compute in u "CIM14.IEC61970.Dynamics.Motors.MotorAsync.MotorAsync".
Definition n_CIM14_IEC61970_Dynamics_Motors_MotorSync_MotorSync : name := Eval vm_compute in u "CIM14.IEC61970.Dynamics.Motors.MotorSync.MotorSync".
Definition n_CIM14_IEC61970_Dynamics_PowerSystemStabilizers_PowerSystemStabilizer_PowerSystemStabilizer : name := Eval vm_compute in u "CIM14.IEC61970.Dynamics.PowerSystemStabilizers.PowerSystemStabilizer.PowerSystemStabilizer".
Definition n_CIM14_IEC61970_Dynamics_PowerSystemStabilizers_PssIEEE1A_PssIEEE1A : name := Eval vm_compute in u "CIM14.IEC61970.Dynamics.PowerSystemStabilizers.PssIEEE1A.PssIEEE1A".
Definition n_CIM14_IEC61970_Dynamics_PowerSystemStabilizers_PssIEEE2B_PssIEEE2B : name := Eval vm_compute in u "CIM14.IEC61970.Dynamics.PowerSystemStabilizers.PssIEEE2B.PssIEEE2B".
Definition n_CIM14_IEC61970_Dynamics_PowerSystemStabilizers_PssIEEE3B_PssIEEE3B : name := Eval vm_compute in u "CIM14.IEC61970.Dynamics.PowerSystemStabilizers.PssIEEE3B.PssIEEE3B".
Definition n_CIM14_IEC61970_Dynamics_PowerSystemStabilizers_PssIEEE4B_PssIEEE4B : name := Eval vm_compute in u "CIM14.IEC61970.Dynamics.PowerSystemStabilizers.PssIEEE4B.PssIEEE4B".
Definition n_CIM14_IEC61970_Dynamics_PowerSystemStabilizers_PssPTIST1_PssPTIST1 : name := Eval vm_compute in u "CIM14.IEC61970.Dynamics.PowerSystemStabilizers.PssPTIST1.PssPTIST1".
Definition n_CIM14_IEC61970_Dynamics_PowerSystemStabilizers_PssPTIST3_PssPTIST3 : name := Eval vm_compute in u "CIM14.IEC61970.Dynamics.PowerSystemStabilizers.PssPTIST3.PssPTIST3".
Definition n_CIM14_IEC61970_Dynamics_PowerSystemStabilizers_PssSB4_PssSB4 : name := Eval vm_compute in u "CIM14.IEC61970.Dynamics.PowerSystemStabilizers.PssSB4.PssSB4".
Definition n_CIM14_IEC61970_Dynamics_PowerSystemStabilizers_PssSB_PssSB : name := Eval vm_compute in u "CIM14.IEC61970.Dynamics.PowerSystemStabilizers.PssSB.PssSB".
Definition n_CIM14_IEC61970_Dynamics_PowerSystemStabilizers_PssSH_PssSH : name := Eval vm_compute in u "CIM14.IEC61970.Dynamics.PowerSystemStabilizers.PssSH.PssSH".
Definition n_CIM14_IEC61970_Dynamics_PowerSystemStabilizers_PssSK_PssSK : name := Eval vm_compute in u "CIM14.IEC61970.Dynamics.PowerSystemStabilizers.PssSK.PssSK".
Definition n_CIM14_IEC61970_Dynamics_PowerSystemStabilizers_PssWSCC_PssWSCC : name := Eval vm_compute in u "CIM14.IEC61970.Dynamics.PowerSystemStabilizers.PssWSCC.PssWSCC".
Definition n_CIM14_IEC61970_Dynamics_ProtectiveDevice_ProtectiveDevice : name := Eval vm_compute in u "CIM14.IEC61970.Dynamics.ProtectiveDevice.ProtectiveDevice".
Definition n_CIM14_IEC61970_Dynamics_RotatingMachine_RotatingMachine : name := Eval vm_compute in u "CIM14.IEC61970.Dynamics.RotatingMachine.RotatingMachine".
Definition n_CIM14_IEC61970_Dynamics_SlotConnection_SlotConnection : name := Eval vm_compute in u "CIM14.IEC61970.Dynamics.SlotConnection.SlotConnection".
Definition n_CIM14_IEC61970_Dynamics_SlotInput_SlotInput : name := Eval vm_compute in u "CIM14.IEC61970.Dynamics.SlotInput.SlotInput".
Definition n_CIM14_IEC61970_Dynamics_SlotOutput_SlotOutput : name := Eval vm_compute in u "CIM14.IEC61970.Dynamics.SlotOutput.SlotOutput".
Definition n_CIM14_IEC61970_Dynamics_SlotReference_SlotReference : name := Eval vm_compute in u "CIM14.IEC61970.Dynamics.SlotReference.SlotReference".
Definition n_CIM14_IEC61970_Dynamics_Slot_Slot : name := Eval vm_compute in u "CIM14.IEC61970.Dynamics.Slot.Slot".
Definition n_CIM14_IEC61970_Dynamics_SourceModels_SourceModels : name := Eval vm_compute in u "CIM14.IEC61970.Dynamics.SourceModels.SourceModels".
Definition n_CIM14_IEC61970_Dynamics_StaticVarDevice_StaticVarDevice : name := Eval vm_compute in u "CIM14.IEC61970.Dynamics.StaticVarDevice.StaticVarDevice".
Definition n_CIM14_IEC61970_Dynamics_TieToMeasurement_TieToMeasurement : name := Eval vm_compute in u "CIM14.IEC61970.Dynamics.TieToMeasurement.TieToMeasurement".
Definition n_CIM14_IEC61970_Dynamics_TurbineGovernors_Class1_Class1 : name := Eval vm_compute in u "CIM14.IEC61970.Dynamics.TurbineGovernors.Class1.Class1".
Definition n_CIM14_IEC61970_Dynamics_TurbineGovernors_GovCT1_GovCT1 : name := Eval vm_compute in u "CIM14.IEC61970.Dynamics.TurbineGovernors.GovCT1.GovCT1".
Definition n_CIM14_IEC61970_Dynamics_TurbineGovernors_GovCT2_GovCT2 : name := Eval vm_compute in u "CIM14.IEC61970.Dynamics.TurbineGovernors.GovCT2.GovCT2".
Definition n_CIM14_IEC61970_Dynamics_TurbineGovernors_GovDUM_GovDUM : name := Eval vm_compute in u "CIM14.IEC61970.Dynamics.TurbineGovernors.GovDUM.GovDUM".
Definition n_CIM14_IEC61970_Dynamics_TurbineGovernors_GovGASM_GovGASM : name := Eval vm_compute in u "CIM14.IEC61970.Dynamics.TurbineGovernors.GovGASM.GovGASM".
Definition n_CIM14_IEC61970_Dynamics_TurbineGovernors_GovGAST2_GovGAST2 : name := Eval vm_compute in u "CIM14.IEC61970.Dynamics.TurbineGovernors.GovGAST2.GovGAST2".
Definition n_CIM14_IEC61970_Dynamics_TurbineGovernors_GovGASTWD_GovGASTWD : name := Eval vm_compute in u "CIM14.IEC61970.Dynamics.TurbineGovernors.GovGASTWD.GovGASTWD".
Definition n_CIM14_IEC61970_Dynamics_TurbineGovernors_GovGAST_GovGAST : name := Eval vm_compute in u "CIM14.IEC61970.Dynamics.TurbineGovernors.GovGAST.GovGAST".
Definition n_CIM14_IEC61970_Dynamics_TurbineGovernors_GovHydro0_GovHydro0 : name := Eval vm_compute in u "CIM14.IEC61970.Dynamics.TurbineGovernors.GovHydro0.GovHydro0".
Definition n_CIM14_IEC61970_Dynamics_TurbineGovernors_GovHydro1_GovHydro1 : name := Eval vm_compute in u "CIM14.IEC61970.Dynamics.TurbineGovernors.GovHydro1.GovHydro1".
Definition n_CIM14_IEC61970_Dynamics_TurbineGovernors_GovHydro2_GovHydro2 : name := Eval vm_compute in u "CIM14.IEC61970.Dynamics.TurbineGovernors.GovHydro2.GovHydro2".
Definition n_CIM14_IEC61970_Dynamics_TurbineGovernors_GovHydro3_GovHydro3 : name := Eval vm_compute in u "CIM14.IEC61970.Dynamics.TurbineGovernors.GovHydro3.GovHydro3".
Definition n_CIM14_IEC61970_Dynamics_TurbineGovernors_GovHydro4_GovHydro4 : name := Eval vm_compute in u "CIM14.IEC61970.Dynamics.TurbineGovernors.GovHydro4.GovHydro4".
Definition n_CIM14_IEC61970_Dynamics_TurbineGovernors_GovHydroDD_GovHydroDD : name := Eval vm_compute in u "CIM14.IEC61970.Dynamics.TurbineGovernors.GovHydroDD.GovHydroDD".
Definition n_CIM14_IEC61970_Dynamics_TurbineGovernors_GovHydroPID2_GovHydroPID2 : name := Eval vm_compute in u "CIM14.IEC61970.Dynamics.TurbineGovernors.GovHydroPID2.GovHydroPID2".
Definition n_CIM14_IEC61970_Dynamics_TurbineGovernors_GovHydroPID_GovHydroPID : name := Eval vm_compute in u "CIM14.IEC61970.Dynamics.TurbineGovernors.GovHydroPID.GovHydroPID".
Definition n_CIM14_IEC61970_Dynamics_TurbineGovernors_GovHydroR_GovHydroR : name := Eval vm_compute in u "CIM14.IEC61970.Dynamics.TurbineGovernors.GovHydroR.GovHydroR".
Definition n_CIM14_IEC61970_Dynamics_TurbineGovernors_GovHydroWEH_GovHydroWEH : name := Eval vm_compute in u "CIM14.IEC61970.Dynamics.TurbineGovernors.GovHydroWEH.GovHydroWEH".
Definition n_CIM14_IEC61970_Dynamics_TurbineGovernors_GovHydroWPID_GovHydroWPID : name := Eval vm_compute in u "CIM14.IEC61970.Dynamics.TurbineGovernors.GovHydroWPID.GovHydroWPID".
Definition n_CIM14_IEC61970_Dynamics_TurbineGovernors_GovRAV_GovRAV : name := Eval vm_compute in u "CIM14.IEC61970.Dynamics.TurbineGovernors.GovRAV.GovRAV".
Definition n_CIM14_IEC61970_Dynamics_TurbineGovernors_GovSteam0_GovSteam0 : name := Eval vm_compute in u "CIM14.IEC61970.Dynamics.TurbineGovernors.GovSteam0.GovSteam0".
Definition n_CIM14_IEC61970_Dynamics_TurbineGovernors_GovSteam1_GovSteam1 : name := Eval vm_compute in u "CIM14.IEC61970.Dynamics.TurbineGovernors.GovSteam1.GovSteam1".
Definition n_CIM14_IEC61970_Dynamics_TurbineGovernors_GovSteamCC_GovSteamCC : name := Eval vm_compute in u "CIM14.IEC61970.Dynamics.TurbineGovernors.GovSteamCC.GovSteamCC".
Definition n_CIM14_IEC61970_Dynamics_TurbineGovernors_GovSteamEU_GovSteamEU : name := Eval vm_compute in u "CIM14.IEC61970.Dynamics.TurbineGovernors.GovSteamEU.GovSteamEU".
Definition n_CIM14_IEC61970_Dynamics_TurbineGovernors_GovSteamFV2_GovSteamFV2 : name := Eval vm_compute in u "CIM14.IEC61970.Dynamics.TurbineGovernors.GovSteamFV2.GovSteamFV2".
Definition n_CIM14_IEC61970_Dynamics_TurbineGovernors_GovSteamFV3_GovSteamFV3 : name := Eval vm_compute in u "CIM14.IEC61970.Dynamics.TurbineGovernors.GovSteamFV3.GovSteamFV3".
Definition n_CIM14_IEC61970_Dynamics_TurbineGovernors_GovSteamSGO_GovSteamSGO : name := Eval vm_compute in u "CIM14.IEC61970.Dynamics.TurbineGovernors.GovSteamSGO.GovSteamSGO".
Definition n_CIM14_IEC61970_Dynamics_TurbineGovernors_GovWT1P_GovWT1P : name := Eval vm_compute in u "CIM14.IEC61970.Dynamics.TurbineGovernors.GovWT1P.GovWT1P".
Definition n_CIM14_IEC61970_Dynamics_TurbineGovernors_GovWT1T_GovWT1T : name := Eval vm_compute in u "CIM14.IEC61970.Dynamics.TurbineGovernors.GovWT1T.GovWT1T".
Definition n_CIM14_IEC61970_Dynamics_TurbineGovernors_GovWT2P_GovWT2P : name := Eval vm_compute in u "CIM14.IEC61970.Dynamics.TurbineGovernors.GovWT2P.GovWT2P".
Definition n_CIM14_IEC61970_Dynamics_TurbineGovernors_GovWT2T_GovWT2T : name := Eval vm_compute in u "CIM14.IEC61970.Dynamics.TurbineGovernors.GovWT2T.GovWT2T".
Definition n_CIM14_IEC61970_Dynamics_TurbineGovernors_GovWT3P_GovWT3P : name := Eval vm_compute in u "CIM14.IEC61970.Dynamics.TurbineGovernors.GovWT3P.GovWT3P".
Definition n_CIM14_IEC61970_Dynamics_TurbineGovernors_GovWT3T_GovWT3T : name := Eval vm_compute in u "CIM14.IEC61970.Dynamics.TurbineGovernors.GovWT3T.GovWT3T".
Definition n_CIM14_IEC61970_Dynamics_TurbineGovernors_GovWT4P_GovWT4P : name := Eval vm_compute in u "CIM14.IEC61970.Dynamics.TurbineGovernors.GovWT4P.GovWT4P".
Definition n_CIM14_IEC61970_Dynamics_TurbineGovernors_GovWT4T_GovWT4T : name := Eval vm_compute in u "CIM14.IEC61970.Dynamics.TurbineGovernors.GovWT4T.GovWT4T".
Definition n_CIM14_IEC61970_Dynamics_TurbineGovernors_TLCFB1_TLCFB1 : name := Eval vm_compute in u "CIM14.IEC61970.Dynamics.TurbineGovernors.TLCFB1.TLCFB1".
Definition n_CIM14_IEC61970_Dynamics_TurbineGovernors_TurbineGovernor_TurbineGovernor : name := Eval vm_compute in u "CIM14.IEC61970.Dynamics.TurbineGovernors.TurbineGovernor.TurbineGovernor".
Definition n_CIM14_IEC61970_Dynamics_UserBlockParameter_UserBlockParameter : name := Eval vm_compute in u "CIM14.IEC61970.Dynamics.UserBlockParameter.UserBlockParameter".
Definition n_CIM14_IEC61970_Dynamics_VoltageCompensator_VcompCross_VcompCross : name := Eval vm_compute in u "CIM14.IEC61970.Dynamics.VoltageCompensator.VcompCross.VcompCross".
Definition n_CIM14_IEC61970_Dynamics_VoltageCompensator_VcompIEEE_VcompIEEE : name := Eval vm_compute in u "CIM14.IEC61970.Dynamics.VoltageCompensator.VcompIEEE.VcompIEEE".
Definition n_CIM14_IEC61970_Dynamics_VoltageCompensator_VoltageCompensator_VoltageCompensator : name := Eval vm_compute in u "CIM14.IEC61970.Dynamics.VoltageCompensator.VoltageCompensator.VoltageCompensator".
Definition n_CIM14_IEC61970_Equivalents_EquivalentBranch_EquivalentBranch : name := Eval vm_compute in u "CIM14.IEC61970.Equivalents.EquivalentBranch.EquivalentBranch".
Definition n_CIM14_IEC61970_Equivalents_EquivalentEquipment_EquivalentEquipment : name := Eval vm_compute in u "CIM14.IEC61970.Equivalents.EquivalentEquipment.EquivalentEquipment".
Definition n_CIM14_IEC61970_Equivalents_EquivalentInjection_EquivalentInjection : name := Eval vm_compute in u "CIM14.IEC61970.Equivalents.EquivalentInjection.EquivalentInjection".
Definition n_CIM14_IEC61970_Equivalents_EquivalentNetwork_EquivalentNetwork : name := Eval vm_compute in u "CIM14.IEC61970.Equivalents.EquivalentNetwork.EquivalentNetwork".
Definition n_CIM14_IEC61970_Equivalents_EquivalentShunt_EquivalentShunt : name := Eval vm_compute in u "CIM14.IEC61970.Equivalents.EquivalentShunt.EquivalentShunt".
Definition n_CIM14_IEC61970_Generation_GenerationDynamics_BWRSteamSupply_BWRSteamSupply : name := Eval vm_compute in u "CIM14.IEC61970.Generation.GenerationDynamics.BWRSteamSupply.BWRSteamSupply".
Definition n_CIM14_IEC61970_Generation_GenerationDynamics_CTTempActivePowerCurve_CTTempActivePowerCurve : name := Eval vm_compute in u "CIM14.IEC61970.Generation.GenerationDynamics.CTTempActivePowerCurve.CTTempActivePowerCurve".
Definition n_CIM14_IEC61970_Generation_GenerationDynamics_CombustionTurbine_CombustionTurbine : name := Eval vm_compute in u "CIM14.IEC61970.Generation.GenerationDynamics.CombustionTurbine.CombustionTurbine".
Definition n_CIM14_IEC61970_Generation_GenerationDynamics_DrumBoiler_DrumBoiler : name := Eval vm_compute in u "CIM14.IEC61970.Generation.GenerationDynamics.DrumBoiler.DrumBoiler".
Definition n_CIM14_IEC61970_Generation_GenerationDynamics_FossilSteamSupply_FossilSteamSupply : name := Eval vm_compute in u "CIM14.IEC61970.Generation.GenerationDynamics.FossilSteamSupply.FossilSteamSupply".
Definition n_CIM14_IEC61970_Generation_GenerationDynamics_HeatRecoveryBoiler_HeatRecoveryBoiler : name := Eval vm_compute in u "CIM14.IEC61970.Generation.GenerationDynamics.HeatRecoveryBoiler.HeatRecoveryBoiler".
Definition n_CIM14_IEC61970_Generation_GenerationDynamics_HydroTurbine_HydroTurbine : name := Eval vm_compute in u "CIM14.IEC61970.Generation.GenerationDynamics.HydroTurbine.HydroTurbine".
Definition n_CIM14_IEC61970_Generation_GenerationDynamics_PWRSteamSupply_PWRSteamSupply : name := Eval vm_compute in u "CIM14.IEC61970.Generation.GenerationDynamics.PWRSteamSupply.PWRSteamSupply".
Definition n_CIM14_IEC61970_Generation_GenerationDynamics_PrimeMover_PrimeMover : name := Eval vm_compute in u "CIM14.IEC61970.Generation.GenerationDynamics.PrimeMover.PrimeMover".
Definition n_CIM14_IEC61970_Generation_GenerationDynamics_SteamSupply_SteamSupply : name := Eval vm_compute in u "CIM14.IEC61970.Generation.GenerationDynamics.SteamSupply.SteamSupply".
Definition n_CIM14_IEC61970_Generation_GenerationDynamics_SteamTurbine_SteamTurbine : name := Eval vm_compute in u "CIM14.IEC61970.Generation.GenerationDynamics.SteamTurbine.SteamTurbine".
Definition n_CIM14_IEC61970_Generation_GenerationDynamics_Subcritical_Subcritical : name := Eval vm_compute in u "CIM14.IEC61970.Generation.GenerationDynamics.Subcritical.Subcritical".
Definition n_CIM14_IEC61970_Generation_GenerationDynamics_Supercritical_Supercritical : name := Eval vm_compute in u "CIM14.IEC61970.Generation.GenerationDynamics.Supercritical.Supercritical".
Definition n_CIM14_IEC61970_Generation_Production_AirCompressor_AirCompressor : name := Eval vm_compute in u "CIM14.IEC61970.Generation.Production.AirCompressor.AirCompressor".
Definition n_CIM14_IEC61970_Generation_Production_CAESPlant_CAESPlant : name := Eval vm_compute in u "CIM14.IEC61970.Generation.Production.CAESPlant.CAESPlant".
Definition n_CIM14_IEC61970_Generation_Production_CogenerationPlant_CogenerationPlant : name := Eval vm_compute in u "CIM14.IEC61970.Generation.Production.CogenerationPlant.CogenerationPlant".
Definition n_CIM14_IEC61970_Generation_Production_CombinedCyclePlant_CombinedCyclePlant : name := Eval vm_compute in u "CIM14.IEC61970.Generation.Production.CombinedCyclePlant.CombinedCyclePlant".
Definition n_CIM14_IEC61970_Generation_Production_EmissionAccount_EmissionAccount : name := Eval vm_compute in u "CIM14.IEC61970.Generation.Production.EmissionAccount.EmissionAccount".
Definition n_CIM14_IEC61970_Generation_Production_EmissionCurve_EmissionCurve : name := Eval vm_compute in u "CIM14.IEC61970.Generation.Production.EmissionCurve.EmissionCurve".
Definition n_CIM14_IEC61970_Generation_Production_FossilFuel_FossilFuel : name := Eval vm_compute in u "CIM14.IEC61970.Generation.Production.FossilFuel.FossilFuel".
Definition n_CIM14_IEC61970_Generation_Production_FuelAllocationSchedule_FuelAllocationSchedule : name := Eval vm_compute in u "CIM14.IEC61970.Generation.Production.FuelAllocationSchedule.FuelAllocationSchedule".
Definition n_CIM14_IEC61970_Generation_Production_GenUnitOpCostCurve_GenUnitOpCostCurve : name := Eval vm_compute in u "CIM14.IEC61970.Generation.Production.GenUnitOpCostCurve.GenUnitOpCostCurve".
Definition n_CIM14_IEC61970_Generation_Production_GenUnitOpSchedule_GenUnitOpSchedule : name := Eval vm_compute in u "CIM14.IEC61970.Generation.Production.GenUnitOpSchedule.GenUnitOpSchedule".
Definition n_CIM14_IEC61970_Generation_Production_GeneratingUnit_GeneratingUnit : name := Eval vm_compute in u "CIM14.IEC61970.Generation.Production.GeneratingUnit.GeneratingUnit".
Definition n_CIM14_IEC61970_Generation_Production_GrossToNetActivePowerCurve_GrossToNetActivePowerCurve : name := Eval vm_compute in u "CIM14.IEC61970.Generation.Production.GrossToNetActivePowerCurve.GrossToNetActivePowerCurve".
Definition n_CIM14_IEC61970_Generation_Production_HeatInputCurve_HeatInputCurve : name := Eval vm_compute in u "CIM14.IEC61970.Generation.Production.HeatInputCurve.HeatInputCurve".
Definition n_CIM14_IEC61970_Generation_Production_HeatRateCurve_HeatRateCurve : name := Eval vm_compute in u "CIM14.IEC61970.Generation.Production.HeatRateCurve.HeatRateCurve".
Definition n_CIM14_IEC61970_Generation_Production_HydroGeneratingEfficiencyCurve_HydroGeneratingEfficiencyCurve : name := Eval vm_compute in u "CIM14.IEC61970.Generation.Production.HydroGeneratingEfficiencyCurve.HydroGeneratingEfficiencyCurve".
Definition n_CIM14_IEC61970_Generation_Production_HydroGeneratingUnit_HydroGeneratingUnit : name := Eval vm_compute in u "CIM14.IEC61970.Generation.Production.HydroGeneratingUnit.HydroGeneratingUnit".
Definition n_CIM14_IEC61970_Generation_Production_HydroPowerPlant_HydroPowerPlant : name := Eval vm_compute in u "CIM14.IEC61970.Generation.Production.HydroPowerPlant.HydroPowerPlant".
Definition n_CIM14_IEC61970_Generation_Production_HydroPumpOpSchedule_HydroPumpOpSchedule : name := Eval vm_compute in u "CIM14.IEC61970.Generation.Production.HydroPumpOpSchedule.HydroPumpOpSchedule".
Definition n_CIM14_IEC61970_Generation_Production_HydroPump_HydroPump : name := Eval vm_compute in u "CIM14.IEC61970.Generation.Production.HydroPump.HydroPump".
Definition n_CIM14_IEC61970_Generation_Production_IncrementalHeatRateCurve_IncrementalHeatRateCurve : name := Eval vm_compute in u "CIM14.IEC61970.Generation.Production.IncrementalHeatRateCurve.IncrementalHeatRateCurve".
Definition n_CIM14_IEC61970_Generation_Production_InflowForecast_InflowForecast : name := Eval vm_compute in u "CIM14.IEC61970.Generation.Production.InflowForecast.InflowForecast".
Definition n_CIM14_IEC61970_Generation_Production_LevelVsVolumeCurve_LevelVsVolumeCurve : name := Eval vm_compute in u "CIM14.IEC61970.Generation.Production.LevelVsVolumeCurve.LevelVsVolumeCurve".
Definition n_CIM14_IEC61970_Generation_Production_NuclearGeneratingUnit_NuclearGeneratingUnit : name := Eval vm_compute in u "CIM14.IEC61970.Generation.Production.NuclearGeneratingUnit.NuclearGeneratingUnit".
Definition n_CIM14_IEC61970_Generation_Production_PenstockLossCurve_PenstockLossCurve : name := Eval vm_compute in u "CIM14.IEC61970.Generation.Production.PenstockLossCurve.PenstockLossCurve".
Definition n_CIM14_IEC61970_Generation_Production_Reservoir_Reservoir : name := Eval vm_compute in u "CIM14.IEC61970.Generation.Production.Reservoir.Reservoir".
Definition n_CIM14_IEC61970_Generation_Production_ShutdownCurve_ShutdownCurve : name := Eval vm_compute in u "CIM14.IEC61970.Generation.Production.ShutdownCurve.ShutdownCurve".
Definition n_CIM14_IEC61970_Generation_Production_StartIgnFuelCurve_StartIgnFuelCurve : name := Eval vm_compute in u "CIM14.IEC61970.Generation.Production.StartIgnFuelCurve.StartIgnFuelCurve".
Definition n_CIM14_IEC61970_Generation_Production_StartMainFuelCurve_StartMainFuelCurve : name := Eval vm_compute in u "CIM14.IEC61970.Generation.Production.StartMainFuelCurve.StartMainFuelCurve".
Definition n_CIM14_IEC61970_Generation_Production_StartRampCurve_StartRampCurve : name := Eval vm_compute in u "CIM14.IEC61970.Generation.Production.StartRampCurve.StartRampCurve".
Definition n_CIM14_IEC61970_Generation_Production_StartupModel_StartupModel : name := Eval vm_compute in u "CIM14.IEC61970.Generation.Production.StartupModel.StartupModel".
Definition n_CIM14_IEC61970_Generation_Production_SteamSendoutSchedule_SteamSendoutSchedule : name := Eval vm_compute in u "CIM14.IEC61970.Generation.Production.SteamSendoutSchedule.SteamSendoutSchedule".
Definition n_CIM14_IEC61970_Generation_Production_TailbayLossCurve_TailbayLossCurve : name := Eval vm_compute in u "CIM14.IEC61970.Generation.Production.TailbayLossCurve.TailbayLossCurve".
Definition n_CIM14_IEC61970_Generation_Production_TargetLevelSchedule_TargetLevelSchedule : name := Eval vm_compute in u "CIM14.IEC61970.Generation.Production.TargetLevelSchedule.TargetLevelSchedule".
Definition n_CIM14_IEC61970_Generation_Production_ThermalGeneratingUnit_ThermalGeneratingUnit : name := Eval vm_compute in u "CIM14.IEC61970.Generation.Production.ThermalGeneratingUnit.ThermalGeneratingUnit".
Definition n_CIM14_IEC61970_Generation_Production_WindGeneratingUnit_WindGeneratingUnit : name := Eval vm_compute in u "CIM14.IEC61970.Generation.Production.WindGeneratingUnit.WindGeneratingUnit".
Definition n_CIM14_IEC61970_IEC61970CIMVersion_IEC61970CIMVersion : name := Eval vm_compute in u "CIM14.IEC61970.IEC61970CIMVersion.IEC61970CIMVersion".
Definition n_CIM14_IEC61970_Informative_InfCore_ModelingAuthoritySet_ModelingAuthoritySet : name := Eval vm_compute in u "CIM14.IEC61970.Informative.InfCore.ModelingAuthoritySet.ModelingAuthoritySet".
Definition n_CIM14_IEC61970_Informative_InfCore_ModelingAuthority_ModelingAuthority : name := Eval vm_compute in u "CIM14.IEC61970.Informative.InfCore.ModelingAuthority.ModelingAuthority".
Definition n_CIM14_IEC61970_LoadModel_ConformLoadGroup_ConformLoadGroup : name := Eval vm_compute in u "CIM14.IEC61970.LoadModel.ConformLoadGroup.ConformLoadGroup".
Definition n_CIM14_IEC61970_LoadModel_ConformLoadSchedule_ConformLoadSchedule : name := Eval vm_compute in u "CIM14.IEC61970.LoadModel.ConformLoadSchedule.ConformLoadSchedule".
Definition n_CIM14_IEC61970_LoadModel_ConformLoad_ConformLoad : name := Eval vm_compute in u "CIM14.IEC61970.LoadModel.ConformLoad.ConformLoad".
Definition n_CIM14_IEC61970_LoadModel_DayType_DayType : name := Eval vm_compute in u "CIM14.IEC61970.LoadModel.DayType.DayType".
Definition n_CIM14_IEC61970_LoadModel_EnergyArea_EnergyArea : name := Eval vm_compute in u "CIM14.IEC61970.LoadModel.EnergyArea.EnergyArea".
Definition n_CIM14_IEC61970_LoadModel_LoadArea_LoadArea : name := Eval vm_compute in u "CIM14.IEC61970.LoadModel.LoadArea.LoadArea".
Definition n_CIM14_IEC61970_LoadModel_LoadGroup_LoadGroup : name := Eval vm_compute in u "CIM14.IEC61970.LoadModel.LoadGroup.LoadGroup".
Definition n_CIM14_IEC61970_LoadModel_LoadResponseCharacteristic_LoadResponseCharacteristic : name := Eval vm_compute in u "CIM14.IEC61970.LoadModel.LoadResponseCharacteristic.LoadResponseCharacteristic".
Definition n_CIM14_IEC61970_LoadModel_NonConformLoadGroup_NonConformLoadGroup : name := Eval vm_compute in u "CIM14.IEC61970.LoadModel.NonConformLoadGroup.NonConformLoadGroup".
Definition n_CIM14_IEC61970_LoadModel_NonConformLoadSchedule_NonConformLoadSchedule : name := Eval vm_compute in u "CIM14.IEC61970.LoadModel.NonConformLoadSchedule.NonConformLoadSchedule".
Definition n_CIM14_IEC61970_LoadModel_NonConformLoad_NonConformLoad : name := Eval vm_compute in u "CIM14.IEC61970.LoadModel.NonConformLoad.NonConformLoad".
Definition n_CIM14_IEC61970_LoadModel_PowerCutZone_PowerCutZone : name := Eval vm_compute in u "CIM14.IEC61970.LoadModel.PowerCutZone.PowerCutZone".
Definition n_CIM14_IEC61970_LoadModel_SeasonDayTypeSchedule_SeasonDayTypeSchedule : name := Eval vm_compute in u "CIM14.IEC61970.LoadModel.SeasonDayTypeSchedule.SeasonDayTypeSchedule".
Definition n_CIM14_IEC61970_LoadModel_Season_Season : name := Eval vm_compute in u "CIM14.IEC61970.LoadModel.Season.Season".
Definition n_CIM14_IEC61970_LoadModel_StationSupply_StationSupply : name := Eval vm_compute in u "CIM14.IEC61970.LoadModel.StationSupply.StationSupply".
Definition n_CIM14_IEC61970_LoadModel_SubLoadArea_SubLoadArea : name := Eval vm_compute in u "CIM14.IEC61970.LoadModel.SubLoadArea.SubLoadArea".
Definition n_CIM14_IEC61970_Meas_AccumulatorLimitSet_AccumulatorLimitSet : name := Eval vm_compute in u "CIM14.IEC61970.Meas.AccumulatorLimitSet.AccumulatorLimitSet".
Definition n_CIM14_IEC61970_Meas_AccumulatorLimit_AccumulatorLimit : name := Eval vm_compute in u "CIM14.IEC61970.Meas.AccumulatorLimit.AccumulatorLimit".
Definition n_CIM14_IEC61970_Meas_AccumulatorValue_AccumulatorValue : name := Eval vm_compute in u "CIM14.IEC61970.Meas.AccumulatorValue.AccumulatorValue".
Definition n_CIM14_IEC61970_Meas_Accumulator_Accumulator : name := Eval vm_compute in u "CIM14.IEC61970.Meas.Accumulator.Accumulator".
Definition n_CIM14_IEC61970_Meas_AnalogLimitSet_AnalogLimitSet : name := Eval vm_compute in u "CIM14.IEC61970.Meas.AnalogLimitSet.AnalogLimitSet".
Definition n_CIM14_IEC61970_Meas_AnalogLimit_AnalogLimit : name := Eval vm_compute in u "CIM14.IEC61970.Meas.AnalogLimit.AnalogLimit".
Definition n_CIM14_IEC61970_Meas_AnalogValue_AnalogValue : name := Eval vm_compute in u "CIM14.IEC61970.Meas.AnalogValue.AnalogValue".
Definition n_CIM14_IEC61970_Meas_Analog_Analog : name := Eval vm_compute in u "CIM14.IEC61970.Meas.Analog.Analog".
Definition n_CIM14_IEC61970_Meas_Command_Command : name := Eval vm_compute in u "CIM14.IEC61970.Meas.Command.Command".
Definition n_CIM14_IEC61970_Meas_ControlType_ControlType : name := Eval vm_compute in u "CIM14.IEC61970.Meas.ControlType.ControlType".
Definition n_CIM14_IEC61970_Meas_Control_Control : name := Eval vm_compute in u "CIM14.IEC61970.Meas.Control.Control".
Definition n_CIM14_IEC61970_Meas_CurrentTransformer_CurrentTransformer : name := Eval vm_compute in u "CIM14.IEC61970.Meas.CurrentTransformer.CurrentTransformer".
Definition n_CIM14_IEC61970_Meas_DiscreteValue_DiscreteValue : name := Eval vm_compute in u "CIM14.IEC61970.Meas.DiscreteValue.DiscreteValue".
Definition n_CIM14_IEC61970_Meas_Discrete_Discrete : name := Eval vm_compute in u "CIM14.IEC61970.Meas.Discrete.Discrete".
Definition n_CIM14_IEC61970_Meas_LimitSet_LimitSet : name := Eval vm_compute in u "CIM14.IEC61970.Meas.LimitSet.LimitSet".
Definition n_CIM14_IEC61970_Meas_Limit_Limit : name := Eval vm_compute in u "CIM14.IEC61970.Meas.Limit.Limit".
Definition n_CIM14_IEC61970_Meas_MeasurementValueQuality_MeasurementValueQuality : name := Eval vm_compute in u "CIM14.IEC61970.Meas.MeasurementValueQuality.MeasurementValueQuality".
Definition n_CIM14_IEC61970_Meas_MeasurementValueSource_MeasurementValueSource : name := Eval vm_compute in u "CIM14.IEC61970.Meas.MeasurementValueSource.MeasurementValueSource".
Definition n_CIM14_IEC61970_Meas_MeasurementValue_MeasurementValue : name := Eval vm_compute in u "CIM14.IEC61970.Meas.MeasurementValue.MeasurementValue".
Definition n_CIM14_IEC61970_Meas_Measurement_Measurement : name := Eval vm_compute in u "CIM14.IEC61970.Meas.Measurement.Measurement".
Definition n_CIM14_IEC61970_Meas_PotentialTransformer_PotentialTransformer : name := Eval vm_compute in u "CIM14.IEC61970.Meas.PotentialTransformer.PotentialTransformer".
Definition n_CIM14_IEC61970_Meas_Quality61850_Quality61850 : name := Eval vm_compute in u "CIM14.IEC61970.Meas.Quality61850.Quality61850".
Definition n_CIM14_IEC61970_Meas_SetPoint_SetPoint : name := Eval vm_compute in u "CIM14.IEC61970.Meas.SetPoint.SetPoint".
Definition n_CIM14_IEC61970_Meas_StringMeasurementValue_StringMeasurementValue : name := Eval vm_compute in u "CIM14.IEC61970.Meas.StringMeasurementValue.StringMeasurementValue".
Definition n_CIM14_IEC61970_Meas_StringMeasurement_StringMeasurement : name := Eval vm_compute in u "CIM14.IEC61970.Meas.StringMeasurement.StringMeasurement".
Definition n_CIM14_IEC61970_Meas_ValueAliasSet_ValueAliasSet : name := Eval vm_compute in u "CIM14.IEC61970.Meas.ValueAliasSet.ValueAliasSet".
Definition n_CIM14_IEC61970_Meas_ValueToAlias_ValueToAlias : name := Eval vm_compute in u "CIM14.IEC61970.Meas.ValueToAlias.ValueToAlias".
Definition n_CIM14_IEC61970_OperationalLimits_ActivePowerLimit_ActivePowerLimit : name := Eval vm_compute in u "CIM14.IEC61970.OperationalLimits.ActivePowerLimit.ActivePowerLimit".
Definition n_CIM14_IEC61970_OperationalLimits_ApparentPowerLimit_ApparentPowerLimit : name := Eval vm_compute in u "CIM14.IEC61970.OperationalLimits.ApparentPowerLimit.ApparentPowerLimit".
Definition n_CIM14_IEC61970_OperationalLimits_BranchGroupTerminal_BranchGroupTerminal : name := Eval vm_compute in u "CIM14.IEC61970.OperationalLimits.BranchGroupTerminal.BranchGroupTerminal".
Definition n_CIM14_IEC61970_OperationalLimits_BranchGroup_BranchGroup : name := Eval vm_compute in u "CIM14.IEC61970.OperationalLimits.BranchGroup.BranchGroup".
Definition n_CIM14_IEC61970_OperationalLimits_CurrentLimit_CurrentLimit : name := Eval vm_compute in u "CIM14.IEC61970.OperationalLimits.CurrentLimit.CurrentLimit".
Definition n_CIM14_IEC61970_OperationalLimits_OperationalLimitSet_OperationalLimitSet : name := Eval vm_compute in u "CIM14.IEC61970.OperationalLimits.OperationalLimitSet.OperationalLimitSet".
Definition n_CIM14_IEC61970_OperationalLimits_OperationalLimitType_OperationalLimitType : name := Eval vm_compute in u "CIM14.IEC61970.OperationalLimits.OperationalLimitType.OperationalLimitType".
Definition n_CIM14_IEC61970_OperationalLimits_OperationalLimit_OperationalLimit : name := Eval vm_compute in u "CIM14.IEC61970.OperationalLimits.OperationalLimit.OperationalLimit".
Definition n_CIM14_IEC61970_OperationalLimits_VoltageLimit_VoltageLimit : name := Eval vm_compute in u "CIM14.IEC61970.OperationalLimits.VoltageLimit.VoltageLimit".
Definition n_CIM14_IEC61970_Outage_ClearanceTagType_ClearanceTagType : name := Eval vm_compute in u "CIM14.IEC61970.Outage.ClearanceTagType.ClearanceTagType".
Definition n_CIM14_IEC61970_Outage_ClearanceTag_ClearanceTag : name := Eval vm_compute in u "CIM14.IEC61970.Outage.ClearanceTag.ClearanceTag".
Definition n_CIM14_IEC61970_Outage_OutageSchedule_OutageSchedule : name := Eval vm_compute in u "CIM14.IEC61970.Outage.OutageSchedule.OutageSchedule".
Definition n_CIM14_IEC61970_Outage_SwitchingOperation_SwitchingOperation : name := Eval vm_compute in u "CIM14.IEC61970.Outage.SwitchingOperation.SwitchingOperation".
Definition n_CIM14_IEC61970_Protection_CurrentRelay_CurrentRelay : name := Eval vm_compute in u "CIM14.IEC61970.Protection.CurrentRelay.CurrentRelay".
Definition n_CIM14_IEC61970_Protection_FaultIndicator_FaultIndicator : name := Eval vm_compute in u "CIM14.IEC61970.Protection.FaultIndicator.FaultIndicator".
Definition n_CIM14_IEC61970_Protection_ProtectionEquipment_ProtectionEquipment : name := Eval vm_compute in u "CIM14.IEC61970.Protection.ProtectionEquipment.ProtectionEquipment".
Definition n_CIM14_IEC61970_Protection_RecloseSequence_RecloseSequence : name := Eval vm_compute in u "CIM14.IEC61970.Protection.RecloseSequence.RecloseSequence".
Definition n_CIM14_IEC61970_Protection_SurgeProtector_SurgeProtector : name := Eval vm_compute in u "CIM14.IEC61970.Protection.SurgeProtector.SurgeProtector".
Definition n_CIM14_IEC61970_Protection_SynchrocheckRelay_SynchrocheckRelay : name := Eval vm_compute in u "CIM14.IEC61970.Protection.SynchrocheckRelay.SynchrocheckRelay".
Definition n_CIM14_IEC61970_SCADA_CommunicationLink_CommunicationLink : name := Eval vm_compute in u "CIM14.IEC61970.SCADA.CommunicationLink.CommunicationLink".
Definition n_CIM14_IEC61970_SCADA_RemoteControl_RemoteControl : name := Eval vm_compute in u "CIM14.IEC61970.SCADA.RemoteControl.RemoteControl".
Definition n_CIM14_IEC61970_SCADA_RemotePoint_RemotePoint : name := Eval vm_compute in u "CIM14.IEC61970.SCADA.RemotePoint.RemotePoint".
Definition n_CIM14_IEC61970_SCADA_RemoteSource_RemoteSource : name := Eval vm_compute in u "CIM14.IEC61970.SCADA.RemoteSource.RemoteSource".
Definition n_CIM14_IEC61970_SCADA_RemoteUnit_RemoteUnit : name := Eval vm_compute in u "CIM14.IEC61970.SCADA.RemoteUnit.RemoteUnit".
Definition n_CIM14_IEC61970_StateVariables_StateVariable_StateVariable : name := Eval vm_compute in u "CIM14.IEC61970.StateVariables.StateVariable.StateVariable".
Definition n_CIM14_IEC61970_StateVariables_SvInjection_SvInjection : name := Eval vm_compute in u "CIM14.IEC61970.StateVariables.SvInjection.SvInjection".
Definition n_CIM14_IEC61970_StateVariables_SvPowerFlow_SvPowerFlow : name := Eval vm_compute in u "CIM14.IEC61970.StateVariables.SvPowerFlow.SvPowerFlow".
Definition n_CIM14_IEC61970_StateVariables_SvShortCircuit_SvShortCircuit : name := Eval vm_compute in u "CIM14.IEC61970.StateVariables.SvShortCircuit.SvShortCircuit".
Definition n_CIM14_IEC61970_StateVariables_SvShuntCompensatorSections_SvShuntCompensatorSections : name := Eval vm_compute in u "CIM14.IEC61970.StateVariables.SvShuntCompensatorSections.SvShuntCompensatorSections".
Definition n_CIM14_IEC61970_StateVariables_SvStatus_SvStatus : name := Eval vm_compute in u "CIM14.IEC61970.StateVariables.SvStatus.SvStatus".
Definition n_CIM14_IEC61970_StateVariables_SvTapStep_SvTapStep : name := Eval vm_compute in u "CIM14.IEC61970.StateVariables.SvTapStep.SvTapStep".
Definition n_CIM14_IEC61970_StateVariables_SvVoltage_SvVoltage : name := Eval vm_compute in u "CIM14.IEC61970.StateVariables.SvVoltage.SvVoltage".
Definition n_CIM14_IEC61970_StateVariables_TopologicalIsland_TopologicalIsland : name := Eval vm_compute in u "CIM14.IEC61970.StateVariables.TopologicalIsland.TopologicalIsland".
Definition n_CIM14_IEC61970_Topology_BusNameMarker_BusNameMarker : name := Eval vm_compute in u "CIM14.IEC61970.Topology.BusNameMarker.BusNameMarker".
Definition n_CIM14_IEC61970_Topology_TopologicalNode_TopologicalNode : name := Eval vm_compute in u "CIM14.IEC61970.Topology.TopologicalNode.TopologicalNode".
Definition n_CIM14_IEC61970_Wires_ACLineSegment_ACLineSegment : name := Eval vm_compute in u "CIM14.IEC61970.Wires.ACLineSegment.ACLineSegment".
Definition n_CIM14_IEC61970_Wires_Breaker_Breaker : name := Eval vm_compute in u "CIM14.IEC61970.Wires.Breaker.Breaker".
Definition n_CIM14_IEC61970_Wires_BusbarSection_BusbarSection : name := Eval vm_compute in u "CIM14.IEC61970.Wires.BusbarSection.BusbarSection".
Definition n_CIM14_IEC61970_Wires_CompositeSwitch_CompositeSwitch : name := Eval vm_compute in u "CIM14.IEC61970.Wires.CompositeSwitch.CompositeSwitch".
Definition n_CIM14_IEC61970_Wires_Conductor_Conductor : name := Eval vm_compute in u "CIM14.IEC61970.Wires.Conductor.Conductor".
Definition n_CIM14_IEC61970_Wires_Connector_Connector : name := Eval vm_compute in u "CIM14.IEC61970.Wires.Connector.Connector".
Definition n_CIM14_IEC61970_Wires_DCLineSegment_DCLineSegment : name := Eval vm_compute in u "CIM14.IEC61970.Wires.DCLineSegment.DCLineSegment".
Definition n_CIM14_IEC61970_Wires_Disconnector_Disconnector : name := Eval vm_compute in u "CIM14.IEC61970.Wires.Disconnector.Disconnector".
Definition n_CIM14_IEC61970_Wires_EnergyConsumer_EnergyConsumer : name := Eval vm_compute in u "CIM14.IEC61970.Wires.EnergyConsumer.EnergyConsumer".
Definition n_CIM14_IEC61970_Wires_EnergySource_EnergySource : name := Eval vm_compute in u "CIM14.IEC61970.Wires.EnergySource.EnergySource".
Definition n_CIM14_IEC61970_Wires_FrequencyConverter_FrequencyConverter : name := Eval vm_compute in u "CIM14.IEC61970.Wires.FrequencyConverter.FrequencyConverter".
Definition n_CIM14_IEC61970_Wires_Fuse_Fuse : name := Eval vm_compute in u "CIM14.IEC61970.Wires.Fuse.Fuse".
Definition n_CIM14_IEC61970_Wires_GroundDisconnector_GroundDisconnector : name := Eval vm_compute in u "CIM14.IEC61970.Wires.GroundDisconnector.GroundDisconnector".
Definition n_CIM14_IEC61970_Wires_Ground_Ground : name := Eval vm_compute in u "CIM14.IEC61970.Wires.Ground.Ground".
Definition n_CIM14_IEC61970_Wires_HeatExchanger_HeatExchanger : name := Eval vm_compute in u "CIM14.IEC61970.Wires.HeatExchanger.HeatExchanger".
Definition n_CIM14_IEC61970_Wires_ImpedanceVariationCurve_ImpedanceVariationCurve : name := Eval vm_compute in u "CIM14.IEC61970.Wires.ImpedanceVariationCurve.ImpedanceVariationCurve".
Definition n_CIM14_IEC61970_Wires_Jumper_Jumper : name := Eval vm_compute in u "CIM14.IEC61970.Wires.Jumper.Jumper".
Definition n_CIM14_IEC61970_Wires_Junction_Junction : name := Eval vm_compute in u "CIM14.IEC61970.Wires.Junction.Junction".
Definition n_CIM14_IEC61970_Wires_Line_Line : name := Eval vm_compute in u "CIM14.IEC61970.Wires.Line.Line".
Definition n_CIM14_IEC61970_Wires_LoadBreakSwitch_LoadBreakSwitch : name := Eval vm_compute in u "CIM14.IEC61970.Wires.LoadBreakSwitch.LoadBreakSwitch".
Definition n_CIM14_IEC61970_Wires_MutualCoupling_MutualCoupling : name := Eval vm_compute in u "CIM14.IEC61970.Wires.MutualCoupling.MutualCoupling".
Definition n_CIM14_IEC61970_Wires_PhaseTapChanger_PhaseTapChanger : name := Eval vm_compute in u "CIM14.IEC61970.Wires.PhaseTapChanger.PhaseTapChanger".
Definition n_CIM14_IEC61970_Wires_PhaseVariationCurve_PhaseVariationCurve : name := Eval vm_compute in u "CIM14.IEC61970.Wires.PhaseVariationCurve.PhaseVariationCurve".
Definition n_CIM14_IEC61970_Wires_Plant_Plant : name := Eval vm_compute in u "CIM14.IEC61970.Wires.Plant.Plant".
Definition n_CIM14_IEC61970_Wires_PowerTransformer_PowerTransformer : name := Eval vm_compute in u "CIM14.IEC61970.Wires.PowerTransformer.PowerTransformer".
Definition n_CIM14_IEC61970_Wires_ProtectedSwitch_ProtectedSwitch : name := Eval vm_compute in u "CIM14.IEC61970.Wires.ProtectedSwitch.ProtectedSwitch".
Definition n_CIM14_IEC61970_Wires_RatioTapChanger_RatioTapChanger : name := Eval vm_compute in u "CIM14.IEC61970.Wires.RatioTapChanger.RatioTapChanger".
Definition n_CIM14_IEC61970_Wires_RatioVariationCurve_RatioVariationCurve : name := Eval vm_compute in u "CIM14.IEC61970.Wires.RatioVariationCurve.RatioVariationCurve".
Definition n_CIM14_IEC61970_Wires_ReactiveCapabilityCurve_ReactiveCapabilityCurve : name := Eval vm_compute in u "CIM14.IEC61970.Wires.ReactiveCapabilityCurve.ReactiveCapabilityCurve".
Definition n_CIM14_IEC61970_Wires_RectifierInverter_RectifierInverter : name := Eval vm_compute in u "CIM14.IEC61970.Wires.RectifierInverter.RectifierInverter".
Definition n_CIM14_IEC61970_Wires_RegulatingCondEq_RegulatingCondEq : name := Eval vm_compute in u "CIM14.IEC61970.Wires.RegulatingCondEq.RegulatingCondEq".
Definition n_CIM14_IEC61970_Wires_RegulatingControl_RegulatingControl : name := Eval vm_compute in u "CIM14.IEC61970.Wires.RegulatingControl.RegulatingControl".
Definition n_CIM14_IEC61970_Wires_RegulationSchedule_RegulationSchedule : name := Eval vm_compute in u "CIM14.IEC61970.Wires.RegulationSchedule.RegulationSchedule".
Definition n_CIM14_IEC61970_Wires_Resistor_Resistor : name := Eval vm_compute in u "CIM14.IEC61970.Wires.Resistor.Resistor".
Definition n_CIM14_IEC61970_Wires_SeriesCompensator_SeriesCompensator : name := Eval vm_compute in u "CIM14.IEC61970.Wires.SeriesCompensator.SeriesCompensator".
Definition n_CIM14_IEC61970_Wires_ShuntCompensator_ShuntCompensator : name := Eval vm_compute in u "CIM14.IEC61970.Wires.ShuntCompensator.ShuntCompensator".
Definition n_CIM14_IEC61970_Wires_StaticVarCompensator_StaticVarCompensator : name := Eval vm_compute in u "CIM14.IEC61970.Wires.StaticVarCompensator.StaticVarCompensator".
Definition n_CIM14_IEC61970_Wires_SwitchSchedule_SwitchSchedule : name := Eval vm_compute in u "CIM14.IEC61970.Wires.SwitchSchedule.SwitchSchedule".
Definition n_CIM14_IEC61970_Wires_Switch_Switch : name := Eval vm_compute in u "CIM14.IEC61970.Wires.Switch.Switch".
Definition n_CIM14_IEC61970_Wires_SynchronousMachine_SynchronousMachine : name := Eval vm_compute in u "CIM14.IEC61970.Wires.SynchronousMachine.SynchronousMachine".
Definition n_CIM14_IEC61970_Wires_TapChanger_TapChanger : name := Eval vm_compute in u "CIM14.IEC61970.Wires.TapChanger.TapChanger".
Definition n_CIM14_IEC61970_Wires_TapSchedule_TapSchedule : name := Eval vm_compute in u "CIM14.IEC61970.Wires.TapSchedule.TapSchedule".
Definition n_CIM14_IEC61970_Wires_TransformerWinding_TransformerWinding : name := Eval vm_compute in u "CIM14.IEC61970.Wires.TransformerWinding.TransformerWinding".
Definition n_CIM14_IEC61970_Wires_VoltageControlZone_VoltageControlZone : name := Eval vm_compute in u "CIM14.IEC61970.Wires.VoltageControlZone.VoltageControlZone".
Definition n_CIM14_IEC61970_Wires_WindingTest_WindingTest : name := Eval vm_compute in u "CIM14.IEC61970.Wires.WindingTest.WindingTest".
Definition n_CIM15_CDPSM_Asset_Element_Element : name := Eval vm_compute in u "CIM15.CDPSM.Asset.Element.Element".
Definition n_CIM15_CDPSM_Asset_IEC61968_AssetModels_CableInfo_CableInfo : name := Eval vm_compute in u "CIM15.CDPSM.Asset.IEC61968.AssetModels.CableInfo.CableInfo".
Definition n_CIM15_CDPSM_Asset_IEC61968_AssetModels_ConcentricNeutralCableInfo_ConcentricNeutralCableInfo : name := Eval vm_compute in u "CIM15.CDPSM.Asset.IEC61968.AssetModels.ConcentricNeutralCableInfo.ConcentricNeutralCableInfo".
Definition n_CIM15_CDPSM_Asset_IEC61968_AssetModels_ConductorInfo_ConductorInfo : name := Eval vm_compute in u "CIM15.CDPSM.Asset.IEC61968.AssetModels.ConductorInfo.ConductorInfo".
Definition n_CIM15_CDPSM_Asset_IEC61968_AssetModels_EndDeviceInfo_EndDeviceInfo : name := Eval vm_compute in u "CIM15.CDPSM.Asset.IEC61968.AssetModels.EndDeviceInfo.EndDeviceInfo".
Definition n_CIM15_CDPSM_Asset_IEC61968_AssetModels_OverheadConductorInfo_OverheadConductorInfo : name := Eval vm_compute in u "CIM15.CDPSM.Asset.IEC61968.AssetModels.OverheadConductorInfo.OverheadConductorInfo".
Definition n_CIM15_CDPSM_Asset_IEC61968_AssetModels_PowerTransformerInfo_PowerTransformerInfo : name := Eval vm_compute in u "CIM15.CDPSM.Asset.IEC61968.AssetModels.PowerTransformerInfo.PowerTransformerInfo".
Definition n_CIM15_CDPSM_Asset_IEC61968_AssetModels_TapChangerInfo_TapChangerInfo : name := Eval vm_compute in u "CIM15.CDPSM.Asset.IEC61968.AssetModels.TapChangerInfo.TapChangerInfo".
Definition n_CIM15_CDPSM_Asset_IEC61968_AssetModels_TapeShieldCableInfo_TapeShieldCableInfo : name := Eval vm_compute in u "CIM15.CDPSM.Asset.IEC61968.AssetModels.TapeShieldCableInfo.TapeShieldCableInfo".
Definition n_CIM15_CDPSM_Asset_IEC61968_AssetModels_TransformerEndInfo_TransformerEndInfo : name := Eval vm_compute in u "CIM15.CDPSM.Asset.IEC61968.AssetModels.TransformerEndInfo.TransformerEndInfo".
Definition n_CIM15_CDPSM_Asset_IEC61968_AssetModels_TransformerTankInfo_TransformerTankInfo : name := Eval vm_compute in u "CIM15.CDPSM.Asset.IEC61968.AssetModels.TransformerTankInfo.TransformerTankInfo".
Definition n_CIM15_CDPSM_Asset_IEC61968_AssetModels_WireArrangement_WireArrangement : name := Eval vm_compute in u "CIM15.CDPSM.Asset.IEC61968.AssetModels.WireArrangement.WireArrangement".
Definition n_CIM15_CDPSM_Asset_IEC61968_AssetModels_WireType_WireType : name := Eval vm_compute in u "CIM15.CDPSM.Asset.IEC61968.AssetModels.WireType.WireType".
Definition n_CIM15_CDPSM_Asset_IEC61968_Assets_AssetInfo_AssetInfo : name := Eval vm_compute in u "CIM15.CDPSM.Asset.IEC61968.Assets.AssetInfo.AssetInfo".
Definition n_CIM15_CDPSM_Asset_IEC61970_Core_IdentifiedObject_IdentifiedObject : name := Eval vm_compute in u "CIM15.CDPSM.Asset.IEC61970.Core.IdentifiedObject.IdentifiedObject".
Definition n_CIM15_CDPSM_Asset_IEC61970_Core_NameType_NameType : name := Eval vm_compute in u "CIM15.CDPSM.Asset.IEC61970.Core.NameType.NameType".
Definition n_CIM15_CDPSM_Asset_IEC61970_Core_Name_Name : name := Eval vm_compute in u "CIM15.CDPSM.Asset.IEC61970.Core.Name.Name".
Definition n_CIM15_CDPSM_Asset_IEC61970_Wires_ACLineSegment_ACLineSegment : name := Eval vm_compute in u "CIM15.CDPSM.Asset.IEC61970.Wires.ACLineSegment.ACLineSegment".
Definition n_CIM15_CDPSM_Asset_IEC61970_Wires_PerLengthPhaseImpedance_PerLengthPhaseImpedance : name := Eval vm_compute in u "CIM15.CDPSM.Asset.IEC61970.Wires.PerLengthPhaseImpedance.PerLengthPhaseImpedance".
Definition n_CIM15_CDPSM_Asset_IEC61970_Wires_PerLengthSequenceImpedance_PerLengthSequenceImpedance : name := Eval vm_compute in u "CIM15.CDPSM.Asset.IEC61970.Wires.PerLengthSequenceImpedance.PerLengthSequenceImpedance".
Definition n_CIM15_CDPSM_Asset_IEC61970_Wires_TransformerCoreAdmittance_TransformerCoreAdmittance : name := Eval vm_compute in u "CIM15.CDPSM.Asset.IEC61970.Wires.TransformerCoreAdmittance.TransformerCoreAdmittance".
Definition n_CIM15_CDPSM_Asset_IEC61970_Wires_TransformerEnd_TransformerEnd : name := Eval vm_compute in u "CIM15.CDPSM.Asset.IEC61970.Wires.TransformerEnd.TransformerEnd".
Definition n_CIM15_CDPSM_Asset_IEC61970_Wires_TransformerStarImpedance_TransformerStarImpedance : name := Eval vm_compute in u "CIM15.CDPSM.Asset.IEC61970.Wires.TransformerStarImpedance.TransformerStarImpedance".
Definition n_CIM15_CDPSM_Asset_IEC61970_Wires_TransformerTankEnd_TransformerTankEnd : name := Eval vm_compute in u "CIM15.CDPSM.Asset.IEC61970.Wires.TransformerTankEnd.TransformerTankEnd".
Definition n_CIM15_CDPSM_Asset_IEC61970_Wires_TransformerTank_TransformerTank : name := Eval vm_compute in u "CIM15.CDPSM.Asset.IEC61970.Wires.TransformerTank.TransformerTank".
Definition n_CIM15_CDPSM_Balanced_Element_Element : name := Eval vm_compute in u "CIM15.CDPSM.Balanced.Element.Element".
Definition n_CIM15_CDPSM_Balanced_IEC61970_Core_IdentifiedObject_IdentifiedObject : name := Eval vm_compute in u "CIM15.CDPSM.Balanced.IEC61970.Core.IdentifiedObject.IdentifiedObject".
Definition n_CIM15_CDPSM_Balanced_IEC61970_Core_NameType_NameType : name := Eval vm_compute in u "CIM15.CDPSM.Balanced.IEC61970.Core.NameType.NameType".
Definition n_CIM15_CDPSM_Balanced_IEC61970_Core_Name_Name : name := Eval vm_compute in u "CIM15.CDPSM.Balanced.IEC61970.Core.Name.Name".
Definition n_CIM15_CDPSM_Balanced_IEC61970_Generation_Production_GeneratingUnit_GeneratingUnit : name := Eval vm_compute in u "CIM15.CDPSM.Balanced.IEC61970.Generation.Production.GeneratingUnit.GeneratingUnit".
Definition n_CIM15_CDPSM_Balanced_IEC61970_LoadModel_LoadResponseCharacteristic_LoadResponseCharacteristic : name := Eval vm_compute in u "CIM15.CDPSM.Balanced.IEC61970.LoadModel.LoadResponseCharacteristic.LoadResponseCharacteristic".
Definition n_CIM15_CDPSM_Balanced_IEC61970_Wires_ACLineSegment_ACLineSegment : name := Eval vm_compute in u "CIM15.CDPSM.Balanced.IEC61970.Wires.ACLineSegment.ACLineSegment".
Definition n_CIM15_CDPSM_Balanced_IEC61970_Wires_DCLineSegment_DCLineSegment : name := Eval vm_compute in u "CIM15.CDPSM.Balanced.IEC61970.Wires.DCLineSegment.DCLineSegment".
Definition n_CIM15_CDPSM_Balanced_IEC61970_Wires_EnergyConsumer_EnergyConsumer : name := Eval vm_compute in u "CIM15.CDPSM.Balanced.IEC61970.Wires.EnergyConsumer.EnergyConsumer".
Definition n_CIM15_CDPSM_Balanced_IEC61970_Wires_EnergySource_EnergySource : name := Eval vm_compute in u "CIM15.CDPSM.Balanced.IEC61970.Wires.EnergySource.EnergySource".
Definition n_CIM15_CDPSM_Balanced_IEC61970_Wires_PhaseTapChangerAsymetrical_PhaseTapChangerAsymetrical : name := Eval vm_compute in u "CIM15.CDPSM.Balanced.IEC61970.Wires.PhaseTapChangerAsymetrical.PhaseTapChangerAsymetrical".
Definition n_CIM15_CDPSM_Balanced_IEC61970_Wires_PhaseTapChangerLinear_PhaseTapChangerLinear : name := Eval vm_compute in u "CIM15.CDPSM.Balanced.IEC61970.Wires.PhaseTapChangerLinear.PhaseTapChangerLinear".
Definition n_CIM15_CDPSM_Balanced_IEC61970_Wires_PhaseTapChangerNonLinear_PhaseTapChangerNonLinear : name := Eval vm_compute in u "CIM15.CDPSM.Balanced.IEC61970.Wires.PhaseTapChangerNonLinear.PhaseTapChangerNonLinear".
Definition n_CIM15_CDPSM_Balanced_IEC61970_Wires_PhaseTapChangerSymetrical_PhaseTapChangerSymetrical : name := Eval vm_compute in u "CIM15.CDPSM.Balanced.IEC61970.Wires.PhaseTapChangerSymetrical.PhaseTapChangerSymetrical".
Definition n_CIM15_CDPSM_Balanced_IEC61970_Wires_PhaseTapChanger_PhaseTapChanger : name := Eval vm_compute in u "CIM15.CDPSM.Balanced.IEC61970.Wires.PhaseTapChanger.PhaseTapChanger".
Definition n_CIM15_CDPSM_Balanced_IEC61970_Wires_PowerTransformerEnd_PowerTransformerEnd : name := Eval vm_compute in u "CIM15.CDPSM.Balanced.IEC61970.Wires.PowerTransformerEnd.PowerTransformerEnd".
Definition n_CIM15_CDPSM_Balanced_IEC61970_Wires_PowerTransformer_PowerTransformer : name := Eval vm_compute in u "CIM15.CDPSM.Balanced.IEC61970.Wires.PowerTransformer.PowerTransformer".
Definition n_CIM15_CDPSM_Balanced_IEC61970_Wires_ProtectedSwitch_ProtectedSwitch : name := Eval vm_compute in u "CIM15.CDPSM.Balanced.IEC61970.Wires.ProtectedSwitch.ProtectedSwitch".
Definition n_CIM15_CDPSM_Balanced_IEC61970_Wires_RatioTapChanger_RatioTapChanger : name := Eval vm_compute in u "CIM15.CDPSM.Balanced.IEC61970.Wires.RatioTapChanger.RatioTapChanger".
Definition n_CIM15_CDPSM_Balanced_IEC61970_Wires_SeriesCompensator_SeriesCompensator : name := Eval vm_compute in u "CIM15.CDPSM.Balanced.IEC61970.Wires.SeriesCompensator.SeriesCompensator".
Definition n_CIM15_CDPSM_Balanced_IEC61970_Wires_ShuntCompensator_ShuntCompensator : name := Eval vm_compute in u "CIM15.CDPSM.Balanced.IEC61970.Wires.ShuntCompensator.ShuntCompensator".
Definition n_CIM15_CDPSM_Balanced_IEC61970_Wires_SynchronousMachine_SynchronousMachine : name := Eval vm_compute in u "CIM15.CDPSM.Balanced.IEC61970.Wires.SynchronousMachine.SynchronousMachine".
Definition n_CIM15_CDPSM_Balanced_IEC61970_Wires_TapChanger_TapChanger : name := Eval vm_compute in u "CIM15.CDPSM.Balanced.IEC61970.Wires.TapChanger.TapChanger".
Definition n_CIM15_CDPSM_Balanced_IEC61970_Wires_TransformerCoreAdmittance_TransformerCoreAdmittance : name := Eval vm_compute in u "CIM15.CDPSM.Balanced.IEC61970.Wires.TransformerCoreAdmittance.TransformerCoreAdmittance".
Definition n_CIM15_CDPSM_Balanced_IEC61970_Wires_TransformerEnd_TransformerEnd : name := Eval vm_compute in u "CIM15.CDPSM.Balanced.IEC61970.Wires.TransformerEnd.TransformerEnd".
Definition n_CIM15_CDPSM_Balanced_IEC61970_Wires_TransformerMeshImpedance_TransformerMeshImpedance : name := Eval vm_compute in u "CIM15.CDPSM.Balanced.IEC61970.Wires.TransformerMeshImpedance.TransformerMeshImpedance".
Definition n_CIM15_CDPSM_Balanced_IEC61970_Wires_TransformerStarImpedance_TransformerStarImpedance : name := Eval vm_compute in u "CIM15.CDPSM.Balanced.IEC61970.Wires.TransformerStarImpedance.TransformerStarImpedance".
Definition n_CIM15_CDPSM_Balanced_IEC61970_Wires_TransformerTankEnd_TransformerTankEnd : name := Eval vm_compute in u "CIM15.CDPSM.Balanced.IEC61970.Wires.TransformerTankEnd.TransformerTankEnd".
Definition n_CIM15_CDPSM_Connectivity_Element_Element : name := Eval vm_compute in u "CIM15.CDPSM.Connectivity.Element.Element".
Definition n_CIM15_CDPSM_Connectivity_IEC61970_Core_BaseVoltage_BaseVoltage : name := Eval vm_compute in u "CIM15.CDPSM.Connectivity.IEC61970.Core.BaseVoltage.BaseVoltage".
Definition n_CIM15_CDPSM_Connectivity_IEC61970_Core_Bay_Bay : name := Eval vm_compute in u "CIM15.CDPSM.Connectivity.IEC61970.Core.Bay.Bay".
Definition n_CIM15_CDPSM_Connectivity_IEC61970_Core_ConductingEquipment_ConductingEquipment : name := Eval vm_compute in u "CIM15.CDPSM.Connectivity.IEC61970.Core.ConductingEquipment.ConductingEquipment".
Definition n_CIM15_CDPSM_Connectivity_IEC61970_Core_ConnectivityNodeContainer_ConnectivityNodeContainer : name := Eval vm_compute in u "CIM15.CDPSM.Connectivity.IEC61970.Core.ConnectivityNodeContainer.ConnectivityNodeContainer".
Definition n_CIM15_CDPSM_Connectivity_IEC61970_Core_ConnectivityNode_ConnectivityNode : name := Eval vm_compute in u "CIM15.CDPSM.Connectivity.IEC61970.Core.ConnectivityNode.ConnectivityNode".
Definition n_CIM15_CDPSM_Connectivity_IEC61970_Core_EquipmentContainer_EquipmentContainer : name := Eval vm_compute in u "CIM15.CDPSM.Connectivity.IEC61970.Core.EquipmentContainer.EquipmentContainer".
Definition n_CIM15_CDPSM_Connectivity_IEC61970_Core_Equipment_Equipment : name := Eval vm_compute in u "CIM15.CDPSM.Connectivity.IEC61970.Core.Equipment.Equipment".
Definition n_CIM15_CDPSM_Connectivity_IEC61970_Core_GeographicalRegion_GeographicalRegion : name := Eval vm_compute in u "CIM15.CDPSM.Connectivity.IEC61970.Core.GeographicalRegion.GeographicalRegion".
Definition n_CIM15_CDPSM_Connectivity_IEC61970_Core_IdentifiedObject_IdentifiedObject : name := Eval vm_compute in u "CIM15.CDPSM.Connectivity.IEC61970.Core.IdentifiedObject.IdentifiedObject".
Definition n_CIM15_CDPSM_Connectivity_IEC61970_Core_NameTypeAuthority_NameTypeAuthority : name := Eval vm_compute in u "CIM15.CDPSM.Connectivity.IEC61970.Core.NameTypeAuthority.NameTypeAuthority".
Definition n_CIM15_CDPSM_Connectivity_IEC61970_Core_NameType_NameType : name := Eval vm_compute in u "CIM15.CDPSM.Connectivity.IEC61970.Core.NameType.NameType".
Definition n_CIM15_CDPSM_Connectivity_IEC61970_Core_Name_Name : name := Eval vm_compute in u "CIM15.CDPSM.Connectivity.IEC61970.Core.Name.Name".
Definition n_CIM15_CDPSM_Connectivity_IEC61970_Core_PSRType_PSRType : name := Eval vm_compute in u "CIM15.CDPSM.Connectivity.IEC61970.Core.PSRType.PSRType".
Definition n_CIM15_CDPSM_Connectivity_IEC61970_Core_PowerSystemResource_PowerSystemResource : name := Eval vm_compute in u "CIM15.CDPSM.Connectivity.IEC61970.Core.PowerSystemResource.PowerSystemResource".
Definition n_CIM15_CDPSM_Connectivity_IEC61970_Core_SubGeographicalRegion_SubGeographicalRegion : name := Eval vm_compute in u "CIM15.CDPSM.Connectivity.IEC61970.Core.SubGeographicalRegion.SubGeographicalRegion".
Definition n_CIM15_CDPSM_Connectivity_IEC61970_Core_Substation_Substation : name := Eval vm_compute in u "CIM15.CDPSM.Connectivity.IEC61970.Core.Substation.Substation".
Definition n_CIM15_CDPSM_Connectivity_IEC61970_Core_Terminal_Terminal : name := Eval vm_compute in u "CIM15.CDPSM.Connectivity.IEC61970.Core.Terminal.Terminal".
Definition n_CIM15_CDPSM_Connectivity_IEC61970_Core_VoltageLevel_VoltageLevel : name := Eval vm_compute in u "CIM15.CDPSM.Connectivity.IEC61970.Core.VoltageLevel.VoltageLevel".
Definition n_CIM15_CDPSM_Connectivity_IEC61970_WiresPhaseModel_ShuntCompensatorPhase_ShuntCompensatorPhase : name := Eval vm_compute in u "CIM15.CDPSM.Connectivity.IEC61970.WiresPhaseModel.ShuntCompensatorPhase.ShuntCompensatorPhase".
Definition n_CIM15_CDPSM_Connectivity_IEC61970_WiresPhaseModel_SwitchPhase_SwitchPhase : name := Eval vm_compute in u "CIM15.CDPSM.Connectivity.IEC61970.WiresPhaseModel.SwitchPhase.SwitchPhase".
Definition n_CIM15_CDPSM_Connectivity_IEC61970_Wires_ACLineSegment_ACLineSegment : name := Eval vm_compute in u "CIM15.CDPSM.Connectivity.IEC61970.Wires.ACLineSegment.ACLineSegment".
Definition n_CIM15_CDPSM_Connectivity_IEC61970_Wires_Breaker_Breaker : name := Eval vm_compute in u "CIM15.CDPSM.Connectivity.IEC61970.Wires.Breaker.Breaker".
Definition n_CIM15_CDPSM_Connectivity_IEC61970_Wires_BusbarSection_BusbarSection : name := Eval vm_compute in u "CIM15.CDPSM.Connectivity.IEC61970.Wires.BusbarSection.BusbarSection".
Definition n_CIM15_CDPSM_Connectivity_IEC61970_Wires_Conductor_Conductor : name := Eval vm_compute in u "CIM15.CDPSM.Connectivity.IEC61970.Wires.Conductor.Conductor".
Definition n_CIM15_CDPSM_Connectivity_IEC61970_Wires_DCLineSegment_DCLineSegment : name := Eval vm_compute in u "CIM15.CDPSM.Connectivity.IEC61970.Wires.DCLineSegment.DCLineSegment".
Definition n_CIM15_CDPSM_Connectivity_IEC61970_Wires_Disconnector_Disconnector : name := Eval vm_compute in u "CIM15.CDPSM.Connectivity.IEC61970.Wires.Disconnector.Disconnector".
Definition n_CIM15_CDPSM_Connectivity_IEC61970_Wires_EnergyConsumer_EnergyConsumer : name := Eval vm_compute in u "CIM15.CDPSM.Connectivity.IEC61970.Wires.EnergyConsumer.EnergyConsumer".
Definition n_CIM15_CDPSM_Connectivity_IEC61970_Wires_EnergySource_EnergySource : name := Eval vm_compute in u "CIM15.CDPSM.Connectivity.IEC61970.Wires.EnergySource.EnergySource".
Definition n_CIM15_CDPSM_Connectivity_IEC61970_Wires_Fuse_Fuse : name := Eval vm_compute in u "CIM15.CDPSM.Connectivity.IEC61970.Wires.Fuse.Fuse".
Definition n_CIM15_CDPSM_Connectivity_IEC61970_Wires_GroundDisconnector_GroundDisconnector : name := Eval vm_compute in u "CIM15.CDPSM.Connectivity.IEC61970.Wires.GroundDisconnector.GroundDisconnector".
Definition n_CIM15_CDPSM_Connectivity_IEC61970_Wires_Ground_Ground : name := Eval vm_compute in u "CIM15.CDPSM.Connectivity.IEC61970.Wires.Ground.Ground".
Definition n_CIM15_CDPSM_Connectivity_IEC61970_Wires_Jumper_Jumper : name := Eval vm_compute in u "CIM15.CDPSM.Connectivity.IEC61970.Wires.Jumper.Jumper".
Definition n_CIM15_CDPSM_Connectivity_IEC61970_Wires_Junction_Junction : name := Eval vm_compute in u "CIM15.CDPSM.Connectivity.IEC61970.Wires.Junction.Junction".
Definition n_CIM15_CDPSM_Connectivity_IEC61970_Wires_Line_Line : name := Eval vm_compute in u "CIM15.CDPSM.Connectivity.IEC61970.Wires.Line.Line".
Definition n_CIM15_CDPSM_Connectivity_IEC61970_Wires_LoadBreakSwitch_LoadBreakSwitch : name := Eval vm_compute in u "CIM15.CDPSM.Connectivity.IEC61970.Wires.LoadBreakSwitch.LoadBreakSwitch".
Definition n_CIM15_CDPSM_Connectivity_IEC61970_Wires_PowerTransformerEnd_PowerTransformerEnd : name := Eval vm_compute in u "CIM15.CDPSM.Connectivity.IEC61970.Wires.PowerTransformerEnd.PowerTransformerEnd".
Definition n_CIM15_CDPSM_Connectivity_IEC61970_Wires_PowerTransformer_PowerTransformer : name := Eval vm_compute in u "CIM15.CDPSM.Connectivity.IEC61970.Wires.PowerTransformer.PowerTransformer".
Definition n_CIM15_CDPSM_Connectivity_IEC61970_Wires_Sectionaliser_Sectionaliser : name := Eval vm_compute in u "CIM15.CDPSM.Connectivity.IEC61970.Wires.Sectionaliser.Sectionaliser".
Definition n_CIM15_CDPSM_Connectivity_IEC61970_Wires_SeriesCompensator_SeriesCompensator : name := Eval vm_compute in u "CIM15.CDPSM.Connectivity.IEC61970.Wires.SeriesCompensator.SeriesCompensator".
Definition n_CIM15_CDPSM_Connectivity_IEC61970_Wires_ShuntCompensator_ShuntCompensator : name := Eval vm_compute in u "CIM15.CDPSM.Connectivity.IEC61970.Wires.ShuntCompensator.ShuntCompensator".
Definition n_CIM15_CDPSM_Connectivity_IEC61970_Wires_Switch_Switch : name := Eval vm_compute in u "CIM15.CDPSM.Connectivity.IEC61970.Wires.Switch.Switch".
Definition n_CIM15_CDPSM_Connectivity_IEC61970_Wires_SynchronousMachine_SynchronousMachine : name := Eval vm_compute in u "CIM15.CDPSM.Connectivity.IEC61970.Wires.SynchronousMachine.SynchronousMachine".
Definition n_CIM15_CDPSM_Connectivity_IEC61970_Wires_TransformerEnd_TransformerEnd : name := Eval vm_compute in u "CIM15.CDPSM.Connectivity.IEC61970.Wires.TransformerEnd.TransformerEnd".
Definition n_CIM15_CDPSM_Connectivity_IEC61970_Wires_TransformerTankEnd_TransformerTankEnd : name := Eval vm_compute in u "CIM15.CDPSM.Connectivity.IEC61970.Wires.TransformerTankEnd.TransformerTankEnd".
Definition n_CIM15_CDPSM_Connectivity_IEC61970_Wires_TransformerTank_TransformerTank : name := Eval vm_compute in u "CIM15.CDPSM.Connectivity.IEC61970.Wires.TransformerTank.TransformerTank".
Definition n_CIM15_CDPSM_Geographical_Element_Element : name := Eval vm_compute in u "CIM15.CDPSM.Geographical.Element.Element".
Definition n_CIM15_CDPSM_Geographical_IEC61968_Common_CoordinateSystem_CoordinateSystem : name := Eval vm_compute in u "CIM15.CDPSM.Geographical.IEC61968.Common.CoordinateSystem.CoordinateSystem".
Definition n_CIM15_CDPSM_Geographical_IEC61968_Common_Location_Location : name := Eval vm_compute in u "CIM15.CDPSM.Geographical.IEC61968.Common.Location.Location".
Definition n_CIM15_CDPSM_Geographical_IEC61968_Common_PositionPoint_PositionPoint : name := Eval vm_compute in u "CIM15.CDPSM.Geographical.IEC61968.Common.PositionPoint.PositionPoint".
Definition n_CIM15_CDPSM_Geographical_IEC61970_Core_ConductingEquipment_ConductingEquipment : name := Eval vm_compute in u "CIM15.CDPSM.Geographical.IEC61970.Core.ConductingEquipment.ConductingEquipment".
Definition n_CIM15_CDPSM_Geographical_IEC61970_Core_Equipment_Equipment : name := Eval vm_compute in u "CIM15.CDPSM.Geographical.IEC61970.Core.Equipment.Equipment".
Definition n_CIM15_CDPSM_Geographical_IEC61970_Core_IdentifiedObject_IdentifiedObject : name := Eval vm_compute in u "CIM15.CDPSM.Geographical.IEC61970.Core.IdentifiedObject.IdentifiedObject".
Definition n_CIM15_CDPSM_Geographical_IEC61970_Core_NameType_NameType : name := Eval vm_compute in u "CIM15.CDPSM.Geographical.IEC61970.Core.NameType.NameType".
Definition n_CIM15_CDPSM_Geographical_IEC61970_Core_Name_Name : name := Eval vm_compute in u "CIM15.CDPSM.Geographical.IEC61970.Core.Name.Name".
Definition n_CIM15_CDPSM_Geographical_IEC61970_Core_PowerSystemResource_PowerSystemResource : name := Eval vm_compute in u "CIM15.CDPSM.Geographical.IEC61970.Core.PowerSystemResource.PowerSystemResource".
Definition n_CIM15_CDPSM_Geographical_IEC61970_Wires_ACLineSegment_ACLineSegment : name := Eval vm_compute in u "CIM15.CDPSM.Geographical.IEC61970.Wires.ACLineSegment.ACLineSegment".
Definition n_CIM15_CDPSM_Geographical_IEC61970_Wires_Breaker_Breaker : name := Eval vm_compute in u "CIM15.CDPSM.Geographical.IEC61970.Wires.Breaker.Breaker".
Definition n_CIM15_CDPSM_Geographical_IEC61970_Wires_BusbarSection_BusbarSection : name := Eval vm_compute in u "CIM15.CDPSM.Geographical.IEC61970.Wires.BusbarSection.BusbarSection".
Definition n_CIM15_CDPSM_Geographical_IEC61970_Wires_DCLineSegment_DCLineSegment : name := Eval vm_compute in u "CIM15.CDPSM.Geographical.IEC61970.Wires.DCLineSegment.DCLineSegment".
Definition n_CIM15_CDPSM_Geographical_IEC61970_Wires_Disconnector_Disconnector : name := Eval vm_compute in u "CIM15.CDPSM.Geographical.IEC61970.Wires.Disconnector.Disconnector".
Definition n_CIM15_CDPSM_Geographical_IEC61970_Wires_EnergyConsumer_EnergyConsumer : name := Eval vm_compute in u "CIM15.CDPSM.Geographical.IEC61970.Wires.EnergyConsumer.EnergyConsumer".
Definition n_CIM15_CDPSM_Geographical_IEC61970_Wires_EnergySource_EnergySource : name := Eval vm_compute in u "CIM15.CDPSM.Geographical.IEC61970.Wires.EnergySource.EnergySource".
Definition n_CIM15_CDPSM_Geographical_IEC61970_Wires_Fuse_Fuse : name := Eval vm_compute in u "CIM15.CDPSM.Geographical.IEC61970.Wires.Fuse.Fuse".
Definition n_CIM15_CDPSM_Geographical_IEC61970_Wires_GroundDisconnector_GroundDisconnector : name := Eval vm_compute in u "CIM15.CDPSM.Geographical.IEC61970.Wires.GroundDisconnector.GroundDisconnector".
Definition n_CIM15_CDPSM_Geographical_IEC61970_Wires_Jumper_Jumper : name := Eval vm_compute in u "CIM15.CDPSM.Geographical.IEC61970.Wires.Jumper.Jumper".
Definition n_CIM15_CDPSM_Geographical_IEC61970_Wires_Junction_Junction : name := Eval vm_compute in u "CIM15.CDPSM.Geographical.IEC61970.Wires.Junction.Junction".
Definition n_CIM15_CDPSM_Geographical_IEC61970_Wires_Line_Line : name := Eval vm_compute in u "CIM15.CDPSM.Geographical.IEC61970.Wires.Line.Line".
Definition n_CIM15_CDPSM_Geographical_IEC61970_Wires_LoadBreakSwitch_LoadBreakSwitch : name := Eval vm_compute in u "CIM15.CDPSM.Geographical.IEC61970.Wires.LoadBreakSwitch.LoadBreakSwitch".
Definition n_CIM15_CDPSM_Geographical_IEC61970_Wires_PowerTransformer_PowerTransformer : name := Eval vm_compute in u "CIM15.CDPSM.Geographical.IEC61970.Wires.PowerTransformer.PowerTransformer".
Definition n_CIM15_CDPSM_Geographical_IEC61970_Wires_SeriesCompensator_SeriesCompensator : name := Eval vm_compute in u "CIM15.CDPSM.Geographical.IEC61970.Wires.SeriesCompensator.SeriesCompensator".
Definition n_CIM15_CDPSM_Geographical_IEC61970_Wires_ShuntCompensator_ShuntCompensator : name := Eval vm_compute in u "CIM15.CDPSM.Geographical.IEC61970.Wires.ShuntCompensator.ShuntCompensator".
Definition n_CIM15_CDPSM_Geographical_IEC61970_Wires_SynchronousMachine_SynchronousMachine : name := Eval vm_compute in u "CIM15.CDPSM.Geographical.IEC61970.Wires.SynchronousMachine.SynchronousMachine".
Definition n_CIM15_CombinedVersion_CombinedVersion : name := Eval vm_compute in u "CIM15.CombinedVersion.CombinedVersion".
Definition n_CIM15_Element_Element : name := Eval vm_compute in u "CIM15.Element.Element".
Definition n_CIM15_IEC61968_AssetModels_CableInfo_CableInfo : name := Eval vm_compute in u "CIM15.IEC61968.AssetModels.CableInfo.CableInfo".
Definition n_CIM15_IEC61968_AssetModels_ConcentricNeutralCableInfo_ConcentricNeutralCableInfo : name := Eval vm_compute in u "CIM15.IEC61968.AssetModels.ConcentricNeutralCableInfo.ConcentricNeutralCableInfo".
Definition n_CIM15_IEC61968_AssetModels_ConductorInfo_ConductorInfo : name := Eval vm_compute in u "CIM15.IEC61968.AssetModels.ConductorInfo.ConductorInfo".
Definition n_CIM15_IEC61968_AssetModels_EndDeviceInfo_EndDeviceInfo : name := Eval vm_compute in u "CIM15.IEC61968.AssetModels.EndDeviceInfo.EndDeviceInfo".
Definition n_CIM15_IEC61968_AssetModels_NoLoadTest_NoLoadTest : name := Eval vm_compute in u "CIM15.IEC61968.AssetModels.NoLoadTest.NoLoadTest".
Definition n_CIM15_IEC61968_AssetModels_OpenCircuitTest_OpenCircuitTest : name := Eval vm_compute in u "CIM15.IEC61968.AssetModels.OpenCircuitTest.OpenCircuitTest".
Definition n_CIM15_IEC61968_AssetModels_OverheadConductorInfo_OverheadConductorInfo : name := Eval vm_compute in u "CIM15.IEC61968.AssetModels.OverheadConductorInfo.OverheadConductorInfo".
Definition n_CIM15_IEC61968_AssetModels_PowerTransformerInfo_PowerTransformerInfo : name := Eval vm_compute in u "CIM15.IEC61968.AssetModels.PowerTransformerInfo.PowerTransformerInfo".
Definition n_CIM15_IEC61968_AssetModels_ShortCircuitTest_ShortCircuitTest : name := Eval vm_compute in u "CIM15.IEC61968.AssetModels.ShortCircuitTest.ShortCircuitTest".
Definition n_CIM15_IEC61968_AssetModels_TapChangerInfo_TapChangerInfo : name := Eval vm_compute in u "CIM15.IEC61968.AssetModels.TapChangerInfo.TapChangerInfo".
Definition n_CIM15_IEC61968_AssetModels_TapeShieldCableInfo_TapeShieldCableInfo : name := Eval vm_compute in u "CIM15.IEC61968.AssetModels.TapeShieldCableInfo.TapeShieldCableInfo".
Definition n_CIM15_IEC61968_AssetModels_TransformerEndInfo_TransformerEndInfo : name := Eval vm_compute in u "CIM15.IEC61968.AssetModels.TransformerEndInfo.TransformerEndInfo".
Definition n_CIM15_IEC61968_AssetModels_TransformerTankInfo_TransformerTankInfo : name := Eval vm_compute in u "CIM15.IEC61968.AssetModels.TransformerTankInfo.TransformerTankInfo".
Definition n_CIM15_IEC61968_AssetModels_TransformerTest_TransformerTest : name := Eval vm_compute in u "CIM15.IEC61968.AssetModels.TransformerTest.TransformerTest".
Definition n_CIM15_IEC61968_AssetModels_WireArrangement_WireArrangement : name := Eval vm_compute in u "CIM15.IEC61968.AssetModels.WireArrangement.WireArrangement".
Definition n_CIM15_IEC61968_AssetModels_WireType_WireType : name := Eval vm_compute in u "CIM15.IEC61968.AssetModels.WireType.WireType".
Definition n_CIM15_IEC61968_Assets_AcceptanceTest_AcceptanceTest : name := Eval vm_compute in u "CIM15.IEC61968.Assets.AcceptanceTest.AcceptanceTest".
Definition n_CIM15_IEC61968_Assets_AssetContainer_AssetContainer : name := Eval vm_compute in u "CIM15.IEC61968.Assets.AssetContainer.AssetContainer".
Definition n_CIM15_IEC61968_Assets_AssetFunction_AssetFunction : name := Eval vm_compute in u "CIM15.IEC61968.Assets.AssetFunction.AssetFunction".
Definition n_CIM15_IEC61968_Assets_AssetInfo_AssetInfo : name := Eval vm_compute in u "CIM15.IEC61968.Assets.AssetInfo.AssetInfo".
Definition n_CIM15_IEC61968_Assets_AssetModel_AssetModel : name := Eval vm_compute in u "CIM15.IEC61968.Assets.AssetModel.AssetModel".
Definition n_CIM15_IEC61968_Assets_Asset_Asset : name := Eval vm_compute in u "CIM15.IEC61968.Assets.Asset.Asset".
Definition n_CIM15_IEC61968_Assets_ComMedia_ComMedia : name := Eval vm_compute in u "CIM15.IEC61968.Assets.ComMedia.ComMedia".
Definition n_CIM15_IEC61968_Assets_ProductAssetModel_ProductAssetModel : name := Eval vm_compute in u "CIM15.IEC61968.Assets.ProductAssetModel.ProductAssetModel".
Definition n_CIM15_IEC61968_Assets_Seal_Seal : name := Eval vm_compute in u "CIM15.IEC61968.Assets.Seal.Seal".
Definition n_CIM15_IEC61968_Common_ActivityRecord_ActivityRecord : name := Eval vm_compute in u "CIM15.IEC61968.Common.ActivityRecord.ActivityRecord".
Definition n_CIM15_IEC61968_Common_Agreement_Agreement : name := Eval vm_compute in u "CIM15.IEC61968.Common.Agreement.Agreement".
Definition n_CIM15_IEC61968_Common_CoordinateSystem_CoordinateSystem : name := Eval vm_compute in u "CIM15.IEC61968.Common.CoordinateSystem.CoordinateSystem".
Definition n_CIM15_IEC61968_Common_Document_Document : name := Eval vm_compute in u "CIM15.IEC61968.Common.Document.Document".
Definition n_CIM15_IEC61968_Common_ElectronicAddress_ElectronicAddress : name := Eval vm_compute in u "CIM15.IEC61968.Common.ElectronicAddress.ElectronicAddress".
Definition n_CIM15_IEC61968_Common_Location_Location : name := Eval vm_compute in u "CIM15.IEC61968.Common.Location.Location".
Definition n_CIM15_IEC61968_Common_Organisation_Organisation : name := Eval vm_compute in u "CIM15.IEC61968.Common.Organisation.Organisation".
Definition n_CIM15_IEC61968_Common_PositionPoint_PositionPoint : name := Eval vm_compute in u "CIM15.IEC61968.Common.PositionPoint.PositionPoint".
Definition n_CIM15_IEC61968_Common_PostalAddress_PostalAddress : name := Eval vm_compute in u "CIM15.IEC61968.Common.PostalAddress.PostalAddress".
Definition n_CIM15_IEC61968_Common_Status_Status : name := Eval vm_compute in u "CIM15.IEC61968.Common.Status.Status".
Definition n_CIM15_IEC61968_Common_StreetAddress_StreetAddress : name := Eval vm_compute in u "CIM15.IEC61968.Common.StreetAddress.StreetAddress".
Definition n_CIM15_IEC61968_Common_StreetDetail_StreetDetail : name := Eval vm_compute in u "CIM15.IEC61968.Common.StreetDetail.StreetDetail".
Definition n_CIM15_IEC61968_Common_TelephoneNumber_TelephoneNumber : name := Eval vm_compute in u "CIM15.IEC61968.Common.TelephoneNumber.TelephoneNumber".
Definition n_CIM15_IEC61968_Common_TimePoint_TimePoint : name := Eval vm_compute in u "CIM15.IEC61968.Common.TimePoint.TimePoint".
Definition n_CIM15_IEC61968_Common_TimeSchedule_TimeSchedule : name := Eval vm_compute in u "CIM15.IEC61968.Common.TimeSchedule.TimeSchedule".
Definition n_CIM15_IEC61968_Common_TownDetail_TownDetail : name := Eval vm_compute in u "CIM15.IEC61968.Common.TownDetail.TownDetail".
Definition n_CIM15_IEC61968_Common_UserAttribute_UserAttribute : name := Eval vm_compute in u "CIM15.IEC61968.Common.UserAttribute.UserAttribute".
Definition n_CIM15_IEC61968_Customers_CustomerAccount_CustomerAccount : name := Eval vm_compute in u "CIM15.IEC61968.Customers.CustomerAccount.CustomerAccount".
Definition n_CIM15_IEC61968_Customers_CustomerAgreement_CustomerAgreement : name := Eval vm_compute in u "CIM15.IEC61968.Customers.CustomerAgreement.CustomerAgreement".
Definition n_CIM15_IEC61968_Customers_Customer_Customer : name := Eval vm_compute in u "CIM15.IEC61968.Customers.Customer.Customer".
Definition n_CIM15_IEC61968_Customers_PricingStructure_PricingStructure : name := Eval vm_compute in u "CIM15.IEC61968.Customers.PricingStructure.PricingStructure".
Definition n_CIM15_IEC61968_Customers_ServiceCategory_ServiceCategory : name := Eval vm_compute in u "CIM15.IEC61968.Customers.ServiceCategory.ServiceCategory".
Definition n_CIM15_IEC61968_Customers_ServiceLocation_ServiceLocation : name := Eval vm_compute in u "CIM15.IEC61968.Customers.ServiceLocation.ServiceLocation".
Definition n_CIM15_IEC61968_Customers_Tariff_Tariff : name := Eval vm_compute in u "CIM15.IEC61968.Customers.Tariff.Tariff".
Definition n_CIM15_IEC61968_IEC61968CIMVersion_IEC61968CIMVersion : name := Eval vm_compute in u "CIM15.IEC61968.IEC61968CIMVersion.IEC61968CIMVersion".
Definition n_CIM15_IEC61968_LoadControl_ConnectDisconnectFunction_ConnectDisconnectFunction : name := Eval vm_compute in u "CIM15.IEC61968.LoadControl.ConnectDisconnectFunction.ConnectDisconnectFunction".
Definition n_CIM15_IEC61968_LoadControl_RemoteConnectDisconnectInfo_RemoteConnectDisconnectInfo : name := Eval vm_compute in u "CIM15.IEC61968.LoadControl.RemoteConnectDisconnectInfo.RemoteConnectDisconnectInfo".
Definition n_CIM15_IEC61968_Metering_ComFunction_ComFunction : name := Eval vm_compute in u "CIM15.IEC61968.Metering.ComFunction.ComFunction".
Definition n_CIM15_IEC61968_Metering_DemandResponseProgram_DemandResponseProgram : name := Eval vm_compute in u "CIM15.IEC61968.Metering.DemandResponseProgram.DemandResponseProgram".
Definition n_CIM15_IEC61968_Metering_DynamicDemand_DynamicDemand : name := Eval vm_compute in u "CIM15.IEC61968.Metering.DynamicDemand.DynamicDemand".
Definition n_CIM15_IEC61968_Metering_ElectricMeteringFunction_ElectricMeteringFunction : name := Eval vm_compute in u "CIM15.IEC61968.Metering.ElectricMeteringFunction.ElectricMeteringFunction".
Definition n_CIM15_IEC61968_Metering_EndDeviceControl_EndDeviceControl : name := Eval vm_compute in u "CIM15.IEC61968.Metering.EndDeviceControl.EndDeviceControl".
Definition n_CIM15_IEC61968_Metering_EndDeviceEvent_EndDeviceEvent : name := Eval vm_compute in u "CIM15.IEC61968.Metering.EndDeviceEvent.EndDeviceEvent".
Definition n_CIM15_IEC61968_Metering_EndDeviceFunction_EndDeviceFunction : name := Eval vm_compute in u "CIM15.IEC61968.Metering.EndDeviceFunction.EndDeviceFunction".
Definition n_CIM15_IEC61968_Metering_EndDeviceGroup_EndDeviceGroup : name := Eval vm_compute in u "CIM15.IEC61968.Metering.EndDeviceGroup.EndDeviceGroup".
Definition n_CIM15_IEC61968_Metering_EndDevice_EndDevice : name := Eval vm_compute in u "CIM15.IEC61968.Metering.EndDevice.EndDevice".
Definition n_CIM15_IEC61968_Metering_IntervalBlock_IntervalBlock : name := Eval vm_compute in u "CIM15.IEC61968.Metering.IntervalBlock.IntervalBlock".
Definition n_CIM15_IEC61968_Metering_IntervalReading_IntervalReading : name := Eval vm_compute in u "CIM15.IEC61968.Metering.IntervalReading.IntervalReading".
Definition n_CIM15_IEC61968_Metering_MeterReading_MeterReading : name := Eval vm_compute in u "CIM15.IEC61968.Metering.MeterReading.MeterReading".
Definition n_CIM15_IEC61968_Metering_MeterServiceWork_MeterServiceWork : name := Eval vm_compute in u "CIM15.IEC61968.Metering.MeterServiceWork.MeterServiceWork".
Definition n_CIM15_IEC61968_Metering_Meter_Meter : name := Eval vm_compute in u "CIM15.IEC61968.Metering.Meter.Meter".
Definition n_CIM15_IEC61968_Metering_PendingCalculation_PendingCalculation : name := Eval vm_compute in u "CIM15.IEC61968.Metering.PendingCalculation.PendingCalculation".
Definition n_CIM15_IEC61968_Metering_ReadingMultiplier_ReadingMultiplier : name := Eval vm_compute in u "CIM15.IEC61968.Metering.ReadingMultiplier.ReadingMultiplier".
Definition n_CIM15_IEC61968_Metering_ReadingQuality_ReadingQuality : name := Eval vm_compute in u "CIM15.IEC61968.Metering.ReadingQuality.ReadingQuality".
Definition n_CIM15_IEC61968_Metering_ReadingType_ReadingType : name := Eval vm_compute in u "CIM15.IEC61968.Metering.ReadingType.ReadingType".
Definition n_CIM15_IEC61968_Metering_Reading_Reading : name := Eval vm_compute in u "CIM15.IEC61968.Metering.Reading.Reading".
Definition n_CIM15_IEC61968_Metering_Register_Register : name := Eval vm_compute in u "CIM15.IEC61968.Metering.Register.Register".
Definition n_CIM15_IEC61968_Metering_SDPLocation_SDPLocation : name := Eval vm_compute in u "CIM15.IEC61968.Metering.SDPLocation.SDPLocation".
Definition n_CIM15_IEC61968_Metering_ServiceDeliveryPoint_ServiceDeliveryPoint : name := Eval vm_compute in u "CIM15.IEC61968.Metering.ServiceDeliveryPoint.ServiceDeliveryPoint".
Definition n_CIM15_IEC61968_Metering_SimpleEndDeviceFunction_SimpleEndDeviceFunction : name := Eval vm_compute in u "CIM15.IEC61968.Metering.SimpleEndDeviceFunction.SimpleEndDeviceFunction".
Definition n_CIM15_IEC61968_PaymentMetering_AccountMovement_AccountMovement : name := Eval vm_compute in u "CIM15.IEC61968.PaymentMetering.AccountMovement.AccountMovement".
Definition n_CIM15_IEC61968_PaymentMetering_AccountingUnit_AccountingUnit : name := Eval vm_compute in u "CIM15.IEC61968.PaymentMetering.AccountingUnit.AccountingUnit".
Definition n_CIM15_IEC61968_PaymentMetering_AuxiliaryAccount_AuxiliaryAccount : name := Eval vm_compute in u "CIM15.IEC61968.PaymentMetering.AuxiliaryAccount.AuxiliaryAccount".
Definition n_CIM15_IEC61968_PaymentMetering_AuxiliaryAgreement_AuxiliaryAgreement : name := Eval vm_compute in u "CIM15.IEC61968.PaymentMetering.AuxiliaryAgreement.AuxiliaryAgreement".
Definition n_CIM15_IEC61968_PaymentMetering_BankAccountDetail_BankAccountDetail : name := Eval vm_compute in u "CIM15.IEC61968.PaymentMetering.BankAccountDetail.BankAccountDetail".
Definition n_CIM15_IEC61968_PaymentMetering_Card_Card : name := Eval vm_compute in u "CIM15.IEC61968.PaymentMetering.Card.Card".
Definition n_CIM15_IEC61968_PaymentMetering_CashierShift_CashierShift : name := Eval vm_compute in u "CIM15.IEC61968.PaymentMetering.CashierShift.CashierShift".
Definition n_CIM15_IEC61968_PaymentMetering_Cashier_Cashier : name := Eval vm_compute in u "CIM15.IEC61968.PaymentMetering.Cashier.Cashier".
Definition n_CIM15_IEC61968_PaymentMetering_Charge_Charge : name := Eval vm_compute in u "CIM15.IEC61968.PaymentMetering.Charge.Charge".
Definition n_CIM15_IEC61968_PaymentMetering_Cheque_Cheque : name := Eval vm_compute in u "CIM15.IEC61968.PaymentMetering.Cheque.Cheque".
Definition n_CIM15_IEC61968_PaymentMetering_ConsumptionTariffInterval_ConsumptionTariffInterval : name := Eval vm_compute in u "CIM15.IEC61968.PaymentMetering.ConsumptionTariffInterval.ConsumptionTariffInterval".
Definition n_CIM15_IEC61968_PaymentMetering_Due_Due : name := Eval vm_compute in u "CIM15.IEC61968.PaymentMetering.Due.Due".
Definition n_CIM15_IEC61968_PaymentMetering_LineDetail_LineDetail : name := Eval vm_compute in u "CIM15.IEC61968.PaymentMetering.LineDetail.LineDetail".
Definition n_CIM15_IEC61968_PaymentMetering_MerchantAccount_MerchantAccount : name := Eval vm_compute in u "CIM15.IEC61968.PaymentMetering.MerchantAccount.MerchantAccount".
Definition n_CIM15_IEC61968_PaymentMetering_MerchantAgreement_MerchantAgreement : name := Eval vm_compute in u "CIM15.IEC61968.PaymentMetering.MerchantAgreement.MerchantAgreement".
Definition n_CIM15_IEC61968_PaymentMetering_PointOfSale_PointOfSale : name := Eval vm_compute in u "CIM15.IEC61968.PaymentMetering.PointOfSale.PointOfSale".
Definition n_CIM15_IEC61968_PaymentMetering_Receipt_Receipt : name := Eval vm_compute in u "CIM15.IEC61968.PaymentMetering.Receipt.Receipt".
Definition n_CIM15_IEC61968_PaymentMetering_ServiceSupplier_ServiceSupplier : name := Eval vm_compute in u "CIM15.IEC61968.PaymentMetering.ServiceSupplier.ServiceSupplier".
Definition n_CIM15_IEC61968_PaymentMetering_Shift_Shift : name := Eval vm_compute in u "CIM15.IEC61968.PaymentMetering.Shift.Shift".
Definition n_CIM15_IEC61968_PaymentMetering_TariffProfile_TariffProfile : name := Eval vm_compute in u "CIM15.IEC61968.PaymentMetering.TariffProfile.TariffProfile".
Definition n_CIM15_IEC61968_PaymentMetering_Tender_Tender : name := Eval vm_compute in u "CIM15.IEC61968.PaymentMetering.Tender.Tender".
Definition n_CIM15_IEC61968_PaymentMetering_TimeTariffInterval_TimeTariffInterval : name := Eval vm_compute in u "CIM15.IEC61968.PaymentMetering.TimeTariffInterval.TimeTariffInterval".
Definition n_CIM15_IEC61968_PaymentMetering_Transaction_Transaction : name := Eval vm_compute in u "CIM15.IEC61968.PaymentMetering.Transaction.Transaction".
Definition n_CIM15_IEC61968_PaymentMetering_Transactor_Transactor : name := Eval vm_compute in u "CIM15.IEC61968.PaymentMetering.Transactor.Transactor".
Definition n_CIM15_IEC61968_PaymentMetering_VendorShift_VendorShift : name := Eval vm_compute in u "CIM15.IEC61968.PaymentMetering.VendorShift.VendorShift".
Definition n_CIM15_IEC61968_PaymentMetering_Vendor_Vendor : name := Eval vm_compute in u "CIM15.IEC61968.PaymentMetering.Vendor.Vendor".
Definition n_CIM15_IEC61968_Work_Work_Work : name := Eval vm_compute in u "CIM15.IEC61968.Work.Work.Work".
Definition n_CIM15_IEC61970_AuxiliaryEquipment_AuxiliaryEquipment_AuxiliaryEquipment : name := Eval vm_compute in u "CIM15.IEC61970.AuxiliaryEquipment.AuxiliaryEquipment.AuxiliaryEquipment".
Definition n_CIM15_IEC61970_AuxiliaryEquipment_CurrentTransformer_CurrentTransformer : name := Eval vm_compute in u "CIM15.IEC61970.AuxiliaryEquipment.CurrentTransformer.CurrentTransformer".
Definition n_CIM15_IEC61970_AuxiliaryEquipment_FaultIndicator_FaultIndicator : name := Eval vm_compute in u "CIM15.IEC61970.AuxiliaryEquipment.FaultIndicator.FaultIndicator".
Definition n_CIM15_IEC61970_AuxiliaryEquipment_PotentialTransformer_PotentialTransformer : name := Eval vm_compute in u "CIM15.IEC61970.AuxiliaryEquipment.PotentialTransformer.PotentialTransformer".
Definition n_CIM15_IEC61970_AuxiliaryEquipment_Sensor_Sensor : name := Eval vm_compute in u "CIM15.IEC61970.AuxiliaryEquipment.Sensor.Sensor".
Definition n_CIM15_IEC61970_AuxiliaryEquipment_SurgeProtector_SurgeProtector : name := Eval vm_compute in u "CIM15.IEC61970.AuxiliaryEquipment.SurgeProtector.SurgeProtector".
Definition n_CIM15_IEC61970_Contingency_ContingencyElement_ContingencyElement : name := Eval vm_compute in u "CIM15.IEC61970.Contingency.ContingencyElement.ContingencyElement".
Definition n_CIM15_IEC61970_Contingency_ContingencyEquipment_ContingencyEquipment : name := Eval vm_compute in u "CIM15.IEC61970.Contingency.ContingencyEquipment.ContingencyEquipment".
Definition n_CIM15_IEC61970_Contingency_Contingency_Contingency : name := Eval vm_compute in u "CIM15.IEC61970.Contingency.Contingency.Contingency".
Definition n_CIM15_IEC61970_ControlArea_AltGeneratingUnitMeas_AltGeneratingUnitMeas : name := Eval vm_compute in u "CIM15.IEC61970.ControlArea.AltGeneratingUnitMeas.AltGeneratingUnitMeas".
Definition n_CIM15_IEC61970_ControlArea_AltTieMeas_AltTieMeas : name := Eval vm_compute in u "CIM15.IEC61970.ControlArea.AltTieMeas.AltTieMeas".
Definition n_CIM15_IEC61970_ControlArea_ControlAreaGeneratingUnit_ControlAreaGeneratingUnit : name := Eval vm_compute in u "CIM15.IEC61970.ControlArea.ControlAreaGeneratingUnit.ControlAreaGeneratingUnit".
Definition n_CIM15_IEC61970_ControlArea_ControlArea_ControlArea : name := Eval vm_compute in u "CIM15.IEC61970.ControlArea.ControlArea.ControlArea".
Definition n_CIM15_IEC61970_ControlArea_TieFlow_TieFlow : name := Eval vm_compute in u "CIM15.IEC61970.ControlArea.TieFlow.TieFlow".
Definition n_CIM15_IEC61970_Core_BasePower_BasePower : name := Eval vm_compute in u "CIM15.IEC61970.Core.BasePower.BasePower".
Definition n_CIM15_IEC61970_Core_BaseVoltage_BaseVoltage : name := Eval vm_compute in u "CIM15.IEC61970.Core.BaseVoltage.BaseVoltage".
Definition n_CIM15_IEC61970_Core_BasicIntervalSchedule_BasicIntervalSchedule : name := Eval vm_compute in u "CIM15.IEC61970.Core.BasicIntervalSchedule.BasicIntervalSchedule".
Definition n_CIM15_IEC61970_Core_Bay_Bay : name := Eval vm_compute in u "CIM15.IEC61970.Core.Bay.Bay".
Definition n_CIM15_IEC61970_Core_ConductingEquipment_ConductingEquipment : name := Eval vm_compute in u "CIM15.IEC61970.Core.ConductingEquipment.ConductingEquipment".
Definition n_CIM15_IEC61970_Core_ConnectivityNodeContainer_ConnectivityNodeContainer : name := Eval vm_compute in u "CIM15.IEC61970.Core.ConnectivityNodeContainer.ConnectivityNodeContainer".
Definition n_CIM15_IEC61970_Core_ConnectivityNode_ConnectivityNode : name := Eval vm_compute in u "CIM15.IEC61970.Core.ConnectivityNode.ConnectivityNode".
Definition n_CIM15_IEC61970_Core_CurveData_CurveData : name := Eval vm_compute in u "CIM15.IEC61970.Core.CurveData.CurveData".
Definition n_CIM15_IEC61970_Core_Curve_Curve : name := Eval vm_compute in u "CIM15.IEC61970.Core.Curve.Curve".
Definition n_CIM15_IEC61970_Core_EquipmentContainer_EquipmentContainer : name := Eval vm_compute in u "CIM15.IEC61970.Core.EquipmentContainer.EquipmentContainer".
Definition n_CIM15_IEC61970_Core_Equipment_Equipment : name := Eval vm_compute in u "CIM15.IEC61970.Core.Equipment.Equipment".
Definition n_CIM15_IEC61970_Core_GeographicalRegion_GeographicalRegion : name := Eval vm_compute in u "CIM15.IEC61970.Core.GeographicalRegion.GeographicalRegion".
Definition n_CIM15_IEC61970_Core_IdentifiedObject_IdentifiedObject : name := Eval vm_compute in u "CIM15.IEC61970.Core.IdentifiedObject.IdentifiedObject".
Definition n_CIM15_IEC61970_Core_IrregularIntervalSchedule_IrregularIntervalSchedule : name := Eval vm_compute in u "CIM15.IEC61970.Core.IrregularIntervalSchedule.IrregularIntervalSchedule".
Definition n_CIM15_IEC61970_Core_IrregularTimePoint_IrregularTimePoint : name := Eval vm_compute in u "CIM15.IEC61970.Core.IrregularTimePoint.IrregularTimePoint".
Definition n_CIM15_IEC61970_Core_NameTypeAuthority_NameTypeAuthority : name := Eval vm_compute in u "CIM15.IEC61970.Core.NameTypeAuthority.NameTypeAuthority".
Definition n_CIM15_IEC61970_Core_NameType_NameType : name := Eval vm_compute in u "CIM15.IEC61970.Core.NameType.NameType".
Definition n_CIM15_IEC61970_Core_Name_Name : name := Eval vm_compute in u "CIM15.IEC61970.Core.Name.Name".
Definition n_CIM15_IEC61970_Core_OperatingParticipant_OperatingParticipant : name := Eval vm_compute in u "CIM15.IEC61970.Core.OperatingParticipant.OperatingParticipant".
Definition n_CIM15_IEC61970_Core_OperatingShare_OperatingShare : name := Eval vm_compute in u "CIM15.IEC61970.Core.OperatingShare.OperatingShare".
Definition n_CIM15_IEC61970_Core_PSRType_PSRType : name := Eval vm_compute in u "CIM15.IEC61970.Core.PSRType.PSRType".
Definition n_CIM15_IEC61970_Core_PowerSystemResource_PowerSystemResource : name := Eval vm_compute in u "CIM15.IEC61970.Core.PowerSystemResource.PowerSystemResource".
Definition n_CIM15_IEC61970_Core_PsrList_PsrList : name := Eval vm_compute in u "CIM15.IEC61970.Core.PsrList.PsrList".
Definition n_CIM15_IEC61970_Core_RegularIntervalSchedule_RegularIntervalSchedule : name := Eval vm_compute in u "CIM15.IEC61970.Core.RegularIntervalSchedule.RegularIntervalSchedule".
Definition n_CIM15_IEC61970_Core_RegularTimePoint_RegularTimePoint : name := Eval vm_compute in u "CIM15.IEC61970.Core.RegularTimePoint.RegularTimePoint".
Definition n_CIM15_IEC61970_Core_ReportingGroup_ReportingGroup : name := Eval vm_compute in u "CIM15.IEC61970.Core.ReportingGroup.ReportingGroup".
Definition n_CIM15_IEC61970_Core_ReportingSuperGroup_ReportingSuperGroup : name := Eval vm_compute in u "CIM15.IEC61970.Core.ReportingSuperGroup.ReportingSuperGroup".
Definition n_CIM15_IEC61970_Core_SubGeographicalRegion_SubGeographicalRegion : name := Eval vm_compute in u "CIM15.IEC61970.Core.SubGeographicalRegion.SubGeographicalRegion".
Definition n_CIM15_IEC61970_Core_Substation_Substation : name := Eval vm_compute in u "CIM15.IEC61970.Core.Substation.Substation".
Definition n_CIM15_IEC61970_Core_Terminal_Terminal : name := Eval vm_compute in u "CIM15.IEC61970.Core.Terminal.Terminal".
Definition n_CIM15_IEC61970_Core_VoltageLevel_VoltageLevel : name := Eval vm_compute in u "CIM15.IEC61970.Core.VoltageLevel.VoltageLevel".
Definition n_CIM15_IEC61970_CutsJumpers_Clamp_Clamp : name := Eval vm_compute in u "CIM15.IEC61970.CutsJumpers.Clamp.Clamp".
Definition n_CIM15_IEC61970_CutsJumpers_Cut_Cut : name := Eval vm_compute in u "CIM15.IEC61970.CutsJumpers.Cut.Cut".
Definition n_CIM15_IEC61970_Domain_DateTimeInterval_DateTimeInterval : name := Eval vm_compute in u "CIM15.IEC61970.Domain.DateTimeInterval.DateTimeInterval".
Definition n_CIM15_IEC61970_Equivalents_EquivalentBranch_EquivalentBranch : name := Eval vm_compute in u "CIM15.IEC61970.Equivalents.EquivalentBranch.EquivalentBranch".
Definition n_CIM15_IEC61970_Equivalents_EquivalentEquipment_EquivalentEquipment : name := Eval vm_compute in u "CIM15.IEC61970.Equivalents.EquivalentEquipment.EquivalentEquipment".
Definition n_CIM15_IEC61970_Equivalents_EquivalentInjection_EquivalentInjection : name := Eval vm_compute in u "CIM15.IEC61970.Equivalents.EquivalentInjection.EquivalentInjection".
Definition n_CIM15_IEC61970_Equivalents_EquivalentNetwork_EquivalentNetwork : name := Eval vm_compute in u "CIM15.IEC61970.Equivalents.EquivalentNetwork.EquivalentNetwork".
Definition n_CIM15_IEC61970_Equivalents_EquivalentShunt_EquivalentShunt : name := Eval vm_compute in u "CIM15.IEC61970.Equivalents.EquivalentShunt.EquivalentShunt".
Definition n_CIM15_IEC61970_Generation_GenerationDynamics_BWRSteamSupply_BWRSteamSupply : name := Eval vm_compute in u "CIM15.IEC61970.Generation.GenerationDynamics.BWRSteamSupply.BWRSteamSupply".
Definition n_CIM15_IEC61970_Generation_GenerationDynamics_CTTempActivePowerCurve_CTTempActivePowerCurve : name := Eval vm_compute in u "CIM15.IEC61970.Generation.GenerationDynamics.CTTempActivePowerCurve.CTTempActivePowerCurve".
Definition n_CIM15_IEC61970_Generation_GenerationDynamics_CombustionTurbine_CombustionTurbine : name := Eval vm_compute in u "CIM15.IEC61970.Generation.GenerationDynamics.CombustionTurbine.CombustionTurbine".
Definition n_CIM15_IEC61970_Generation_GenerationDynamics_DrumBoiler_DrumBoiler : name := Eval vm_compute in u "CIM15.IEC61970.Generation.GenerationDynamics.DrumBoiler.DrumBoiler".
Definition n_CIM15_IEC61970_Generation_GenerationDynamics_FossilSteamSupply_FossilSteamSupply : name := Eval vm_compute in u "CIM15.IEC61970.Generation.GenerationDynamics.FossilSteamSupply.FossilSteamSupply".
Definition n_CIM15_IEC61970_Generation_GenerationDynamics_HeatRecoveryBoiler_HeatRecoveryBoiler : name := Eval vm_compute in u "CIM15.IEC61970.Generation.GenerationDynamics.HeatRecoveryBoiler.HeatRecoveryBoiler".
Definition n_CIM15_IEC61970_Generation_GenerationDynamics_HydroTurbine_HydroTurbine : name := Eval vm_compute in u "CIM15.IEC61970.Generation.GenerationDynamics.HydroTurbine.HydroTurbine".
Definition n_CIM15_IEC61970_Generation_GenerationDynamics_PWRSteamSupply_PWRSteamSupply : name := Eval vm_compute in u "CIM15.IEC61970.Generation.GenerationDynamics.PWRSteamSupply.PWRSteamSupply".
Definition n_CIM15_IEC61970_Generation_GenerationDynamics_PrimeMover_PrimeMover : name := Eval vm_compute in u "CIM15.IEC61970.Generation.GenerationDynamics.PrimeMover.PrimeMover".
Definition n_CIM15_IEC61970_Generation_GenerationDynamics_SteamSupply_SteamSupply : name := Eval vm_compute in u "CIM15.IEC61970.Generation.GenerationDynamics.SteamSupply.SteamSupply".
Definition n_CIM15_IEC61970_Generation_GenerationDynamics_SteamTurbine_SteamTurbine : name := Eval vm_compute in u "CIM15.IEC61970.Generation.GenerationDynamics.SteamTurbine.SteamTurbine".
Definition n_CIM15_IEC61970_Generation_GenerationDynamics_Subcritical_Subcritical : name := Eval vm_compute in u "CIM15.IEC61970.Generation.GenerationDynamics.Subcritical.Subcritical".
Definition n_CIM15_IEC61970_Generation_GenerationDynamics_Supercritical_Supercritical : name := Eval vm_compute in u "CIM15.IEC61970.Generation.GenerationDynamics.Supercritical.Supercritical".
Definition n_CIM15_IEC61970_Generation_Production_AirCompressor_AirCompressor : name := Eval vm_compute in u "CIM15.IEC61970.Generation.Production.AirCompressor.AirCompressor".
Definition n_CIM15_IEC61970_Generation_Production_CAESPlant_CAESPlant : name := Eval vm_compute in u "CIM15.IEC61970.Generation.Production.CAESPlant.CAESPlant".
Definition n_CIM15_IEC61970_Generation_Production_CogenerationPlant_CogenerationPlant : name := Eval vm_compute in u "CIM15.IEC61970.Generation.Production.CogenerationPlant.CogenerationPlant".
Definition n_CIM15_IEC61970_Generation_Production_CombinedCyclePlant_CombinedCyclePlant : name := Eval vm_compute in u "CIM15.IEC61970.Generation.Production.CombinedCyclePlant.CombinedCyclePlant".
Definition n_CIM15_IEC61970_Generation_Production_EmissionAccount_EmissionAccount : name := Eval vm_compute in u "CIM15.IEC61970.Generation.Production.EmissionAccount.EmissionAccount".
Definition n_CIM15_IEC61970_Generation_Production_EmissionCurve_EmissionCurve : name := Eval vm_compute in u "CIM15.IEC61970.Generation.Production.EmissionCurve.EmissionCurve".
Definition n_CIM15_IEC61970_Generation_Production_FossilFuel_FossilFuel : name := Eval vm_compute in u "CIM15.IEC61970.Generation.Production.FossilFuel.FossilFuel".
Definition n_CIM15_IEC61970_Generation_Production_FuelAllocationSchedule_FuelAllocationSchedule : name := Eval vm_compute in u "CIM15.IEC61970.Generation.Production.FuelAllocationSchedule.FuelAllocationSchedule".
Definition n_CIM15_IEC61970_Generation_Production_GenUnitOpCostCurve_GenUnitOpCostCurve : name := Eval vm_compute in u "CIM15.IEC61970.Generation.Production.GenUnitOpCostCurve.GenUnitOpCostCurve".
Definition n_CIM15_IEC61970_Generation_Production_GenUnitOpSchedule_GenUnitOpSchedule : name := Eval vm_compute in u "CIM15.IEC61970.Generation.Production.GenUnitOpSchedule.GenUnitOpSchedule".
Definition n_CIM15_IEC61970_Generation_Production_GeneratingUnit_GeneratingUnit : name := Eval vm_compute in u "CIM15.IEC61970.Generation.Production.GeneratingUnit.GeneratingUnit".
Definition n_CIM15_IEC61970_Generation_Production_GrossToNetActivePowerCurve_GrossToNetActivePowerCurve : name := Eval vm_compute in u "CIM15.IEC61970.Generation.Production.GrossToNetActivePowerCurve.GrossToNetActivePowerCurve".
Definition n_CIM15_IEC61970_Generation_Production_HeatInputCurve_HeatInputCurve : name := Eval vm_compute in u "CIM15.IEC61970.Generation.Production.HeatInputCurve.HeatInputCurve".
Definition n_CIM15_IEC61970_Generation_Production_HeatRateCurve_HeatRateCurve : name := Eval vm_compute in u "CIM15.IEC61970.Generation.Production.HeatRateCurve.HeatRateCurve".
Definition n_CIM15_IEC61970_Generation_Production_HydroGeneratingEfficiencyCurve_HydroGeneratingEfficiencyCurve : name := Eval vm_compute in u "CIM15.IEC61970.Generation.Production.HydroGeneratingEfficiencyCurve.HydroGeneratingEfficiencyCurve".
Definition n_CIM15_IEC61970_Generation_Production_HydroGeneratingUnit_HydroGeneratingUnit : name := Eval vm_compute in u "CIM15.IEC61970.Generation.Production.HydroGeneratingUnit.HydroGeneratingUnit".
Definition n_CIM15_IEC61970_Generation_Production_HydroPowerPlant_HydroPowerPlant : name := Eval vm_compute in u "CIM15.IEC61970.Generation.Production.HydroPowerPlant.HydroPowerPlant".
Definition n_CIM15_IEC61970_Generation_Production_HydroPumpOpSchedule_HydroPumpOpSchedule : name := Eval vm_compute in u "CIM15.IEC61970.Generation.Production.HydroPumpOpSchedule.HydroPumpOpSchedule".
Definition n_CIM15_IEC61970_Generation_Production_HydroPump_HydroPump : name := Eval vm_compute in u "CIM15.IEC61970.Generation.Production.HydroPump.HydroPump".
Definition n_CIM15_IEC61970_Generation_Production_IncrementalHeatRateCurve_IncrementalHeatRateCurve : name := Eval vm_compute in u "CIM15.IEC61970.Generation.Production.IncrementalHeatRateCurve.IncrementalHeatRateCurve".
Definition n_CIM15_IEC61970_Generation_Production_InflowForecast_InflowForecast : name := Eval vm_compute in u "CIM15.IEC61970.Generation.Production.InflowForecast.InflowForecast".
Definition n_CIM15_IEC61970_Generation_Production_LevelVsVolumeCurve_LevelVsVolumeCurve : name := Eval vm_compute in u "CIM15.IEC61970.Generation.Production.LevelVsVolumeCurve.LevelVsVolumeCurve".
Definition n_CIM15_IEC61970_Generation_Production_NuclearGeneratingUnit_NuclearGeneratingUnit : name := Eval vm_compute in u "CIM15.IEC61970.Generation.Production.NuclearGeneratingUnit.NuclearGeneratingUnit".
Definition n_CIM15_IEC61970_Generation_Production_PenstockLossCurve_PenstockLossCurve : name := Eval vm_compute in u "CIM15.IEC61970.Generation.Production.PenstockLossCurve.PenstockLossCurve".
Definition n_CIM15_IEC61970_Generation_Production_Reservoir_Reservoir : name := Eval vm_compute in u "CIM15.IEC61970.Generation.Production.Reservoir.Reservoir".
Definition n_CIM15_IEC61970_Generation_Production_ShutdownCurve_ShutdownCurve : name := Eval vm_compute in u "CIM15.IEC61970.Generation.Production.ShutdownCurve.ShutdownCurve".
Definition n_CIM15_IEC61970_Generation_Production_StartIgnFuelCurve_StartIgnFuelCurve : name := Eval vm_compute in u "CIM15.IEC61970.Generation.Production.StartIgnFuelCurve.StartIgnFuelCurve".
Definition n_CIM15_IEC61970_Generation_Production_StartMainFuelCurve_StartMainFuelCurve : name := Eval vm_compute in u "CIM15.IEC61970.Generation.Production.StartMainFuelCurve.StartMainFuelCurve".
Definition n_CIM15_IEC61970_Generation_Production_StartRampCurve_StartRampCurve : name := Eval vm_compute in u "CIM15.IEC61970.Generation.Production.StartRampCurve.StartRampCurve".
Definition n_CIM15_IEC61970_Generation_Production_StartupModel_StartupModel : name := Eval vm_compute in u "CIM15.IEC61970.Generation.Production.StartupModel.StartupModel".
Definition n_CIM15_IEC61970_Generation_Production_SteamSendoutSchedule_SteamSendoutSchedule : name := Eval vm_compute in u "CIM15.IEC61970.Generation.Production.SteamSendoutSchedule.SteamSendoutSchedule".
Definition n_CIM15_IEC61970_Generation_Production_TailbayLossCurve_TailbayLossCurve : name := Eval vm_compute in u "CIM15.IEC61970.Generation.Production.TailbayLossCurve.TailbayLossCurve".
Definition n_CIM15_IEC61970_Generation_Production_TargetLevelSchedule_TargetLevelSchedule : name := Eval vm_compute in u "CIM15.IEC61970.Generation.Production.TargetLevelSchedule.TargetLevelSchedule".
Definition n_CIM15_IEC61970_Generation_Production_ThermalGeneratingUnit_ThermalGeneratingUnit : name := Eval vm_compute in u "CIM15.IEC61970.Generation.Production.ThermalGeneratingUnit.ThermalGeneratingUnit".
Definition n_CIM15_IEC61970_Generation_Production_WindGeneratingUnit_WindGeneratingUnit : name := Eval vm_compute in u "CIM15.IEC61970.Generation.Production.WindGeneratingUnit.WindGeneratingUnit".
Definition n_CIM15_IEC61970_Graphics_DiagramObjectGluePoint_DiagramObjectGluePoint : name := Eval vm_compute in u "CIM15.IEC61970.Graphics.DiagramObjectGluePoint.DiagramObjectGluePoint".
Definition n_CIM15_IEC61970_Graphics_DiagramObjectPoint_DiagramObjectPoint : name := Eval vm_compute in u "CIM15.IEC61970.Graphics.DiagramObjectPoint.DiagramObjectPoint".
Definition n_CIM15_IEC61970_Graphics_DiagramObjectStyle_DiagramObjectStyle : name := Eval vm_compute in u "CIM15.IEC61970.Graphics.DiagramObjectStyle.DiagramObjectStyle".
Definition n_CIM15_IEC61970_Graphics_DiagramObject_DiagramObject : name := Eval vm_compute in u "CIM15.IEC61970.Graphics.DiagramObject.DiagramObject".
Definition n_CIM15_IEC61970_Graphics_TextDiagramObject_TextDiagramObject : name := Eval vm_compute in u "CIM15.IEC61970.Graphics.TextDiagramObject.TextDiagramObject".
Definition n_CIM15_IEC61970_Graphics_VisibilityLayer_VisibilityLayer : name := Eval vm_compute in u "CIM15.IEC61970.Graphics.VisibilityLayer.VisibilityLayer".
Definition n_CIM15_IEC61970_IEC61970CIMVersion_IEC61970CIMVersion : name := Eval vm_compute in u "CIM15.IEC61970.IEC61970CIMVersion.IEC61970CIMVersion".
Definition n_CIM15_IEC61970_Informative_InfAssetModels_AssetModelCatalogueItem_AssetModelCatalogueItem : name := Eval vm_compute in u "CIM15.IEC61970.Informative.InfAssetModels.AssetModelCatalogueItem.AssetModelCatalogueItem".
Definition n_CIM15_IEC61970_Informative_InfAssetModels_AssetModelCatalogue_AssetModelCatalogue : name := Eval vm_compute in u "CIM15.IEC61970.Informative.InfAssetModels.AssetModelCatalogue.AssetModelCatalogue".
Definition n_CIM15_IEC61970_Informative_InfAssetModels_TransformerAssetModel_TransformerAssetModel : name := Eval vm_compute in u "CIM15.IEC61970.Informative.InfAssetModels.TransformerAssetModel.TransformerAssetModel".
Definition n_CIM15_IEC61970_Informative_InfAssets_AssetAssetRole_AssetAssetRole : name := Eval vm_compute in u "CIM15.IEC61970.Informative.InfAssets.AssetAssetRole.AssetAssetRole".
Definition n_CIM15_IEC61970_Informative_InfAssets_AssetPropertyCurve_AssetPropertyCurve : name := Eval vm_compute in u "CIM15.IEC61970.Informative.InfAssets.AssetPropertyCurve.AssetPropertyCurve".
Definition n_CIM15_IEC61970_Informative_InfAssets_BreakerInfo_BreakerInfo : name := Eval vm_compute in u "CIM15.IEC61970.Informative.InfAssets.BreakerInfo.BreakerInfo".
Definition n_CIM15_IEC61970_Informative_InfAssets_BushingInsulationPF_BushingInsulationPF : name := Eval vm_compute in u "CIM15.IEC61970.Informative.InfAssets.BushingInsulationPF.BushingInsulationPF".
Definition n_CIM15_IEC61970_Informative_InfAssets_Bushing_Bushing : name := Eval vm_compute in u "CIM15.IEC61970.Informative.InfAssets.Bushing.Bushing".
Definition n_CIM15_IEC61970_Informative_InfAssets_Cabinet_Cabinet : name := Eval vm_compute in u "CIM15.IEC61970.Informative.InfAssets.Cabinet.Cabinet".
Definition n_CIM15_IEC61970_Informative_InfAssets_ComEquipment_ComEquipment : name := Eval vm_compute in u "CIM15.IEC61970.Informative.InfAssets.ComEquipment.ComEquipment".
Definition n_CIM15_IEC61970_Informative_InfAssets_CompositeSwitchInfo_CompositeSwitchInfo : name := Eval vm_compute in u "CIM15.IEC61970.Informative.InfAssets.CompositeSwitchInfo.CompositeSwitchInfo".
Definition n_CIM15_IEC61970_Informative_InfAssets_ConductorAsset_ConductorAsset : name := Eval vm_compute in u "CIM15.IEC61970.Informative.InfAssets.ConductorAsset.ConductorAsset".
Definition n_CIM15_IEC61970_Informative_InfAssets_CurrentTransformerInfo_CurrentTransformerInfo : name := Eval vm_compute in u "CIM15.IEC61970.Informative.InfAssets.CurrentTransformerInfo.CurrentTransformerInfo".
Definition n_CIM15_IEC61970_Informative_InfAssets_DimensionsInfo_DimensionsInfo : name := Eval vm_compute in u "CIM15.IEC61970.Informative.InfAssets.DimensionsInfo.DimensionsInfo".
Definition n_CIM15_IEC61970_Informative_InfAssets_DocAssetRole_DocAssetRole : name := Eval vm_compute in u "CIM15.IEC61970.Informative.InfAssets.DocAssetRole.DocAssetRole".
Definition n_CIM15_IEC61970_Informative_InfAssets_DuctBank_DuctBank : name := Eval vm_compute in u "CIM15.IEC61970.Informative.InfAssets.DuctBank.DuctBank".
Definition n_CIM15_IEC61970_Informative_InfAssets_Duct_Duct : name := Eval vm_compute in u "CIM15.IEC61970.Informative.InfAssets.Duct.Duct".
Definition n_CIM15_IEC61970_Informative_InfAssets_ElectricalInfo_ElectricalInfo : name := Eval vm_compute in u "CIM15.IEC61970.Informative.InfAssets.ElectricalInfo.ElectricalInfo".
Definition n_CIM15_IEC61970_Informative_InfAssets_FACTSDevice_FACTSDevice : name := Eval vm_compute in u "CIM15.IEC61970.Informative.InfAssets.FACTSDevice.FACTSDevice".
Definition n_CIM15_IEC61970_Informative_InfAssets_Facility_Facility : name := Eval vm_compute in u "CIM15.IEC61970.Informative.InfAssets.Facility.Facility".
Definition n_CIM15_IEC61970_Informative_InfAssets_FailureEvent_FailureEvent : name := Eval vm_compute in u "CIM15.IEC61970.Informative.InfAssets.FailureEvent.FailureEvent".
Definition n_CIM15_IEC61970_Informative_InfAssets_FaultIndicatorInfo_FaultIndicatorInfo : name := Eval vm_compute in u "CIM15.IEC61970.Informative.InfAssets.FaultIndicatorInfo.FaultIndicatorInfo".
Definition n_CIM15_IEC61970_Informative_InfAssets_FinancialInfo_FinancialInfo : name := Eval vm_compute in u "CIM15.IEC61970.Informative.InfAssets.FinancialInfo.FinancialInfo".
Definition n_CIM15_IEC61970_Informative_InfAssets_GenericAssetModelOrMaterial_GenericAssetModelOrMaterial : name := Eval vm_compute in u "CIM15.IEC61970.Informative.InfAssets.GenericAssetModelOrMaterial.GenericAssetModelOrMaterial".
Definition n_CIM15_IEC61970_Informative_InfAssets_Joint_Joint : name := Eval vm_compute in u "CIM15.IEC61970.Informative.InfAssets.Joint.Joint".
Definition n_CIM15_IEC61970_Informative_InfAssets_Medium_Medium : name := Eval vm_compute in u "CIM15.IEC61970.Informative.InfAssets.Medium.Medium".
Definition n_CIM15_IEC61970_Informative_InfAssets_MountingConnection_MountingConnection : name := Eval vm_compute in u "CIM15.IEC61970.Informative.InfAssets.MountingConnection.MountingConnection".
Definition n_CIM15_IEC61970_Informative_InfAssets_MountingPoint_MountingPoint : name := Eval vm_compute in u "CIM15.IEC61970.Informative.InfAssets.MountingPoint.MountingPoint".
Definition n_CIM15_IEC61970_Informative_InfAssets_OrgAssetRole_OrgAssetRole : name := Eval vm_compute in u "CIM15.IEC61970.Informative.InfAssets.OrgAssetRole.OrgAssetRole".
Definition n_CIM15_IEC61970_Informative_InfAssets_Pole_Pole : name := Eval vm_compute in u "CIM15.IEC61970.Informative.InfAssets.Pole.Pole".
Definition n_CIM15_IEC61970_Informative_InfAssets_PotentialTransformerInfo_PotentialTransformerInfo : name := Eval vm_compute in u "CIM15.IEC61970.Informative.InfAssets.PotentialTransformerInfo.PotentialTransformerInfo".
Definition n_CIM15_IEC61970_Informative_InfAssets_PowerRating_PowerRating : name := Eval vm_compute in u "CIM15.IEC61970.Informative.InfAssets.PowerRating.PowerRating".
Definition n_CIM15_IEC61970_Informative_InfAssets_ProcedureDataSet_ProcedureDataSet : name := Eval vm_compute in u "CIM15.IEC61970.Informative.InfAssets.ProcedureDataSet.ProcedureDataSet".
Definition n_CIM15_IEC61970_Informative_InfAssets_Procedure_Procedure : name := Eval vm_compute in u "CIM15.IEC61970.Informative.InfAssets.Procedure.Procedure".
Definition n_CIM15_IEC61970_Informative_InfAssets_ProtectionEquipmentInfo_ProtectionEquipmentInfo : name := Eval vm_compute in u "CIM15.IEC61970.Informative.InfAssets.ProtectionEquipmentInfo.ProtectionEquipmentInfo".
Definition n_CIM15_IEC61970_Informative_InfAssets_RecloserInfo_RecloserInfo : name := Eval vm_compute in u "CIM15.IEC61970.Informative.InfAssets.RecloserInfo.RecloserInfo".
Definition n_CIM15_IEC61970_Informative_InfAssets_ReliabilityInfo_ReliabilityInfo : name := Eval vm_compute in u "CIM15.IEC61970.Informative.InfAssets.ReliabilityInfo.ReliabilityInfo".
Definition n_CIM15_IEC61970_Informative_InfAssets_SVC_SVC : name := Eval vm_compute in u "CIM15.IEC61970.Informative.InfAssets.SVC.SVC".
Definition n_CIM15_IEC61970_Informative_InfAssets_ShuntCompensatorInfo_ShuntCompensatorInfo : name := Eval vm_compute in u "CIM15.IEC61970.Informative.InfAssets.ShuntCompensatorInfo.ShuntCompensatorInfo".
Definition n_CIM15_IEC61970_Informative_InfAssets_ShuntImpedanceInfo_ShuntImpedanceInfo : name := Eval vm_compute in u "CIM15.IEC61970.Informative.InfAssets.ShuntImpedanceInfo.ShuntImpedanceInfo".
Definition n_CIM15_IEC61970_Informative_InfAssets_Specification_Specification : name := Eval vm_compute in u "CIM15.IEC61970.Informative.InfAssets.Specification.Specification".
Definition n_CIM15_IEC61970_Informative_InfAssets_Streetlight_Streetlight : name := Eval vm_compute in u "CIM15.IEC61970.Informative.InfAssets.Streetlight.Streetlight".
Definition n_CIM15_IEC61970_Informative_InfAssets_StructureSupport_StructureSupport : name := Eval vm_compute in u "CIM15.IEC61970.Informative.InfAssets.StructureSupport.StructureSupport".
Definition n_CIM15_IEC61970_Informative_InfAssets_Structure_Structure : name := Eval vm_compute in u "CIM15.IEC61970.Informative.InfAssets.Structure.Structure".
Definition n_CIM15_IEC61970_Informative_InfAssets_SubstationAsset_SubstationAsset : name := Eval vm_compute in u "CIM15.IEC61970.Informative.InfAssets.SubstationAsset.SubstationAsset".
Definition n_CIM15_IEC61970_Informative_InfAssets_SurgeProtectorInfo_SurgeProtectorInfo : name := Eval vm_compute in u "CIM15.IEC61970.Informative.InfAssets.SurgeProtectorInfo.SurgeProtectorInfo".
Definition n_CIM15_IEC61970_Informative_InfAssets_SwitchInfo_SwitchInfo : name := Eval vm_compute in u "CIM15.IEC61970.Informative.InfAssets.SwitchInfo.SwitchInfo".
Definition n_CIM15_IEC61970_Informative_InfAssets_TestDataSet_TestDataSet : name := Eval vm_compute in u "CIM15.IEC61970.Informative.InfAssets.TestDataSet.TestDataSet".
Definition n_CIM15_IEC61970_Informative_InfAssets_Tool_Tool : name := Eval vm_compute in u "CIM15.IEC61970.Informative.InfAssets.Tool.Tool".
Definition n_CIM15_IEC61970_Informative_InfAssets_Tower_Tower : name := Eval vm_compute in u "CIM15.IEC61970.Informative.InfAssets.Tower.Tower".
Definition n_CIM15_IEC61970_Informative_InfAssets_TransformerAsset_TransformerAsset : name := Eval vm_compute in u "CIM15.IEC61970.Informative.InfAssets.TransformerAsset.TransformerAsset".
Definition n_CIM15_IEC61970_Informative_InfAssets_TransformerObservation_TransformerObservation : name := Eval vm_compute in u "CIM15.IEC61970.Informative.InfAssets.TransformerObservation.TransformerObservation".
Definition n_CIM15_IEC61970_Informative_InfAssets_UndergroundStructure_UndergroundStructure : name := Eval vm_compute in u "CIM15.IEC61970.Informative.InfAssets.UndergroundStructure.UndergroundStructure".
Definition n_CIM15_IEC61970_Informative_InfAssets_Vehicle_Vehicle : name := Eval vm_compute in u "CIM15.IEC61970.Informative.InfAssets.Vehicle.Vehicle".
Definition n_CIM15_IEC61970_Informative_InfAssets_WindingInsulation_WindingInsulation : name := Eval vm_compute in u "CIM15.IEC61970.Informative.InfAssets.WindingInsulation.WindingInsulation".
Definition n_CIM15_IEC61970_Informative_InfAssets_WorkEquipment_WorkEquipment : name := Eval vm_compute in u "CIM15.IEC61970.Informative.InfAssets.WorkEquipment.WorkEquipment".
Definition n_CIM15_IEC61970_Informative_InfCommon_BankAccount_BankAccount : name := Eval vm_compute in u "CIM15.IEC61970.Informative.InfCommon.BankAccount.BankAccount".
Definition n_CIM15_IEC61970_Informative_InfCommon_Bank_Bank : name := Eval vm_compute in u "CIM15.IEC61970.Informative.InfCommon.Bank.Bank".
Definition n_CIM15_IEC61970_Informative_InfCommon_BusinessPlan_BusinessPlan : name := Eval vm_compute in u "CIM15.IEC61970.Informative.InfCommon.BusinessPlan.BusinessPlan".
Definition n_CIM15_IEC61970_Informative_InfCommon_BusinessRole_BusinessRole : name := Eval vm_compute in u "CIM15.IEC61970.Informative.InfCommon.BusinessRole.BusinessRole".
Definition n_CIM15_IEC61970_Informative_InfCommon_Craft_Craft : name := Eval vm_compute in u "CIM15.IEC61970.Informative.InfCommon.Craft.Craft".
Definition n_CIM15_IEC61970_Informative_InfCommon_DocDocRole_DocDocRole : name := Eval vm_compute in u "CIM15.IEC61970.Informative.InfCommon.DocDocRole.DocDocRole".
Definition n_CIM15_IEC61970_Informative_InfCommon_DocPsrRole_DocPsrRole : name := Eval vm_compute in u "CIM15.IEC61970.Informative.InfCommon.DocPsrRole.DocPsrRole".
Definition n_CIM15_IEC61970_Informative_InfCommon_Ratio_Ratio : name := Eval vm_compute in u "CIM15.IEC61970.Informative.InfCommon.Ratio.Ratio".
Definition n_CIM15_IEC61970_Informative_InfCommon_Role_Role : name := Eval vm_compute in u "CIM15.IEC61970.Informative.InfCommon.Role.Role".
Definition n_CIM15_IEC61970_Informative_InfCommon_ScheduleParameterInfo_ScheduleParameterInfo : name := Eval vm_compute in u "CIM15.IEC61970.Informative.InfCommon.ScheduleParameterInfo.ScheduleParameterInfo".
Definition n_CIM15_IEC61970_Informative_InfCommon_ScheduledEvent_ScheduledEvent : name := Eval vm_compute in u "CIM15.IEC61970.Informative.InfCommon.ScheduledEvent.ScheduledEvent".
Definition n_CIM15_IEC61970_Informative_InfCommon_Skill_Skill : name := Eval vm_compute in u "CIM15.IEC61970.Informative.InfCommon.Skill.Skill".
Definition n_CIM15_IEC61970_Informative_InfCore_ModelingAuthoritySet_ModelingAuthoritySet : name := Eval vm_compute in u "CIM15.IEC61970.Informative.InfCore.ModelingAuthoritySet.ModelingAuthoritySet".
Definition n_CIM15_IEC61970_Informative_InfCore_ModelingAuthority_ModelingAuthority : name := Eval vm_compute in u "CIM15.IEC61970.Informative.InfCore.ModelingAuthority.ModelingAuthority".
Definition n_CIM15_IEC61970_Informative_InfCustomers_ComplianceEvent_ComplianceEvent : name := Eval vm_compute in u "CIM15.IEC61970.Informative.InfCustomers.ComplianceEvent.ComplianceEvent".
Definition n_CIM15_IEC61970_Informative_InfCustomers_CustomerBillingInfo_CustomerBillingInfo : name := Eval vm_compute in u "CIM15.IEC61970.Informative.InfCustomers.CustomerBillingInfo.CustomerBillingInfo".
Definition n_CIM15_IEC61970_Informative_InfCustomers_ExternalCustomerAgreement_ExternalCustomerAgreement : name := Eval vm_compute in u "CIM15.IEC61970.Informative.InfCustomers.ExternalCustomerAgreement.ExternalCustomerAgreement".
Definition n_CIM15_IEC61970_Informative_InfCustomers_OutageHistory_OutageHistory : name := Eval vm_compute in u "CIM15.IEC61970.Informative.InfCustomers.OutageHistory.OutageHistory".
Definition n_CIM15_IEC61970_Informative_InfCustomers_PowerQualityPricing_PowerQualityPricing : name := Eval vm_compute in u "CIM15.IEC61970.Informative.InfCustomers.PowerQualityPricing.PowerQualityPricing".
Definition n_CIM15_IEC61970_Informative_InfCustomers_ServiceGuarantee_ServiceGuarantee : name := Eval vm_compute in u "CIM15.IEC61970.Informative.InfCustomers.ServiceGuarantee.ServiceGuarantee".
Definition n_CIM15_IEC61970_Informative_InfCustomers_StandardIndustryCode_StandardIndustryCode : name := Eval vm_compute in u "CIM15.IEC61970.Informative.InfCustomers.StandardIndustryCode.StandardIndustryCode".
Definition n_CIM15_IEC61970_Informative_InfCustomers_SubscribePowerCurve_SubscribePowerCurve : name := Eval vm_compute in u "CIM15.IEC61970.Informative.InfCustomers.SubscribePowerCurve.SubscribePowerCurve".
Definition n_CIM15_IEC61970_Informative_InfCustomers_WorkBillingInfo_WorkBillingInfo : name := Eval vm_compute in u "CIM15.IEC61970.Informative.InfCustomers.WorkBillingInfo.WorkBillingInfo".
Definition n_CIM15_IEC61970_Informative_InfERPSupport_DocErpPersonRole_DocErpPersonRole : name := Eval vm_compute in u "CIM15.IEC61970.Informative.InfERPSupport.DocErpPersonRole.DocErpPersonRole".
Definition n_CIM15_IEC61970_Informative_InfERPSupport_DocOrgRole_DocOrgRole : name := Eval vm_compute in u "CIM15.IEC61970.Informative.InfERPSupport.DocOrgRole.DocOrgRole".
Definition n_CIM15_IEC61970_Informative_InfERPSupport_ErpBOM_ErpBOM : name := Eval vm_compute in u "CIM15.IEC61970.Informative.InfERPSupport.ErpBOM.ErpBOM".
Definition n_CIM15_IEC61970_Informative_InfERPSupport_ErpBankAccount_ErpBankAccount : name := Eval vm_compute in u "CIM15.IEC61970.Informative.InfERPSupport.ErpBankAccount.ErpBankAccount".
Definition n_CIM15_IEC61970_Informative_InfERPSupport_ErpBomItemData_ErpBomItemData : name := Eval vm_compute in u "CIM15.IEC61970.Informative.InfERPSupport.ErpBomItemData.ErpBomItemData".
Definition n_CIM15_IEC61970_Informative_InfERPSupport_ErpChartOfAccounts_ErpChartOfAccounts : name := Eval vm_compute in u "CIM15.IEC61970.Informative.InfERPSupport.ErpChartOfAccounts.ErpChartOfAccounts".
Definition n_CIM15_IEC61970_Informative_InfERPSupport_ErpCompetency_ErpCompetency : name := Eval vm_compute in u "CIM15.IEC61970.Informative.InfERPSupport.ErpCompetency.ErpCompetency".
Definition n_CIM15_IEC61970_Informative_InfERPSupport_ErpEngChangeOrder_ErpEngChangeOrder : name := Eval vm_compute in u "CIM15.IEC61970.Informative.InfERPSupport.ErpEngChangeOrder.ErpEngChangeOrder".
Definition n_CIM15_IEC61970_Informative_InfERPSupport_ErpInventoryCount_ErpInventoryCount : name := Eval vm_compute in u "CIM15.IEC61970.Informative.InfERPSupport.ErpInventoryCount.ErpInventoryCount".
Definition n_CIM15_IEC61970_Informative_InfERPSupport_ErpInventory_ErpInventory : name := Eval vm_compute in u "CIM15.IEC61970.Informative.InfERPSupport.ErpInventory.ErpInventory".
Definition n_CIM15_IEC61970_Informative_InfERPSupport_ErpInvoiceLineItem_ErpInvoiceLineItem : name := Eval vm_compute in u "CIM15.IEC61970.Informative.InfERPSupport.ErpInvoiceLineItem.ErpInvoiceLineItem".
Definition n_CIM15_IEC61970_Informative_InfERPSupport_ErpInvoice_ErpInvoice : name := Eval vm_compute in u "CIM15.IEC61970.Informative.InfERPSupport.ErpInvoice.ErpInvoice".
Definition n_CIM15_IEC61970_Informative_InfERPSupport_ErpIssueInventory_ErpIssueInventory : name := Eval vm_compute in u "CIM15.IEC61970.Informative.InfERPSupport.ErpIssueInventory.ErpIssueInventory".
Definition n_CIM15_IEC61970_Informative_InfERPSupport_ErpItemMaster_ErpItemMaster : name := Eval vm_compute in u "CIM15.IEC61970.Informative.InfERPSupport.ErpItemMaster.ErpItemMaster".
Definition n_CIM15_IEC61970_Informative_InfERPSupport_ErpJournalEntry_ErpJournalEntry : name := Eval vm_compute in u "CIM15.IEC61970.Informative.InfERPSupport.ErpJournalEntry.ErpJournalEntry".
Definition n_CIM15_IEC61970_Informative_InfERPSupport_ErpJournal_ErpJournal : name := Eval vm_compute in u "CIM15.IEC61970.Informative.InfERPSupport.ErpJournal.ErpJournal".
Definition n_CIM15_IEC61970_Informative_InfERPSupport_ErpLedBudLineItem_ErpLedBudLineItem : name := Eval vm_compute in u "CIM15.IEC61970.Informative.InfERPSupport.ErpLedBudLineItem.ErpLedBudLineItem".
Definition n_CIM15_IEC61970_Informative_InfERPSupport_ErpLedgerBudget_ErpLedgerBudget : name := Eval vm_compute in u "CIM15.IEC61970.Informative.InfERPSupport.ErpLedgerBudget.ErpLedgerBudget".
Definition n_CIM15_IEC61970_Informative_InfERPSupport_ErpLedgerEntry_ErpLedgerEntry : name := Eval vm_compute in u "CIM15.IEC61970.Informative.InfERPSupport.ErpLedgerEntry.ErpLedgerEntry".
Definition n_CIM15_IEC61970_Informative_InfERPSupport_ErpLedger_ErpLedger : name := Eval vm_compute in u "CIM15.IEC61970.Informative.InfERPSupport.ErpLedger.ErpLedger".
Definition n_CIM15_IEC61970_Informative_InfERPSupport_ErpOrganisation_ErpOrganisation : name := Eval vm_compute in u "CIM15.IEC61970.Informative.InfERPSupport.ErpOrganisation.ErpOrganisation".
Definition n_CIM15_IEC61970_Informative_InfERPSupport_ErpPOLineItem_ErpPOLineItem : name := Eval vm_compute in u "CIM15.IEC61970.Informative.InfERPSupport.ErpPOLineItem.ErpPOLineItem".
Definition n_CIM15_IEC61970_Informative_InfERPSupport_ErpPayableLineItem_ErpPayableLineItem : name := Eval vm_compute in u "CIM15.IEC61970.Informative.InfERPSupport.ErpPayableLineItem.ErpPayableLineItem".
Definition n_CIM15_IEC61970_Informative_InfERPSupport_ErpPayable_ErpPayable : name := Eval vm_compute in u "CIM15.IEC61970.Informative.InfERPSupport.ErpPayable.ErpPayable".
Definition n_CIM15_IEC61970_Informative_InfERPSupport_ErpPayment_ErpPayment : name := Eval vm_compute in u "CIM15.IEC61970.Informative.InfERPSupport.ErpPayment.ErpPayment".
Definition n_CIM15_IEC61970_Informative_InfERPSupport_ErpPerson_ErpPerson : name := Eval vm_compute in u "CIM15.IEC61970.Informative.InfERPSupport.ErpPerson.ErpPerson".
Definition n_CIM15_IEC61970_Informative_InfERPSupport_ErpPersonnel_ErpPersonnel : name := Eval vm_compute in u "CIM15.IEC61970.Informative.InfERPSupport.ErpPersonnel.ErpPersonnel".
Definition n_CIM15_IEC61970_Informative_InfERPSupport_ErpProjectAccounting_ErpProjectAccounting : name := Eval vm_compute in u "CIM15.IEC61970.Informative.InfERPSupport.ErpProjectAccounting.ErpProjectAccounting".
Definition n_CIM15_IEC61970_Informative_InfERPSupport_ErpPurchaseOrder_ErpPurchaseOrder : name := Eval vm_compute in u "CIM15.IEC61970.Informative.InfERPSupport.ErpPurchaseOrder.ErpPurchaseOrder".
Definition n_CIM15_IEC61970_Informative_InfERPSupport_ErpQuoteLineItem_ErpQuoteLineItem : name := Eval vm_compute in u "CIM15.IEC61970.Informative.InfERPSupport.ErpQuoteLineItem.ErpQuoteLineItem".
Definition n_CIM15_IEC61970_Informative_InfERPSupport_ErpQuote_ErpQuote : name := Eval vm_compute in u "CIM15.IEC61970.Informative.InfERPSupport.ErpQuote.ErpQuote".
Definition n_CIM15_IEC61970_Informative_InfERPSupport_ErpRecDelvLineItem_ErpRecDelvLineItem : name := Eval vm_compute in u "CIM15.IEC61970.Informative.InfERPSupport.ErpRecDelvLineItem.ErpRecDelvLineItem".
Definition n_CIM15_IEC61970_Informative_InfERPSupport_ErpRecLineItem_ErpRecLineItem : name := Eval vm_compute in u "CIM15.IEC61970.Informative.InfERPSupport.ErpRecLineItem.ErpRecLineItem".
Definition n_CIM15_IEC61970_Informative_InfERPSupport_ErpReceivable_ErpReceivable : name := Eval vm_compute in u "CIM15.IEC61970.Informative.InfERPSupport.ErpReceivable.ErpReceivable".
Definition n_CIM15_IEC61970_Informative_InfERPSupport_ErpReceiveDelivery_ErpReceiveDelivery : name := Eval vm_compute in u "CIM15.IEC61970.Informative.InfERPSupport.ErpReceiveDelivery.ErpReceiveDelivery".
Definition n_CIM15_IEC61970_Informative_InfERPSupport_ErpReqLineItem_ErpReqLineItem : name := Eval vm_compute in u "CIM15.IEC61970.Informative.InfERPSupport.ErpReqLineItem.ErpReqLineItem".
Definition n_CIM15_IEC61970_Informative_InfERPSupport_ErpRequisition_ErpRequisition : name := Eval vm_compute in u "CIM15.IEC61970.Informative.InfERPSupport.ErpRequisition.ErpRequisition".
Definition n_CIM15_IEC61970_Informative_InfERPSupport_ErpSalesOrder_ErpSalesOrder : name := Eval vm_compute in u "CIM15.IEC61970.Informative.InfERPSupport.ErpSalesOrder.ErpSalesOrder".
Definition n_CIM15_IEC61970_Informative_InfERPSupport_ErpSiteLevelData_ErpSiteLevelData : name := Eval vm_compute in u "CIM15.IEC61970.Informative.InfERPSupport.ErpSiteLevelData.ErpSiteLevelData".
Definition n_CIM15_IEC61970_Informative_InfERPSupport_ErpTimeEntry_ErpTimeEntry : name := Eval vm_compute in u "CIM15.IEC61970.Informative.InfERPSupport.ErpTimeEntry.ErpTimeEntry".
Definition n_CIM15_IEC61970_Informative_InfERPSupport_ErpTimeSheet_ErpTimeSheet : name := Eval vm_compute in u "CIM15.IEC61970.Informative.InfERPSupport.ErpTimeSheet.ErpTimeSheet".
Definition n_CIM15_IEC61970_Informative_InfERPSupport_OrgErpPersonRole_OrgErpPersonRole : name := Eval vm_compute in u "CIM15.IEC61970.Informative.InfERPSupport.OrgErpPersonRole.OrgErpPersonRole".
Definition n_CIM15_IEC61970_Informative_InfERPSupport_OrgOrgRole_OrgOrgRole : name := Eval vm_compute in u "CIM15.IEC61970.Informative.InfERPSupport.OrgOrgRole.OrgOrgRole".
Definition n_CIM15_IEC61970_Informative_InfGMLSupport_Diagram_Diagram : name := Eval vm_compute in u "CIM15.IEC61970.Informative.InfGMLSupport.Diagram.Diagram".
Definition n_CIM15_IEC61970_Informative_InfGMLSupport_GmlBaseSymbol_GmlBaseSymbol : name := Eval vm_compute in u "CIM15.IEC61970.Informative.InfGMLSupport.GmlBaseSymbol.GmlBaseSymbol".
Definition n_CIM15_IEC61970_Informative_InfGMLSupport_GmlColour_GmlColour : name := Eval vm_compute in u "CIM15.IEC61970.Informative.InfGMLSupport.GmlColour.GmlColour".
Definition n_CIM15_IEC61970_Informative_InfGMLSupport_GmlDiagramObject_GmlDiagramObject : name := Eval vm_compute in u "CIM15.IEC61970.Informative.InfGMLSupport.GmlDiagramObject.GmlDiagramObject".
Definition n_CIM15_IEC61970_Informative_InfGMLSupport_GmlFeatureStyle_GmlFeatureStyle : name := Eval vm_compute in u "CIM15.IEC61970.Informative.InfGMLSupport.GmlFeatureStyle.GmlFeatureStyle".
Definition n_CIM15_IEC61970_Informative_InfGMLSupport_GmlFeatureType_GmlFeatureType : name := Eval vm_compute in u "CIM15.IEC61970.Informative.InfGMLSupport.GmlFeatureType.GmlFeatureType".
Definition n_CIM15_IEC61970_Informative_InfGMLSupport_GmlFill_GmlFill : name := Eval vm_compute in u "CIM15.IEC61970.Informative.InfGMLSupport.GmlFill.GmlFill".
Definition n_CIM15_IEC61970_Informative_InfGMLSupport_GmlFont_GmlFont : name := Eval vm_compute in u "CIM15.IEC61970.Informative.InfGMLSupport.GmlFont.GmlFont".
Definition n_CIM15_IEC61970_Informative_InfGMLSupport_GmlGeometryStyle_GmlGeometryStyle : name := Eval vm_compute in u "CIM15.IEC61970.Informative.InfGMLSupport.GmlGeometryStyle.GmlGeometryStyle".
Definition n_CIM15_IEC61970_Informative_InfGMLSupport_GmlGraphic_GmlGraphic : name := Eval vm_compute in u "CIM15.IEC61970.Informative.InfGMLSupport.GmlGraphic.GmlGraphic".
Definition n_CIM15_IEC61970_Informative_InfGMLSupport_GmlHalo_GmlHalo : name := Eval vm_compute in u "CIM15.IEC61970.Informative.InfGMLSupport.GmlHalo.GmlHalo".
Definition n_CIM15_IEC61970_Informative_InfGMLSupport_GmlLabelPlacement_GmlLabelPlacement : name := Eval vm_compute in u "CIM15.IEC61970.Informative.InfGMLSupport.GmlLabelPlacement.GmlLabelPlacement".
Definition n_CIM15_IEC61970_Informative_InfGMLSupport_GmlLabelStyle_GmlLabelStyle : name := Eval vm_compute in u "CIM15.IEC61970.Informative.InfGMLSupport.GmlLabelStyle.GmlLabelStyle".
Definition n_CIM15_IEC61970_Informative_InfGMLSupport_GmlLineGeometry_GmlLineGeometry : name := Eval vm_compute in u "CIM15.IEC61970.Informative.InfGMLSupport.GmlLineGeometry.GmlLineGeometry".
Definition n_CIM15_IEC61970_Informative_InfGMLSupport_GmlLineSymbol_GmlLineSymbol : name := Eval vm_compute in u "CIM15.IEC61970.Informative.InfGMLSupport.GmlLineSymbol.GmlLineSymbol".
Definition n_CIM15_IEC61970_Informative_InfGMLSupport_GmlMark_GmlMark : name := Eval vm_compute in u "CIM15.IEC61970.Informative.InfGMLSupport.GmlMark.GmlMark".
Definition n_CIM15_IEC61970_Informative_InfGMLSupport_GmlObservation_GmlObservation : name := Eval vm_compute in u "CIM15.IEC61970.Informative.InfGMLSupport.GmlObservation.GmlObservation".
Definition n_CIM15_IEC61970_Informative_InfGMLSupport_GmlPointGeometry_GmlPointGeometry : name := Eval vm_compute in u "CIM15.IEC61970.Informative.InfGMLSupport.GmlPointGeometry.GmlPointGeometry".
Definition n_CIM15_IEC61970_Informative_InfGMLSupport_GmlPointSymbol_GmlPointSymbol : name := Eval vm_compute in u "CIM15.IEC61970.Informative.InfGMLSupport.GmlPointSymbol.GmlPointSymbol".
Definition n_CIM15_IEC61970_Informative_InfGMLSupport_GmlPolygonGeometry_GmlPolygonGeometry : name := Eval vm_compute in u "CIM15.IEC61970.Informative.InfGMLSupport.GmlPolygonGeometry.GmlPolygonGeometry".
Definition n_CIM15_IEC61970_Informative_InfGMLSupport_GmlPolygonSymbol_GmlPolygonSymbol : name := Eval vm_compute in u "CIM15.IEC61970.Informative.InfGMLSupport.GmlPolygonSymbol.GmlPolygonSymbol".
Definition n_CIM15_IEC61970_Informative_InfGMLSupport_GmlPosition_GmlPosition : name := Eval vm_compute in u "CIM15.IEC61970.Informative.InfGMLSupport.GmlPosition.GmlPosition".
Definition n_CIM15_IEC61970_Informative_InfGMLSupport_GmlRasterSymbol_GmlRasterSymbol : name := Eval vm_compute in u "CIM15.IEC61970.Informative.InfGMLSupport.GmlRasterSymbol.GmlRasterSymbol".
Definition n_CIM15_IEC61970_Informative_InfGMLSupport_GmlSelector_GmlSelector : name := Eval vm_compute in u "CIM15.IEC61970.Informative.InfGMLSupport.GmlSelector.GmlSelector".
Definition n_CIM15_IEC61970_Informative_InfGMLSupport_GmlStroke_GmlStroke : name := Eval vm_compute in u "CIM15.IEC61970.Informative.InfGMLSupport.GmlStroke.GmlStroke".
Definition n_CIM15_IEC61970_Informative_InfGMLSupport_GmlSvgParameter_GmlSvgParameter : name := Eval vm_compute in u "CIM15.IEC61970.Informative.InfGMLSupport.GmlSvgParameter.GmlSvgParameter".
Definition n_CIM15_IEC61970_Informative_InfGMLSupport_GmlSymbol_GmlSymbol : name := Eval vm_compute in u "CIM15.IEC61970.Informative.InfGMLSupport.GmlSymbol.GmlSymbol".
Definition n_CIM15_IEC61970_Informative_InfGMLSupport_GmlTextSymbol_GmlTextSymbol : name := Eval vm_compute in u "CIM15.IEC61970.Informative.InfGMLSupport.GmlTextSymbol.GmlTextSymbol".
Definition n_CIM15_IEC61970_Informative_InfGMLSupport_GmlTopologyStyle_GmlTopologyStyle : name := Eval vm_compute in u "CIM15.IEC61970.Informative.InfGMLSupport.GmlTopologyStyle.GmlTopologyStyle".
Definition n_CIM15_IEC61970_Informative_InfGMLSupport_GmlValue_GmlValue : name := Eval vm_compute in u "CIM15.IEC61970.Informative.InfGMLSupport.GmlValue.GmlValue".
Definition n_CIM15_IEC61970_Informative_InfGMLSupport_Map_Map : name := Eval vm_compute in u "CIM15.IEC61970.Informative.InfGMLSupport.Map.Map".
Definition n_CIM15_IEC61970_Informative_InfLoadControl_LoadLimitFunction_LoadLimitFunction : name := Eval vm_compute in u "CIM15.IEC61970.Informative.InfLoadControl.LoadLimitFunction.LoadLimitFunction".
Definition n_CIM15_IEC61970_Informative_InfLoadControl_LoadMgmtFunction_LoadMgmtFunction : name := Eval vm_compute in u "CIM15.IEC61970.Informative.InfLoadControl.LoadMgmtFunction.LoadMgmtFunction".
Definition n_CIM15_IEC61970_Informative_InfLoadControl_LoadMgmtRecord_LoadMgmtRecord : name := Eval vm_compute in u "CIM15.IEC61970.Informative.InfLoadControl.LoadMgmtRecord.LoadMgmtRecord".
Definition n_CIM15_IEC61970_Informative_InfLoadControl_LoadShedFunction_LoadShedFunction : name := Eval vm_compute in u "CIM15.IEC61970.Informative.InfLoadControl.LoadShedFunction.LoadShedFunction".
Definition n_CIM15_IEC61970_Informative_InfLocations_Direction_Direction : name := Eval vm_compute in u "CIM15.IEC61970.Informative.InfLocations.Direction.Direction".
Definition n_CIM15_IEC61970_Informative_InfLocations_Hazard_Hazard : name := Eval vm_compute in u "CIM15.IEC61970.Informative.InfLocations.Hazard.Hazard".
Definition n_CIM15_IEC61970_Informative_InfLocations_LandProperty_LandProperty : name := Eval vm_compute in u "CIM15.IEC61970.Informative.InfLocations.LandProperty.LandProperty".
Definition n_CIM15_IEC61970_Informative_InfLocations_LocationGrant_LocationGrant : name := Eval vm_compute in u "CIM15.IEC61970.Informative.InfLocations.LocationGrant.LocationGrant".
Definition n_CIM15_IEC61970_Informative_InfLocations_OrgPropertyRole_OrgPropertyRole : name := Eval vm_compute in u "CIM15.IEC61970.Informative.InfLocations.OrgPropertyRole.OrgPropertyRole".
Definition n_CIM15_IEC61970_Informative_InfLocations_PersonPropertyRole_PersonPropertyRole : name := Eval vm_compute in u "CIM15.IEC61970.Informative.InfLocations.PersonPropertyRole.PersonPropertyRole".
Definition n_CIM15_IEC61970_Informative_InfLocations_RedLine_RedLine : name := Eval vm_compute in u "CIM15.IEC61970.Informative.InfLocations.RedLine.RedLine".
Definition n_CIM15_IEC61970_Informative_InfLocations_RightOfWay_RightOfWay : name := Eval vm_compute in u "CIM15.IEC61970.Informative.InfLocations.RightOfWay.RightOfWay".
Definition n_CIM15_IEC61970_Informative_InfLocations_Route_Route : name := Eval vm_compute in u "CIM15.IEC61970.Informative.InfLocations.Route.Route".
Definition n_CIM15_IEC61970_Informative_InfLocations_Zone_Zone : name := Eval vm_compute in u "CIM15.IEC61970.Informative.InfLocations.Zone.Zone".
Definition n_CIM15_IEC61970_Informative_InfMetering_GasMeteringFunction_GasMeteringFunction : name := Eval vm_compute in u "CIM15.IEC61970.Informative.InfMetering.GasMeteringFunction.GasMeteringFunction".
Definition n_CIM15_IEC61970_Informative_InfMetering_WaterMeteringFunction_WaterMeteringFunction : name := Eval vm_compute in u "CIM15.IEC61970.Informative.InfMetering.WaterMeteringFunction.WaterMeteringFunction".
Definition n_CIM15_IEC61970_Informative_InfOperations_CallBack_CallBack : name := Eval vm_compute in u "CIM15.IEC61970.Informative.InfOperations.CallBack.CallBack".
Definition n_CIM15_IEC61970_Informative_InfOperations_ChangeItem_ChangeItem : name := Eval vm_compute in u "CIM15.IEC61970.Informative.InfOperations.ChangeItem.ChangeItem".
Definition n_CIM15_IEC61970_Informative_InfOperations_ChangeSet_ChangeSet : name := Eval vm_compute in u "CIM15.IEC61970.Informative.InfOperations.ChangeSet.ChangeSet".
Definition n_CIM15_IEC61970_Informative_InfOperations_CircuitSection_CircuitSection : name := Eval vm_compute in u "CIM15.IEC61970.Informative.InfOperations.CircuitSection.CircuitSection".
Definition n_CIM15_IEC61970_Informative_InfOperations_Circuit_Circuit : name := Eval vm_compute in u "CIM15.IEC61970.Informative.InfOperations.Circuit.Circuit".
Definition n_CIM15_IEC61970_Informative_InfOperations_ErpPersonScheduleStepRole_ErpPersonScheduleStepRole : name := Eval vm_compute in u "CIM15.IEC61970.Informative.InfOperations.ErpPersonScheduleStepRole.ErpPersonScheduleStepRole".
Definition n_CIM15_IEC61970_Informative_InfOperations_IncidentCode_IncidentCode : name := Eval vm_compute in u "CIM15.IEC61970.Informative.InfOperations.IncidentCode.IncidentCode".
Definition n_CIM15_IEC61970_Informative_InfOperations_IncidentRecord_IncidentRecord : name := Eval vm_compute in u "CIM15.IEC61970.Informative.InfOperations.IncidentRecord.IncidentRecord".
Definition n_CIM15_IEC61970_Informative_InfOperations_LandBase_LandBase : name := Eval vm_compute in u "CIM15.IEC61970.Informative.InfOperations.LandBase.LandBase".
Definition n_CIM15_IEC61970_Informative_InfOperations_NetworkDataSet_NetworkDataSet : name := Eval vm_compute in u "CIM15.IEC61970.Informative.InfOperations.NetworkDataSet.NetworkDataSet".
Definition n_CIM15_IEC61970_Informative_InfOperations_OperationalRestriction_OperationalRestriction : name := Eval vm_compute in u "CIM15.IEC61970.Informative.InfOperations.OperationalRestriction.OperationalRestriction".
Definition n_CIM15_IEC61970_Informative_InfOperations_OrgPsrRole_OrgPsrRole : name := Eval vm_compute in u "CIM15.IEC61970.Informative.InfOperations.OrgPsrRole.OrgPsrRole".
Definition n_CIM15_IEC61970_Informative_InfOperations_OutageCode_OutageCode : name := Eval vm_compute in u "CIM15.IEC61970.Informative.InfOperations.OutageCode.OutageCode".
Definition n_CIM15_IEC61970_Informative_InfOperations_OutageNotification_OutageNotification : name := Eval vm_compute in u "CIM15.IEC61970.Informative.InfOperations.OutageNotification.OutageNotification".
Definition n_CIM15_IEC61970_Informative_InfOperations_OutageRecord_OutageRecord : name := Eval vm_compute in u "CIM15.IEC61970.Informative.InfOperations.OutageRecord.OutageRecord".
Definition n_CIM15_IEC61970_Informative_InfOperations_OutageReport_OutageReport : name := Eval vm_compute in u "CIM15.IEC61970.Informative.InfOperations.OutageReport.OutageReport".
Definition n_CIM15_IEC61970_Informative_InfOperations_OutageStepPsrRole_OutageStepPsrRole : name := Eval vm_compute in u "CIM15.IEC61970.Informative.InfOperations.OutageStepPsrRole.OutageStepPsrRole".
Definition n_CIM15_IEC61970_Informative_InfOperations_OutageStep_OutageStep : name := Eval vm_compute in u "CIM15.IEC61970.Informative.InfOperations.OutageStep.OutageStep".
Definition n_CIM15_IEC61970_Informative_InfOperations_PSREvent_PSREvent : name := Eval vm_compute in u "CIM15.IEC61970.Informative.InfOperations.PSREvent.PSREvent".
Definition n_CIM15_IEC61970_Informative_InfOperations_PlannedOutage_PlannedOutage : name := Eval vm_compute in u "CIM15.IEC61970.Informative.InfOperations.PlannedOutage.PlannedOutage".
Definition n_CIM15_IEC61970_Informative_InfOperations_SafetyDocument_SafetyDocument : name := Eval vm_compute in u "CIM15.IEC61970.Informative.InfOperations.SafetyDocument.SafetyDocument".
Definition n_CIM15_IEC61970_Informative_InfOperations_SwitchingSchedule_SwitchingSchedule : name := Eval vm_compute in u "CIM15.IEC61970.Informative.InfOperations.SwitchingSchedule.SwitchingSchedule".
Definition n_CIM15_IEC61970_Informative_InfOperations_SwitchingStep_SwitchingStep : name := Eval vm_compute in u "CIM15.IEC61970.Informative.InfOperations.SwitchingStep.SwitchingStep".
Definition n_CIM15_IEC61970_Informative_InfOperations_TroubleTicket_TroubleTicket : name := Eval vm_compute in u "CIM15.IEC61970.Informative.InfOperations.TroubleTicket.TroubleTicket".
Definition n_CIM15_IEC61970_Informative_InfTypeAsset_GeneratorTypeAsset_GeneratorTypeAsset : name := Eval vm_compute in u "CIM15.IEC61970.Informative.InfTypeAsset.GeneratorTypeAsset.GeneratorTypeAsset".
Definition n_CIM15_IEC61970_Informative_InfTypeAsset_TypeAssetCatalogue_TypeAssetCatalogue : name := Eval vm_compute in u "CIM15.IEC61970.Informative.InfTypeAsset.TypeAssetCatalogue.TypeAssetCatalogue".
Definition n_CIM15_IEC61970_Informative_InfWork_AccessPermit_AccessPermit : name := Eval vm_compute in u "CIM15.IEC61970.Informative.InfWork.AccessPermit.AccessPermit".
Definition n_CIM15_IEC61970_Informative_InfWork_Appointment_Appointment : name := Eval vm_compute in u "CIM15.IEC61970.Informative.InfWork.Appointment.Appointment".
Definition n_CIM15_IEC61970_Informative_InfWork_Assignment_Assignment : name := Eval vm_compute in u "CIM15.IEC61970.Informative.InfWork.Assignment.Assignment".
Definition n_CIM15_IEC61970_Informative_InfWork_BusinessCase_BusinessCase : name := Eval vm_compute in u "CIM15.IEC61970.Informative.InfWork.BusinessCase.BusinessCase".
Definition n_CIM15_IEC61970_Informative_InfWork_CUAllowableAction_CUAllowableAction : name := Eval vm_compute in u "CIM15.IEC61970.Informative.InfWork.CUAllowableAction.CUAllowableAction".
Definition n_CIM15_IEC61970_Informative_InfWork_CUAsset_CUAsset : name := Eval vm_compute in u "CIM15.IEC61970.Informative.InfWork.CUAsset.CUAsset".
Definition n_CIM15_IEC61970_Informative_InfWork_CUContractorItem_CUContractorItem : name := Eval vm_compute in u "CIM15.IEC61970.Informative.InfWork.CUContractorItem.CUContractorItem".
Definition n_CIM15_IEC61970_Informative_InfWork_CUGroup_CUGroup : name := Eval vm_compute in u "CIM15.IEC61970.Informative.InfWork.CUGroup.CUGroup".
Definition n_CIM15_IEC61970_Informative_InfWork_CULaborCode_CULaborCode : name := Eval vm_compute in u "CIM15.IEC61970.Informative.InfWork.CULaborCode.CULaborCode".
Definition n_CIM15_IEC61970_Informative_InfWork_CULaborItem_CULaborItem : name := Eval vm_compute in u "CIM15.IEC61970.Informative.InfWork.CULaborItem.CULaborItem".
Definition n_CIM15_IEC61970_Informative_InfWork_CUMaterialItem_CUMaterialItem : name := Eval vm_compute in u "CIM15.IEC61970.Informative.InfWork.CUMaterialItem.CUMaterialItem".
Definition n_CIM15_IEC61970_Informative_InfWork_CUWorkEquipmentItem_CUWorkEquipmentItem : name := Eval vm_compute in u "CIM15.IEC61970.Informative.InfWork.CUWorkEquipmentItem.CUWorkEquipmentItem".
Definition n_CIM15_IEC61970_Informative_InfWork_Capability_Capability : name := Eval vm_compute in u "CIM15.IEC61970.Informative.InfWork.Capability.Capability".
Definition n_CIM15_IEC61970_Informative_InfWork_CompatibleUnit_CompatibleUnit : name := Eval vm_compute in u "CIM15.IEC61970.Informative.InfWork.CompatibleUnit.CompatibleUnit".
Definition n_CIM15_IEC61970_Informative_InfWork_ConditionFactor_ConditionFactor : name := Eval vm_compute in u "CIM15.IEC61970.Informative.InfWork.ConditionFactor.ConditionFactor".
Definition n_CIM15_IEC61970_Informative_InfWork_ContractorItem_ContractorItem : name := Eval vm_compute in u "CIM15.IEC61970.Informative.InfWork.ContractorItem.ContractorItem".
Definition n_CIM15_IEC61970_Informative_InfWork_CostType_CostType : name := Eval vm_compute in u "CIM15.IEC61970.Informative.InfWork.CostType.CostType".
Definition n_CIM15_IEC61970_Informative_InfWork_Crew_Crew : name := Eval vm_compute in u "CIM15.IEC61970.Informative.InfWork.Crew.Crew".
Definition n_CIM15_IEC61970_Informative_InfWork_DesignLocationCU_DesignLocationCU : name := Eval vm_compute in u "CIM15.IEC61970.Informative.InfWork.DesignLocationCU.DesignLocationCU".
Definition n_CIM15_IEC61970_Informative_InfWork_DesignLocation_DesignLocation : name := Eval vm_compute in u "CIM15.IEC61970.Informative.InfWork.DesignLocation.DesignLocation".
Definition n_CIM15_IEC61970_Informative_InfWork_Design_Design : name := Eval vm_compute in u "CIM15.IEC61970.Informative.InfWork.Design.Design".
Definition n_CIM15_IEC61970_Informative_InfWork_DiagnosisDataSet_DiagnosisDataSet : name := Eval vm_compute in u "CIM15.IEC61970.Informative.InfWork.DiagnosisDataSet.DiagnosisDataSet".
Definition n_CIM15_IEC61970_Informative_InfWork_EquipmentItem_EquipmentItem : name := Eval vm_compute in u "CIM15.IEC61970.Informative.InfWork.EquipmentItem.EquipmentItem".
Definition n_CIM15_IEC61970_Informative_InfWork_InfoQuestion_InfoQuestion : name := Eval vm_compute in u "CIM15.IEC61970.Informative.InfWork.InfoQuestion.InfoQuestion".
Definition n_CIM15_IEC61970_Informative_InfWork_InspectionDataSet_InspectionDataSet : name := Eval vm_compute in u "CIM15.IEC61970.Informative.InfWork.InspectionDataSet.InspectionDataSet".
Definition n_CIM15_IEC61970_Informative_InfWork_LaborItem_LaborItem : name := Eval vm_compute in u "CIM15.IEC61970.Informative.InfWork.LaborItem.LaborItem".
Definition n_CIM15_IEC61970_Informative_InfWork_MaintenanceDataSet_MaintenanceDataSet : name := Eval vm_compute in u "CIM15.IEC61970.Informative.InfWork.MaintenanceDataSet.MaintenanceDataSet".
Definition n_CIM15_IEC61970_Informative_InfWork_MaterialItem_MaterialItem : name := Eval vm_compute in u "CIM15.IEC61970.Informative.InfWork.MaterialItem.MaterialItem".
Definition n_CIM15_IEC61970_Informative_InfWork_MiscCostItem_MiscCostItem : name := Eval vm_compute in u "CIM15.IEC61970.Informative.InfWork.MiscCostItem.MiscCostItem".
Definition n_CIM15_IEC61970_Informative_InfWork_NonStandardItem_NonStandardItem : name := Eval vm_compute in u "CIM15.IEC61970.Informative.InfWork.NonStandardItem.NonStandardItem".
Definition n_CIM15_IEC61970_Informative_InfWork_OneCallRequest_OneCallRequest : name := Eval vm_compute in u "CIM15.IEC61970.Informative.InfWork.OneCallRequest.OneCallRequest".
Definition n_CIM15_IEC61970_Informative_InfWork_OverheadCost_OverheadCost : name := Eval vm_compute in u "CIM15.IEC61970.Informative.InfWork.OverheadCost.OverheadCost".
Definition n_CIM15_IEC61970_Informative_InfWork_Project_Project : name := Eval vm_compute in u "CIM15.IEC61970.Informative.InfWork.Project.Project".
Definition n_CIM15_IEC61970_Informative_InfWork_PropertyUnit_PropertyUnit : name := Eval vm_compute in u "CIM15.IEC61970.Informative.InfWork.PropertyUnit.PropertyUnit".
Definition n_CIM15_IEC61970_Informative_InfWork_QualificationRequirement_QualificationRequirement : name := Eval vm_compute in u "CIM15.IEC61970.Informative.InfWork.QualificationRequirement.QualificationRequirement".
Definition n_CIM15_IEC61970_Informative_InfWork_Regulation_Regulation : name := Eval vm_compute in u "CIM15.IEC61970.Informative.InfWork.Regulation.Regulation".
Definition n_CIM15_IEC61970_Informative_InfWork_Request_Request : name := Eval vm_compute in u "CIM15.IEC61970.Informative.InfWork.Request.Request".
Definition n_CIM15_IEC61970_Informative_InfWork_ShiftPattern_ShiftPattern : name := Eval vm_compute in u "CIM15.IEC61970.Informative.InfWork.ShiftPattern.ShiftPattern".
Definition n_CIM15_IEC61970_Informative_InfWork_TypeMaterial_TypeMaterial : name := Eval vm_compute in u "CIM15.IEC61970.Informative.InfWork.TypeMaterial.TypeMaterial".
Definition n_CIM15_IEC61970_Informative_InfWork_Usage_Usage : name := Eval vm_compute in u "CIM15.IEC61970.Informative.InfWork.Usage.Usage".
Definition n_CIM15_IEC61970_Informative_InfWork_WorkCostDetail_WorkCostDetail : name := Eval vm_compute in u "CIM15.IEC61970.Informative.InfWork.WorkCostDetail.WorkCostDetail".
Definition n_CIM15_IEC61970_Informative_InfWork_WorkCostSummary_WorkCostSummary : name := Eval vm_compute in u "CIM15.IEC61970.Informative.InfWork.WorkCostSummary.WorkCostSummary".
Definition n_CIM15_IEC61970_Informative_InfWork_WorkFlowStep_WorkFlowStep : name := Eval vm_compute in u "CIM15.IEC61970.Informative.InfWork.WorkFlowStep.WorkFlowStep".
Definition n_CIM15_IEC61970_Informative_InfWork_WorkLocation_WorkLocation : name := Eval vm_compute in u "CIM15.IEC61970.Informative.InfWork.WorkLocation.WorkLocation".
Definition n_CIM15_IEC61970_Informative_InfWork_WorkStatusEntry_WorkStatusEntry : name := Eval vm_compute in u "CIM15.IEC61970.Informative.InfWork.WorkStatusEntry.WorkStatusEntry".
Definition n_CIM15_IEC61970_Informative_InfWork_WorkTask_WorkTask : name := Eval vm_compute in u "CIM15.IEC61970.Informative.InfWork.WorkTask.WorkTask".
Definition n_CIM15_IEC61970_LoadModel_ConformLoadGroup_ConformLoadGroup : name := Eval vm_compute in u "CIM15.IEC61970.LoadModel.ConformLoadGroup.ConformLoadGroup".
Definition n_CIM15_IEC61970_LoadModel_ConformLoadSchedule_ConformLoadSchedule : name := Eval vm_compute in u "CIM15.IEC61970.LoadModel.ConformLoadSchedule.ConformLoadSchedule".
Definition n_CIM15_IEC61970_LoadModel_ConformLoad_ConformLoad : name := Eval vm_compute in u "CIM15.IEC61970.LoadModel.ConformLoad.ConformLoad".
Definition n_CIM15_IEC61970_LoadModel_DayType_DayType : name := Eval vm_compute in u "CIM15.IEC61970.LoadModel.DayType.DayType".
Definition n_CIM15_IEC61970_LoadModel_EnergyArea_EnergyArea : name := Eval vm_compute in u "CIM15.IEC61970.LoadModel.EnergyArea.EnergyArea".
Definition n_CIM15_IEC61970_LoadModel_LoadArea_LoadArea : name := Eval vm_compute in u "CIM15.IEC61970.LoadModel.LoadArea.LoadArea".
Definition n_CIM15_IEC61970_LoadModel_LoadGroup_LoadGroup : name := Eval vm_compute in u "CIM15.IEC61970.LoadModel.LoadGroup.LoadGroup".
Definition n_CIM15_IEC61970_LoadModel_LoadResponseCharacteristic_LoadResponseCharacteristic : name := Eval vm_compute in u "CIM15.IEC61970.LoadModel.LoadResponseCharacteristic.LoadResponseCharacteristic".
Definition n_CIM15_IEC61970_LoadModel_NonConformLoadGroup_NonConformLoadGroup : name := Eval vm_compute in u "CIM15.IEC61970.LoadModel.NonConformLoadGroup.NonConformLoadGroup".
Definition n_CIM15_IEC61970_LoadModel_NonConformLoadSchedule_NonConformLoadSchedule : name := Eval vm_compute in u "CIM15.IEC61970.LoadModel.NonConformLoadSchedule.NonConformLoadSchedule".
Definition n_CIM15_IEC61970_LoadModel_NonConformLoad_NonConformLoad : name := Eval vm_compute in u "CIM15.IEC61970.LoadModel.NonConformLoad.NonConformLoad".
Definition n_CIM15_IEC61970_LoadModel_PowerCutZone_PowerCutZone : name := Eval vm_compute in u "CIM15.IEC61970.LoadModel.PowerCutZone.PowerCutZone".
Definition n_CIM15_IEC61970_LoadModel_SeasonDayTypeSchedule_SeasonDayTypeSchedule : name := Eval vm_compute in u "CIM15.IEC61970.LoadModel.SeasonDayTypeSchedule.SeasonDayTypeSchedule".
Definition n_CIM15_IEC61970_LoadModel_Season_Season : name := Eval vm_compute in u "CIM15.IEC61970.LoadModel.Season.Season".
Definition n_CIM15_IEC61970_LoadModel_StationSupply_StationSupply : name := Eval vm_compute in u "CIM15.IEC61970.LoadModel.StationSupply.StationSupply".
Definition n_CIM15_IEC61970_LoadModel_SubLoadArea_SubLoadArea : name := Eval vm_compute in u "CIM15.IEC61970.LoadModel.SubLoadArea.SubLoadArea".
Definition n_CIM15_IEC61970_Meas_AccumulatorLimitSet_AccumulatorLimitSet : name := Eval vm_compute in u "CIM15.IEC61970.Meas.AccumulatorLimitSet.AccumulatorLimitSet".
Definition n_CIM15_IEC61970_Meas_AccumulatorLimit_AccumulatorLimit : name := Eval vm_compute in u "CIM15.IEC61970.Meas.AccumulatorLimit.AccumulatorLimit".
Definition n_CIM15_IEC61970_Meas_AccumulatorValue_AccumulatorValue : name := Eval vm_compute in u "CIM15.IEC61970.Meas.AccumulatorValue.AccumulatorValue".
Definition n_CIM15_IEC61970_Meas_Accumulator_Accumulator : name := Eval vm_compute in u "CIM15.IEC61970.Meas.Accumulator.Accumulator".
Definition n_CIM15_IEC61970_Meas_AnalogLimitSet_AnalogLimitSet : name := Eval vm_compute in u "CIM15.IEC61970.Meas.AnalogLimitSet.AnalogLimitSet".
Definition n_CIM15_IEC61970_Meas_AnalogLimit_AnalogLimit : name := Eval vm_compute in u "CIM15.IEC61970.Meas.AnalogLimit.AnalogLimit".
Definition n_CIM15_IEC61970_Meas_AnalogValue_AnalogValue : name := Eval vm_compute in u "CIM15.IEC61970.Meas.AnalogValue.AnalogValue".
Definition n_CIM15_IEC61970_Meas_Analog_Analog : name := Eval vm_compute in u "CIM15.IEC61970.Meas.Analog.Analog".
Definition n_CIM15_IEC61970_Meas_Command_Command : name := Eval vm_compute in u "CIM15.IEC61970.Meas.Command.Command".
Definition n_CIM15_IEC61970_Meas_ControlType_ControlType : name := Eval vm_compute in u "CIM15.IEC61970.Meas.ControlType.ControlType".
Definition n_CIM15_IEC61970_Meas_Control_Control : name := Eval vm_compute in u "CIM15.IEC61970.Meas.Control.Control".
Definition n_CIM15_IEC61970_Meas_DiscreteValue_DiscreteValue : name := Eval vm_compute in u "CIM15.IEC61970.Meas.DiscreteValue.DiscreteValue".
Definition n_CIM15_IEC61970_Meas_Discrete_Discrete : name := Eval vm_compute in u "CIM15.IEC61970.Meas.Discrete.Discrete".
Definition n_CIM15_IEC61970_Meas_LimitSet_LimitSet : name := Eval vm_compute in u "CIM15.IEC61970.Meas.LimitSet.LimitSet".
Definition n_CIM15_IEC61970_Meas_Limit_Limit : name := Eval vm_compute in u "CIM15.IEC61970.Meas.Limit.Limit".
Definition n_CIM15_IEC61970_Meas_MeasurementValueQuality_MeasurementValueQuality : name := Eval vm_compute in u "CIM15.IEC61970.Meas.MeasurementValueQuality.MeasurementValueQuality".
Definition n_CIM15_IEC61970_Meas_MeasurementValueSource_MeasurementValueSource : name := Eval vm_compute in u "CIM15.IEC61970.Meas.MeasurementValueSource.MeasurementValueSource".
Definition n_CIM15_IEC61970_Meas_MeasurementValue_MeasurementValue : name := Eval vm_compute in u "CIM15.IEC61970.Meas.MeasurementValue.MeasurementValue".
Definition n_CIM15_IEC61970_Meas_Measurement_Measurement : name := Eval vm_compute in u "CIM15.IEC61970.Meas.Measurement.Measurement".
Definition n_CIM15_IEC61970_Meas_Quality61850_Quality61850 : name := Eval vm_compute in u "CIM15.IEC61970.Meas.Quality61850.Quality61850".
Definition n_CIM15_IEC61970_Meas_SetPoint_SetPoint : name := Eval vm_compute in u "CIM15.IEC61970.Meas.SetPoint.SetPoint".
Definition n_CIM15_IEC61970_Meas_StringMeasurementValue_StringMeasurementValue : name := Eval vm_compute in u "CIM15.IEC61970.Meas.StringMeasurementValue.StringMeasurementValue".
Definition n_CIM15_IEC61970_Meas_StringMeasurement_StringMeasurement : name := Eval vm_compute in u "CIM15.IEC61970.Meas.StringMeasurement.StringMeasurement".
Definition n_CIM15_IEC61970_Meas_ValueAliasSet_ValueAliasSet : name := Eval vm_compute in u "CIM15.IEC61970.Meas.ValueAliasSet.ValueAliasSet".
Definition n_CIM15_IEC61970_Meas_ValueToAlias_ValueToAlias : name := Eval vm_compute in u "CIM15.IEC61970.Meas.ValueToAlias.ValueToAlias".
Definition n_CIM15_IEC61970_OperationalLimits_ActivePowerLimitSet_ActivePowerLimitSet : name := Eval vm_compute in u "CIM15.IEC61970.OperationalLimits.ActivePowerLimitSet.ActivePowerLimitSet".
Definition n_CIM15_IEC61970_OperationalLimits_ActivePowerLimit_ActivePowerLimit : name := Eval vm_compute in u "CIM15.IEC61970.OperationalLimits.ActivePowerLimit.ActivePowerLimit".
Definition n_CIM15_IEC61970_OperationalLimits_ApparentPowerLimitSet_ApparentPowerLimitSet : name := Eval vm_compute in u "CIM15.IEC61970.OperationalLimits.ApparentPowerLimitSet.ApparentPowerLimitSet".
Definition n_CIM15_IEC61970_OperationalLimits_ApparentPowerLimit_ApparentPowerLimit : name := Eval vm_compute in u "CIM15.IEC61970.OperationalLimits.ApparentPowerLimit.ApparentPowerLimit".
Definition n_CIM15_IEC61970_OperationalLimits_BranchGroupTerminal_BranchGroupTerminal : name := Eval vm_compute in u "CIM15.IEC61970.OperationalLimits.BranchGroupTerminal.BranchGroupTerminal".
Definition n_CIM15_IEC61970_OperationalLimits_BranchGroup_BranchGroup : name := Eval vm_compute in u "CIM15.IEC61970.OperationalLimits.BranchGroup.BranchGroup".
Definition n_CIM15_IEC61970_OperationalLimits_CheckPoint_CheckPoint : name := Eval vm_compute in u "CIM15.IEC61970.OperationalLimits.CheckPoint.CheckPoint".
Definition n_CIM15_IEC61970_OperationalLimits_CurrentLimitSet_CurrentLimitSet : name := Eval vm_compute in u "CIM15.IEC61970.OperationalLimits.CurrentLimitSet.CurrentLimitSet".
Definition n_CIM15_IEC61970_OperationalLimits_CurrentLimit_CurrentLimit : name := Eval vm_compute in u "CIM15.IEC61970.OperationalLimits.CurrentLimit.CurrentLimit".
Definition n_CIM15_IEC61970_OperationalLimits_OperationalLimitSet_OperationalLimitSet : name := Eval vm_compute in u "CIM15.IEC61970.OperationalLimits.OperationalLimitSet.OperationalLimitSet".
Definition n_CIM15_IEC61970_OperationalLimits_OperationalLimitType_OperationalLimitType : name := Eval vm_compute in u "CIM15.IEC61970.OperationalLimits.OperationalLimitType.OperationalLimitType".
Definition n_CIM15_IEC61970_OperationalLimits_OperationalLimit_OperationalLimit : name := Eval vm_compute in u "CIM15.IEC61970.OperationalLimits.OperationalLimit.OperationalLimit".
Definition n_CIM15_IEC61970_OperationalLimits_VoltageCheckPoint_VoltageCheckPoint : name := Eval vm_compute in u "CIM15.IEC61970.OperationalLimits.VoltageCheckPoint.VoltageCheckPoint".
Definition n_CIM15_IEC61970_OperationalLimits_VoltageLimitSet_VoltageLimitSet : name := Eval vm_compute in u "CIM15.IEC61970.OperationalLimits.VoltageLimitSet.VoltageLimitSet".
Definition n_CIM15_IEC61970_OperationalLimits_VoltageLimit_VoltageLimit : name := Eval vm_compute in u "CIM15.IEC61970.OperationalLimits.VoltageLimit.VoltageLimit".
Definition n_CIM15_IEC61970_OperationalLimits_VoltageTimeCurve_VoltageTimeCurve : name := Eval vm_compute in u "CIM15.IEC61970.OperationalLimits.VoltageTimeCurve.VoltageTimeCurve".
Definition n_CIM15_IEC61970_Outage_ClearanceTagType_ClearanceTagType : name := Eval vm_compute in u "CIM15.IEC61970.Outage.ClearanceTagType.ClearanceTagType".
Definition n_CIM15_IEC61970_Outage_ClearanceTag_ClearanceTag : name := Eval vm_compute in u "CIM15.IEC61970.Outage.ClearanceTag.ClearanceTag".
Definition n_CIM15_IEC61970_Outage_OutageSchedule_OutageSchedule : name := Eval vm_compute in u "CIM15.IEC61970.Outage.OutageSchedule.OutageSchedule".
Definition n_CIM15_IEC61970_Outage_SwitchingOperation_SwitchingOperation : name := Eval vm_compute in u "CIM15.IEC61970.Outage.SwitchingOperation.SwitchingOperation".
Definition n_CIM15_IEC61970_Protection_CurrentRelay_CurrentRelay : name := Eval vm_compute in u "CIM15.IEC61970.Protection.CurrentRelay.CurrentRelay".
Definition n_CIM15_IEC61970_Protection_ProtectionEquipment_ProtectionEquipment : name := Eval vm_compute in u "CIM15.IEC61970.Protection.ProtectionEquipment.ProtectionEquipment".
Definition n_CIM15_IEC61970_Protection_RecloseSequence_RecloseSequence : name := Eval vm_compute in u "CIM15.IEC61970.Protection.RecloseSequence.RecloseSequence".
Definition n_CIM15_IEC61970_Protection_SynchrocheckRelay_SynchrocheckRelay : name := Eval vm_compute in u "CIM15.IEC61970.Protection.SynchrocheckRelay.SynchrocheckRelay".
Definition n_CIM15_IEC61970_SCADA_CommunicationLink_CommunicationLink : name := Eval vm_compute in u "CIM15.IEC61970.SCADA.CommunicationLink.CommunicationLink".
Definition n_CIM15_IEC61970_SCADA_RemoteControl_RemoteControl : name := Eval vm_compute in u "CIM15.IEC61970.SCADA.RemoteControl.RemoteControl".
Definition n_CIM15_IEC61970_SCADA_RemotePoint_RemotePoint : name := Eval vm_compute in u "CIM15.IEC61970.SCADA.RemotePoint.RemotePoint".
Definition n_CIM15_IEC61970_SCADA_RemoteSource_RemoteSource : name := Eval vm_compute in u "CIM15.IEC61970.SCADA.RemoteSource.RemoteSource".
Definition n_CIM15_IEC61970_SCADA_RemoteUnit_RemoteUnit : name := Eval vm_compute in u "CIM15.IEC61970.SCADA.RemoteUnit.RemoteUnit".
Definition n_CIM15_IEC61970_StateVariables_StateVariable_StateVariable : name := Eval vm_compute in u "CIM15.IEC61970.StateVariables.StateVariable.StateVariable".
Definition n_CIM15_IEC61970_StateVariables_SvInjection_SvInjection : name := Eval vm_compute in u "CIM15.IEC61970.StateVariables.SvInjection.SvInjection".
Definition n_CIM15_IEC61970_StateVariables_SvPowerFlow_SvPowerFlow : name := Eval vm_compute in u "CIM15.IEC61970.StateVariables.SvPowerFlow.SvPowerFlow".
Definition n_CIM15_IEC61970_StateVariables_SvShortCircuit_SvShortCircuit : name := Eval vm_compute in u "CIM15.IEC61970.StateVariables.SvShortCircuit.SvShortCircuit".
Definition n_CIM15_IEC61970_StateVariables_SvShuntCompensatorSections_SvShuntCompensatorSections : name := Eval vm_compute in u "CIM15.IEC61970.StateVariables.SvShuntCompensatorSections.SvShuntCompensatorSections".
Definition n_CIM15_IEC61970_StateVariables_SvStatus_SvStatus : name := Eval vm_compute in u "CIM15.IEC61970.StateVariables.SvStatus.SvStatus".
Definition n_CIM15_IEC61970_StateVariables_SvTapStep_SvTapStep : name := Eval vm_compute in u "CIM15.IEC61970.StateVariables.SvTapStep.SvTapStep".
Definition n_CIM15_IEC61970_StateVariables_SvVoltage_SvVoltage : name := Eval vm_compute in u "CIM15.IEC61970.StateVariables.SvVoltage.SvVoltage".
Definition n_CIM15_IEC61970_StateVariables_TopologicalIsland_TopologicalIsland : name := Eval vm_compute in u "CIM15.IEC61970.StateVariables.TopologicalIsland.TopologicalIsland".
Definition n_CIM15_IEC61970_Topology_BusNameMarker_BusNameMarker : name := Eval vm_compute in u "CIM15.IEC61970.Topology.BusNameMarker.BusNameMarker".
Definition n_CIM15_IEC61970_Topology_TopologicalNode_TopologicalNode : name := Eval vm_compute in u "CIM15.IEC61970.Topology.TopologicalNode.TopologicalNode".
Definition n_CIM15_IEC61970_WiresPhaseModel_ACLineSegmentPhase_ACLineSegmentPhase : name := Eval vm_compute in u "CIM15.IEC61970.WiresPhaseModel.ACLineSegmentPhase.ACLineSegmentPhase".
Definition n_CIM15_IEC61970_WiresPhaseModel_EnergyConsumerPhase_EnergyConsumerPhase : name := Eval vm_compute in u "CIM15.IEC61970.WiresPhaseModel.EnergyConsumerPhase.EnergyConsumerPhase".
Definition n_CIM15_IEC61970_WiresPhaseModel_ShuntCompensatorPhase_ShuntCompensatorPhase : name := Eval vm_compute in u "CIM15.IEC61970.WiresPhaseModel.ShuntCompensatorPhase.ShuntCompensatorPhase".
Definition n_CIM15_IEC61970_WiresPhaseModel_SwitchPhase_SwitchPhase : name := Eval vm_compute in u "CIM15.IEC61970.WiresPhaseModel.SwitchPhase.SwitchPhase".
Definition n_CIM15_IEC61970_Wires_ACLineSegment_ACLineSegment : name := Eval vm_compute in u "CIM15.IEC61970.Wires.ACLineSegment.ACLineSegment".
Definition n_CIM15_IEC61970_Wires_Breaker_Breaker : name := Eval vm_compute in u "CIM15.IEC61970.Wires.Breaker.Breaker".
Definition n_CIM15_IEC61970_Wires_BusbarSection_BusbarSection : name := Eval vm_compute in u "CIM15.IEC61970.Wires.BusbarSection.BusbarSection".
Definition n_CIM15_IEC61970_Wires_CompositeSwitch_CompositeSwitch : name := Eval vm_compute in u "CIM15.IEC61970.Wires.CompositeSwitch.CompositeSwitch".
Definition n_CIM15_IEC61970_Wires_Conductor_Conductor : name := Eval vm_compute in u "CIM15.IEC61970.Wires.Conductor.Conductor".
Definition n_CIM15_IEC61970_Wires_Connector_Connector : name := Eval vm_compute in u "CIM15.IEC61970.Wires.Connector.Connector".
Definition n_CIM15_IEC61970_Wires_CurrentTemperatureCurve_CurrentTemperatureCurve : name := Eval vm_compute in u "CIM15.IEC61970.Wires.CurrentTemperatureCurve.CurrentTemperatureCurve".
Definition n_CIM15_IEC61970_Wires_DCLineSegment_DCLineSegment : name := Eval vm_compute in u "CIM15.IEC61970.Wires.DCLineSegment.DCLineSegment".
Definition n_CIM15_IEC61970_Wires_Disconnector_Disconnector : name := Eval vm_compute in u "CIM15.IEC61970.Wires.Disconnector.Disconnector".
Definition n_CIM15_IEC61970_Wires_EnergyConsumer_EnergyConsumer : name := Eval vm_compute in u "CIM15.IEC61970.Wires.EnergyConsumer.EnergyConsumer".
Definition n_CIM15_IEC61970_Wires_EnergySource_EnergySource : name := Eval vm_compute in u "CIM15.IEC61970.Wires.EnergySource.EnergySource".
Definition n_CIM15_IEC61970_Wires_FrequencyConverter_FrequencyConverter : name := Eval vm_compute in u "CIM15.IEC61970.Wires.FrequencyConverter.FrequencyConverter".
Definition n_CIM15_IEC61970_Wires_Fuse_Fuse : name := Eval vm_compute in u "CIM15.IEC61970.Wires.Fuse.Fuse".
Definition n_CIM15_IEC61970_Wires_GroundDisconnector_GroundDisconnector : name := Eval vm_compute in u "CIM15.IEC61970.Wires.GroundDisconnector.GroundDisconnector".
Definition n_CIM15_IEC61970_Wires_Ground_Ground : name := Eval vm_compute in u "CIM15.IEC61970.Wires.Ground.Ground".
Definition n_CIM15_IEC61970_Wires_Jumper_Jumper : name := Eval vm_compute in u "CIM15.IEC61970.Wires.Jumper.Jumper".
Definition n_CIM15_IEC61970_Wires_Junction_Junction : name := Eval vm_compute in u "CIM15.IEC61970.Wires.Junction.Junction".
Definition n_CIM15_IEC61970_Wires_Line_Line : name := Eval vm_compute in u "CIM15.IEC61970.Wires.Line.Line".
Definition n_CIM15_IEC61970_Wires_LoadBreakSwitch_LoadBreakSwitch : name := Eval vm_compute in u "CIM15.IEC61970.Wires.LoadBreakSwitch.LoadBreakSwitch".
Definition n_CIM15_IEC61970_Wires_MutualCoupling_MutualCoupling : name := Eval vm_compute in u "CIM15.IEC61970.Wires.MutualCoupling.MutualCoupling".
Definition n_CIM15_IEC61970_Wires_PerLengthPhaseImpedance_PerLengthPhaseImpedance : name := Eval vm_compute in u "CIM15.IEC61970.Wires.PerLengthPhaseImpedance.PerLengthPhaseImpedance".
Definition n_CIM15_IEC61970_Wires_PerLengthSequenceImpedance_PerLengthSequenceImpedance : name := Eval vm_compute in u "CIM15.IEC61970.Wires.PerLengthSequenceImpedance.PerLengthSequenceImpedance".
Definition n_CIM15_IEC61970_Wires_PhaseImpedanceData_PhaseImpedanceData : name := Eval vm_compute in u "CIM15.IEC61970.Wires.PhaseImpedanceData.PhaseImpedanceData".
Definition n_CIM15_IEC61970_Wires_PhaseTapChangerAsymetrical_PhaseTapChangerAsymetrical : name := Eval vm_compute in u "CIM15.IEC61970.Wires.PhaseTapChangerAsymetrical.PhaseTapChangerAsymetrical".
Definition n_CIM15_IEC61970_Wires_PhaseTapChangerLinear_PhaseTapChangerLinear : name := Eval vm_compute in u "CIM15.IEC61970.Wires.PhaseTapChangerLinear.PhaseTapChangerLinear".
Definition n_CIM15_IEC61970_Wires_PhaseTapChangerNonLinear_PhaseTapChangerNonLinear : name := Eval vm_compute in u "CIM15.IEC61970.Wires.PhaseTapChangerNonLinear.PhaseTapChangerNonLinear".
Definition n_CIM15_IEC61970_Wires_PhaseTapChangerSymetrical_PhaseTapChangerSymetrical : name := Eval vm_compute in u "CIM15.IEC61970.Wires.PhaseTapChangerSymetrical.PhaseTapChangerSymetrical".
Definition n_CIM15_IEC61970_Wires_PhaseTapChangerTabularPoint_PhaseTapChangerTabularPoint : name := Eval vm_compute in u "CIM15.IEC61970.Wires.PhaseTapChangerTabularPoint.PhaseTapChangerTabularPoint".
Definition n_CIM15_IEC61970_Wires_PhaseTapChangerTabular_PhaseTapChangerTabular : name := Eval vm_compute in u "CIM15.IEC61970.Wires.PhaseTapChangerTabular.PhaseTapChangerTabular".
Definition n_CIM15_IEC61970_Wires_PhaseTapChanger_PhaseTapChanger : name := Eval vm_compute in u "CIM15.IEC61970.Wires.PhaseTapChanger.PhaseTapChanger".
Definition n_CIM15_IEC61970_Wires_Plant_Plant : name := Eval vm_compute in u "CIM15.IEC61970.Wires.Plant.Plant".
Definition n_CIM15_IEC61970_Wires_PowerTransformerEnd_PowerTransformerEnd : name := Eval vm_compute in u "CIM15.IEC61970.Wires.PowerTransformerEnd.PowerTransformerEnd".
Definition n_CIM15_IEC61970_Wires_PowerTransformer_PowerTransformer : name := Eval vm_compute in u "CIM15.IEC61970.Wires.PowerTransformer.PowerTransformer".
Definition n_CIM15_IEC61970_Wires_ProtectedSwitch_ProtectedSwitch : name := Eval vm_compute in u "CIM15.IEC61970.Wires.ProtectedSwitch.ProtectedSwitch".
Definition n_CIM15_IEC61970_Wires_RatioTapChangerTabularPoint_RatioTapChangerTabularPoint : name := Eval vm_compute in u "CIM15.IEC61970.Wires.RatioTapChangerTabularPoint.RatioTapChangerTabularPoint".
Definition n_CIM15_IEC61970_Wires_RatioTapChangerTabular_RatioTapChangerTabular : name := Eval vm_compute in u "CIM15.IEC61970.Wires.RatioTapChangerTabular.RatioTapChangerTabular".
Definition n_CIM15_IEC61970_Wires_RatioTapChanger_RatioTapChanger : name := Eval vm_compute in u "CIM15.IEC61970.Wires.RatioTapChanger.RatioTapChanger".
Definition n_CIM15_IEC61970_Wires_ReactiveCapabilityCurve_ReactiveCapabilityCurve : name := Eval vm_compute in u "CIM15.IEC61970.Wires.ReactiveCapabilityCurve.ReactiveCapabilityCurve".
Definition n_CIM15_IEC61970_Wires_Recloser_Recloser : name := Eval vm_compute in u "CIM15.IEC61970.Wires.Recloser.Recloser".
Definition n_CIM15_IEC61970_Wires_RectifierInverter_RectifierInverter : name := Eval vm_compute in u "CIM15.IEC61970.Wires.RectifierInverter.RectifierInverter".
Definition n_CIM15_IEC61970_Wires_RegulatingCondEq_RegulatingCondEq : name := Eval vm_compute in u "CIM15.IEC61970.Wires.RegulatingCondEq.RegulatingCondEq".
Definition n_CIM15_IEC61970_Wires_RegulatingControl_RegulatingControl : name := Eval vm_compute in u "CIM15.IEC61970.Wires.RegulatingControl.RegulatingControl".
Definition n_CIM15_IEC61970_Wires_RegulationSchedule_RegulationSchedule : name := Eval vm_compute in u "CIM15.IEC61970.Wires.RegulationSchedule.RegulationSchedule".
Definition n_CIM15_IEC61970_Wires_Resistor_Resistor : name := Eval vm_compute in u "CIM15.IEC61970.Wires.Resistor.Resistor".
Definition n_CIM15_IEC61970_Wires_Sectionaliser_Sectionaliser : name := Eval vm_compute in u "CIM15.IEC61970.Wires.Sectionaliser.Sectionaliser".
Definition n_CIM15_IEC61970_Wires_SeriesCompensator_SeriesCompensator : name := Eval vm_compute in u "CIM15.IEC61970.Wires.SeriesCompensator.SeriesCompensator".
Definition n_CIM15_IEC61970_Wires_ShuntCompensator_ShuntCompensator : name := Eval vm_compute in u "CIM15.IEC61970.Wires.ShuntCompensator.ShuntCompensator".
Definition n_CIM15_IEC61970_Wires_StaticVarCompensator_StaticVarCompensator : name := Eval vm_compute in u "CIM15.IEC61970.Wires.StaticVarCompensator.StaticVarCompensator".
Definition n_CIM15_IEC61970_Wires_SwitchSchedule_SwitchSchedule : name := Eval vm_compute in u "CIM15.IEC61970.Wires.SwitchSchedule.SwitchSchedule".
Definition n_CIM15_IEC61970_Wires_Switch_Switch : name := Eval vm_compute in u "CIM15.IEC61970.Wires.Switch.Switch".
Definition n_CIM15_IEC61970_Wires_SynchronousMachine_SynchronousMachine : name := Eval vm_compute in u "CIM15.IEC61970.Wires.SynchronousMachine.SynchronousMachine".
Definition n_CIM15_IEC61970_Wires_TapChangerControl_TapChangerControl : name := Eval vm_compute in u "CIM15.IEC61970.Wires.TapChangerControl.TapChangerControl".
Definition n_CIM15_IEC61970_Wires_TapChanger_TapChanger : name := Eval vm_compute in u "CIM15.IEC61970.Wires.TapChanger.TapChanger".
Definition n_CIM15_IEC61970_Wires_TapSchedule_TapSchedule : name := Eval vm_compute in u "CIM15.IEC61970.Wires.TapSchedule.TapSchedule".
Definition n_CIM15_IEC61970_Wires_TransformerCoreAdmittance_TransformerCoreAdmittance : name := Eval vm_compute in u "CIM15.IEC61970.Wires.TransformerCoreAdmittance.TransformerCoreAdmittance".
Definition n_CIM15_IEC61970_Wires_TransformerEnd_TransformerEnd : name := Eval vm_compute in u "CIM15.IEC61970.Wires.TransformerEnd.TransformerEnd".
Definition n_CIM15_IEC61970_Wires_TransformerMeshImpedance_TransformerMeshImpedance : name := Eval vm_compute in u "CIM15.IEC61970.Wires.TransformerMeshImpedance.TransformerMeshImpedance".
Definition n_CIM15_IEC61970_Wires_TransformerStarImpedance_TransformerStarImpedance : name := Eval vm_compute in u "CIM15.IEC61970.Wires.TransformerStarImpedance.TransformerStarImpedance".
Definition n_CIM15_IEC61970_Wires_TransformerTankEnd_TransformerTankEnd : name := Eval vm_compute in u "CIM15.IEC61970.Wires.TransformerTankEnd.TransformerTankEnd".
Definition n_CIM15_IEC61970_Wires_TransformerTank_TransformerTank : name := Eval vm_compute in u "CIM15.IEC61970.Wires.TransformerTank.TransformerTank".
Definition n_CIM15_IEC61970_Wires_VoltageControlZone_VoltageControlZone : name := Eval vm_compute in u "CIM15.IEC61970.Wires.VoltageControlZone.VoltageControlZone".
Definition n_CIM15_IEC62325_IEC62325CIMVersion_IEC62325CIMVersion : name := Eval vm_compute in u "CIM15.IEC62325.IEC62325CIMVersion.IEC62325CIMVersion".
Definition n_CIM15_IEC62325_MarketParticipant_MarketParticipant : name := Eval vm_compute in u "CIM15.IEC62325.MarketParticipant.MarketParticipant".
Definition n_CIM15_IEC62325_MarketRole_MarketRole : name := Eval vm_compute in u "CIM15.IEC62325.MarketRole.MarketRole".
Definition n_CIM15_PackageDependencies_PackageDependenciesCIMVeresion_PackageDependenciesCIMVeresion : name := Eval vm_compute in u "CIM15.PackageDependencies.PackageDependenciesCIMVeresion.PackageDependenciesCIMVeresion".
Definition n_CIM15_Package_Package : name := Eval vm_compute in u "CIM15.Package.Package".
Definition n_CIM15_Stereotype_Stereotype : name := Eval vm_compute in u "CIM15.Stereotype.Stereotype".
Definition n_CNY : name := Eval vm_compute in u "CNY".
Definition n_CTInfo : name := Eval vm_compute in u "CTInfo".
Definition n_CTTempActivePowerCurve : name := Eval vm_compute in u "CTTempActivePowerCurve".
Definition n_CTs : name := Eval vm_compute in u "CTs".
Definition n_CUAllowableAction : name := Eval vm_compute in u "CUAllowableAction".
Definition n_CUAsset : name := Eval vm_compute in u "CUAsset".
Definition n_CUAssets : name := Eval vm_compute in u "CUAssets".
Definition n_CUContractorItem : name := Eval vm_compute in u "CUContractorItem".
Definition n_CUContractorItems : name := Eval vm_compute in u "CUContractorItems".
Definition n_CUGroup : name := Eval vm_compute in u "CUGroup".
Definition n_CUGroups : name := Eval vm_compute in u "CUGroups".
Definition n_CULaborCode : name := Eval vm_compute in u "CULaborCode".
Definition n_CULaborItem : name := Eval vm_compute in u "CULaborItem".
Definition n_CULaborItems : name := Eval vm_compute in u "CULaborItems".
Definition n_CUMaterialItem : name := Eval vm_compute in u "CUMaterialItem".
Definition n_CUMaterialItems : name := Eval vm_compute in u "CUMaterialItems".
Definition n_CUWorkEquipmentAsset : name := Eval vm_compute in u "CUWorkEquipmentAsset".
Definition n_CUWorkEquipmentItem : name := Eval vm_compute in u "CUWorkEquipmentItem".
Definition n_CUWorkEquipmentItems : name := Eval vm_compute in u "CUWorkEquipmentItems".
Definition n_Cabinet : name := Eval vm_compute in u "Cabinet".
Definition n_CableConstructionKind : name := Eval vm_compute in u "CableConstructionKind".
Definition n_CableInfo : name := Eval vm_compute in u "CableInfo".
Definition n_CableInfos : name := Eval vm_compute in u "CableInfos".
Definition n_CableOuterJacketKind : name := Eval vm_compute in u "CableOuterJacketKind".
Definition n_CableShieldMaterialKind : name := Eval vm_compute in u "CableShieldMaterialKind".
Definition n_CallBack : name := Eval vm_compute in u "CallBack".
Definition n_CallBacks : name := Eval vm_compute in u "CallBacks".
Definition n_Capabilities : name := Eval vm_compute in u "Capabilities".
Definition n_Capability : name := Eval vm_compute in u "Capability".
Definition n_Card : name := Eval vm_compute in u "Card".
Definition n_Cashier : name := Eval vm_compute in u "Cashier".
Definition n_CashierShift : name := Eval vm_compute in u "CashierShift".
Definition n_CashierShifts : name := Eval vm_compute in u "CashierShifts".
Definition n_Cashiers : name := Eval vm_compute in u "Cashiers".
Definition n_ChangeItem : name := Eval vm_compute in u "ChangeItem".
Definition n_ChangeItemKind : name := Eval vm_compute in u "ChangeItemKind".
Definition n_ChangeItems : name := Eval vm_compute in u "ChangeItems".
Definition n_ChangeSet : name := Eval vm_compute in u "ChangeSet".
Definition n_ChangeSets : name := Eval vm_compute in u "ChangeSets".
Definition n_Charge : name := Eval vm_compute in u "Charge".
Definition n_ChargeKind : name := Eval vm_compute in u "ChargeKind".
Definition n_Charges : name := Eval vm_compute in u "Charges".
Definition n_CheckPoint : name := Eval vm_compute in u "CheckPoint".
Definition n_Cheque : name := Eval vm_compute in u "Cheque".
Definition n_ChequeKind : name := Eval vm_compute in u "ChequeKind".
Definition n_ChildCUGroups : name := Eval vm_compute in u "ChildCUGroups".
Definition n_ChildCharges : name := Eval vm_compute in u "ChildCharges".
Definition n_ChildCostTypes : name := Eval vm_compute in u "ChildCostTypes".
Definition n_ChildOrganisation : name := Eval vm_compute in u "ChildOrganisation".
Definition n_ChildOrganisationRoles : name := Eval vm_compute in u "ChildOrganisationRoles".
Definition n_Circuit : name := Eval vm_compute in u "Circuit".
Definition n_CircuitConnectionKind : name := Eval vm_compute in u "CircuitConnectionKind".
Definition n_CircuitSection : name := Eval vm_compute in u "CircuitSection".
Definition n_CircuitSections : name := Eval vm_compute in u "CircuitSections".
Definition n_Circuits : name := Eval vm_compute in u "Circuits".
Definition n_Clamp : name := Eval vm_compute in u "Clamp".
Definition n_Class1 : name := Eval vm_compute in u "Class1".
Definition n_ClearanceTag : name := Eval vm_compute in u "ClearanceTag".
Definition n_ClearanceTagType : name := Eval vm_compute in u "ClearanceTagType".
Definition n_ClearanceTags : name := Eval vm_compute in u "ClearanceTags".
Definition n_CogenerationPlant : name := Eval vm_compute in u "CogenerationPlant".
Definition n_ComEquipment : name := Eval vm_compute in u "ComEquipment".
Definition n_ComFunction : name := Eval vm_compute in u "ComFunction".
Definition n_ComMedia : name := Eval vm_compute in u "ComMedia".
Definition n_ComMediaAsset : name := Eval vm_compute in u "ComMediaAsset".
Definition n_CombinedCyclePlant : name := Eval vm_compute in u "CombinedCyclePlant".
Definition n_CombinedVersion : name := Eval vm_compute in u "CombinedVersion".
Definition n_CombustionTurbine : name := Eval vm_compute in u "CombustionTurbine".
Definition n_CombustionTurbines : name := Eval vm_compute in u "CombustionTurbines".
Definition n_Command : name := Eval vm_compute in u "Command".
Definition n_Commands : name := Eval vm_compute in u "Commands".
Definition n_CommonLocation : name := Eval vm_compute in u "CommonLocation".
Definition n_CommunicationLink : name := Eval vm_compute in u "CommunicationLink".
Definition n_CommunicationLinks : name := Eval vm_compute in u "CommunicationLinks".
Definition n_CompatibleUnit : name := Eval vm_compute in u "CompatibleUnit".
Definition n_CompatibleUnits : name := Eval vm_compute in u "CompatibleUnits".
Definition n_ComplianceEvent : name := Eval vm_compute in u "ComplianceEvent".
Definition n_ComponentErpInvoiceLineItems : name := Eval vm_compute in u "ComponentErpInvoiceLineItems".
Definition n_CompositeModel : name := Eval vm_compute in u "CompositeModel".
Definition n_CompositeSwitch : name := Eval vm_compute in u "CompositeSwitch".
Definition n_CompositeSwitchInfo : name := Eval vm_compute in u "CompositeSwitchInfo".
Definition n_CompositeSwitchKind : name := Eval vm_compute in u "CompositeSwitchKind".
Definition n_ConcentricNeutralCableInfo : name := Eval vm_compute in u "ConcentricNeutralCableInfo".
Definition n_ConcentricNeutralCableInfos : name := Eval vm_compute in u "ConcentricNeutralCableInfos".
Definition n_ConditionFactor : name := Eval vm_compute in u "ConditionFactor".
Definition n_ConditionFactorKind : name := Eval vm_compute in u "ConditionFactorKind".
Definition n_ConditionFactors : name := Eval vm_compute in u "ConditionFactors".
Definition n_ConductingEquipment : name := Eval vm_compute in u "ConductingEquipment".
Definition n_ConductingEquipmentRoles : name := Eval vm_compute in u "ConductingEquipmentRoles".
Definition n_ConductingEquipments : name := Eval vm_compute in u "ConductingEquipments".
Definition n_Conductor : name := Eval vm_compute in u "Conductor".
Definition n_ConductorAsset : name := Eval vm_compute in u "ConductorAsset".
Definition n_ConductorAssets : name := Eval vm_compute in u "ConductorAssets".
Definition n_ConductorInfo : name := Eval vm_compute in u "ConductorInfo".
Definition n_ConductorInsulationKind : name := Eval vm_compute in u "ConductorInsulationKind".
Definition n_ConductorMaterialKind : name := Eval vm_compute in u "ConductorMaterialKind".
Definition n_ConductorSegment : name := Eval vm_compute in u "ConductorSegment".
Definition n_ConductorSegments : name := Eval vm_compute in u "ConductorSegments".
Definition n_ConductorUsageKind : name := Eval vm_compute in u "ConductorUsageKind".
Definition n_ConformLoad : name := Eval vm_compute in u "ConformLoad".
Definition n_ConformLoadGroup : name := Eval vm_compute in u "ConformLoadGroup".
Definition n_ConformLoadSchedule : name := Eval vm_compute in u "ConformLoadSchedule".
Definition n_ConformLoadSchedules : name := Eval vm_compute in u "ConformLoadSchedules".
Definition n_ConnectDisconnectFunction : name := Eval vm_compute in u "ConnectDisconnectFunction".
Definition n_ConnectDisconnectFunctions : name := Eval vm_compute in u "ConnectDisconnectFunctions".
Definition n_ConnectionFrame : name := Eval vm_compute in u "ConnectionFrame".
Definition n_Connections : name := Eval vm_compute in u "Connections".
Definition n_ConnectivityNode : name := Eval vm_compute in u "ConnectivityNode".
Definition n_ConnectivityNodeContainer : name := Eval vm_compute in u "ConnectivityNodeContainer".
Definition n_ConnectivityNodes : name := Eval vm_compute in u "ConnectivityNodes".
Definition n_Connector : name := Eval vm_compute in u "Connector".
Definition n_ConsumptionTariffInterval : name := Eval vm_compute in u "ConsumptionTariffInterval".
Definition n_ConsumptionTariffIntervals : name := Eval vm_compute in u "ConsumptionTariffIntervals".
Definition n_ContainerErpInvoiceLineItem : name := Eval vm_compute in u "ContainerErpInvoiceLineItem".
Definition n_Contingency : name := Eval vm_compute in u "Contingency".
Definition n_ContingencyContingencyEquipment : name := Eval vm_compute in u "ContingencyContingencyEquipment".
Definition n_ContingencyElement : name := Eval vm_compute in u "ContingencyElement".
Definition n_ContingencyEquipment : name := Eval vm_compute in u "ContingencyEquipment".
Definition n_ContingencyEquipmentStatusKind : name := Eval vm_compute in u "ContingencyEquipmentStatusKind".
Definition n_ContractorItem : name := Eval vm_compute in u "ContractorItem".
Definition n_ContractorItems : name := Eval vm_compute in u "ContractorItems".
Definition n_Control : name := Eval vm_compute in u "Control".
Definition n_ControlArea : name := Eval vm_compute in u "ControlArea".
Definition n_ControlAreaGeneratingUnit : name := Eval vm_compute in u "ControlAreaGeneratingUnit".
Definition n_ControlAreaTypeKind : name := Eval vm_compute in u "ControlAreaTypeKind".
Definition n_ControlType : name := Eval vm_compute in u "ControlType".
Definition n_Controls : name := Eval vm_compute in u "Controls".
Definition n_CoolantType : name := Eval vm_compute in u "CoolantType".
Definition n_CoolingKind : name := Eval vm_compute in u "CoolingKind".
Definition n_CoordinateSystem : name := Eval vm_compute in u "CoordinateSystem".
Definition n_CoordinateSystems : name := Eval vm_compute in u "CoordinateSystems".
Definition n_CoreAdmittance : name := Eval vm_compute in u "CoreAdmittance".
Definition n_CoreBaseVoltage : name := Eval vm_compute in u "CoreBaseVoltage".
Definition n_CoreConductingEquipment : name := Eval vm_compute in u "CoreConductingEquipment".
Definition n_CoreEquipment : name := Eval vm_compute in u "CoreEquipment".
Definition n_CoreEquipmentContainer : name := Eval vm_compute in u "CoreEquipmentContainer".
Definition n_CoreIdentifiedObject : name := Eval vm_compute in u "CoreIdentifiedObject".
Definition n_CoreOperatingShare : name := Eval vm_compute in u "CoreOperatingShare".
Definition n_CorePSRType : name := Eval vm_compute in u "CorePSRType".
Definition n_CorePhaseCode : name := Eval vm_compute in u "CorePhaseCode".
Definition n_CorePowerSystemResource : name := Eval vm_compute in u "CorePowerSystemResource".
Definition n_CorePsrList : name := Eval vm_compute in u "CorePsrList".
Definition n_CoreReportingGroup : name := Eval vm_compute in u "CoreReportingGroup".
Definition n_CoreTerminal : name := Eval vm_compute in u "CoreTerminal".
Definition n_CorporateStandardKind : name := Eval vm_compute in u "CorporateStandardKind".
Definition n_CostType : name := Eval vm_compute in u "CostType".
Definition n_CostTypes : name := Eval vm_compute in u "CostTypes".
Definition n_Craft : name := Eval vm_compute in u "Craft".
Definition n_Crafts : name := Eval vm_compute in u "Crafts".
Definition n_Crew : name := Eval vm_compute in u "Crew".
Definition n_CrewMembers : name := Eval vm_compute in u "CrewMembers".
Definition n_Crews : name := Eval vm_compute in u "Crews".
Definition n_Currency : name := Eval vm_compute in u "Currency".
Definition n_CurrentLimit : name := Eval vm_compute in u "CurrentLimit".
Definition n_CurrentLimitSet : name := Eval vm_compute in u "CurrentLimitSet".
Definition n_CurrentLimits : name := Eval vm_compute in u "CurrentLimits".
Definition n_CurrentRelay : name := Eval vm_compute in u "CurrentRelay".
Definition n_CurrentTemperatureCurve : name := Eval vm_compute in u "CurrentTemperatureCurve".
Definition n_CurrentTemperatureCurves : name := Eval vm_compute in u "CurrentTemperatureCurves".
Definition n_CurrentTransformer : name := Eval vm_compute in u "CurrentTransformer".
Definition n_CurrentTransformerInfo : name := Eval vm_compute in u "CurrentTransformerInfo".
Definition n_Curve : name := Eval vm_compute in u "Curve".
Definition n_CurveData : name := Eval vm_compute in u "CurveData".
Definition n_CurveDatas : name := Eval vm_compute in u "CurveDatas".
Definition n_CurveStyle : name := Eval vm_compute in u "CurveStyle".
Definition n_Customer : name := Eval vm_compute in u "Customer".
Definition n_CustomerAccount : name := Eval vm_compute in u "CustomerAccount".
Definition n_CustomerAgreement : name := Eval vm_compute in u "CustomerAgreement".
Definition n_CustomerAgreements : name := Eval vm_compute in u "CustomerAgreements".
Definition n_CustomerBillingInfo : name := Eval vm_compute in u "CustomerBillingInfo".
Definition n_CustomerBillingInfos : name := Eval vm_compute in u "CustomerBillingInfos".
Definition n_CustomerBillingKind : name := Eval vm_compute in u "CustomerBillingKind".
Definition n_CustomerData : name := Eval vm_compute in u "CustomerData".
Definition n_CustomerDatas : name := Eval vm_compute in u "CustomerDatas".
Definition n_CustomerKind : name := Eval vm_compute in u "CustomerKind".
Definition n_Customers : name := Eval vm_compute in u "Customers".
Definition n_CustomersCustomerAgreement : name := Eval vm_compute in u "CustomersCustomerAgreement".
Definition n_Cut : name := Eval vm_compute in u "Cut".
Definition n_DCLineSegment : name := Eval vm_compute in u "DCLineSegment".
Definition n_DateTimeInterval : name := Eval vm_compute in u "DateTimeInterval".
Definition n_DayType : name := Eval vm_compute in u "DayType".
Definition n_DemandKind : name := Eval vm_compute in u "DemandKind".
Definition n_DemandResponseProgram : name := Eval vm_compute in u "DemandResponseProgram".
Definition n_DemographicKind : name := Eval vm_compute in u "DemographicKind".
Definition n_Design : name := Eval vm_compute in u "Design".
Definition n_DesignKind : name := Eval vm_compute in u "DesignKind".
Definition n_DesignLocation : name := Eval vm_compute in u "DesignLocation".
Definition n_DesignLocationCU : name := Eval vm_compute in u "DesignLocationCU".
Definition n_DesignLocationCUs : name := Eval vm_compute in u "DesignLocationCUs".
Definition n_DesignLocations : name := Eval vm_compute in u "DesignLocations".
Definition n_DesignLocationsCUs : name := Eval vm_compute in u "DesignLocationsCUs".
Definition n_Designs : name := Eval vm_compute in u "Designs".
Definition n_DeviceFunction : name := Eval vm_compute in u "DeviceFunction".
Definition n_DeviceFunctions : name := Eval vm_compute in u "DeviceFunctions".
Definition n_DiagnosisDataSet : name := Eval vm_compute in u "DiagnosisDataSet".
Definition n_Diagram : name := Eval vm_compute in u "Diagram".
Definition n_DiagramKind : name := Eval vm_compute in u "DiagramKind".
Definition n_DiagramObject : name := Eval vm_compute in u "DiagramObject".
Definition n_DiagramObjectGluePoint : name := Eval vm_compute in u "DiagramObjectGluePoint".
Definition n_DiagramObjectPoint : name := Eval vm_compute in u "DiagramObjectPoint".
Definition n_DiagramObjectPoints : name := Eval vm_compute in u "DiagramObjectPoints".
Definition n_DiagramObjectStyle : name := Eval vm_compute in u "DiagramObjectStyle".
Definition n_DiagramObjects : name := Eval vm_compute in u "DiagramObjects".
Definition n_Diagrams : name := Eval vm_compute in u "Diagrams".
Definition n_DimensionsInfo : name := Eval vm_compute in u "DimensionsInfo".
Definition n_DimensionsInfos : name := Eval vm_compute in u "DimensionsInfos".
Definition n_Direction : name := Eval vm_compute in u "Direction".
Definition n_Directions : name := Eval vm_compute in u "Directions".
Definition n_Disconnector : name := Eval vm_compute in u "Disconnector".
Definition n_Discrete : name := Eval vm_compute in u "Discrete".
Definition n_DiscreteValue : name := Eval vm_compute in u "DiscreteValue".
Definition n_DiscreteValues : name := Eval vm_compute in u "DiscreteValues".
Definition n_Discretes : name := Eval vm_compute in u "Discretes".
Definition n_DistributionLineSegment : name := Eval vm_compute in u "DistributionLineSegment".
Definition n_DistributionTapChanger : name := Eval vm_compute in u "DistributionTapChanger".
Definition n_DistributionTransformer : name := Eval vm_compute in u "DistributionTransformer".
Definition n_DistributionTransformerWinding : name := Eval vm_compute in u "DistributionTransformerWinding".
Definition n_DistributionWindingTest : name := Eval vm_compute in u "DistributionWindingTest".
Definition n_DocAssetRole : name := Eval vm_compute in u "DocAssetRole".
Definition n_DocDocRole : name := Eval vm_compute in u "DocDocRole".
Definition n_DocErpPersonRole : name := Eval vm_compute in u "DocErpPersonRole".
Definition n_DocOrgRole : name := Eval vm_compute in u "DocOrgRole".
Definition n_DocPsrRole : name := Eval vm_compute in u "DocPsrRole".
Definition n_Document : name := Eval vm_compute in u "Document".
Definition n_DocumentRoles : name := Eval vm_compute in u "DocumentRoles".
Definition n_Documents : name := Eval vm_compute in u "Documents".
Definition n_DrumBoiler : name := Eval vm_compute in u "DrumBoiler".
Definition n_Duct : name := Eval vm_compute in u "Duct".
Definition n_DuctBank : name := Eval vm_compute in u "DuctBank".
Definition n_DuctBankInfo : name := Eval vm_compute in u "DuctBankInfo".
Definition n_DuctInfos : name := Eval vm_compute in u "DuctInfos".
Definition n_Due : name := Eval vm_compute in u "Due".
Definition n_DynamicDemand : name := Eval vm_compute in u "DynamicDemand".
Definition n_DynamicsAsynchronousMachine : name := Eval vm_compute in u "DynamicsAsynchronousMachine".
Definition n_DynamicsAttributeBlockParameter : name := Eval vm_compute in u "DynamicsAttributeBlockParameter".
Definition n_DynamicsBlock : name := Eval vm_compute in u "DynamicsBlock".
Definition n_DynamicsBlockConnection : name := Eval vm_compute in u "DynamicsBlockConnection".
Definition n_DynamicsBlockConnectivity : name := Eval vm_compute in u "DynamicsBlockConnectivity".
Definition n_DynamicsBlockKind : name := Eval vm_compute in u "DynamicsBlockKind".
Definition n_DynamicsBlockParameter : name := Eval vm_compute in u "DynamicsBlockParameter".
Definition n_DynamicsMetaBlock : name := Eval vm_compute in u "DynamicsMetaBlock".
Definition n_DynamicsMetaBlockConInput : name := Eval vm_compute in u "DynamicsMetaBlockConInput".
Definition n_DynamicsMetaBlockConOutput : name := Eval vm_compute in u "DynamicsMetaBlockConOutput".
Definition n_DynamicsMetaBlockConSignal : name := Eval vm_compute in u "DynamicsMetaBlockConSignal".
Definition n_DynamicsMetaBlockConnectable : name := Eval vm_compute in u "DynamicsMetaBlockConnectable".
Definition n_DynamicsMetaBlockConnection : name := Eval vm_compute in u "DynamicsMetaBlockConnection".
Definition n_DynamicsMetaBlockConnectivity : name := Eval vm_compute in u "DynamicsMetaBlockConnectivity".
Definition n_DynamicsMetaBlockInput : name := Eval vm_compute in u "DynamicsMetaBlockInput".
Definition n_DynamicsMetaBlockInputReference : name := Eval vm_compute in u "DynamicsMetaBlockInputReference".
Definition n_DynamicsMetaBlockOutput : name := Eval vm_compute in u "DynamicsMetaBlockOutput".
Definition n_DynamicsMetaBlockOutputReference : name := Eval vm_compute in u "DynamicsMetaBlockOutputReference".
Definition n_DynamicsMetaBlockParameter : name := Eval vm_compute in u "DynamicsMetaBlockParameter".
Definition n_DynamicsMetaBlockParameterReference : name := Eval vm_compute in u "DynamicsMetaBlockParameterReference".
Definition n_DynamicsMetaBlockReference : name := Eval vm_compute in u "DynamicsMetaBlockReference".
Definition n_DynamicsMetaBlockSignal : name := Eval vm_compute in u "DynamicsMetaBlockSignal".
Definition n_DynamicsMetaBlockState : name := Eval vm_compute in u "DynamicsMetaBlockState".
Definition n_DynamicsMetaBlockStateReference : name := Eval vm_compute in u "DynamicsMetaBlockStateReference".
Definition n_DynamicsRotatingMachine : name := Eval vm_compute in u "DynamicsRotatingMachine".
Definition n_EAID_4B45E775_795A_4030_865F_0AB320000DDD_B : name := Eval vm_compute in u "EAID_4B45E775_795A_4030_865F_0AB320000DDD-B".
Definition n_ElectricMeteringFunction : name := Eval vm_compute in u "ElectricMeteringFunction".
Definition n_ElectricalAssets : name := Eval vm_compute in u "ElectricalAssets".
Definition n_ElectricalInfo : name := Eval vm_compute in u "ElectricalInfo".
Definition n_ElectronicAddress : name := Eval vm_compute in u "ElectronicAddress".
Definition n_Element : name := Eval vm_compute in u "Element".
Definition n_EmissionAccount : name := Eval vm_compute in u "EmissionAccount".
Definition n_EmissionCurve : name := Eval vm_compute in u "EmissionCurve".
Definition n_EmissionCurves : name := Eval vm_compute in u "EmissionCurves".
Definition n_EmissionType : name := Eval vm_compute in u "EmissionType".
Definition n_EmissionValueSource : name := Eval vm_compute in u "EmissionValueSource".
Definition n_EmmissionAccounts : name := Eval vm_compute in u "EmmissionAccounts".
Definition n_EndDevice : name := Eval vm_compute in u "EndDevice".
Definition n_EndDeviceAsset : name := Eval vm_compute in u "EndDeviceAsset".
Definition n_EndDeviceAssets : name := Eval vm_compute in u "EndDeviceAssets".
Definition n_EndDeviceControl : name := Eval vm_compute in u "EndDeviceControl".
Definition n_EndDeviceControls : name := Eval vm_compute in u "EndDeviceControls".
Definition n_EndDeviceEvent : name := Eval vm_compute in u "EndDeviceEvent".
Definition n_EndDeviceEvents : name := Eval vm_compute in u "EndDeviceEvents".
Definition n_EndDeviceFunction : name := Eval vm_compute in u "EndDeviceFunction".
Definition n_EndDeviceFunctionKind : name := Eval vm_compute in u "EndDeviceFunctionKind".
Definition n_EndDeviceFunctions : name := Eval vm_compute in u "EndDeviceFunctions".
Definition n_EndDeviceGroup : name := Eval vm_compute in u "EndDeviceGroup".
Definition n_EndDeviceGroups : name := Eval vm_compute in u "EndDeviceGroups".
Definition n_EndDeviceInfo : name := Eval vm_compute in u "EndDeviceInfo".
Definition n_EndDeviceModel : name := Eval vm_compute in u "EndDeviceModel".
Definition n_EndDevices : name := Eval vm_compute in u "EndDevices".
Definition n_EnergisedEnd : name := Eval vm_compute in u "EnergisedEnd".
Definition n_EnergisedEndNoLoadTest : name := Eval vm_compute in u "EnergisedEndNoLoadTest".
Definition n_EnergisedEndOpenCircuitTests : name := Eval vm_compute in u "EnergisedEndOpenCircuitTests".
Definition n_EnergisedEndShortCircuitTests : name := Eval vm_compute in u "EnergisedEndShortCircuitTests".
Definition n_EnergyArea : name := Eval vm_compute in u "EnergyArea".
Definition n_EnergyConsumer : name := Eval vm_compute in u "EnergyConsumer".
Definition n_EnergyConsumerPhase : name := Eval vm_compute in u "EnergyConsumerPhase".
Definition n_EnergyConsumerPhases : name := Eval vm_compute in u "EnergyConsumerPhases".
Definition n_EnergyConsumers : name := Eval vm_compute in u "EnergyConsumers".
Definition n_EnergySource : name := Eval vm_compute in u "EnergySource".
Definition n_Equipment : name := Eval vm_compute in u "Equipment".
Definition n_EquipmentContainer : name := Eval vm_compute in u "EquipmentContainer".
Definition n_EquipmentItem : name := Eval vm_compute in u "EquipmentItem".
Definition n_EquipmentItems : name := Eval vm_compute in u "EquipmentItems".
Definition n_Equipments : name := Eval vm_compute in u "Equipments".
Definition n_EquivalentBranch : name := Eval vm_compute in u "EquivalentBranch".
Definition n_EquivalentEquipment : name := Eval vm_compute in u "EquivalentEquipment".
Definition n_EquivalentEquipments : name := Eval vm_compute in u "EquivalentEquipments".
Definition n_EquivalentInjection : name := Eval vm_compute in u "EquivalentInjection".
Definition n_EquivalentNetwork : name := Eval vm_compute in u "EquivalentNetwork".
Definition n_EquivalentShunt : name := Eval vm_compute in u "EquivalentShunt".
Definition n_ErpAccountKind : name := Eval vm_compute in u "ErpAccountKind".
Definition n_ErpBOM : name := Eval vm_compute in u "ErpBOM".
Definition n_ErpBOMs : name := Eval vm_compute in u "ErpBOMs".
Definition n_ErpBankAccount : name := Eval vm_compute in u "ErpBankAccount".
Definition n_ErpBomItemData : name := Eval vm_compute in u "ErpBomItemData".
Definition n_ErpBomItemDatas : name := Eval vm_compute in u "ErpBomItemDatas".
Definition n_ErpChartOfAccounts : name := Eval vm_compute in u "ErpChartOfAccounts".
Definition n_ErpCompetency : name := Eval vm_compute in u "ErpCompetency".
Definition n_ErpEngChangeOrder : name := Eval vm_compute in u "ErpEngChangeOrder".
Definition n_ErpInventory : name := Eval vm_compute in u "ErpInventory".
Definition n_ErpInventoryCount : name := Eval vm_compute in u "ErpInventoryCount".
Definition n_ErpInventoryCounts : name := Eval vm_compute in u "ErpInventoryCounts".
Definition n_ErpInventoryIssues : name := Eval vm_compute in u "ErpInventoryIssues".
Definition n_ErpInvoice : name := Eval vm_compute in u "ErpInvoice".
Definition n_ErpInvoiceKind : name := Eval vm_compute in u "ErpInvoiceKind".
Definition n_ErpInvoiceLineItem : name := Eval vm_compute in u "ErpInvoiceLineItem".
Definition n_ErpInvoiceLineItemKind : name := Eval vm_compute in u "ErpInvoiceLineItemKind".
Definition n_ErpInvoiceLineItems : name := Eval vm_compute in u "ErpInvoiceLineItems".
Definition n_ErpInvoicees : name := Eval vm_compute in u "ErpInvoicees".
Definition n_ErpIssueInventories : name := Eval vm_compute in u "ErpIssueInventories".
Definition n_ErpIssueInventory : name := Eval vm_compute in u "ErpIssueInventory".
Definition n_ErpItemMaster : name := Eval vm_compute in u "ErpItemMaster".
Definition n_ErpJounalEntry : name := Eval vm_compute in u "ErpJounalEntry".
Definition n_ErpJournal : name := Eval vm_compute in u "ErpJournal".
Definition n_ErpJournalEntries : name := Eval vm_compute in u "ErpJournalEntries".
Definition n_ErpJournalEntry : name := Eval vm_compute in u "ErpJournalEntry".
Definition n_ErpLedBudLineItem : name := Eval vm_compute in u "ErpLedBudLineItem".
Definition n_ErpLedBudLineItems : name := Eval vm_compute in u "ErpLedBudLineItems".
Definition n_ErpLedger : name := Eval vm_compute in u "ErpLedger".
Definition n_ErpLedgerBudget : name := Eval vm_compute in u "ErpLedgerBudget".
Definition n_ErpLedgerEntries : name := Eval vm_compute in u "ErpLedgerEntries".
Definition n_ErpLedgerEntry : name := Eval vm_compute in u "ErpLedgerEntry".
Definition n_ErpLineItems : name := Eval vm_compute in u "ErpLineItems".
Definition n_ErpOrganisation : name := Eval vm_compute in u "ErpOrganisation".
Definition n_ErpOrganisationRoles : name := Eval vm_compute in u "ErpOrganisationRoles".
Definition n_ErpOrganisations : name := Eval vm_compute in u "ErpOrganisations".
Definition n_ErpPOLineItem : name := Eval vm_compute in u "ErpPOLineItem".
Definition n_ErpPOLineItems : name := Eval vm_compute in u "ErpPOLineItems".
Definition n_ErpPayable : name := Eval vm_compute in u "ErpPayable".
Definition n_ErpPayableLineItem : name := Eval vm_compute in u "ErpPayableLineItem".
Definition n_ErpPayableLineItems : name := Eval vm_compute in u "ErpPayableLineItems".
Definition n_ErpPayables : name := Eval vm_compute in u "ErpPayables".
Definition n_ErpPayment : name := Eval vm_compute in u "ErpPayment".
Definition n_ErpPayments : name := Eval vm_compute in u "ErpPayments".
Definition n_ErpPerson : name := Eval vm_compute in u "ErpPerson".
Definition n_ErpPersonRole : name := Eval vm_compute in u "ErpPersonRole".
Definition n_ErpPersonRoles : name := Eval vm_compute in u "ErpPersonRoles".
Definition n_ErpPersonScheduleStepRole : name := Eval vm_compute in u "ErpPersonScheduleStepRole".
Definition n_ErpPersonnel : name := Eval vm_compute in u "ErpPersonnel".
Definition n_ErpPersons : name := Eval vm_compute in u "ErpPersons".
Definition n_ErpProjectAccounting : name := Eval vm_compute in u "ErpProjectAccounting".
Definition n_ErpPurchaseOrder : name := Eval vm_compute in u "ErpPurchaseOrder".
Definition n_ErpQuote : name := Eval vm_compute in u "ErpQuote".
Definition n_ErpQuoteLineItem : name := Eval vm_compute in u "ErpQuoteLineItem".
Definition n_ErpQuoteLineItems : name := Eval vm_compute in u "ErpQuoteLineItems".
Definition n_ErpRecDelLineItem : name := Eval vm_compute in u "ErpRecDelLineItem".
Definition n_ErpRecDeliveryItems : name := Eval vm_compute in u "ErpRecDeliveryItems".
Definition n_ErpRecDelvLineItem : name := Eval vm_compute in u "ErpRecDelvLineItem".
Definition n_ErpRecDelvLineItems : name := Eval vm_compute in u "ErpRecDelvLineItems".
Definition n_ErpRecLineItem : name := Eval vm_compute in u "ErpRecLineItem".
Definition n_ErpRecLineItems : name := Eval vm_compute in u "ErpRecLineItems".
Definition n_ErpReceivable : name := Eval vm_compute in u "ErpReceivable".
Definition n_ErpReceiveDelivery : name := Eval vm_compute in u "ErpReceiveDelivery".
Definition n_ErpReqLineItem : name := Eval vm_compute in u "ErpReqLineItem".
Definition n_ErpReqLineItems : name := Eval vm_compute in u "ErpReqLineItems".
Definition n_ErpRequisition : name := Eval vm_compute in u "ErpRequisition".
Definition n_ErpSalesOrder : name := Eval vm_compute in u "ErpSalesOrder".
Definition n_ErpSiteLevelData : name := Eval vm_compute in u "ErpSiteLevelData".
Definition n_ErpSiteLevelDatas : name := Eval vm_compute in u "ErpSiteLevelDatas".
Definition n_ErpTimeEntries : name := Eval vm_compute in u "ErpTimeEntries".
Definition n_ErpTimeEntry : name := Eval vm_compute in u "ErpTimeEntry".
Definition n_ErpTimeSheet : name := Eval vm_compute in u "ErpTimeSheet".
Definition n_ExcAC1A : name := Eval vm_compute in u "ExcAC1A".
Definition n_ExcAC2A : name := Eval vm_compute in u "ExcAC2A".
Definition n_ExcAC3A : name := Eval vm_compute in u "ExcAC3A".
Definition n_ExcAC4A : name := Eval vm_compute in u "ExcAC4A".
Definition n_ExcAC5A : name := Eval vm_compute in u "ExcAC5A".
Definition n_ExcAC6A : name := Eval vm_compute in u "ExcAC6A".
Definition n_ExcAC7B : name := Eval vm_compute in u "ExcAC7B".
Definition n_ExcAC8B : name := Eval vm_compute in u "ExcAC8B".
Definition n_ExcBAS : name := Eval vm_compute in u "ExcBAS".
Definition n_ExcBBC : name := Eval vm_compute in u "ExcBBC".
Definition n_ExcCZ : name := Eval vm_compute in u "ExcCZ".
Definition n_ExcDC1A : name := Eval vm_compute in u "ExcDC1A".
Definition n_ExcDC2A : name := Eval vm_compute in u "ExcDC2A".
Definition n_ExcDC3A : name := Eval vm_compute in u "ExcDC3A".
Definition n_ExcDC4B : name := Eval vm_compute in u "ExcDC4B".
Definition n_ExcELIN1 : name := Eval vm_compute in u "ExcELIN1".
Definition n_ExcELIN2 : name := Eval vm_compute in u "ExcELIN2".
Definition n_ExcHU : name := Eval vm_compute in u "ExcHU".
Definition n_ExcPIC : name := Eval vm_compute in u "ExcPIC".
Definition n_ExcREXS : name := Eval vm_compute in u "ExcREXS".
Definition n_ExcSCRX : name := Eval vm_compute in u "ExcSCRX".
Definition n_ExcSEXS : name := Eval vm_compute in u "ExcSEXS".
Definition n_ExcSK : name := Eval vm_compute in u "ExcSK".
Definition n_ExcSK2 : name := Eval vm_compute in u "ExcSK2".
Definition n_ExcST1A : name := Eval vm_compute in u "ExcST1A".
Definition n_ExcST2A : name := Eval vm_compute in u "ExcST2A".
Definition n_ExcST3A : name := Eval vm_compute in u "ExcST3A".
Definition n_ExcST4B : name := Eval vm_compute in u "ExcST4B".
Definition n_ExcST5B : name := Eval vm_compute in u "ExcST5B".
Definition n_ExcST6B : name := Eval vm_compute in u "ExcST6B".
Definition n_ExcST7B : name := Eval vm_compute in u "ExcST7B".
Definition n_ExcWT2E : name := Eval vm_compute in u "ExcWT2E".
Definition n_ExcWT3E : name := Eval vm_compute in u "ExcWT3E".
Definition n_ExcWT4E : name := Eval vm_compute in u "ExcWT4E".
Definition n_ExcitationSystem : name := Eval vm_compute in u "ExcitationSystem".
Definition n_ExcitationSystemLimiter : name := Eval vm_compute in u "ExcitationSystemLimiter".
Definition n_ExcitationSystemsExcAC1A : name := Eval vm_compute in u "ExcitationSystemsExcAC1A".
Definition n_ExcitationSystemsExcAC2A : name := Eval vm_compute in u "ExcitationSystemsExcAC2A".
Definition n_ExcitationSystemsExcAC3A : name := Eval vm_compute in u "ExcitationSystemsExcAC3A".
Definition n_ExcitationSystemsExcAC4A : name := Eval vm_compute in u "ExcitationSystemsExcAC4A".
Definition n_ExcitationSystemsExcAC5A : name := Eval vm_compute in u "ExcitationSystemsExcAC5A".
Definition n_ExcitationSystemsExcAC6A : name := Eval vm_compute in u "ExcitationSystemsExcAC6A".
Definition n_ExcitationSystemsExcAC7B : name := Eval vm_compute in u "ExcitationSystemsExcAC7B".
Definition n_ExcitationSystemsExcAC8B : name := Eval vm_compute in u "ExcitationSystemsExcAC8B".
Definition n_ExcitationSystemsExcDC1A : name := Eval vm_compute in u "ExcitationSystemsExcDC1A".
Definition n_ExcitationSystemsExcDC2A : name := Eval vm_compute in u "ExcitationSystemsExcDC2A".
Definition n_ExcitationSystemsExcDC3A : name := Eval vm_compute in u "ExcitationSystemsExcDC3A".
Definition n_ExcitationSystemsExcDC4B : name := Eval vm_compute in u "ExcitationSystemsExcDC4B".
Definition n_ExcitationSystemsExcSCRX : name := Eval vm_compute in u "ExcitationSystemsExcSCRX".
Definition n_ExcitationSystemsExcSEXS : name := Eval vm_compute in u "ExcitationSystemsExcSEXS".
Definition n_ExcitationSystemsExcST1A : name := Eval vm_compute in u "ExcitationSystemsExcST1A".
Definition n_ExcitationSystemsExcST2A : name := Eval vm_compute in u "ExcitationSystemsExcST2A".
Definition n_ExcitationSystemsExcST3A : name := Eval vm_compute in u "ExcitationSystemsExcST3A".
Definition n_ExcitationSystemsExcST4B : name := Eval vm_compute in u "ExcitationSystemsExcST4B".
Definition n_ExcitationSystemsExcST5B : name := Eval vm_compute in u "ExcitationSystemsExcST5B".
Definition n_ExcitationSystemsExcST6B : name := Eval vm_compute in u "ExcitationSystemsExcST6B".
Definition n_ExcitationSystemsExcST7B : name := Eval vm_compute in u "ExcitationSystemsExcST7B".
Definition n_ExternalCustomerAgreement : name := Eval vm_compute in u "ExternalCustomerAgreement".
Definition n_FACTSDevice : name := Eval vm_compute in u "FACTSDevice".
Definition n_FACTSDeviceKind : name := Eval vm_compute in u "FACTSDeviceKind".
Definition n_Facility : name := Eval vm_compute in u "Facility".
Definition n_FailureEvent : name := Eval vm_compute in u "FailureEvent".
Definition n_FailureIsolationMethodKind : name := Eval vm_compute in u "FailureIsolationMethodKind".
Definition n_FaultIndicator : name := Eval vm_compute in u "FaultIndicator".
Definition n_FaultIndicatorInfo : name := Eval vm_compute in u "FaultIndicatorInfo".
Definition n_FaultIndicatorResetKind : name := Eval vm_compute in u "FaultIndicatorResetKind".
Definition n_FaultIndicators : name := Eval vm_compute in u "FaultIndicators".
Definition n_FinancialInfo : name := Eval vm_compute in u "FinancialInfo".
Definition n_First_Terminal : name := Eval vm_compute in u "First_Terminal".
Definition n_ForInspectionDataSet : name := Eval vm_compute in u "ForInspectionDataSet".
Definition n_Forecast : name := Eval vm_compute in u "Forecast".
Definition n_FossilFuel : name := Eval vm_compute in u "FossilFuel".
Definition n_FossilFuels : name := Eval vm_compute in u "FossilFuels".
Definition n_FossilSteamSupply : name := Eval vm_compute in u "FossilSteamSupply".
Definition n_FrequencyConverter : name := Eval vm_compute in u "FrequencyConverter".
Definition n_From : name := Eval vm_compute in u "From".
Definition n_FromAsset : name := Eval vm_compute in u "FromAsset".
Definition n_FromAssetRoles : name := Eval vm_compute in u "FromAssetRoles".
Definition n_FromDocument : name := Eval vm_compute in u "FromDocument".
Definition n_FromDocumentRoles : name := Eval vm_compute in u "FromDocumentRoles".
Definition n_FromMeshImpedance : name := Eval vm_compute in u "FromMeshImpedance".
Definition n_FromTransformerEnd : name := Eval vm_compute in u "FromTransformerEnd".
Definition n_FromTransformerEndInfo : name := Eval vm_compute in u "FromTransformerEndInfo".
Definition n_FromWinding : name := Eval vm_compute in u "FromWinding".
Definition n_FromWindingInsulations : name := Eval vm_compute in u "FromWindingInsulations".
Definition n_From_TransformerWinding : name := Eval vm_compute in u "From_TransformerWinding".
Definition n_From_WindingTest : name := Eval vm_compute in u "From_WindingTest".
Definition n_FuelAllocationSchedule : name := Eval vm_compute in u "FuelAllocationSchedule".
Definition n_FuelAllocationSchedules : name := Eval vm_compute in u "FuelAllocationSchedules".
Definition n_FuelType : name := Eval vm_compute in u "FuelType".
Definition n_Fuse : name := Eval vm_compute in u "Fuse".
Definition n_GasMeteringFunction : name := Eval vm_compute in u "GasMeteringFunction".
Definition n_GenAsync : name := Eval vm_compute in u "GenAsync".
Definition n_GenEquiv : name := Eval vm_compute in u "GenEquiv".
Definition n_GenLoad : name := Eval vm_compute in u "GenLoad".
Definition n_GenSourcePumpDischargeReservoir : name := Eval vm_compute in u "GenSourcePumpDischargeReservoir".
Definition n_GenUnitOpCostCurve : name := Eval vm_compute in u "GenUnitOpCostCurve".
Definition n_GenUnitOpCostCurves : name := Eval vm_compute in u "GenUnitOpCostCurves".
Definition n_GenUnitOpSchedule : name := Eval vm_compute in u "GenUnitOpSchedule".
Definition n_GeneratingUnit : name := Eval vm_compute in u "GeneratingUnit".
Definition n_GeneratorControlMode : name := Eval vm_compute in u "GeneratorControlMode".
Definition n_GeneratorControlSource : name := Eval vm_compute in u "GeneratorControlSource".
Definition n_GeneratorOperatingMode : name := Eval vm_compute in u "GeneratorOperatingMode".
Definition n_GeneratorTypeAsset : name := Eval vm_compute in u "GeneratorTypeAsset".
Definition n_GeneratorsGenEquiv : name := Eval vm_compute in u "GeneratorsGenEquiv".
Definition n_GeneratorsParametersFormType : name := Eval vm_compute in u "GeneratorsParametersFormType".
Definition n_GenericAssetModelOrMaterial : name := Eval vm_compute in u "GenericAssetModelOrMaterial".
Definition n_GeoLocation : name := Eval vm_compute in u "GeoLocation".
Definition n_GeographicalRegion : name := Eval vm_compute in u "GeographicalRegion".
Definition n_GmlBaseSymbol : name := Eval vm_compute in u "GmlBaseSymbol".
Definition n_GmlColour : name := Eval vm_compute in u "GmlColour".
Definition n_GmlDiagramObject : name := Eval vm_compute in u "GmlDiagramObject".
Definition n_GmlDiagramObjects : name := Eval vm_compute in u "GmlDiagramObjects".
Definition n_GmlFIlls : name := Eval vm_compute in u "GmlFIlls".
Definition n_GmlFeatureStyle : name := Eval vm_compute in u "GmlFeatureStyle".
Definition n_GmlFeatureStyles : name := Eval vm_compute in u "GmlFeatureStyles".
Definition n_GmlFeatureType : name := Eval vm_compute in u "GmlFeatureType".
Definition n_GmlFeatureTypes : name := Eval vm_compute in u "GmlFeatureTypes".
Definition n_GmlFill : name := Eval vm_compute in u "GmlFill".
Definition n_GmlFills : name := Eval vm_compute in u "GmlFills".
Definition n_GmlFont : name := Eval vm_compute in u "GmlFont".
Definition n_GmlFonts : name := Eval vm_compute in u "GmlFonts".
Definition n_GmlGeometryStyle : name := Eval vm_compute in u "GmlGeometryStyle".
Definition n_GmlGeometryStyles : name := Eval vm_compute in u "GmlGeometryStyles".
Definition n_GmlGraphic : name := Eval vm_compute in u "GmlGraphic".
Definition n_GmlGraphics : name := Eval vm_compute in u "GmlGraphics".
Definition n_GmlHalo : name := Eval vm_compute in u "GmlHalo".
Definition n_GmlLabelPlacement : name := Eval vm_compute in u "GmlLabelPlacement".
Definition n_GmlLabelStyle : name := Eval vm_compute in u "GmlLabelStyle".
Definition n_GmlLabelStyles : name := Eval vm_compute in u "GmlLabelStyles".
Definition n_GmlLableStyle : name := Eval vm_compute in u "GmlLableStyle".
Definition n_GmlLineGeometry : name := Eval vm_compute in u "GmlLineGeometry".
Definition n_GmlLineSymbol : name := Eval vm_compute in u "GmlLineSymbol".
Definition n_GmlLineSymbols : name := Eval vm_compute in u "GmlLineSymbols".
Definition n_GmlMark : name := Eval vm_compute in u "GmlMark".
Definition n_GmlMarks : name := Eval vm_compute in u "GmlMarks".
Definition n_GmlObservatins : name := Eval vm_compute in u "GmlObservatins".
Definition n_GmlObservation : name := Eval vm_compute in u "GmlObservation".
Definition n_GmlPointGeometry : name := Eval vm_compute in u "GmlPointGeometry".
Definition n_GmlPointSymbol : name := Eval vm_compute in u "GmlPointSymbol".
Definition n_GmlPointSymbols : name := Eval vm_compute in u "GmlPointSymbols".
Definition n_GmlPolygonGeometry : name := Eval vm_compute in u "GmlPolygonGeometry".
Definition n_GmlPolygonSymbol : name := Eval vm_compute in u "GmlPolygonSymbol".
Definition n_GmlPolygonSymbols : name := Eval vm_compute in u "GmlPolygonSymbols".
Definition n_GmlPosition : name := Eval vm_compute in u "GmlPosition".
Definition n_GmlRasterSymbol : name := Eval vm_compute in u "GmlRasterSymbol".
Definition n_GmlRasterSymbols : name := Eval vm_compute in u "GmlRasterSymbols".
Definition n_GmlSelector : name := Eval vm_compute in u "GmlSelector".
Definition n_GmlSelectors : name := Eval vm_compute in u "GmlSelectors".
Definition n_GmlStokes : name := Eval vm_compute in u "GmlStokes".
Definition n_GmlStroke : name := Eval vm_compute in u "GmlStroke".
Definition n_GmlStrokes : name := Eval vm_compute in u "GmlStrokes".
Definition n_GmlSvgParameter : name := Eval vm_compute in u "GmlSvgParameter".
Definition n_GmlSvgParameters : name := Eval vm_compute in u "GmlSvgParameters".
Definition n_GmlSymbol : name := Eval vm_compute in u "GmlSymbol".
Definition n_GmlSymbols : name := Eval vm_compute in u "GmlSymbols".
Definition n_GmlTextSymbol : name := Eval vm_compute in u "GmlTextSymbol".
Definition n_GmlTextSymbols : name := Eval vm_compute in u "GmlTextSymbols".
Definition n_GmlTobologyStyles : name := Eval vm_compute in u "GmlTobologyStyles".
Definition n_GmlTopologyStyle : name := Eval vm_compute in u "GmlTopologyStyle".
Definition n_GmlTopologyStyles : name := Eval vm_compute in u "GmlTopologyStyles".
Definition n_GmlValue : name := Eval vm_compute in u "GmlValue".
Definition n_GmlValues : name := Eval vm_compute in u "GmlValues".
Definition n_GovCT1 : name := Eval vm_compute in u "GovCT1".
Definition n_GovCT2 : name := Eval vm_compute in u "GovCT2".
Definition n_GovDUM : name := Eval vm_compute in u "GovDUM".
Definition n_GovGASM : name := Eval vm_compute in u "GovGASM".
Definition n_GovGAST : name := Eval vm_compute in u "GovGAST".
Definition n_GovGAST2 : name := Eval vm_compute in u "GovGAST2".
Definition n_GovGASTWD : name := Eval vm_compute in u "GovGASTWD".
Definition n_GovHydro0 : name := Eval vm_compute in u "GovHydro0".
Definition n_GovHydro1 : name := Eval vm_compute in u "GovHydro1".
Definition n_GovHydro2 : name := Eval vm_compute in u "GovHydro2".
Definition n_GovHydro3 : name := Eval vm_compute in u "GovHydro3".
Definition n_GovHydro4 : name := Eval vm_compute in u "GovHydro4".
Definition n_GovHydroDD : name := Eval vm_compute in u "GovHydroDD".
Definition n_GovHydroPID : name := Eval vm_compute in u "GovHydroPID".
Definition n_GovHydroPID2 : name := Eval vm_compute in u "GovHydroPID2".
Definition n_GovHydroR : name := Eval vm_compute in u "GovHydroR".
Definition n_GovHydroWEH : name := Eval vm_compute in u "GovHydroWEH".
Definition n_GovHydroWPID : name := Eval vm_compute in u "GovHydroWPID".
Definition n_GovRAV : name := Eval vm_compute in u "GovRAV".
Definition n_GovSteam0 : name := Eval vm_compute in u "GovSteam0".
Definition n_GovSteam1 : name := Eval vm_compute in u "GovSteam1".
Definition n_GovSteamCC : name := Eval vm_compute in u "GovSteamCC".
Definition n_GovSteamEU : name := Eval vm_compute in u "GovSteamEU".
Definition n_GovSteamFV2 : name := Eval vm_compute in u "GovSteamFV2".
Definition n_GovSteamFV3 : name := Eval vm_compute in u "GovSteamFV3".
Definition n_GovSteamSGO : name := Eval vm_compute in u "GovSteamSGO".
Definition n_GovWT1P : name := Eval vm_compute in u "GovWT1P".
Definition n_GovWT1T : name := Eval vm_compute in u "GovWT1T".
Definition n_GovWT2P : name := Eval vm_compute in u "GovWT2P".
Definition n_GovWT2T : name := Eval vm_compute in u "GovWT2T".
Definition n_GovWT3P : name := Eval vm_compute in u "GovWT3P".
Definition n_GovWT3T : name := Eval vm_compute in u "GovWT3T".
Definition n_GovWT4P : name := Eval vm_compute in u "GovWT4P".
Definition n_GovWT4T : name := Eval vm_compute in u "GovWT4T".
Definition n_GrossToNetActivePowerCurve : name := Eval vm_compute in u "GrossToNetActivePowerCurve".
Definition n_GrossToNetActivePowerCurves : name := Eval vm_compute in u "GrossToNetActivePowerCurves".
Definition n_Ground : name := Eval vm_compute in u "Ground".
Definition n_GroundDisconnector : name := Eval vm_compute in u "GroundDisconnector".
Definition n_GroundedEndShortCircuitTests : name := Eval vm_compute in u "GroundedEndShortCircuitTests".
Definition n_GroundedEnds : name := Eval vm_compute in u "GroundedEnds".
Definition n_HasFirst_MutualCoupling : name := Eval vm_compute in u "HasFirst_MutualCoupling".
Definition n_HasSecond_MutualCoupling : name := Eval vm_compute in u "HasSecond_MutualCoupling".
Definition n_Hazard : name := Eval vm_compute in u "Hazard".
Definition n_Hazards : name := Eval vm_compute in u "Hazards".
Definition n_HeatExchanger : name := Eval vm_compute in u "HeatExchanger".
Definition n_HeatInputCurve : name := Eval vm_compute in u "HeatInputCurve".
Definition n_HeatRateCurve : name := Eval vm_compute in u "HeatRateCurve".
Definition n_HeatRecoveryBoiler : name := Eval vm_compute in u "HeatRecoveryBoiler".
Definition n_HydroEnergyConversionKind : name := Eval vm_compute in u "HydroEnergyConversionKind".
Definition n_HydroGeneratingEfficiencyCurve : name := Eval vm_compute in u "HydroGeneratingEfficiencyCurve".
Definition n_HydroGeneratingEfficiencyCurves : name := Eval vm_compute in u "HydroGeneratingEfficiencyCurves".
Definition n_HydroGeneratingUnit : name := Eval vm_compute in u "HydroGeneratingUnit".
Definition n_HydroGeneratingUnits : name := Eval vm_compute in u "HydroGeneratingUnits".
Definition n_HydroPlantType : name := Eval vm_compute in u "HydroPlantType".
Definition n_HydroPowerPlant : name := Eval vm_compute in u "HydroPowerPlant".
Definition n_HydroPowerPlants : name := Eval vm_compute in u "HydroPowerPlants".
Definition n_HydroPump : name := Eval vm_compute in u "HydroPump".
Definition n_HydroPumpOpSchedule : name := Eval vm_compute in u "HydroPumpOpSchedule".
Definition n_HydroPumps : name := Eval vm_compute in u "HydroPumps".
Definition n_HydroTurbine : name := Eval vm_compute in u "HydroTurbine".
Definition n_HydroTurbineGovernor : name := Eval vm_compute in u "HydroTurbineGovernor".
Definition n_I : name := Eval vm_compute in u "I".
Definition n_IEC61968CIMVersion : name := Eval vm_compute in u "IEC61968CIMVersion".
Definition n_IEC61970CIMVersion : name := Eval vm_compute in u "IEC61970CIMVersion".
Definition n_IEC62325CIMVersion : name := Eval vm_compute in u "IEC62325CIMVersion".
Definition n_IED : name := Eval vm_compute in u "IED".
Definition n_IdentifiedObject : name := Eval vm_compute in u "IdentifiedObject".
Definition n_IdentifiedObjects : name := Eval vm_compute in u "IdentifiedObjects".
Definition n_ImpedanceVariationCurve : name := Eval vm_compute in u "ImpedanceVariationCurve".
Definition n_IncidentCode : name := Eval vm_compute in u "IncidentCode".
Definition n_IncidentCodes : name := Eval vm_compute in u "IncidentCodes".
Definition n_IncidentRecord : name := Eval vm_compute in u "IncidentRecord".
Definition n_IncidentRecords : name := Eval vm_compute in u "IncidentRecords".
Definition n_IncrementalHeatRateCurve : name := Eval vm_compute in u "IncrementalHeatRateCurve".
Definition n_InfCoreModelingAuthoritySet : name := Eval vm_compute in u "InfCoreModelingAuthoritySet".
Definition n_InflowForecast : name := Eval vm_compute in u "InflowForecast".
Definition n_InflowForecasts : name := Eval vm_compute in u "InflowForecasts".
Definition n_InfoQuestion : name := Eval vm_compute in u "InfoQuestion".
Definition n_InitialReactiveCapabilityCurve : name := Eval vm_compute in u "InitialReactiveCapabilityCurve".
Definition n_InitiallyUsedBySynchronousMachines : name := Eval vm_compute in u "InitiallyUsedBySynchronousMachines".
Definition n_InspectionDataSet : name := Eval vm_compute in u "InspectionDataSet".
Definition n_Interchange : name := Eval vm_compute in u "Interchange".
Definition n_IntervalBlock : name := Eval vm_compute in u "IntervalBlock".
Definition n_IntervalBlocks : name := Eval vm_compute in u "IntervalBlocks".
Definition n_IntervalReading : name := Eval vm_compute in u "IntervalReading".
Definition n_IntervalReadings : name := Eval vm_compute in u "IntervalReadings".
Definition n_IntervalSchedule : name := Eval vm_compute in u "IntervalSchedule".
Definition n_IrregularIntervalSchedule : name := Eval vm_compute in u "IrregularIntervalSchedule".
Definition n_IrregularTimePoint : name := Eval vm_compute in u "IrregularTimePoint".
Definition n_Joint : name := Eval vm_compute in u "Joint".
Definition n_JointConfigurationKind : name := Eval vm_compute in u "JointConfigurationKind".
Definition n_JointFillKind : name := Eval vm_compute in u "JointFillKind".
Definition n_Jumper : name := Eval vm_compute in u "Jumper".
Definition n_Junction : name := Eval vm_compute in u "Junction".
Definition n_LaborItem : name := Eval vm_compute in u "LaborItem".
Definition n_LaborItems : name := Eval vm_compute in u "LaborItems".
Definition n_LandBase : name := Eval vm_compute in u "LandBase".
Definition n_LandProperties : name := Eval vm_compute in u "LandProperties".
Definition n_LandProperty : name := Eval vm_compute in u "LandProperty".
Definition n_LandPropertyKind : name := Eval vm_compute in u "LandPropertyKind".
Definition n_LandPropertyRoles : name := Eval vm_compute in u "LandPropertyRoles".
Definition n_LevelVsVolumeCurve : name := Eval vm_compute in u "LevelVsVolumeCurve".
Definition n_LevelVsVolumeCurves : name := Eval vm_compute in u "LevelVsVolumeCurves".
Definition n_Limit : name := Eval vm_compute in u "Limit".
Definition n_LimitSet : name := Eval vm_compute in u "LimitSet".
Definition n_LimitSets : name := Eval vm_compute in u "LimitSets".
Definition n_Limits : name := Eval vm_compute in u "Limits".
Definition n_Line : name := Eval vm_compute in u "Line".
Definition n_LineDetail : name := Eval vm_compute in u "LineDetail".
Definition n_LineSegments : name := Eval vm_compute in u "LineSegments".
Definition n_Lines : name := Eval vm_compute in u "Lines".
Definition n_LoadArea : name := Eval vm_compute in u "LoadArea".
Definition n_LoadBreakSwitch : name := Eval vm_compute in u "LoadBreakSwitch".
Definition n_LoadGroup : name := Eval vm_compute in u "LoadGroup".
Definition n_LoadGroups : name := Eval vm_compute in u "LoadGroups".
Definition n_LoadLimitFunction : name := Eval vm_compute in u "LoadLimitFunction".
Definition n_LoadMgmtFunction : name := Eval vm_compute in u "LoadMgmtFunction".
Definition n_LoadMgmtFunctions : name := Eval vm_compute in u "LoadMgmtFunctions".
Definition n_LoadMgmtKind : name := Eval vm_compute in u "LoadMgmtKind".
Definition n_LoadMgmtRecord : name := Eval vm_compute in u "LoadMgmtRecord".
Definition n_LoadMgmtRecords : name := Eval vm_compute in u "LoadMgmtRecords".
Definition n_LoadMotor : name := Eval vm_compute in u "LoadMotor".
Definition n_LoadResponse : name := Eval vm_compute in u "LoadResponse".
Definition n_LoadResponseCharacteristic : name := Eval vm_compute in u "LoadResponseCharacteristic".
Definition n_LoadShedFunction : name := Eval vm_compute in u "LoadShedFunction".
Definition n_LoadStateKind : name := Eval vm_compute in u "LoadStateKind".
Definition n_LoadStatic : name := Eval vm_compute in u "LoadStatic".
Definition n_LoadStaticArea : name := Eval vm_compute in u "LoadStaticArea".
Definition n_LoadStaticBus : name := Eval vm_compute in u "LoadStaticBus".
Definition n_LoadStaticOwner : name := Eval vm_compute in u "LoadStaticOwner".
Definition n_LoadStaticSystem : name := Eval vm_compute in u "LoadStaticSystem".
Definition n_LoadStaticZone : name := Eval vm_compute in u "LoadStaticZone".
Definition n_LoadsLoadMotor : name := Eval vm_compute in u "LoadsLoadMotor".
Definition n_LoadsLoadStatic : name := Eval vm_compute in u "LoadsLoadStatic".
Definition n_LoadsStaticLoadType : name := Eval vm_compute in u "LoadsStaticLoadType".
Definition n_Location : name := Eval vm_compute in u "Location".
Definition n_LocationGrant : name := Eval vm_compute in u "LocationGrant".
Definition n_LocationGrants : name := Eval vm_compute in u "LocationGrants".
Definition n_Locations : name := Eval vm_compute in u "Locations".
Definition n_LowerLimitsCurve : name := Eval vm_compute in u "LowerLimitsCurve".
Definition n_M : name := Eval vm_compute in u "M".
Definition n_MRN : name := Eval vm_compute in u "MRN".
Definition n_MaintenanceDataSet : name := Eval vm_compute in u "MaintenanceDataSet".
Definition n_Map : name := Eval vm_compute in u "Map".
Definition n_MarketParticipant : name := Eval vm_compute in u "MarketParticipant".
Definition n_MarketParticipants : name := Eval vm_compute in u "MarketParticipants".
Definition n_MarketRole : name := Eval vm_compute in u "MarketRole".
Definition n_MarketRoleKind : name := Eval vm_compute in u "MarketRoleKind".
Definition n_MarketRoles : name := Eval vm_compute in u "MarketRoles".
Definition n_MaterialItem : name := Eval vm_compute in u "MaterialItem".
Definition n_MaterialItems : name := Eval vm_compute in u "MaterialItems".
Definition n_MeasControl : name := Eval vm_compute in u "MeasControl".
Definition n_MeasMeasurement : name := Eval vm_compute in u "MeasMeasurement".
Definition n_MeasuredWindingSpecs : name := Eval vm_compute in u "MeasuredWindingSpecs".
Definition n_Measurement : name := Eval vm_compute in u "Measurement".
Definition n_MeasurementValue : name := Eval vm_compute in u "MeasurementValue".
Definition n_MeasurementValueQuality : name := Eval vm_compute in u "MeasurementValueQuality".
Definition n_MeasurementValueSource : name := Eval vm_compute in u "MeasurementValueSource".
Definition n_MeasurementValues : name := Eval vm_compute in u "MeasurementValues".
Definition n_Measurements : name := Eval vm_compute in u "Measurements".
Definition n_MechLoad1 : name := Eval vm_compute in u "MechLoad1".
Definition n_MechanicalLoad : name := Eval vm_compute in u "MechanicalLoad".
Definition n_Medium : name := Eval vm_compute in u "Medium".
Definition n_MediumKind : name := Eval vm_compute in u "MediumKind".
Definition n_Mediums : name := Eval vm_compute in u "Mediums".
Definition n_MemberOf_Block : name := Eval vm_compute in u "MemberOf_Block".
Definition n_MemberOf_BlockConnectivity : name := Eval vm_compute in u "MemberOf_BlockConnectivity".
Definition n_MemberOf_MetaBlock : name := Eval vm_compute in u "MemberOf_MetaBlock".
Definition n_MemberOf_MetaBlockConnection : name := Eval vm_compute in u "MemberOf_MetaBlockConnection".
Definition n_MemberOf_MetaBlockConnectivity : name := Eval vm_compute in u "MemberOf_MetaBlockConnectivity".
Definition n_MemberOf_MetaBlockReference : name := Eval vm_compute in u "MemberOf_MetaBlockReference".
Definition n_MerchantAccount : name := Eval vm_compute in u "MerchantAccount".
Definition n_MerchantAccounts : name := Eval vm_compute in u "MerchantAccounts".
Definition n_MerchantAgreement : name := Eval vm_compute in u "MerchantAgreement".
Definition n_MetaBlock : name := Eval vm_compute in u "MetaBlock".
Definition n_MetaBlockConInput : name := Eval vm_compute in u "MetaBlockConInput".
Definition n_MetaBlockConOutput : name := Eval vm_compute in u "MetaBlockConOutput".
Definition n_MetaBlockConSignal : name := Eval vm_compute in u "MetaBlockConSignal".
Definition n_MetaBlockConnectable : name := Eval vm_compute in u "MetaBlockConnectable".
Definition n_MetaBlockConnection : name := Eval vm_compute in u "MetaBlockConnection".
Definition n_MetaBlockConnectivity : name := Eval vm_compute in u "MetaBlockConnectivity".
Definition n_MetaBlockInput : name := Eval vm_compute in u "MetaBlockInput".
Definition n_MetaBlockInputReference : name := Eval vm_compute in u "MetaBlockInputReference".
Definition n_MetaBlockOutput : name := Eval vm_compute in u "MetaBlockOutput".
Definition n_MetaBlockOutputReference : name := Eval vm_compute in u "MetaBlockOutputReference".
Definition n_MetaBlockParameter : name := Eval vm_compute in u "MetaBlockParameter".
Definition n_MetaBlockParameterReference : name := Eval vm_compute in u "MetaBlockParameterReference".
Definition n_MetaBlockReference : name := Eval vm_compute in u "MetaBlockReference".
Definition n_MetaBlockSignal : name := Eval vm_compute in u "MetaBlockSignal".
Definition n_MetaBlockState : name := Eval vm_compute in u "MetaBlockState".
Definition n_MetaBlockStateReference : name := Eval vm_compute in u "MetaBlockStateReference".
Definition n_Meter : name := Eval vm_compute in u "Meter".
Definition n_MeterAsset : name := Eval vm_compute in u "MeterAsset".
Definition n_MeterReading : name := Eval vm_compute in u "MeterReading".
Definition n_MeterReadings : name := Eval vm_compute in u "MeterReadings".
Definition n_MeterReplacementWorks : name := Eval vm_compute in u "MeterReplacementWorks".
Definition n_MeterServiceWork : name := Eval vm_compute in u "MeterServiceWork".
Definition n_MeterServiceWorks : name := Eval vm_compute in u "MeterServiceWorks".
Definition n_MiscCostItem : name := Eval vm_compute in u "MiscCostItem".
Definition n_MiscCostItems : name := Eval vm_compute in u "MiscCostItems".
Definition n_ModelingAuthority : name := Eval vm_compute in u "ModelingAuthority".
Definition n_ModelingAuthoritySet : name := Eval vm_compute in u "ModelingAuthoritySet".
Definition n_ModelingAuthoritySets : name := Eval vm_compute in u "ModelingAuthoritySets".
Definition n_MotorAsync : name := Eval vm_compute in u "MotorAsync".
Definition n_MotorSync : name := Eval vm_compute in u "MotorSync".
Definition n_MotorsMechLoad1 : name := Eval vm_compute in u "MotorsMechLoad1".
Definition n_MountingConnection : name := Eval vm_compute in u "MountingConnection".
Definition n_MountingConnections : name := Eval vm_compute in u "MountingConnections".
Definition n_MountingPoint : name := Eval vm_compute in u "MountingPoint".
Definition n_MountingPoints : name := Eval vm_compute in u "MountingPoints".
Definition n_MutualCoupling : name := Eval vm_compute in u "MutualCoupling".
Definition n_N : name := Eval vm_compute in u "N".
Definition n_Name : name := Eval vm_compute in u "Name".
Definition n_NameType : name := Eval vm_compute in u "NameType".
Definition n_NameTypeAuthority : name := Eval vm_compute in u "NameTypeAuthority".
Definition n_NameTypes : name := Eval vm_compute in u "NameTypes".
Definition n_Names : name := Eval vm_compute in u "Names".
Definition n_NetworkDataSet : name := Eval vm_compute in u "NetworkDataSet".
Definition n_NetworkDataSets : name := Eval vm_compute in u "NetworkDataSets".
Definition n_NoLoadTest : name := Eval vm_compute in u "NoLoadTest".
Definition n_NonConformLoad : name := Eval vm_compute in u "NonConformLoad".
Definition n_NonConformLoadGroup : name := Eval vm_compute in u "NonConformLoadGroup".
Definition n_NonConformLoadSchedule : name := Eval vm_compute in u "NonConformLoadSchedule".
Definition n_NonConformLoadSchedules : name := Eval vm_compute in u "NonConformLoadSchedules".
Definition n_NonStandardItem : name := Eval vm_compute in u "NonStandardItem".
Definition n_NuclearGeneratingUnit : name := Eval vm_compute in u "NuclearGeneratingUnit".
Definition n_OilPreservationKind : name := Eval vm_compute in u "OilPreservationKind".
Definition n_OldMeter : name := Eval vm_compute in u "OldMeter".
Definition n_OldMeterAsset : name := Eval vm_compute in u "OldMeterAsset".
Definition n_OneCallRequest : name := Eval vm_compute in u "OneCallRequest".
Definition n_OpenCircuitTest : name := Eval vm_compute in u "OpenCircuitTest".
Definition n_OpenCircuitTests : name := Eval vm_compute in u "OpenCircuitTests".
Definition n_OpenEnd : name := Eval vm_compute in u "OpenEnd".
Definition n_OpenEndOpenCircuitTests : name := Eval vm_compute in u "OpenEndOpenCircuitTests".
Definition n_OperatingParticipant : name := Eval vm_compute in u "OperatingParticipant".
Definition n_OperatingShare : name := Eval vm_compute in u "OperatingShare".
Definition n_OperationalLimit : name := Eval vm_compute in u "OperationalLimit".
Definition n_OperationalLimitDirectionKind : name := Eval vm_compute in u "OperationalLimitDirectionKind".
Definition n_OperationalLimitSet : name := Eval vm_compute in u "OperationalLimitSet".
Definition n_OperationalLimitType : name := Eval vm_compute in u "OperationalLimitType".
Definition n_OperationalLimitValue : name := Eval vm_compute in u "OperationalLimitValue".
Definition n_OperationalLimitsOperationalLimitSet : name := Eval vm_compute in u "OperationalLimitsOperationalLimitSet".
Definition n_OperationalRestriction : name := Eval vm_compute in u "OperationalRestriction".
Definition n_OrgAssetRole : name := Eval vm_compute in u "OrgAssetRole".
Definition n_OrgErpPersonRole : name := Eval vm_compute in u "OrgErpPersonRole".
Definition n_OrgOrgRole : name := Eval vm_compute in u "OrgOrgRole".
Definition n_OrgPropertyRole : name := Eval vm_compute in u "OrgPropertyRole".
Definition n_OrgPsrRole : name := Eval vm_compute in u "OrgPsrRole".
Definition n_Organisation : name := Eval vm_compute in u "Organisation".
Definition n_Organisations : name := Eval vm_compute in u "Organisations".
Definition n_OrientationKind : name := Eval vm_compute in u "OrientationKind".
Definition n_OutageClearanceTag : name := Eval vm_compute in u "OutageClearanceTag".
Definition n_OutageCode : name := Eval vm_compute in u "OutageCode".
Definition n_OutageCodes : name := Eval vm_compute in u "OutageCodes".
Definition n_OutageHistory : name := Eval vm_compute in u "OutageHistory".
Definition n_OutageKind : name := Eval vm_compute in u "OutageKind".
Definition n_OutageNotification : name := Eval vm_compute in u "OutageNotification".
Definition n_OutageNotifications : name := Eval vm_compute in u "OutageNotifications".
Definition n_OutageOutageSchedule : name := Eval vm_compute in u "OutageOutageSchedule".
Definition n_OutageRecord : name := Eval vm_compute in u "OutageRecord".
Definition n_OutageRecords : name := Eval vm_compute in u "OutageRecords".
Definition n_OutageReport : name := Eval vm_compute in u "OutageReport".
Definition n_OutageReports : name := Eval vm_compute in u "OutageReports".
Definition n_OutageSchedule : name := Eval vm_compute in u "OutageSchedule".
Definition n_OutageSchedules : name := Eval vm_compute in u "OutageSchedules".
Definition n_OutageStep : name := Eval vm_compute in u "OutageStep".
Definition n_OutageStepPsrRole : name := Eval vm_compute in u "OutageStepPsrRole".
Definition n_OutageStepRoles : name := Eval vm_compute in u "OutageStepRoles".
Definition n_OutageSteps : name := Eval vm_compute in u "OutageSteps".
Definition n_OverheadConductorInfo : name := Eval vm_compute in u "OverheadConductorInfo".
Definition n_OverheadConductors : name := Eval vm_compute in u "OverheadConductors".
Definition n_OverheadCost : name := Eval vm_compute in u "OverheadCost".
Definition n_PSREvent : name := Eval vm_compute in u "PSREvent".
Definition n_PSREventKind : name := Eval vm_compute in u "PSREventKind".
Definition n_PSRType : name := Eval vm_compute in u "PSRType".
Definition n_PTInfo : name := Eval vm_compute in u "PTInfo".
Definition n_PTs : name := Eval vm_compute in u "PTs".
Definition n_PWRSteamSupply : name := Eval vm_compute in u "PWRSteamSupply".
Definition n_Package : name := Eval vm_compute in u "Package".
Definition n_PackageDependenciesCIMVeresion : name := Eval vm_compute in u "PackageDependenciesCIMVeresion".
Definition n_ParametersFormType : name := Eval vm_compute in u "ParametersFormType".
Definition n_ParentCUGroups : name := Eval vm_compute in u "ParentCUGroups".
Definition n_ParentCharge : name := Eval vm_compute in u "ParentCharge".
Definition n_ParentCostType : name := Eval vm_compute in u "ParentCostType".
Definition n_ParentOrganisation : name := Eval vm_compute in u "ParentOrganisation".
Definition n_ParentOrganisationRoles : name := Eval vm_compute in u "ParentOrganisationRoles".
Definition n_ParentProject : name := Eval vm_compute in u "ParentProject".
Definition n_PaymentTransactions : name := Eval vm_compute in u "PaymentTransactions".
Definition n_Pending : name := Eval vm_compute in u "Pending".
Definition n_PendingCalculation : name := Eval vm_compute in u "PendingCalculation".
Definition n_PenstockLossCurve : name := Eval vm_compute in u "PenstockLossCurve".
Definition n_PenstockType : name := Eval vm_compute in u "PenstockType".
Definition n_PerLengthImpedance : name := Eval vm_compute in u "PerLengthImpedance".
Definition n_PerLengthPhaseImpedance : name := Eval vm_compute in u "PerLengthPhaseImpedance".
Definition n_PerLengthSequenceImpedance : name := Eval vm_compute in u "PerLengthSequenceImpedance".
Definition n_PersonPropertyRole : name := Eval vm_compute in u "PersonPropertyRole".
Definition n_PhaseCode : name := Eval vm_compute in u "PhaseCode".
Definition n_PhaseImpedance : name := Eval vm_compute in u "PhaseImpedance".
Definition n_PhaseImpedanceData : name := Eval vm_compute in u "PhaseImpedanceData".
Definition n_PhaseTapChanger : name := Eval vm_compute in u "PhaseTapChanger".
Definition n_PhaseTapChangerAsymetrical : name := Eval vm_compute in u "PhaseTapChangerAsymetrical".
Definition n_PhaseTapChangerKind : name := Eval vm_compute in u "PhaseTapChangerKind".
Definition n_PhaseTapChangerLinear : name := Eval vm_compute in u "PhaseTapChangerLinear".
Definition n_PhaseTapChangerNonLinear : name := Eval vm_compute in u "PhaseTapChangerNonLinear".
Definition n_PhaseTapChangerSymetrical : name := Eval vm_compute in u "PhaseTapChangerSymetrical".
Definition n_PhaseTapChangerTabular : name := Eval vm_compute in u "PhaseTapChangerTabular".
Definition n_PhaseTapChangerTabularPoint : name := Eval vm_compute in u "PhaseTapChangerTabularPoint".
Definition n_PhaseVariationCurve : name := Eval vm_compute in u "PhaseVariationCurve".
Definition n_PiImpedance : name := Eval vm_compute in u "PiImpedance".
Definition n_PlannedOutage : name := Eval vm_compute in u "PlannedOutage".
Definition n_Plant : name := Eval vm_compute in u "Plant".
Definition n_PointOfSale : name := Eval vm_compute in u "PointOfSale".
Definition n_PointOfSales : name := Eval vm_compute in u "PointOfSales".
Definition n_Pole : name := Eval vm_compute in u "Pole".
Definition n_PoleBaseKind : name := Eval vm_compute in u "PoleBaseKind".
Definition n_PolePreservativeKind : name := Eval vm_compute in u "PolePreservativeKind".
Definition n_PoleTreatmentKind : name := Eval vm_compute in u "PoleTreatmentKind".
Definition n_PositionPoint : name := Eval vm_compute in u "PositionPoint".
Definition n_PositionPoints : name := Eval vm_compute in u "PositionPoints".
Definition n_PostalAddress : name := Eval vm_compute in u "PostalAddress".
Definition n_PotentialTransformer : name := Eval vm_compute in u "PotentialTransformer".
Definition n_PotentialTransformerInfo : name := Eval vm_compute in u "PotentialTransformerInfo".
Definition n_PowerCutZone : name := Eval vm_compute in u "PowerCutZone".
Definition n_PowerQualityPricing : name := Eval vm_compute in u "PowerQualityPricing".
Definition n_PowerRating : name := Eval vm_compute in u "PowerRating".
Definition n_PowerRatings : name := Eval vm_compute in u "PowerRatings".
Definition n_PowerSystemResource : name := Eval vm_compute in u "PowerSystemResource".
Definition n_PowerSystemResourceRoles : name := Eval vm_compute in u "PowerSystemResourceRoles".
Definition n_PowerSystemResources : name := Eval vm_compute in u "PowerSystemResources".
Definition n_PowerSystemStabilizer : name := Eval vm_compute in u "PowerSystemStabilizer".
Definition n_PowerSystemStabilizersPssIEEE2B : name := Eval vm_compute in u "PowerSystemStabilizersPssIEEE2B".
Definition n_PowerTransformer : name := Eval vm_compute in u "PowerTransformer".
Definition n_PowerTransformerEnd : name := Eval vm_compute in u "PowerTransformerEnd".
Definition n_PowerTransformerInfo : name := Eval vm_compute in u "PowerTransformerInfo".
Definition n_PowerTransformers : name := Eval vm_compute in u "PowerTransformers".
Definition n_PricingStructure : name := Eval vm_compute in u "PricingStructure".
Definition n_PricingStructures : name := Eval vm_compute in u "PricingStructures".
Definition n_PrimeMover : name := Eval vm_compute in u "PrimeMover".
Definition n_PrimeMovers : name := Eval vm_compute in u "PrimeMovers".
Definition n_Procedure : name := Eval vm_compute in u "Procedure".
Definition n_ProcedureDataSet : name := Eval vm_compute in u "ProcedureDataSet".
Definition n_ProcedureDataSets : name := Eval vm_compute in u "ProcedureDataSets".
Definition n_ProcedureKind : name := Eval vm_compute in u "ProcedureKind".
Definition n_ProcedureValues : name := Eval vm_compute in u "ProcedureValues".
Definition n_Procedures : name := Eval vm_compute in u "Procedures".
Definition n_ProductAssetModel : name := Eval vm_compute in u "ProductAssetModel".
Definition n_ProductAssetModels : name := Eval vm_compute in u "ProductAssetModels".
Definition n_Project : name := Eval vm_compute in u "Project".
Definition n_Projects : name := Eval vm_compute in u "Projects".
Definition n_Properties : name := Eval vm_compute in u "Properties".
Definition n_PropertyAssets : name := Eval vm_compute in u "PropertyAssets".
Definition n_PropertySpecification : name := Eval vm_compute in u "PropertySpecification".
Definition n_PropertyUnit : name := Eval vm_compute in u "PropertyUnit".
Definition n_PropertyUnits : name := Eval vm_compute in u "PropertyUnits".
Definition n_ProtectedSwitch : name := Eval vm_compute in u "ProtectedSwitch".
Definition n_ProtectedSwitches : name := Eval vm_compute in u "ProtectedSwitches".
Definition n_ProtectionEquipment : name := Eval vm_compute in u "ProtectionEquipment".
Definition n_ProtectionEquipmentInfo : name := Eval vm_compute in u "ProtectionEquipmentInfo".
Definition n_ProtectionEquipments : name := Eval vm_compute in u "ProtectionEquipments".
Definition n_ProtectionProtectionEquipment : name := Eval vm_compute in u "ProtectionProtectionEquipment".
Definition n_ProtectiveDevice : name := Eval vm_compute in u "ProtectiveDevice".
Definition n_PsrList : name := Eval vm_compute in u "PsrList".
Definition n_PsrLists : name := Eval vm_compute in u "PsrLists".
Definition n_PssIEEE1A : name := Eval vm_compute in u "PssIEEE1A".
Definition n_PssIEEE2B : name := Eval vm_compute in u "PssIEEE2B".
Definition n_PssIEEE3B : name := Eval vm_compute in u "PssIEEE3B".
Definition n_PssIEEE4B : name := Eval vm_compute in u "PssIEEE4B".
Definition n_PssPTIST1 : name := Eval vm_compute in u "PssPTIST1".
Definition n_PssPTIST3 : name := Eval vm_compute in u "PssPTIST3".
Definition n_PssSB : name := Eval vm_compute in u "PssSB".
Definition n_PssSB4 : name := Eval vm_compute in u "PssSB4".
Definition n_PssSH : name := Eval vm_compute in u "PssSH".
Definition n_PssSK : name := Eval vm_compute in u "PssSK".
Definition n_PssWSCC : name := Eval vm_compute in u "PssWSCC".
Definition n_QUESTIONABLE : name := Eval vm_compute in u "QUESTIONABLE".
Definition n_QualificationRequirement : name := Eval vm_compute in u "QualificationRequirement".
Definition n_QualificationRequirements : name := Eval vm_compute in u "QualificationRequirements".
Definition n_Quality61850 : name := Eval vm_compute in u "Quality61850".
Definition n_QueryGrammarKind : name := Eval vm_compute in u "QueryGrammarKind".
Definition n_RatingAssets : name := Eval vm_compute in u "RatingAssets".
Definition n_RatingSpecification : name := Eval vm_compute in u "RatingSpecification".
Definition n_Ratings : name := Eval vm_compute in u "Ratings".
Definition n_Ratio : name := Eval vm_compute in u "Ratio".
Definition n_RatioTapChanger : name := Eval vm_compute in u "RatioTapChanger".
Definition n_RatioTapChangerTabular : name := Eval vm_compute in u "RatioTapChangerTabular".
Definition n_RatioTapChangerTabularPoint : name := Eval vm_compute in u "RatioTapChangerTabularPoint".
Definition n_RatioVariationCurve : name := Eval vm_compute in u "RatioVariationCurve".
Definition n_ReactiveCapabilityCurve : name := Eval vm_compute in u "ReactiveCapabilityCurve".
Definition n_ReactiveCapabilityCurves : name := Eval vm_compute in u "ReactiveCapabilityCurves".
Definition n_Reading : name := Eval vm_compute in u "Reading".
Definition n_ReadingKind : name := Eval vm_compute in u "ReadingKind".
Definition n_ReadingMultiplier : name := Eval vm_compute in u "ReadingMultiplier".
Definition n_ReadingQualities : name := Eval vm_compute in u "ReadingQualities".
Definition n_ReadingQuality : name := Eval vm_compute in u "ReadingQuality".
Definition n_ReadingType : name := Eval vm_compute in u "ReadingType".
Definition n_Readings : name := Eval vm_compute in u "Readings".
Definition n_Receipt : name := Eval vm_compute in u "Receipt".
Definition n_Receipts : name := Eval vm_compute in u "Receipts".
Definition n_RecloseSequence : name := Eval vm_compute in u "RecloseSequence".
Definition n_RecloseSequences : name := Eval vm_compute in u "RecloseSequences".
Definition n_Recloser : name := Eval vm_compute in u "Recloser".
Definition n_RecloserInfo : name := Eval vm_compute in u "RecloserInfo".
Definition n_RectifierInverter : name := Eval vm_compute in u "RectifierInverter".
Definition n_RedLine : name := Eval vm_compute in u "RedLine".
Definition n_RedLines : name := Eval vm_compute in u "RedLines".
Definition n_Region : name := Eval vm_compute in u "Region".
Definition n_Regions : name := Eval vm_compute in u "Regions".
Definition n_Register : name := Eval vm_compute in u "Register".
Definition n_Registers : name := Eval vm_compute in u "Registers".
Definition n_RegularIntervalSchedule : name := Eval vm_compute in u "RegularIntervalSchedule".
Definition n_RegularTimePoint : name := Eval vm_compute in u "RegularTimePoint".
Definition n_RegulatingCondEq : name := Eval vm_compute in u "RegulatingCondEq".
Definition n_RegulatingControl : name := Eval vm_compute in u "RegulatingControl".
Definition n_RegulatingControlModeKind : name := Eval vm_compute in u "RegulatingControlModeKind".
Definition n_Regulation : name := Eval vm_compute in u "Regulation".
Definition n_RegulationBranchKind : name := Eval vm_compute in u "RegulationBranchKind".
Definition n_RegulationSchedule : name := Eval vm_compute in u "RegulationSchedule".
Definition n_ReliabilityInfo : name := Eval vm_compute in u "ReliabilityInfo".
Definition n_ReliabilityInfos : name := Eval vm_compute in u "ReliabilityInfos".
Definition n_RemoteConnectDisconnectInfo : name := Eval vm_compute in u "RemoteConnectDisconnectInfo".
Definition n_RemoteControl : name := Eval vm_compute in u "RemoteControl".
Definition n_RemotePoint : name := Eval vm_compute in u "RemotePoint".
Definition n_RemotePoints : name := Eval vm_compute in u "RemotePoints".
Definition n_RemoteSource : name := Eval vm_compute in u "RemoteSource".
Definition n_RemoteUnit : name := Eval vm_compute in u "RemoteUnit".
Definition n_RemoteUnitType : name := Eval vm_compute in u "RemoteUnitType".
Definition n_RemoteUnits : name := Eval vm_compute in u "RemoteUnits".
Definition n_ReportingGroup : name := Eval vm_compute in u "ReportingGroup".
Definition n_ReportingSuperGroup : name := Eval vm_compute in u "ReportingSuperGroup".
Definition n_Request : name := Eval vm_compute in u "Request".
Definition n_Requests : name := Eval vm_compute in u "Requests".
Definition n_Reservoir : name := Eval vm_compute in u "Reservoir".
Definition n_Resistor : name := Eval vm_compute in u "Resistor".
Definition n_RevenueKind : name := Eval vm_compute in u "RevenueKind".
Definition n_RightOfWay : name := Eval vm_compute in u "RightOfWay".
Definition n_RightOfWays : name := Eval vm_compute in u "RightOfWays".
Definition n_Role : name := Eval vm_compute in u "Role".
Definition n_RotatingMachine : name := Eval vm_compute in u "RotatingMachine".
Definition n_Route : name := Eval vm_compute in u "Route".
Definition n_Routes : name := Eval vm_compute in u "Routes".
Definition n_SDPLocation : name := Eval vm_compute in u "SDPLocation".
Definition n_SDPLocations : name := Eval vm_compute in u "SDPLocations".
Definition n_SUBSTITUTED : name := Eval vm_compute in u "SUBSTITUTED".
Definition n_SVC : name := Eval vm_compute in u "SVC".
Definition n_SVCControlMode : name := Eval vm_compute in u "SVCControlMode".
Definition n_SafetyDocument : name := Eval vm_compute in u "SafetyDocument".
Definition n_SafetyDocuments : name := Eval vm_compute in u "SafetyDocuments".
Definition n_ScheduleParameterInfo : name := Eval vm_compute in u "ScheduleParameterInfo".
Definition n_ScheduleParameterInfos : name := Eval vm_compute in u "ScheduleParameterInfos".
Definition n_ScheduleSteps : name := Eval vm_compute in u "ScheduleSteps".
Definition n_ScheduledEvent : name := Eval vm_compute in u "ScheduledEvent".
Definition n_ScheduledEvents : name := Eval vm_compute in u "ScheduledEvents".
Definition n_Seal : name := Eval vm_compute in u "Seal".
Definition n_SealConditionKind : name := Eval vm_compute in u "SealConditionKind".
Definition n_SealKind : name := Eval vm_compute in u "SealKind".
Definition n_Seals : name := Eval vm_compute in u "Seals".
Definition n_Season : name := Eval vm_compute in u "Season".
Definition n_SeasonDayTypeSchedule : name := Eval vm_compute in u "SeasonDayTypeSchedule".
Definition n_SeasonDayTypeSchedules : name := Eval vm_compute in u "SeasonDayTypeSchedules".
Definition n_SeasonName : name := Eval vm_compute in u "SeasonName".
Definition n_Second_Terminal : name := Eval vm_compute in u "Second_Terminal".
Definition n_Sectionaliser : name := Eval vm_compute in u "Sectionaliser".
Definition n_SecuredStructure : name := Eval vm_compute in u "SecuredStructure".
Definition n_Sensor : name := Eval vm_compute in u "Sensor".
Definition n_SequenceImpedance : name := Eval vm_compute in u "SequenceImpedance".
Definition n_SeriesCompensator : name := Eval vm_compute in u "SeriesCompensator".
Definition n_ServiceCategory : name := Eval vm_compute in u "ServiceCategory".
Definition n_ServiceDeliveryPoint : name := Eval vm_compute in u "ServiceDeliveryPoint".
Definition n_ServiceDeliveryPoints : name := Eval vm_compute in u "ServiceDeliveryPoints".
Definition n_ServiceGuarantee : name := Eval vm_compute in u "ServiceGuarantee".
Definition n_ServiceKind : name := Eval vm_compute in u "ServiceKind".
Definition n_ServiceLocation : name := Eval vm_compute in u "ServiceLocation".
Definition n_ServiceLocations : name := Eval vm_compute in u "ServiceLocations".
Definition n_ServiceSupplier : name := Eval vm_compute in u "ServiceSupplier".
Definition n_SetPoint : name := Eval vm_compute in u "SetPoint".
Definition n_Shift : name := Eval vm_compute in u "Shift".
Definition n_ShiftPattern : name := Eval vm_compute in u "ShiftPattern".
Definition n_ShiftPatterns : name := Eval vm_compute in u "ShiftPatterns".
Definition n_ShortCircuitTest : name := Eval vm_compute in u "ShortCircuitTest".
Definition n_ShortCircuitTests : name := Eval vm_compute in u "ShortCircuitTests".
Definition n_ShortedWindingSpecs : name := Eval vm_compute in u "ShortedWindingSpecs".
Definition n_ShuntCompensator : name := Eval vm_compute in u "ShuntCompensator".
Definition n_ShuntCompensatorInfo : name := Eval vm_compute in u "ShuntCompensatorInfo".
Definition n_ShuntCompensatorInfos : name := Eval vm_compute in u "ShuntCompensatorInfos".
Definition n_ShuntCompensatorPhase : name := Eval vm_compute in u "ShuntCompensatorPhase".
Definition n_ShuntCompensatorPhases : name := Eval vm_compute in u "ShuntCompensatorPhases".
Definition n_ShuntImpedanceControlKind : name := Eval vm_compute in u "ShuntImpedanceControlKind".
Definition n_ShuntImpedanceInfo : name := Eval vm_compute in u "ShuntImpedanceInfo".
Definition n_ShuntImpedanceLocalControlKind : name := Eval vm_compute in u "ShuntImpedanceLocalControlKind".
Definition n_ShutdownCurve : name := Eval vm_compute in u "ShutdownCurve".
Definition n_SimpleEndDeviceFunction : name := Eval vm_compute in u "SimpleEndDeviceFunction".
Definition n_SinglePhaseKind : name := Eval vm_compute in u "SinglePhaseKind".
Definition n_Skill : name := Eval vm_compute in u "Skill".
Definition n_SkillLevelKind : name := Eval vm_compute in u "SkillLevelKind".
Definition n_Skills : name := Eval vm_compute in u "Skills".
Definition n_Slot : name := Eval vm_compute in u "Slot".
Definition n_SlotConnection : name := Eval vm_compute in u "SlotConnection".
Definition n_SlotInput : name := Eval vm_compute in u "SlotInput".
Definition n_SlotOutput : name := Eval vm_compute in u "SlotOutput".
Definition n_SlotReference : name := Eval vm_compute in u "SlotReference".
Definition n_Source : name := Eval vm_compute in u "Source".
Definition n_SourceModels : name := Eval vm_compute in u "SourceModels".
Definition n_Specification : name := Eval vm_compute in u "Specification".
Definition n_Specifications : name := Eval vm_compute in u "Specifications".
Definition n_SpillsFromReservoir : name := Eval vm_compute in u "SpillsFromReservoir".
Definition n_SpillsIntoReservoirs : name := Eval vm_compute in u "SpillsIntoReservoirs".
Definition n_SpillwayGateType : name := Eval vm_compute in u "SpillwayGateType".
Definition n_StandardControlBlock_MetaBlockConnectable : name := Eval vm_compute in u "StandardControlBlock_MetaBlockConnectable".
Definition n_StandardControlBlock_MetaBlockInputReference : name := Eval vm_compute in u "StandardControlBlock_MetaBlockInputReference".
Definition n_StandardControlBlock_MetaBlockOutputReference : name := Eval vm_compute in u "StandardControlBlock_MetaBlockOutputReference".
Definition n_StandardControlBlock_MetaBlockParameterReference : name := Eval vm_compute in u "StandardControlBlock_MetaBlockParameterReference".
Definition n_StandardControlBlock_MetaBlockStateReference : name := Eval vm_compute in u "StandardControlBlock_MetaBlockStateReference".
Definition n_StandardIndustryCode : name := Eval vm_compute in u "StandardIndustryCode".
Definition n_StarImpedance : name := Eval vm_compute in u "StarImpedance".
Definition n_StartIgnFuelCurve : name := Eval vm_compute in u "StartIgnFuelCurve".
Definition n_StartMainFuelCurve : name := Eval vm_compute in u "StartMainFuelCurve".
Definition n_StartRampCurve : name := Eval vm_compute in u "StartRampCurve".
Definition n_StartupModel : name := Eval vm_compute in u "StartupModel".
Definition n_StateVariable : name := Eval vm_compute in u "StateVariable".
Definition n_StateVariablesSvStatus : name := Eval vm_compute in u "StateVariablesSvStatus".
Definition n_StaticLoadType : name := Eval vm_compute in u "StaticLoadType".
Definition n_StaticVarCompensator : name := Eval vm_compute in u "StaticVarCompensator".
Definition n_StaticVarDevice : name := Eval vm_compute in u "StaticVarDevice".
Definition n_StationSupply : name := Eval vm_compute in u "StationSupply".
Definition n_Status : name := Eval vm_compute in u "Status".
Definition n_SteamSendoutSchedule : name := Eval vm_compute in u "SteamSendoutSchedule".
Definition n_SteamSupply : name := Eval vm_compute in u "SteamSupply".
Definition n_SteamSupplys : name := Eval vm_compute in u "SteamSupplys".
Definition n_SteamTurbine : name := Eval vm_compute in u "SteamTurbine".
Definition n_SteamTurbines : name := Eval vm_compute in u "SteamTurbines".
Definition n_Stereotype : name := Eval vm_compute in u "Stereotype".
Definition n_StreetAddress : name := Eval vm_compute in u "StreetAddress".
Definition n_StreetDetail : name := Eval vm_compute in u "StreetDetail".
Definition n_Streetlight : name := Eval vm_compute in u "Streetlight".
Definition n_StreetlightLampKind : name := Eval vm_compute in u "StreetlightLampKind".
Definition n_Streetlights : name := Eval vm_compute in u "Streetlights".
Definition n_StringMeasurement : name := Eval vm_compute in u "StringMeasurement".
Definition n_StringMeasurementValue : name := Eval vm_compute in u "StringMeasurementValue".
Definition n_StringMeasurementValues : name := Eval vm_compute in u "StringMeasurementValues".
Definition n_Structure : name := Eval vm_compute in u "Structure".
Definition n_StructureInfos : name := Eval vm_compute in u "StructureInfos".
Definition n_StructureMaterialKind : name := Eval vm_compute in u "StructureMaterialKind".
Definition n_StructureSupport : name := Eval vm_compute in u "StructureSupport".
Definition n_StructureSupportInfos : name := Eval vm_compute in u "StructureSupportInfos".
Definition n_StructureSupportKind : name := Eval vm_compute in u "StructureSupportKind".
Definition n_SubGeographicalRegion : name := Eval vm_compute in u "SubGeographicalRegion".
Definition n_SubLoadArea : name := Eval vm_compute in u "SubLoadArea".
Definition n_SubLoadAreas : name := Eval vm_compute in u "SubLoadAreas".
Definition n_SubProjects : name := Eval vm_compute in u "SubProjects".
Definition n_Subcritical : name := Eval vm_compute in u "Subcritical".
Definition n_SubscribePowerCurve : name := Eval vm_compute in u "SubscribePowerCurve".
Definition n_Substation : name := Eval vm_compute in u "Substation".
Definition n_SubstationAsset : name := Eval vm_compute in u "SubstationAsset".
Definition n_SubstationControlSystem : name := Eval vm_compute in u "SubstationControlSystem".
Definition n_SubstationFunctionKind : name := Eval vm_compute in u "SubstationFunctionKind".
Definition n_Substations : name := Eval vm_compute in u "Substations".
Definition n_Supercritical : name := Eval vm_compute in u "Supercritical".
Definition n_SupplierKind : name := Eval vm_compute in u "SupplierKind".
Definition n_SurgeProtector : name := Eval vm_compute in u "SurgeProtector".
Definition n_SurgeProtectorInfo : name := Eval vm_compute in u "SurgeProtectorInfo".
Definition n_SurgeProtectors : name := Eval vm_compute in u "SurgeProtectors".
Definition n_SurgeTankCode : name := Eval vm_compute in u "SurgeTankCode".
Definition n_SvInjection : name := Eval vm_compute in u "SvInjection".
Definition n_SvPowerFlow : name := Eval vm_compute in u "SvPowerFlow".
Definition n_SvShortCircuit : name := Eval vm_compute in u "SvShortCircuit".
Definition n_SvShuntCompensatorSections : name := Eval vm_compute in u "SvShuntCompensatorSections".
Definition n_SvStatus : name := Eval vm_compute in u "SvStatus".
Definition n_SvTapStep : name := Eval vm_compute in u "SvTapStep".
Definition n_SvVoltage : name := Eval vm_compute in u "SvVoltage".
Definition n_Switch : name := Eval vm_compute in u "Switch".
Definition n_SwitchInfo : name := Eval vm_compute in u "SwitchInfo".
Definition n_SwitchPhase : name := Eval vm_compute in u "SwitchPhase".
Definition n_SwitchPhases : name := Eval vm_compute in u "SwitchPhases".
Definition n_SwitchSchedule : name := Eval vm_compute in u "SwitchSchedule".
Definition n_SwitchSchedules : name := Eval vm_compute in u "SwitchSchedules".
Definition n_SwitchState : name := Eval vm_compute in u "SwitchState".
Definition n_Switches : name := Eval vm_compute in u "Switches".
Definition n_SwitchingOperation : name := Eval vm_compute in u "SwitchingOperation".
Definition n_SwitchingOperations : name := Eval vm_compute in u "SwitchingOperations".
Definition n_SwitchingSchedule : name := Eval vm_compute in u "SwitchingSchedule".
Definition n_SwitchingSchedules : name := Eval vm_compute in u "SwitchingSchedules".
Definition n_SwitchingStep : name := Eval vm_compute in u "SwitchingStep".
Definition n_SwitchingStepRoles : name := Eval vm_compute in u "SwitchingStepRoles".
Definition n_SwitchingStepStatusKind : name := Eval vm_compute in u "SwitchingStepStatusKind".
Definition n_SynchrocheckRelay : name := Eval vm_compute in u "SynchrocheckRelay".
Definition n_SynchronousMachine : name := Eval vm_compute in u "SynchronousMachine".
Definition n_SynchronousMachineOperatingMode : name := Eval vm_compute in u "SynchronousMachineOperatingMode".
Definition n_SynchronousMachineType : name := Eval vm_compute in u "SynchronousMachineType".
Definition n_SynchronousMachines : name := Eval vm_compute in u "SynchronousMachines".
Definition n_SynchronousMotorType : name := Eval vm_compute in u "SynchronousMotorType".
Definition n_TLCFB1 : name := Eval vm_compute in u "TLCFB1".
Definition n_TailbayLossCurve : name := Eval vm_compute in u "TailbayLossCurve".
Definition n_TapChanger : name := Eval vm_compute in u "TapChanger".
Definition n_TapChangerControl : name := Eval vm_compute in u "TapChangerControl".
Definition n_TapChangerInfo : name := Eval vm_compute in u "TapChangerInfo".
Definition n_TapChangers : name := Eval vm_compute in u "TapChangers".
Definition n_TapSchedule : name := Eval vm_compute in u "TapSchedule".
Definition n_TapSchedules : name := Eval vm_compute in u "TapSchedules".
Definition n_TapeShieldCableInfo : name := Eval vm_compute in u "TapeShieldCableInfo".
Definition n_TargetLevelSchedule : name := Eval vm_compute in u "TargetLevelSchedule".
Definition n_Tariff : name := Eval vm_compute in u "Tariff".
Definition n_TariffProfile : name := Eval vm_compute in u "TariffProfile".
Definition n_TariffProfiles : name := Eval vm_compute in u "TariffProfiles".
Definition n_Tariffs : name := Eval vm_compute in u "Tariffs".
Definition n_TelephoneNumber : name := Eval vm_compute in u "TelephoneNumber".
Definition n_Tender : name := Eval vm_compute in u "Tender".
Definition n_TenderKind : name := Eval vm_compute in u "TenderKind".
Definition n_Tenders : name := Eval vm_compute in u "Tenders".
Definition n_Terminal : name := Eval vm_compute in u "Terminal".
Definition n_Terminals : name := Eval vm_compute in u "Terminals".
Definition n_TestDataSet : name := Eval vm_compute in u "TestDataSet".
Definition n_TextDiagramObject : name := Eval vm_compute in u "TextDiagramObject".
Definition n_ThermalGeneratingUnit : name := Eval vm_compute in u "ThermalGeneratingUnit".
Definition n_ThermalGeneratingUnits : name := Eval vm_compute in u "ThermalGeneratingUnits".
Definition n_Thing : name := Eval vm_compute in u "Thing".
Definition n_TieFlow : name := Eval vm_compute in u "TieFlow".
Definition n_TieToMeasurement : name := Eval vm_compute in u "TieToMeasurement".
Definition n_TimePoint : name := Eval vm_compute in u "TimePoint".
Definition n_TimePoints : name := Eval vm_compute in u "TimePoints".
Definition n_TimeSchedule : name := Eval vm_compute in u "TimeSchedule".
Definition n_TimeTariffInterval : name := Eval vm_compute in u "TimeTariffInterval".
Definition n_TimeTariffIntervals : name := Eval vm_compute in u "TimeTariffIntervals".
Definition n_To : name := Eval vm_compute in u "To".
Definition n_ToAsset : name := Eval vm_compute in u "ToAsset".
Definition n_ToAssetRoles : name := Eval vm_compute in u "ToAssetRoles".
Definition n_ToDocument : name := Eval vm_compute in u "ToDocument".
Definition n_ToDocumentRoles : name := Eval vm_compute in u "ToDocumentRoles".
Definition n_ToMeshImpedance : name := Eval vm_compute in u "ToMeshImpedance".
Definition n_ToTransformerEnd : name := Eval vm_compute in u "ToTransformerEnd".
Definition n_ToTransformerEndInfo : name := Eval vm_compute in u "ToTransformerEndInfo".
Definition n_ToWinding : name := Eval vm_compute in u "ToWinding".
Definition n_ToWindingInsulations : name := Eval vm_compute in u "ToWindingInsulations".
Definition n_ToWindingSpec : name := Eval vm_compute in u "ToWindingSpec".
Definition n_ToWindingSpecs : name := Eval vm_compute in u "ToWindingSpecs".
Definition n_To_TransformerWinding : name := Eval vm_compute in u "To_TransformerWinding".
Definition n_To_WindingTest : name := Eval vm_compute in u "To_WindingTest".
Definition n_Tool : name := Eval vm_compute in u "Tool".
Definition n_Tools : name := Eval vm_compute in u "Tools".
Definition n_TopologicalIsland : name := Eval vm_compute in u "TopologicalIsland".
Definition n_TopologicalNode : name := Eval vm_compute in u "TopologicalNode".
Definition n_TopologicalNodes : name := Eval vm_compute in u "TopologicalNodes".
Definition n_TouTariffIntervals : name := Eval vm_compute in u "TouTariffIntervals".
Definition n_Tower : name := Eval vm_compute in u "Tower".
Definition n_TowerConstructionKind : name := Eval vm_compute in u "TowerConstructionKind".
Definition n_TownDetail : name := Eval vm_compute in u "TownDetail".
Definition n_Transaction : name := Eval vm_compute in u "Transaction".
Definition n_TransactionKind : name := Eval vm_compute in u "TransactionKind".
Definition n_Transactions : name := Eval vm_compute in u "Transactions".
Definition n_Transactor : name := Eval vm_compute in u "Transactor".
Definition n_Transactors : name := Eval vm_compute in u "Transactors".
Definition n_Transformer : name := Eval vm_compute in u "Transformer".
Definition n_TransformerAsset : name := Eval vm_compute in u "TransformerAsset".
Definition n_TransformerAssetModel : name := Eval vm_compute in u "TransformerAssetModel".
Definition n_TransformerAssetModels : name := Eval vm_compute in u "TransformerAssetModels".
Definition n_TransformerAssets : name := Eval vm_compute in u "TransformerAssets".
Definition n_TransformerBank : name := Eval vm_compute in u "TransformerBank".
Definition n_TransformerConstructionKind : name := Eval vm_compute in u "TransformerConstructionKind".
Definition n_TransformerControlMode : name := Eval vm_compute in u "TransformerControlMode".
Definition n_TransformerCoreAdmittance : name := Eval vm_compute in u "TransformerCoreAdmittance".
Definition n_TransformerCoreKind : name := Eval vm_compute in u "TransformerCoreKind".
Definition n_TransformerEnd : name := Eval vm_compute in u "TransformerEnd".
Definition n_TransformerEndInfo : name := Eval vm_compute in u "TransformerEndInfo".
Definition n_TransformerEndInfos : name := Eval vm_compute in u "TransformerEndInfos".
Definition n_TransformerFunctionKind : name := Eval vm_compute in u "TransformerFunctionKind".
Definition n_TransformerInfo : name := Eval vm_compute in u "TransformerInfo".
Definition n_TransformerMeshImpedance : name := Eval vm_compute in u "TransformerMeshImpedance".
Definition n_TransformerObservation : name := Eval vm_compute in u "TransformerObservation".
Definition n_TransformerObservations : name := Eval vm_compute in u "TransformerObservations".
Definition n_TransformerStarImpedance : name := Eval vm_compute in u "TransformerStarImpedance".
Definition n_TransformerTank : name := Eval vm_compute in u "TransformerTank".
Definition n_TransformerTankEnd : name := Eval vm_compute in u "TransformerTankEnd".
Definition n_TransformerTankEnds : name := Eval vm_compute in u "TransformerTankEnds".
Definition n_TransformerTankInfo : name := Eval vm_compute in u "TransformerTankInfo".
Definition n_TransformerTanks : name := Eval vm_compute in u "TransformerTanks".
Definition n_TransformerTest : name := Eval vm_compute in u "TransformerTest".
Definition n_TransformerWinding : name := Eval vm_compute in u "TransformerWinding".
Definition n_TransformerWindings : name := Eval vm_compute in u "TransformerWindings".
Definition n_Transformers : name := Eval vm_compute in u "Transformers".
Definition n_TroubleReportingKind : name := Eval vm_compute in u "TroubleReportingKind".
Definition n_TroubleTicket : name := Eval vm_compute in u "TroubleTicket".
Definition n_TroubleTickets : name := Eval vm_compute in u "TroubleTickets".
Definition n_TurbineGovernor : name := Eval vm_compute in u "TurbineGovernor".
Definition n_TurbineGovernorsGovCT1 : name := Eval vm_compute in u "TurbineGovernorsGovCT1".
Definition n_TurbineGovernorsGovHydro1 : name := Eval vm_compute in u "TurbineGovernorsGovHydro1".
Definition n_TurbineGovernorsGovHydro2 : name := Eval vm_compute in u "TurbineGovernorsGovHydro2".
Definition n_TurbineGovernorsGovSteam0 : name := Eval vm_compute in u "TurbineGovernorsGovSteam0".
Definition n_TurbineGovernorsGovSteam1 : name := Eval vm_compute in u "TurbineGovernorsGovSteam1".
Definition n_TurbineType : name := Eval vm_compute in u "TurbineType".
Definition n_TypeAsset : name := Eval vm_compute in u "TypeAsset".
Definition n_TypeAssetCatalogue : name := Eval vm_compute in u "TypeAssetCatalogue".
Definition n_TypeAssets : name := Eval vm_compute in u "TypeAssets".
Definition n_TypeMaterial : name := Eval vm_compute in u "TypeMaterial".
Definition n_UUID : name := Eval vm_compute in u "UUID".
Definition n_UndergroundStructure : name := Eval vm_compute in u "UndergroundStructure".
Definition n_UndergroundStructureKind : name := Eval vm_compute in u "UndergroundStructureKind".
Definition n_Unit : name := Eval vm_compute in u "Unit".
Definition n_UnitMultiplier : name := Eval vm_compute in u "UnitMultiplier".
Definition n_UnitSymbol : name := Eval vm_compute in u "UnitSymbol".
Definition n_UpperLimitsCurve : name := Eval vm_compute in u "UpperLimitsCurve".
Definition n_UpstreamFromHydroPowerPlants : name := Eval vm_compute in u "UpstreamFromHydroPowerPlants".
Definition n_Usage : name := Eval vm_compute in u "Usage".
Definition n_Usages : name := Eval vm_compute in u "Usages".
Definition n_UserAttribute : name := Eval vm_compute in u "UserAttribute".
Definition n_UserAttributes : name := Eval vm_compute in u "UserAttributes".
Definition n_UserBlockParameter : name := Eval vm_compute in u "UserBlockParameter".
Definition n_Validity : name := Eval vm_compute in u "Validity".
Definition n_ValueAliasSet : name := Eval vm_compute in u "ValueAliasSet".
Definition n_ValueToAlias : name := Eval vm_compute in u "ValueToAlias".
Definition n_Values : name := Eval vm_compute in u "Values".
Definition n_VcompCross : name := Eval vm_compute in u "VcompCross".
Definition n_VcompIEEE : name := Eval vm_compute in u "VcompIEEE".
Definition n_Vehicle : name := Eval vm_compute in u "Vehicle".
Definition n_VehicleUsageKind : name := Eval vm_compute in u "VehicleUsageKind".
Definition n_Vehicles : name := Eval vm_compute in u "Vehicles".
Definition n_VendingTransactions : name := Eval vm_compute in u "VendingTransactions".
Definition n_Vendor : name := Eval vm_compute in u "Vendor".
Definition n_VendorShift : name := Eval vm_compute in u "VendorShift".
Definition n_VendorShifts : name := Eval vm_compute in u "VendorShifts".
Definition n_Vendors : name := Eval vm_compute in u "Vendors".
Definition n_VisibilityLayer : name := Eval vm_compute in u "VisibilityLayer".
Definition n_VisibilityLayers : name := Eval vm_compute in u "VisibilityLayers".
Definition n_VoltageCheckPoint : name := Eval vm_compute in u "VoltageCheckPoint".
Definition n_VoltageCompensator : name := Eval vm_compute in u "VoltageCompensator".
Definition n_VoltageCompensatorVcompCross : name := Eval vm_compute in u "VoltageCompensatorVcompCross".
Definition n_VoltageCompensatorVcompIEEE : name := Eval vm_compute in u "VoltageCompensatorVcompIEEE".
Definition n_VoltageControlZone : name := Eval vm_compute in u "VoltageControlZone".
Definition n_VoltageControlZones : name := Eval vm_compute in u "VoltageControlZones".
Definition n_VoltageLevel : name := Eval vm_compute in u "VoltageLevel".
Definition n_VoltageLevels : name := Eval vm_compute in u "VoltageLevels".
Definition n_VoltageLimit : name := Eval vm_compute in u "VoltageLimit".
Definition n_VoltageLimitSet : name := Eval vm_compute in u "VoltageLimitSet".
Definition n_VoltageLimits : name := Eval vm_compute in u "VoltageLimits".
Definition n_VoltageTimeCurve : name := Eval vm_compute in u "VoltageTimeCurve".
Definition n_WaterMeteringFunction : name := Eval vm_compute in u "WaterMeteringFunction".
Definition n_WindGeneratingUnit : name := Eval vm_compute in u "WindGeneratingUnit".
Definition n_Winding : name := Eval vm_compute in u "Winding".
Definition n_WindingConnection : name := Eval vm_compute in u "WindingConnection".
Definition n_WindingInfo : name := Eval vm_compute in u "WindingInfo".
Definition n_WindingInfos : name := Eval vm_compute in u "WindingInfos".
Definition n_WindingInsulation : name := Eval vm_compute in u "WindingInsulation".
Definition n_WindingInsulationKind : name := Eval vm_compute in u "WindingInsulationKind".
Definition n_WindingInsulationPFs : name := Eval vm_compute in u "WindingInsulationPFs".
Definition n_WindingInsulations : name := Eval vm_compute in u "WindingInsulations".
Definition n_WindingPiImpedance : name := Eval vm_compute in u "WindingPiImpedance".
Definition n_WindingTest : name := Eval vm_compute in u "WindingTest".
Definition n_WindingTests : name := Eval vm_compute in u "WindingTests".
Definition n_WindingType : name := Eval vm_compute in u "WindingType".
Definition n_Windings : name := Eval vm_compute in u "Windings".
Definition n_WireArrangement : name := Eval vm_compute in u "WireArrangement".
Definition n_WireArrangements : name := Eval vm_compute in u "WireArrangements".
Definition n_WireType : name := Eval vm_compute in u "WireType".
Definition n_WiresRegulatingCondEq : name := Eval vm_compute in u "WiresRegulatingCondEq".
Definition n_WiresRegulatingControl : name := Eval vm_compute in u "WiresRegulatingControl".
Definition n_WiresSynchronousMachine : name := Eval vm_compute in u "WiresSynchronousMachine".
Definition n_Work : name := Eval vm_compute in u "Work".
Definition n_WorkActionKind : name := Eval vm_compute in u "WorkActionKind".
Definition n_WorkBillingInfo : name := Eval vm_compute in u "WorkBillingInfo".
Definition n_WorkBillingInfos : name := Eval vm_compute in u "WorkBillingInfos".
Definition n_WorkCostDetail : name := Eval vm_compute in u "WorkCostDetail".
Definition n_WorkCostDetails : name := Eval vm_compute in u "WorkCostDetails".
Definition n_WorkCostSummary : name := Eval vm_compute in u "WorkCostSummary".
Definition n_WorkEquipment : name := Eval vm_compute in u "WorkEquipment".
Definition n_WorkEquipmentAsset : name := Eval vm_compute in u "WorkEquipmentAsset".
Definition n_WorkEquipmentAssets : name := Eval vm_compute in u "WorkEquipmentAssets".
Definition n_WorkFlowStep : name := Eval vm_compute in u "WorkFlowStep".
Definition n_WorkFlowSteps : name := Eval vm_compute in u "WorkFlowSteps".
Definition n_WorkKind : name := Eval vm_compute in u "WorkKind".
Definition n_WorkLocation : name := Eval vm_compute in u "WorkLocation".
Definition n_WorkLocations : name := Eval vm_compute in u "WorkLocations".
Definition n_WorkStatusEntry : name := Eval vm_compute in u "WorkStatusEntry".
Definition n_WorkTask : name := Eval vm_compute in u "WorkTask".
Definition n_WorkTasks : name := Eval vm_compute in u "WorkTasks".
Definition n_Works : name := Eval vm_compute in u "Works".
Definition n_Yn : name := Eval vm_compute in u "Yn".
Definition n_Z : name := Eval vm_compute in u "Z".
Definition n_ZIP1 : name := Eval vm_compute in u "ZIP1".
Definition n_Zone : name := Eval vm_compute in u "Zone".
Definition n_ZoneKind : name := Eval vm_compute in u "ZoneKind".
Definition n_a : name := Eval vm_compute in u "a".
Definition n_aVRDelay : name := Eval vm_compute in u "aVRDelay".
Definition n_aVRToManualLag : name := Eval vm_compute in u "aVRToManualLag".
Definition n_aVRToManualLead : name := Eval vm_compute in u "aVRToManualLead".
Definition n_absoluteSize : name := Eval vm_compute in u "absoluteSize".
Definition n_acceptableDuration : name := Eval vm_compute in u "acceptableDuration".
Definition n_acceptanceTest : name := Eval vm_compute in u "acceptanceTest".
Definition n_accessMethod : name := Eval vm_compute in u "accessMethod".
Definition n_account : name := Eval vm_compute in u "account".
Definition n_accountHolderName : name := Eval vm_compute in u "accountHolderName".
Definition n_accountID : name := Eval vm_compute in u "accountID".
Definition n_accountKind : name := Eval vm_compute in u "accountKind".
Definition n_accountNumber : name := Eval vm_compute in u "accountNumber".
Definition n_accountingUsage : name := Eval vm_compute in u "accountingUsage".
Definition n_accuracyClass : name := Eval vm_compute in u "accuracyClass".
Definition n_accuracyLimit : name := Eval vm_compute in u "accuracyLimit".
Definition n_acsr : name := Eval vm_compute in u "acsr".
Definition n_actionNeeded : name := Eval vm_compute in u "actionNeeded".
Definition n_actionTaken : name := Eval vm_compute in u "actionTaken".
Definition n_activePeriod : name := Eval vm_compute in u "activePeriod".
Definition n_activePower : name := Eval vm_compute in u "activePower".
Definition n_activeStorageCapacity : name := Eval vm_compute in u "activeStorageCapacity".
Definition n_activityCode : name := Eval vm_compute in u "activityCode".
Definition n_activityInterval : name := Eval vm_compute in u "activityInterval".
Definition n_actualCost : name := Eval vm_compute in u "actualCost".
Definition n_actualPurchaseCost : name := Eval vm_compute in u "actualPurchaseCost".
Definition n_actuatorMaximum : name := Eval vm_compute in u "actuatorMaximum".
Definition n_actuatorMinimum : name := Eval vm_compute in u "actuatorMinimum".
Definition n_add : name := Eval vm_compute in u "add".
Definition n_address : name := Eval vm_compute in u "address".
Definition n_addressGeneral : name := Eval vm_compute in u "addressGeneral".
Definition n_advice : name := Eval vm_compute in u "advice".
Definition n_aggregate : name := Eval vm_compute in u "aggregate".
Definition n_aggregateLoad0 : name := Eval vm_compute in u "aggregateLoad0".
Definition n_air : name := Eval vm_compute in u "air".
Definition n_airCompressorRating : name := Eval vm_compute in u "airCompressorRating".
Definition n_aliasName : name := Eval vm_compute in u "aliasName".
Definition n_allocSpinResP : name := Eval vm_compute in u "allocSpinResP".
Definition n_altPrimaryNomVoltage : name := Eval vm_compute in u "altPrimaryNomVoltage".
Definition n_altSecondaryNomVoltage : name := Eval vm_compute in u "altSecondaryNomVoltage".
Definition n_aluminum : name := Eval vm_compute in u "aluminum".
Definition n_ambientTemp : name := Eval vm_compute in u "ambientTemp".
Definition n_amount : name := Eval vm_compute in u "amount".
Definition n_amountAssignable : name := Eval vm_compute in u "amountAssignable".
Definition n_amrAddress : name := Eval vm_compute in u "amrAddress".
Definition n_amrRouter : name := Eval vm_compute in u "amrRouter".
Definition n_amrSystem : name := Eval vm_compute in u "amrSystem".
Definition n_anchorKind : name := Eval vm_compute in u "anchorKind".
Definition n_anchorRodCount : name := Eval vm_compute in u "anchorRodCount".
Definition n_anchorRodLength : name := Eval vm_compute in u "anchorRodLength".
Definition n_anchorX : name := Eval vm_compute in u "anchorX".
Definition n_anchorY : name := Eval vm_compute in u "anchorY".
Definition n_angle : name := Eval vm_compute in u "angle".
Definition n_angp : name := Eval vm_compute in u "angp".
Definition n_answer : name := Eval vm_compute in u "answer".
Definition n_answerDateTime : name := Eval vm_compute in u "answerDateTime".
Definition n_answerRemark : name := Eval vm_compute in u "answerRemark".
Definition n_application : name := Eval vm_compute in u "application".
Definition n_applicationNumber : name := Eval vm_compute in u "applicationNumber".
Definition n_applicationPeriod : name := Eval vm_compute in u "applicationPeriod".
Definition n_appliedDateTime : name := Eval vm_compute in u "appliedDateTime".
Definition n_apprentice : name := Eval vm_compute in u "apprentice".
Definition n_areaCode : name := Eval vm_compute in u "areaCode".
Definition n_armLength : name := Eval vm_compute in u "armLength".
Definition n_armedTimeout : name := Eval vm_compute in u "armedTimeout".
Definition n_arrears : name := Eval vm_compute in u "arrears".
Definition n_arrearsInterest : name := Eval vm_compute in u "arrearsInterest".
Definition n_asBuilt : name := Eval vm_compute in u "asBuilt".
Definition n_aset : name := Eval vm_compute in u "aset".
Definition n_asset : name := Eval vm_compute in u "asset".
Definition n_assignmentType : name := Eval vm_compute in u "assignmentType".
Definition n_asymmetrical : name := Eval vm_compute in u "asymmetrical".
Definition n_at : name := Eval vm_compute in u "at".
Definition n_attribute : name := Eval vm_compute in u "attribute".
Definition n_attributeName : name := Eval vm_compute in u "attributeName".
Definition n_aturb : name := Eval vm_compute in u "aturb".
Definition n_authorityName : name := Eval vm_compute in u "authorityName".
Definition n_autoCntrlMarginP : name := Eval vm_compute in u "autoCntrlMarginP".
Definition n_autoTransformer : name := Eval vm_compute in u "autoTransformer".
Definition n_automatic : name := Eval vm_compute in u "automatic".
Definition n_automaticPay : name := Eval vm_compute in u "automaticPay".
Definition n_autotransformer : name := Eval vm_compute in u "autotransformer".
Definition n_auxCycle : name := Eval vm_compute in u "auxCycle".
Definition n_auxPowerMult : name := Eval vm_compute in u "auxPowerMult".
Definition n_auxPowerOffset : name := Eval vm_compute in u "auxPowerOffset".
Definition n_auxPowerVersusFrequency : name := Eval vm_compute in u "auxPowerVersusFrequency".
Definition n_auxPowerVersusVoltage : name := Eval vm_compute in u "auxPowerVersusVoltage".
Definition n_auxPriorityCode : name := Eval vm_compute in u "auxPriorityCode".
Definition n_auxRef : name := Eval vm_compute in u "auxRef".
Definition n_averageCml : name := Eval vm_compute in u "averageCml".
Definition n_b : name := Eval vm_compute in u "b".
Definition n_b0 : name := Eval vm_compute in u "b0".
Definition n_b0PerSection : name := Eval vm_compute in u "b0PerSection".
Definition n_b0ch : name := Eval vm_compute in u "b0ch".
Definition n_bPerSection : name := Eval vm_compute in u "bPerSection".
Definition n_badReference : name := Eval vm_compute in u "badReference".
Definition n_bal : name := Eval vm_compute in u "bal".
Definition n_balance : name := Eval vm_compute in u "balance".
Definition n_balanced : name := Eval vm_compute in u "balanced".
Definition n_bandVoltage : name := Eval vm_compute in u "bandVoltage".
Definition n_bankABA : name := Eval vm_compute in u "bankABA".
Definition n_bankAccountDetail : name := Eval vm_compute in u "bankAccountDetail".
Definition n_bankName : name := Eval vm_compute in u "bankName".
Definition n_baseKind : name := Eval vm_compute in u "baseKind".
Definition n_baseP : name := Eval vm_compute in u "baseP".
Definition n_basePower : name := Eval vm_compute in u "basePower".
Definition n_baseQ : name := Eval vm_compute in u "baseQ".
Definition n_baseType : name := Eval vm_compute in u "baseType".
Definition n_bayEnergyMeasFlag : name := Eval vm_compute in u "bayEnergyMeasFlag".
Definition n_bayPowerMeasFlag : name := Eval vm_compute in u "bayPowerMeasFlag".
Definition n_bch : name := Eval vm_compute in u "bch".
Definition n_bic : name := Eval vm_compute in u "bic".
Definition n_bidAmount : name := Eval vm_compute in u "bidAmount".
Definition n_bil : name := Eval vm_compute in u "bil".
Definition n_billMediaKind : name := Eval vm_compute in u "billMediaKind".
Definition n_billPeriod : name := Eval vm_compute in u "billPeriod".
Definition n_billingCycle : name := Eval vm_compute in u "billingCycle".
Definition n_billingDate : name := Eval vm_compute in u "billingDate".
Definition n_billingMultiplier : name := Eval vm_compute in u "billingMultiplier".
Definition n_billingMultiplierApplied : name := Eval vm_compute in u "billingMultiplierApplied".
Definition n_block : name := Eval vm_compute in u "block".
Definition n_block0 : name := Eval vm_compute in u "block0".
Definition n_blockConstant0 : name := Eval vm_compute in u "blockConstant0".
Definition n_blockInputReference0 : name := Eval vm_compute in u "blockInputReference0".
Definition n_blockInputType0 : name := Eval vm_compute in u "blockInputType0".
Definition n_blockKind : name := Eval vm_compute in u "blockKind".
Definition n_blockOutputReference0 : name := Eval vm_compute in u "blockOutputReference0".
Definition n_blockOutputType0 : name := Eval vm_compute in u "blockOutputType0".
Definition n_blockType0 : name := Eval vm_compute in u "blockType0".
Definition n_blockUsageInputReference0 : name := Eval vm_compute in u "blockUsageInputReference0".
Definition n_blockUsageOutputReference0 : name := Eval vm_compute in u "blockUsageOutputReference0".
Definition n_blue : name := Eval vm_compute in u "blue".
Definition n_blueSourcename : name := Eval vm_compute in u "blueSourcename".
Definition n_bmagSat : name := Eval vm_compute in u "bmagSat".
Definition n_boilerControlMode : name := Eval vm_compute in u "boilerControlMode".
Definition n_branchCode : name := Eval vm_compute in u "branchCode".
Definition n_branchDirect : name := Eval vm_compute in u "branchDirect".
Definition n_breakerAndAHalf : name := Eval vm_compute in u "breakerAndAHalf".
Definition n_breakerConfiguration : name := Eval vm_compute in u "breakerConfiguration".
Definition n_breakingCapacity : name := Eval vm_compute in u "breakingCapacity".
Definition n_breastBlock : name := Eval vm_compute in u "breastBlock".
Definition n_bridges : name := Eval vm_compute in u "bridges".
Definition n_brighnessOnly : name := Eval vm_compute in u "brighnessOnly".
Definition n_bturb : name := Eval vm_compute in u "bturb".
Definition n_budget : name := Eval vm_compute in u "budget".
Definition n_budgetBill : name := Eval vm_compute in u "budgetBill".
Definition n_buildingName : name := Eval vm_compute in u "buildingName".
Definition n_busBarConfiguration : name := Eval vm_compute in u "busBarConfiguration".
Definition n_bushingTemp : name := Eval vm_compute in u "bushingTemp".
Definition n_c1Capacitance : name := Eval vm_compute in u "c1Capacitance".
Definition n_c1PowerFactor : name := Eval vm_compute in u "c1PowerFactor".
Definition n_c2 : name := Eval vm_compute in u "c2".
Definition n_c2Capacitance : name := Eval vm_compute in u "c2Capacitance".
Definition n_c2PowerFactor : name := Eval vm_compute in u "c2PowerFactor".
Definition n_calculated : name := Eval vm_compute in u "calculated".
Definition n_callAhead : name := Eval vm_compute in u "callAhead".
Definition n_callBack : name := Eval vm_compute in u "callBack".
Definition n_callerCount : name := Eval vm_compute in u "callerCount".
Definition n_capabilityVersusFrequency : name := Eval vm_compute in u "capabilityVersusFrequency".
Definition n_capacitiveRating : name := Eval vm_compute in u "capacitiveRating".
Definition n_carbonDisulfide : name := Eval vm_compute in u "carbonDisulfide".
Definition n_cash : name := Eval vm_compute in u "cash".
Definition n_cashFloat : name := Eval vm_compute in u "cashFloat".
Definition n_category : name := Eval vm_compute in u "category".
Definition n_cellSize : name := Eval vm_compute in u "cellSize".
Definition n_certificationPeriod : name := Eval vm_compute in u "certificationPeriod".
Definition n_cfValue : name := Eval vm_compute in u "cfValue".
Definition n_change : name := Eval vm_compute in u "change".
Definition n_channelNumber : name := Eval vm_compute in u "channelNumber".
Definition n_charges : name := Eval vm_compute in u "charges".
Definition n_checkBilling : name := Eval vm_compute in u "checkBilling".
Definition n_chequeNumber : name := Eval vm_compute in u "chequeNumber".
Definition n_chlorine : name := Eval vm_compute in u "chlorine".
Definition n_cim : name := Eval vm_compute in u "cim".
Definition n_circuitCount : name := Eval vm_compute in u "circuitCount".
Definition n_cityCode : name := Eval vm_compute in u "cityCode".
Definition n_classification : name := Eval vm_compute in u "classification".
Definition n_clientID : name := Eval vm_compute in u "clientID".
Definition n_code : name := Eval vm_compute in u "code".
Definition n_cogenHPSendoutRating : name := Eval vm_compute in u "cogenHPSendoutRating".
Definition n_cogenHPSteamRating : name := Eval vm_compute in u "cogenHPSteamRating".
Definition n_cogenLPSendoutRating : name := Eval vm_compute in u "cogenLPSendoutRating".
Definition n_cogenLPSteamRating : name := Eval vm_compute in u "cogenLPSteamRating".
Definition n_coldLegFBLagTC : name := Eval vm_compute in u "coldLegFBLagTC".
Definition n_coldLegFBLeadTC1 : name := Eval vm_compute in u "coldLegFBLeadTC1".
Definition n_coldLegFBLeadTC2 : name := Eval vm_compute in u "coldLegFBLeadTC2".
Definition n_coldLegFG1 : name := Eval vm_compute in u "coldLegFG1".
Definition n_coldLegFG2 : name := Eval vm_compute in u "coldLegFG2".
Definition n_coldLegLagTC : name := Eval vm_compute in u "coldLegLagTC".
Definition n_combCyclePlantRating : name := Eval vm_compute in u "combCyclePlantRating".
Definition n_comment : name := Eval vm_compute in u "comment".
Definition n_commutatingReactance : name := Eval vm_compute in u "commutatingReactance".
Definition n_commutatingResistance : name := Eval vm_compute in u "commutatingResistance".
Definition n_completedDateTime : name := Eval vm_compute in u "completedDateTime".
Definition n_compositeModel0 : name := Eval vm_compute in u "compositeModel0".
Definition n_compositeSwitchType : name := Eval vm_compute in u "compositeSwitchType".
Definition n_compoundResistance : name := Eval vm_compute in u "compoundResistance".
Definition n_conclusion : name := Eval vm_compute in u "conclusion".
Definition n_concrete : name := Eval vm_compute in u "concrete".
Definition n_condenser : name := Eval vm_compute in u "condenser".
Definition n_condenserP : name := Eval vm_compute in u "condenserP".
Definition n_condition : name := Eval vm_compute in u "condition".
Definition n_conditionAfter : name := Eval vm_compute in u "conditionAfter".
Definition n_conditionBefore : name := Eval vm_compute in u "conditionBefore".
Definition n_conductorCount : name := Eval vm_compute in u "conductorCount".
Definition n_configID : name := Eval vm_compute in u "configID".
Definition n_configurationKind : name := Eval vm_compute in u "configurationKind".
Definition n_conn : name := Eval vm_compute in u "conn".
Definition n_connected : name := Eval vm_compute in u "connected".
Definition n_connectionFrame0 : name := Eval vm_compute in u "connectionFrame0".
Definition n_connectionKind : name := Eval vm_compute in u "connectionKind".
Definition n_connectionType : name := Eval vm_compute in u "connectionType".
Definition n_consolidatedUdc : name := Eval vm_compute in u "consolidatedUdc".
Definition n_construction : name := Eval vm_compute in u "construction".
Definition n_constructionKind : name := Eval vm_compute in u "constructionKind".
Definition n_contactDetail : name := Eval vm_compute in u "contactDetail".
Definition n_contingentStatus : name := Eval vm_compute in u "contingentStatus".
Definition n_continuousPosition : name := Eval vm_compute in u "continuousPosition".
Definition n_continuousSections : name := Eval vm_compute in u "continuousSections".
Definition n_controlDeadband : name := Eval vm_compute in u "controlDeadband".
Definition n_controlErrorBiasP : name := Eval vm_compute in u "controlErrorBiasP".
Definition n_controlIC : name := Eval vm_compute in u "controlIC".
Definition n_controlKind : name := Eval vm_compute in u "controlKind".
Definition n_controlPC : name := Eval vm_compute in u "controlPC".
Definition n_controlPEB : name := Eval vm_compute in u "controlPEB".
Definition n_controlPED : name := Eval vm_compute in u "controlPED".
Definition n_controlPulseHigh : name := Eval vm_compute in u "controlPulseHigh".
Definition n_controlPulseLow : name := Eval vm_compute in u "controlPulseLow".
Definition n_controlResponseRate : name := Eval vm_compute in u "controlResponseRate".
Definition n_controlTC : name := Eval vm_compute in u "controlTC".
Definition n_coolantCondition : name := Eval vm_compute in u "coolantCondition".
Definition n_coolantTemperature : name := Eval vm_compute in u "coolantTemperature".
Definition n_coolantType : name := Eval vm_compute in u "coolantType".
Definition n_coolingKind : name := Eval vm_compute in u "coolingKind".
Definition n_coreBurden : name := Eval vm_compute in u "coreBurden".
Definition n_coreCoilsWeight : name := Eval vm_compute in u "coreCoilsWeight".
Definition n_coreCount : name := Eval vm_compute in u "coreCount".
Definition n_coreHTLagTC1 : name := Eval vm_compute in u "coreHTLagTC1".
Definition n_coreHTLagTC2 : name := Eval vm_compute in u "coreHTLagTC2".
Definition n_coreKind : name := Eval vm_compute in u "coreKind".
Definition n_coreNeutronicsEffTC : name := Eval vm_compute in u "coreNeutronicsEffTC".
Definition n_coreNeutronicsHT : name := Eval vm_compute in u "coreNeutronicsHT".
Definition n_coreRadius : name := Eval vm_compute in u "coreRadius".
Definition n_coreStrandCount : name := Eval vm_compute in u "coreStrandCount".
Definition n_corporateCode : name := Eval vm_compute in u "corporateCode".
Definition n_corporateStandardKind : name := Eval vm_compute in u "corporateStandardKind".
Definition n_cost : name := Eval vm_compute in u "cost".
Definition n_costDescription : name := Eval vm_compute in u "costDescription".
Definition n_costEstimate : name := Eval vm_compute in u "costEstimate".
Definition n_costPerUnit : name := Eval vm_compute in u "costPerUnit".
Definition n_costType : name := Eval vm_compute in u "costType".
Definition n_country : name := Eval vm_compute in u "country".
Definition n_countryCode : name := Eval vm_compute in u "countryCode".
Definition n_createdDateTime : name := Eval vm_compute in u "createdDateTime".
Definition n_crew : name := Eval vm_compute in u "crew".
Definition n_critical : name := Eval vm_compute in u "critical".
Definition n_criticalCustomerCount : name := Eval vm_compute in u "criticalCustomerCount".
Definition n_crosslinkedPolyethylene : name := Eval vm_compute in u "crosslinkedPolyethylene".
Definition n_crossoverTC : name := Eval vm_compute in u "crossoverTC".
Definition n_crsUrn : name := Eval vm_compute in u "crsUrn".
Definition n_cswitch : name := Eval vm_compute in u "cswitch".
Definition n_ctClass : name := Eval vm_compute in u "ctClass".
Definition n_ctRating : name := Eval vm_compute in u "ctRating".
Definition n_ctRatio : name := Eval vm_compute in u "ctRatio".
Definition n_ctRatioMultiplier : name := Eval vm_compute in u "ctRatioMultiplier".
Definition n_ctptReference : name := Eval vm_compute in u "ctptReference".
Definition n_cuAccount : name := Eval vm_compute in u "cuAccount".
Definition n_cuAction : name := Eval vm_compute in u "cuAction".
Definition n_cuQuantity : name := Eval vm_compute in u "cuQuantity".
Definition n_cuUsage : name := Eval vm_compute in u "cuUsage".
Definition n_current : name := Eval vm_compute in u "current".
Definition n_currentBalance : name := Eval vm_compute in u "currentBalance".
Definition n_currentLimit1 : name := Eval vm_compute in u "currentLimit1".
Definition n_currentLimit2 : name := Eval vm_compute in u "currentLimit2".
Definition n_currentLimit3 : name := Eval vm_compute in u "currentLimit3".
Definition n_currentRating : name := Eval vm_compute in u "currentRating".
Definition n_curveStyle : name := Eval vm_compute in u "curveStyle".
Definition n_customerCount : name := Eval vm_compute in u "customerCount".
Definition n_customerSubstation : name := Eval vm_compute in u "customerSubstation".
Definition n_customerVoltageLimit : name := Eval vm_compute in u "customerVoltageLimit".
Definition n_cutLevel1 : name := Eval vm_compute in u "cutLevel1".
Definition n_cutLevel2 : name := Eval vm_compute in u "cutLevel2".
Definition n_cvNumber : name := Eval vm_compute in u "cvNumber".
Definition n_cycleCount : name := Eval vm_compute in u "cycleCount".
Definition n_d : name := Eval vm_compute in u "d".
Definition n_dailyCeilingUsage : name := Eval vm_compute in u "dailyCeilingUsage".
Definition n_dailyEstimatedUsage : name := Eval vm_compute in u "dailyEstimatedUsage".
Definition n_dailyFloorUsage : name := Eval vm_compute in u "dailyFloorUsage".
Definition n_damage : name := Eval vm_compute in u "damage".
Definition n_damageCode : name := Eval vm_compute in u "damageCode".
Definition n_damping : name := Eval vm_compute in u "damping".
Definition n_dashArray : name := Eval vm_compute in u "dashArray".
Definition n_dashOffset : name := Eval vm_compute in u "dashOffset".
Definition n_date : name := Eval vm_compute in u "date".
Definition n_dateTime : name := Eval vm_compute in u "dateTime".
Definition n_dayOverLoadRating : name := Eval vm_compute in u "dayOverLoadRating".
Definition n_db : name := Eval vm_compute in u "db".
Definition n_db1 : name := Eval vm_compute in u "db1".
Definition n_db2 : name := Eval vm_compute in u "db2".
Definition n_dcSegmentInductance : name := Eval vm_compute in u "dcSegmentInductance".
Definition n_dcSegmentResistance : name := Eval vm_compute in u "dcSegmentResistance".
Definition n_deadband : name := Eval vm_compute in u "deadband".
Definition n_deadline : name := Eval vm_compute in u "deadline".
Definition n_deenergizeReqFlag : name := Eval vm_compute in u "deenergizeReqFlag".
Definition n_defaultQuality : name := Eval vm_compute in u "defaultQuality".
Definition n_defaultValueDataType : name := Eval vm_compute in u "defaultValueDataType".
Definition n_deliveryDate : name := Eval vm_compute in u "deliveryDate".
Definition n_demandCharge : name := Eval vm_compute in u "demandCharge".
Definition n_demandMultiplier : name := Eval vm_compute in u "demandMultiplier".
Definition n_demandMultiplierApplied : name := Eval vm_compute in u "demandMultiplierApplied".
Definition n_demandResponse : name := Eval vm_compute in u "demandResponse".
Definition n_demographicKind : name := Eval vm_compute in u "demographicKind".
Definition n_denominator : name := Eval vm_compute in u "denominator".
Definition n_deposit : name := Eval vm_compute in u "deposit".
Definition n_description : name := Eval vm_compute in u "description".
Definition n_desiredEndState : name := Eval vm_compute in u "desiredEndState".
Definition n_dga : name := Eval vm_compute in u "dga".
Definition n_diameter : name := Eval vm_compute in u "diameter".
Definition n_diameterOverCore : name := Eval vm_compute in u "diameterOverCore".
Definition n_diameterOverInsulation : name := Eval vm_compute in u "diameterOverInsulation".
Definition n_diameterOverJacket : name := Eval vm_compute in u "diameterOverJacket".
Definition n_diameterOverNeutral : name := Eval vm_compute in u "diameterOverNeutral".
Definition n_diameterOverScreen : name := Eval vm_compute in u "diameterOverScreen".
Definition n_dielectricStrength : name := Eval vm_compute in u "dielectricStrength".
Definition n_direction : name := Eval vm_compute in u "direction".
Definition n_directionInfo : name := Eval vm_compute in u "directionInfo".
Definition n_dirt : name := Eval vm_compute in u "dirt".
Definition n_disabled : name := Eval vm_compute in u "disabled".
Definition n_dischargeTravelDelay : name := Eval vm_compute in u "dischargeTravelDelay".
Definition n_disconnect : name := Eval vm_compute in u "disconnect".
Definition n_disconnectTimeDelay : name := Eval vm_compute in u "disconnectTimeDelay".
Definition n_discount : name := Eval vm_compute in u "discount".
Definition n_discrete : name := Eval vm_compute in u "discrete".
Definition n_dispReserveFlag : name := Eval vm_compute in u "dispReserveFlag".
Definition n_displacementX : name := Eval vm_compute in u "displacementX".
Definition n_displacementY : name := Eval vm_compute in u "displacementY".
Definition n_distance11 : name := Eval vm_compute in u "distance11".
Definition n_distance12 : name := Eval vm_compute in u "distance12".
Definition n_distance21 : name := Eval vm_compute in u "distance21".
Definition n_distance22 : name := Eval vm_compute in u "distance22".
Definition n_distribution : name := Eval vm_compute in u "distribution".
Definition n_diversePayment : name := Eval vm_compute in u "diversePayment".
Definition n_diverseReference : name := Eval vm_compute in u "diverseReference".
Definition n_dm : name := Eval vm_compute in u "dm".
Definition n_docStatus : name := Eval vm_compute in u "docStatus".
Definition n_donorReference : name := Eval vm_compute in u "donorReference".
Definition n_doubleBus : name := Eval vm_compute in u "doubleBus".
Definition n_drProgramLevel : name := Eval vm_compute in u "drProgramLevel".
Definition n_drProgramMandatory : name := Eval vm_compute in u "drProgramMandatory".
Definition n_drawingOrder : name := Eval vm_compute in u "drawingOrder".
Definition n_drumBoilerRating : name := Eval vm_compute in u "drumBoilerRating".
Definition n_dryType : name := Eval vm_compute in u "dryType".
Definition n_dstEnabled : name := Eval vm_compute in u "dstEnabled".
Definition n_dt : name := Eval vm_compute in u "dt".
Definition n_dturb : name := Eval vm_compute in u "dturb".
Definition n_due : name := Eval vm_compute in u "due".
Definition n_dueDate : name := Eval vm_compute in u "dueDate".
Definition n_dueDateTime : name := Eval vm_compute in u "dueDateTime".
Definition n_duration : name := Eval vm_compute in u "duration".
Definition n_dyn : name := Eval vm_compute in u "dyn".
Definition n_dynamicConfiguration : name := Eval vm_compute in u "dynamicConfiguration".
Definition n_e : name := Eval vm_compute in u "e".
Definition n_e1 : name := Eval vm_compute in u "e1".
Definition n_e2 : name := Eval vm_compute in u "e2".
Definition n_efdmax : name := Eval vm_compute in u "efdmax".
Definition n_efdmin : name := Eval vm_compute in u "efdmin".
Definition n_efdn : name := Eval vm_compute in u "efdn".
Definition n_effect : name := Eval vm_compute in u "effect".
Definition n_effectiveDate : name := Eval vm_compute in u "effectiveDate".
Definition n_effectiveDateTime : name := Eval vm_compute in u "effectiveDateTime".
Definition n_effectivePeriod : name := Eval vm_compute in u "effectivePeriod".
Definition n_efficiency : name := Eval vm_compute in u "efficiency".
Definition n_electricallyConnected : name := Eval vm_compute in u "electricallyConnected".
Definition n_electronicAddress : name := Eval vm_compute in u "electronicAddress".
Definition n_email : name := Eval vm_compute in u "email".
Definition n_emax : name := Eval vm_compute in u "emax".
Definition n_emergencyHighVoltLimit : name := Eval vm_compute in u "emergencyHighVoltLimit".
Definition n_emergencyLowVoltLimit : name := Eval vm_compute in u "emergencyLowVoltLimit".
Definition n_emergencyS : name := Eval vm_compute in u "emergencyS".
Definition n_emin : name := Eval vm_compute in u "emin".
Definition n_emissionContent : name := Eval vm_compute in u "emissionContent".
Definition n_emissionType : name := Eval vm_compute in u "emissionType".
Definition n_emissionValueSource : name := Eval vm_compute in u "emissionValueSource".
Definition n_enabled : name := Eval vm_compute in u "enabled".
Definition n_end : name := Eval vm_compute in u "end".
Definition n_endDate : name := Eval vm_compute in u "endDate".
Definition n_endDateTime : name := Eval vm_compute in u "endDateTime".
Definition n_endNumber : name := Eval vm_compute in u "endNumber".
Definition n_endTime : name := Eval vm_compute in u "endTime".
Definition n_energisedEndStep : name := Eval vm_compute in u "energisedEndStep".
Definition n_energisedEndVoltage : name := Eval vm_compute in u "energisedEndVoltage".
Definition n_energizationFlag : name := Eval vm_compute in u "energizationFlag".
Definition n_energyConsumer0 : name := Eval vm_compute in u "energyConsumer0".
Definition n_energyConversionCapability : name := Eval vm_compute in u "energyConversionCapability".
Definition n_energyLimit : name := Eval vm_compute in u "energyLimit".
Definition n_energyMinP : name := Eval vm_compute in u "energyMinP".
Definition n_energyStorageCapacity : name := Eval vm_compute in u "energyStorageCapacity".
Definition n_energyStorageRating : name := Eval vm_compute in u "energyStorageRating".
Definition n_energyUnit : name := Eval vm_compute in u "energyUnit".
Definition n_energyUsageStartDateTime : name := Eval vm_compute in u "energyUsageStartDateTime".
Definition n_energyUsageWarning : name := Eval vm_compute in u "energyUsageWarning".
Definition n_ep1 : name := Eval vm_compute in u "ep1".
Definition n_ep2 : name := Eval vm_compute in u "ep2".
Definition n_ep3 : name := Eval vm_compute in u "ep3".
Definition n_epoxy : name := Eval vm_compute in u "epoxy".
Definition n_eps : name := Eval vm_compute in u "eps".
Definition n_eq : name := Eval vm_compute in u "eq".
Definition n_eq1 : name := Eval vm_compute in u "eq1".
Definition n_eq2 : name := Eval vm_compute in u "eq2".
Definition n_eq3 : name := Eval vm_compute in u "eq3".
Definition n_equationType : name := Eval vm_compute in u "equationType".
Definition n_equipCode : name := Eval vm_compute in u "equipCode".
Definition n_equivalentCircuit : name := Eval vm_compute in u "equivalentCircuit".
Definition n_estCost : name := Eval vm_compute in u "estCost".
Definition n_estUnitCost : name := Eval vm_compute in u "estUnitCost".
Definition n_estimatedLoad : name := Eval vm_compute in u "estimatedLoad".
Definition n_estimatedRestoreDateTime : name := Eval vm_compute in u "estimatedRestoreDateTime".
Definition n_estimatedUnitCost : name := Eval vm_compute in u "estimatedUnitCost".
Definition n_estimatedWindow : name := Eval vm_compute in u "estimatedWindow".
Definition n_estimatorReplaced : name := Eval vm_compute in u "estimatorReplaced".
Definition n_eventCount : name := Eval vm_compute in u "eventCount".
Definition n_excitingCurrent : name := Eval vm_compute in u "excitingCurrent".
Definition n_excitingCurrentZero : name := Eval vm_compute in u "excitingCurrentZero".
Definition n_exclim : name := Eval vm_compute in u "exclim".
Definition n_expectedInterruptionCount : name := Eval vm_compute in u "expectedInterruptionCount".
Definition n_expirationDate : name := Eval vm_compute in u "expirationDate".
Definition n_expiryDate : name := Eval vm_compute in u "expiryDate".
Definition n_explosivesUsed : name := Eval vm_compute in u "explosivesUsed".
Definition n_exponentModel : name := Eval vm_compute in u "exponentModel".
Definition n_extension : name := Eval vm_compute in u "extension".
Definition n_externalRecordReference : name := Eval vm_compute in u "externalRecordReference".
Definition n_externalRefID : name := Eval vm_compute in u "externalRefID".
Definition n_failure : name := Eval vm_compute in u "failure".
Definition n_failureIsolationMethod : name := Eval vm_compute in u "failureIsolationMethod".
Definition n_failureMode : name := Eval vm_compute in u "failureMode".
Definition n_fall : name := Eval vm_compute in u "fall".
Definition n_family : name := Eval vm_compute in u "family".
Definition n_fastStartFlag : name := Eval vm_compute in u "fastStartFlag".
Definition n_fatality : name := Eval vm_compute in u "fatality".
Definition n_faultLocatingMethod : name := Eval vm_compute in u "faultLocatingMethod".
Definition n_featureConstraint : name := Eval vm_compute in u "featureConstraint".
Definition n_featureType : name := Eval vm_compute in u "featureType".
Definition n_featureTypeName : name := Eval vm_compute in u "featureTypeName".
Definition n_feedWaterIG : name := Eval vm_compute in u "feedWaterIG".
Definition n_feedWaterPG : name := Eval vm_compute in u "feedWaterPG".
Definition n_feedWaterTC : name := Eval vm_compute in u "feedWaterTC".
Definition n_feedbackFactor : name := Eval vm_compute in u "feedbackFactor".
Definition n_fieldID : name := Eval vm_compute in u "fieldID".
Definition n_fillKind : name := Eval vm_compute in u "fillKind".
Definition n_finalCause : name := Eval vm_compute in u "finalCause".
Definition n_finalCode : name := Eval vm_compute in u "finalCode".
Definition n_finalOrigin : name := Eval vm_compute in u "finalOrigin".
Definition n_finalRemark : name := Eval vm_compute in u "finalRemark".
Definition n_financialValue : name := Eval vm_compute in u "financialValue".
Definition n_firmwareID : name := Eval vm_compute in u "firmwareID".
Definition n_firstCallDateTime : name := Eval vm_compute in u "firstCallDateTime".
Definition n_firstName : name := Eval vm_compute in u "firstName".
Definition n_fixed : name := Eval vm_compute in u "fixed".
Definition n_fixedAmount : name := Eval vm_compute in u "fixedAmount".
Definition n_fixedBlock : name := Eval vm_compute in u "fixedBlock".
Definition n_fixedMaintCost : name := Eval vm_compute in u "fixedMaintCost".
Definition n_fixedPortion : name := Eval vm_compute in u "fixedPortion".
Definition n_following : name := Eval vm_compute in u "following".
Definition n_forcedAir : name := Eval vm_compute in u "forcedAir".
Definition n_formNumber : name := Eval vm_compute in u "formNumber".
Definition n_formula : name := Eval vm_compute in u "formula".
Definition n_fossilFuelType : name := Eval vm_compute in u "fossilFuelType".
Definition n_francis : name := Eval vm_compute in u "francis".
Definition n_freqResp : name := Eval vm_compute in u "freqResp".
Definition n_frequency : name := Eval vm_compute in u "frequency".
Definition n_fromTapStep : name := Eval vm_compute in u "fromTapStep".
Definition n_fuelAllocationEndDate : name := Eval vm_compute in u "fuelAllocationEndDate".
Definition n_fuelAllocationStartDate : name := Eval vm_compute in u "fuelAllocationStartDate".
Definition n_fuelCost : name := Eval vm_compute in u "fuelCost".
Definition n_fuelDemandLimit : name := Eval vm_compute in u "fuelDemandLimit".
Definition n_fuelDispatchCost : name := Eval vm_compute in u "fuelDispatchCost".
Definition n_fuelEffFactor : name := Eval vm_compute in u "fuelEffFactor".
Definition n_fuelHandlingCost : name := Eval vm_compute in u "fuelHandlingCost".
Definition n_fuelHeatContent : name := Eval vm_compute in u "fuelHeatContent".
Definition n_fuelMixture : name := Eval vm_compute in u "fuelMixture".
Definition n_fuelPriority : name := Eval vm_compute in u "fuelPriority".
Definition n_fuelSulfur : name := Eval vm_compute in u "fuelSulfur".
Definition n_fuelSupplyDelay : name := Eval vm_compute in u "fuelSupplyDelay".
Definition n_fuelSupplyTC : name := Eval vm_compute in u "fuelSupplyTC".
Definition n_fuelType : name := Eval vm_compute in u "fuelType".
Definition n_fullSupplyLevel : name := Eval vm_compute in u "fullSupplyLevel".
Definition n_fumigantAppliedDate : name := Eval vm_compute in u "fumigantAppliedDate".
Definition n_fumigantName : name := Eval vm_compute in u "fumigantName".
Definition n_function : name := Eval vm_compute in u "function".
Definition n_furfuralDP : name := Eval vm_compute in u "furfuralDP".
Definition n_fuse : name := Eval vm_compute in u "fuse".
Definition n_g : name := Eval vm_compute in u "g".
Definition n_g0 : name := Eval vm_compute in u "g0".
Definition n_g0PerSection : name := Eval vm_compute in u "g0PerSection".
Definition n_g0ch : name := Eval vm_compute in u "g0ch".
Definition n_gPerSection : name := Eval vm_compute in u "gPerSection".
Definition n_gang : name := Eval vm_compute in u "gang".
Definition n_ganged : name := Eval vm_compute in u "ganged".
Definition n_gas : name := Eval vm_compute in u "gas".
Definition n_gateRateLimit : name := Eval vm_compute in u "gateRateLimit".
Definition n_gateUpperLimit : name := Eval vm_compute in u "gateUpperLimit".
Definition n_gch : name := Eval vm_compute in u "gch".
Definition n_genControlMode : name := Eval vm_compute in u "genControlMode".
Definition n_genControlSource : name := Eval vm_compute in u "genControlSource".
Definition n_genEquiv0 : name := Eval vm_compute in u "genEquiv0".
Definition n_genLoad0 : name := Eval vm_compute in u "genLoad0".
Definition n_genOperatingMode : name := Eval vm_compute in u "genOperatingMode".
Definition n_genRatedP : name := Eval vm_compute in u "genRatedP".
Definition n_generator : name := Eval vm_compute in u "generator".
Definition n_generator_or_condenser : name := Eval vm_compute in u "generator_or_condenser".
Definition n_geo : name := Eval vm_compute in u "geo".
Definition n_geoInfoReference : name := Eval vm_compute in u "geoInfoReference".
Definition n_geometryProperty : name := Eval vm_compute in u "geometryProperty".
Definition n_geometryType : name := Eval vm_compute in u "geometryType".
Definition n_glAccount : name := Eval vm_compute in u "glAccount".
Definition n_glDateTime : name := Eval vm_compute in u "glDateTime".
Definition n_gmax : name := Eval vm_compute in u "gmax".
Definition n_gmin : name := Eval vm_compute in u "gmin".
Definition n_gmr : name := Eval vm_compute in u "gmr".
Definition n_govHydro10 : name := Eval vm_compute in u "govHydro10".
Definition n_governmentID : name := Eval vm_compute in u "governmentID".
Definition n_governorMPL : name := Eval vm_compute in u "governorMPL".
Definition n_governorSCD : name := Eval vm_compute in u "governorSCD".
Definition n_graySourcename : name := Eval vm_compute in u "graySourcename".
Definition n_green : name := Eval vm_compute in u "green".
Definition n_greenSourceName : name := Eval vm_compute in u "greenSourceName".
Definition n_grossCapacity : name := Eval vm_compute in u "grossCapacity".
Definition n_groundReqFlag : name := Eval vm_compute in u "groundReqFlag".
Definition n_groundTrip : name := Eval vm_compute in u "groundTrip".
Definition n_groundTripCapable : name := Eval vm_compute in u "groundTripCapable".
Definition n_groundTripNormalEnabled : name := Eval vm_compute in u "groundTripNormalEnabled".
Definition n_groundTripRating : name := Eval vm_compute in u "groundTripRating".
Definition n_grounded : name := Eval vm_compute in u "grounded".
Definition n_groundedEndStep : name := Eval vm_compute in u "groundedEndStep".
Definition n_groundingMethod : name := Eval vm_compute in u "groundingMethod".
Definition n_groupAddress : name := Eval vm_compute in u "groupAddress".
Definition n_guy : name := Eval vm_compute in u "guy".
Definition n_gv1 : name := Eval vm_compute in u "gv1".
Definition n_gv2 : name := Eval vm_compute in u "gv2".
Definition n_gv3 : name := Eval vm_compute in u "gv3".
Definition n_gv4 : name := Eval vm_compute in u "gv4".
Definition n_gv5 : name := Eval vm_compute in u "gv5".
Definition n_gv6 : name := Eval vm_compute in u "gv6".
Definition n_h : name := Eval vm_compute in u "h".
Definition n_hardwareID : name := Eval vm_compute in u "hardwareID".
Definition n_hasVentilation : name := Eval vm_compute in u "hasVentilation".
Definition n_hazardCode : name := Eval vm_compute in u "hazardCode".
Definition n_heatInputEff : name := Eval vm_compute in u "heatInputEff".
Definition n_heatInputOffset : name := Eval vm_compute in u "heatInputOffset".
Definition n_heatRecoveryFlag : name := Eval vm_compute in u "heatRecoveryFlag".
Definition n_height : name := Eval vm_compute in u "height".
Definition n_high : name := Eval vm_compute in u "high".
Definition n_highBreakpointP : name := Eval vm_compute in u "highBreakpointP".
Definition n_highControlLimit : name := Eval vm_compute in u "highControlLimit".
Definition n_highLevelLimit : name := Eval vm_compute in u "highLevelLimit".
Definition n_highLimit : name := Eval vm_compute in u "highLimit".
Definition n_highPowerLimit : name := Eval vm_compute in u "highPowerLimit".
Definition n_highStep : name := Eval vm_compute in u "highStep".
Definition n_highVoltageLimit : name := Eval vm_compute in u "highVoltageLimit".
Definition n_highVoltageOverride : name := Eval vm_compute in u "highVoltageOverride".
Definition n_holderID : name := Eval vm_compute in u "holderID".
Definition n_holderName : name := Eval vm_compute in u "holderName".
Definition n_hotLegLagTC : name := Eval vm_compute in u "hotLegLagTC".
Definition n_hotLegSteamGain : name := Eval vm_compute in u "hotLegSteamGain".
Definition n_hotLegToColdLegGain : name := Eval vm_compute in u "hotLegToColdLegGain".
Definition n_hotSpotTemp : name := Eval vm_compute in u "hotSpotTemp".
Definition n_hotStandbyHeat : name := Eval vm_compute in u "hotStandbyHeat".
Definition n_hotStandbyRamp : name := Eval vm_compute in u "hotStandbyRamp".
Definition n_hourOverLoadRating : name := Eval vm_compute in u "hourOverLoadRating".
Definition n_http___iec_ch_TC57_2009_CIM_schema_cim14 : name := Eval vm_compute in u "http://iec.ch/TC57/2009/CIM-schema-cim14".
Definition n_http___iec_ch_TC57_2009_CIM_schema_cim14_profile_http___iec_ch_TC57_2007_profile_CDPSM_Balanced : name := Eval vm_compute in u "http://iec.ch/TC57/2009/CIM-schema-cim14?profile=http://iec.ch/TC57/2007/profile/CDPSM/Balanced".
Definition n_http___iec_ch_TC57_2009_CIM_schema_cim14_profile_http___iec_ch_TC57_2007_profile_CDPSM_GIS_Connectivity : name := Eval vm_compute in u "http://iec.ch/TC57/2009/CIM-schema-cim14?profile=http://iec.ch/TC57/2007/profile/CDPSM/GIS_Connectivity".
Definition n_http___iec_ch_TC57_2009_CIM_schema_cim14_profile_http___iec_ch_TC57_2007_profile_CDPSM_Unbalanced : name := Eval vm_compute in u "http://iec.ch/TC57/2009/CIM-schema-cim14?profile=http://iec.ch/TC57/2007/profile/CDPSM/Unbalanced".
Definition n_http___iec_ch_TC57_2009_CIM_schema_cim14_profile_http___iec_ch_TC57_2007_profile_CPSM_Equipment : name := Eval vm_compute in u "http://iec.ch/TC57/2009/CIM-schema-cim14?profile=http://iec.ch/TC57/2007/profile/CPSM/Equipment".
Definition n_http___iec_ch_TC57_2009_CIM_schema_cim14_profile_http___iec_ch_TC57_2007_profile_CPSM_StateVariables : name := Eval vm_compute in u "http://iec.ch/TC57/2009/CIM-schema-cim14?profile=http://iec.ch/TC57/2007/profile/CPSM/StateVariables".
Definition n_http___iec_ch_TC57_2009_CIM_schema_cim14_profile_http___iec_ch_TC57_2007_profile_CPSM_Topology : name := Eval vm_compute in u "http://iec.ch/TC57/2009/CIM-schema-cim14?profile=http://iec.ch/TC57/2007/profile/CPSM/Topology".
Definition n_http___iec_ch_TC57_2009_CIM_schema_cim14_profile_http___iec_ch_TC57_2007_profile_ENTSOE_Dynamics : name := Eval vm_compute in u "http://iec.ch/TC57/2009/CIM-schema-cim14?profile=http://iec.ch/TC57/2007/profile/ENTSOE/Dynamics".
Definition n_http___iec_ch_TC57_2009_CIM_schema_cim14_profile_http___iec_ch_TC57_2007_profile_ENTSOE_Equipment : name := Eval vm_compute in u "http://iec.ch/TC57/2009/CIM-schema-cim14?profile=http://iec.ch/TC57/2007/profile/ENTSOE/Equipment".
Definition n_http___iec_ch_TC57_2009_CIM_schema_cim14_profile_http___iec_ch_TC57_2007_profile_ENTSOE_StateVariables : name := Eval vm_compute in u "http://iec.ch/TC57/2009/CIM-schema-cim14?profile=http://iec.ch/TC57/2007/profile/ENTSOE/StateVariables".
Definition n_http___iec_ch_TC57_2009_CIM_schema_cim14_profile_http___iec_ch_TC57_2007_profile_ENTSOE_Topology : name := Eval vm_compute in u "http://iec.ch/TC57/2009/CIM-schema-cim14?profile=http://iec.ch/TC57/2007/profile/ENTSOE/Topology".
Definition n_http___iec_ch_TC57_2010_CIM_schema_cim15 : name := Eval vm_compute in u "http://iec.ch/TC57/2010/CIM-schema-cim15".
Definition n_http___iec_ch_TC57_2010_CIM_schema_cim15_profile_http___iec_ch_TC57_2011_iec61968_13_CDPSM_Balanced : name := Eval vm_compute in u "http://iec.ch/TC57/2010/CIM-schema-cim15?profile=http://iec.ch/TC57/2011/iec61968-13/CDPSM/Balanced".
Definition n_http___iec_ch_TC57_2010_CIM_schema_cim15_profile_http___iec_ch_TC57_2011_iec61968_13_CDPSM_Connectivity : name := Eval vm_compute in u "http://iec.ch/TC57/2010/CIM-schema-cim15?profile=http://iec.ch/TC57/2011/iec61968-13/CDPSM/Connectivity".
Definition n_http___iec_ch_TC57_2010_CIM_schema_cim15_profile_http___iec_ch_TC57_2011_iec61968_13_CDPSM_Geographical : name := Eval vm_compute in u "http://iec.ch/TC57/2010/CIM-schema-cim15?profile=http://iec.ch/TC57/2011/iec61968-13/CDPSM/Geographical".
Definition n_http___iec_ch_TC57_2010_CIM_schema_cim15_profile_http___iec_ch_TC57_2011_iec61968_4_CDPSM_Asset : name := Eval vm_compute in u "http://iec.ch/TC57/2010/CIM-schema-cim15?profile=http://iec.ch/TC57/2011/iec61968-4/CDPSM/Asset".
Definition n_hydroPlantType : name := Eval vm_compute in u "hydroPlantType".
Definition n_hydroUnitWaterCost : name := Eval vm_compute in u "hydroUnitWaterCost".
Definition n_hydrogenPressure : name := Eval vm_compute in u "hydrogenPressure".
Definition n_iban : name := Eval vm_compute in u "iban".
Definition n_ignitionFuelType : name := Eval vm_compute in u "ignitionFuelType".
Definition n_ilr : name := Eval vm_compute in u "ilr".
Definition n_inCoreThermalTC : name := Eval vm_compute in u "inCoreThermalTC".
Definition n_inService : name := Eval vm_compute in u "inService".
Definition n_inTransitTime : name := Eval vm_compute in u "inTransitTime".
Definition n_incrementalMaintCost : name := Eval vm_compute in u "incrementalMaintCost".
Definition n_inductiveRating : name := Eval vm_compute in u "inductiveRating".
Definition n_industrial : name := Eval vm_compute in u "industrial".
Definition n_industryID : name := Eval vm_compute in u "industryID".
Definition n_inertia : name := Eval vm_compute in u "inertia".
Definition n_informAfterRestored : name := Eval vm_compute in u "informAfterRestored".
Definition n_informBeforeRestored : name := Eval vm_compute in u "informBeforeRestored".
Definition n_initOpMode : name := Eval vm_compute in u "initOpMode".
Definition n_initialCondition : name := Eval vm_compute in u "initialCondition".
Definition n_initialDelay : name := Eval vm_compute in u "initialDelay".
Definition n_initialLossOfLife : name := Eval vm_compute in u "initialLossOfLife".
Definition n_initialP : name := Eval vm_compute in u "initialP".
Definition n_injury : name := Eval vm_compute in u "injury".
Definition n_install : name := Eval vm_compute in u "install".
Definition n_installationDate : name := Eval vm_compute in u "installationDate".
Definition n_instructed : name := Eval vm_compute in u "instructed".
Definition n_instruction : name := Eval vm_compute in u "instruction".
Definition n_insulated : name := Eval vm_compute in u "insulated".
Definition n_insulating : name := Eval vm_compute in u "insulating".
Definition n_insulation : name := Eval vm_compute in u "insulation".
Definition n_insulationKind : name := Eval vm_compute in u "insulationKind".
Definition n_insulationMaterial : name := Eval vm_compute in u "insulationMaterial".
Definition n_insulationPFStatus : name := Eval vm_compute in u "insulationPFStatus".
Definition n_insulationResistance : name := Eval vm_compute in u "insulationResistance".
Definition n_insulationThickness : name := Eval vm_compute in u "insulationThickness".
Definition n_insulationU : name := Eval vm_compute in u "insulationU".
Definition n_integralGain : name := Eval vm_compute in u "integralGain".
Definition n_interest : name := Eval vm_compute in u "interest".
Definition n_internal : name := Eval vm_compute in u "internal".
Definition n_interruptingRating : name := Eval vm_compute in u "interruptingRating".
Definition n_interval : name := Eval vm_compute in u "interval".
Definition n_intervalLength : name := Eval vm_compute in u "intervalLength".
Definition n_inverseTimeFlag : name := Eval vm_compute in u "inverseTimeFlag".
Definition n_irrigation : name := Eval vm_compute in u "irrigation".
Definition n_isApplied : name := Eval vm_compute in u "isApplied".
Definition n_isArmConnect : name := Eval vm_compute in u "isArmConnect".
Definition n_isArmDisconnect : name := Eval vm_compute in u "isArmDisconnect".
Definition n_isAutoOp : name := Eval vm_compute in u "isAutoOp".
Definition n_isAutoReconOp : name := Eval vm_compute in u "isAutoReconOp".
Definition n_isBankable : name := Eval vm_compute in u "isBankable".
Definition n_isConnected : name := Eval vm_compute in u "isConnected".
Definition n_isCostCenter : name := Eval vm_compute in u "isCostCenter".
Definition n_isDC : name := Eval vm_compute in u "isDC".
Definition n_isDebit : name := Eval vm_compute in u "isDebit".
Definition n_isDelayedDiscon : name := Eval vm_compute in u "isDelayedDiscon".
Definition n_isEnergyLimiting : name := Eval vm_compute in u "isEnergyLimiting".
Definition n_isHorizontal : name := Eval vm_compute in u "isHorizontal".
Definition n_isLocalAutoDisconOp : name := Eval vm_compute in u "isLocalAutoDisconOp".
Definition n_isLocalAutoReconOp : name := Eval vm_compute in u "isLocalAutoReconOp".
Definition n_isNetGrossP : name := Eval vm_compute in u "isNetGrossP".
Definition n_isPercentageLimits : name := Eval vm_compute in u "isPercentageLimits".
Definition n_isPlanned : name := Eval vm_compute in u "isPlanned".
Definition n_isPolygon : name := Eval vm_compute in u "isPolygon".
Definition n_isProfitCenter : name := Eval vm_compute in u "isProfitCenter".
Definition n_isRemoteAutoDisconOp : name := Eval vm_compute in u "isRemoteAutoDisconOp".
Definition n_isRemoteAutoReconOp : name := Eval vm_compute in u "isRemoteAutoReconOp".
Definition n_isStrandFill : name := Eval vm_compute in u "isStrandFill".
Definition n_isTcul : name := Eval vm_compute in u "isTcul".
Definition n_issueDateTime : name := Eval vm_compute in u "issueDateTime".
Definition n_issuerIdentificationNumber : name := Eval vm_compute in u "issuerIdentificationNumber".
Definition n_j1 : name := Eval vm_compute in u "j1".
Definition n_j2 : name := Eval vm_compute in u "j2".
Definition n_jobPriority : name := Eval vm_compute in u "jobPriority".
Definition n_jpaReference : name := Eval vm_compute in u "jpaReference".
Definition n_k : name := Eval vm_compute in u "k".
Definition n_k1 : name := Eval vm_compute in u "k1".
Definition n_k2 : name := Eval vm_compute in u "k2".
Definition n_k3 : name := Eval vm_compute in u "k3".
Definition n_k4 : name := Eval vm_compute in u "k4".
Definition n_k5 : name := Eval vm_compute in u "k5".
Definition n_k6 : name := Eval vm_compute in u "k6".
Definition n_k7 : name := Eval vm_compute in u "k7".
Definition n_k8 : name := Eval vm_compute in u "k8".
Definition n_kH : name := Eval vm_compute in u "kH".
Definition n_kR : name := Eval vm_compute in u "kR".
Definition n_kWMultiplier : name := Eval vm_compute in u "kWMultiplier".
Definition n_kWhMultiplier : name := Eval vm_compute in u "kWhMultiplier".
Definition n_ka : name := Eval vm_compute in u "ka".
Definition n_kb : name := Eval vm_compute in u "kb".
Definition n_kc : name := Eval vm_compute in u "kc".
Definition n_kcl : name := Eval vm_compute in u "kcl".
Definition n_kd : name := Eval vm_compute in u "kd".
Definition n_kdgov : name := Eval vm_compute in u "kdgov".
Definition n_kdr : name := Eval vm_compute in u "kdr".
Definition n_ke : name := Eval vm_compute in u "ke".
Definition n_kf : name := Eval vm_compute in u "kf".
Definition n_kf1 : name := Eval vm_compute in u "kf1".
Definition n_kf2 : name := Eval vm_compute in u "kf2".
Definition n_kf3 : name := Eval vm_compute in u "kf3".
Definition n_kff : name := Eval vm_compute in u "kff".
Definition n_kg : name := Eval vm_compute in u "kg".
Definition n_kh : name := Eval vm_compute in u "kh".
Definition n_ki : name := Eval vm_compute in u "ki".
Definition n_kia : name := Eval vm_compute in u "kia".
Definition n_kigov : name := Eval vm_compute in u "kigov".
Definition n_kiload : name := Eval vm_compute in u "kiload".
Definition n_kim : name := Eval vm_compute in u "kim".
Definition n_kimw : name := Eval vm_compute in u "kimw".
Definition n_kind : name := Eval vm_compute in u "kind".
Definition n_kir : name := Eval vm_compute in u "kir".
Definition n_kl : name := Eval vm_compute in u "kl".
Definition n_klr : name := Eval vm_compute in u "klr".
Definition n_km : name := Eval vm_compute in u "km".
Definition n_kn : name := Eval vm_compute in u "kn".
Definition n_kneePointCurrent : name := Eval vm_compute in u "kneePointCurrent".
Definition n_kneePointVoltage : name := Eval vm_compute in u "kneePointVoltage".
Definition n_kp : name := Eval vm_compute in u "kp".
Definition n_kp1 : name := Eval vm_compute in u "kp1".
Definition n_kp2 : name := Eval vm_compute in u "kp2".
Definition n_kp3 : name := Eval vm_compute in u "kp3".
Definition n_kp4 : name := Eval vm_compute in u "kp4".
Definition n_kpa : name := Eval vm_compute in u "kpa".
Definition n_kpf : name := Eval vm_compute in u "kpf".
Definition n_kpgov : name := Eval vm_compute in u "kpgov".
Definition n_kpload : name := Eval vm_compute in u "kpload".
Definition n_kpm : name := Eval vm_compute in u "kpm".
Definition n_kpr : name := Eval vm_compute in u "kpr".
Definition n_kq1 : name := Eval vm_compute in u "kq1".
Definition n_kq2 : name := Eval vm_compute in u "kq2".
Definition n_kq3 : name := Eval vm_compute in u "kq3".
Definition n_kq4 : name := Eval vm_compute in u "kq4".
Definition n_kqf : name := Eval vm_compute in u "kqf".
Definition n_kr : name := Eval vm_compute in u "kr".
Definition n_ks1 : name := Eval vm_compute in u "ks1".
Definition n_ks2 : name := Eval vm_compute in u "ks2".
Definition n_ks3 : name := Eval vm_compute in u "ks3".
Definition n_ks4 : name := Eval vm_compute in u "ks4".
Definition n_kturb : name := Eval vm_compute in u "kturb".
Definition n_kv : name := Eval vm_compute in u "kv".
Definition n_label : name := Eval vm_compute in u "label".
Definition n_labelExpression : name := Eval vm_compute in u "labelExpression".
Definition n_labelType : name := Eval vm_compute in u "labelType".
Definition n_laborDuration : name := Eval vm_compute in u "laborDuration".
Definition n_laborRate : name := Eval vm_compute in u "laborRate".
Definition n_lampKind : name := Eval vm_compute in u "lampKind".
Definition n_lan : name := Eval vm_compute in u "lan".
Definition n_landlinePhone : name := Eval vm_compute in u "landlinePhone".
Definition n_lastCalibrationDate : name := Eval vm_compute in u "lastCalibrationDate".
Definition n_lastCredit : name := Eval vm_compute in u "lastCredit".
Definition n_lastDebit : name := Eval vm_compute in u "lastDebit".
Definition n_lastModifiedDateTime : name := Eval vm_compute in u "lastModifiedDateTime".
Definition n_lastName : name := Eval vm_compute in u "lastName".
Definition n_lastPaymentAmt : name := Eval vm_compute in u "lastPaymentAmt".
Definition n_lastPaymentDate : name := Eval vm_compute in u "lastPaymentDate".
Definition n_ldref : name := Eval vm_compute in u "ldref".
Definition n_lead : name := Eval vm_compute in u "lead".
Definition n_leakageImpedance : name := Eval vm_compute in u "leakageImpedance".
Definition n_leakageImpedanceZero : name := Eval vm_compute in u "leakageImpedanceZero".
Definition n_leakageReactance : name := Eval vm_compute in u "leakageReactance".
Definition n_leftDigitCount : name := Eval vm_compute in u "leftDigitCount".
Definition n_length : name := Eval vm_compute in u "length".
Definition n_lengthFromTerminal1 : name := Eval vm_compute in u "lengthFromTerminal1".
Definition n_level : name := Eval vm_compute in u "level".
Definition n_lfac : name := Eval vm_compute in u "lfac".
Definition n_lightRating : name := Eval vm_compute in u "lightRating".
Definition n_lignite : name := Eval vm_compute in u "lignite".
Definition n_limitVoltage : name := Eval vm_compute in u "limitVoltage".
Definition n_limitedLoad : name := Eval vm_compute in u "limitedLoad".
Definition n_line : name := Eval vm_compute in u "line".
Definition n_lineAmount : name := Eval vm_compute in u "lineAmount".
Definition n_lineCap : name := Eval vm_compute in u "lineCap".
Definition n_lineDropCompensation : name := Eval vm_compute in u "lineDropCompensation".
Definition n_lineDropR : name := Eval vm_compute in u "lineDropR".
Definition n_lineDropX : name := Eval vm_compute in u "lineDropX".
Definition n_lineNumber : name := Eval vm_compute in u "lineNumber".
Definition n_lineStyle : name := Eval vm_compute in u "lineStyle".
Definition n_lineVersion : name := Eval vm_compute in u "lineVersion".
Definition n_linejoin : name := Eval vm_compute in u "linejoin".
Definition n_loadBreak : name := Eval vm_compute in u "loadBreak".
Definition n_loadControl : name := Eval vm_compute in u "loadControl".
Definition n_loadLoss : name := Eval vm_compute in u "loadLoss".
Definition n_loadLossZero : name := Eval vm_compute in u "loadLossZero".
Definition n_loadMgmt : name := Eval vm_compute in u "loadMgmt".
Definition n_loadReduction : name := Eval vm_compute in u "loadReduction".
Definition n_loadStatus : name := Eval vm_compute in u "loadStatus".
Definition n_localControlKind : name := Eval vm_compute in u "localControlKind".
Definition n_localName : name := Eval vm_compute in u "localName".
Definition n_localNumber : name := Eval vm_compute in u "localNumber".
Definition n_localOffLevel : name := Eval vm_compute in u "localOffLevel".
Definition n_localOnLevel : name := Eval vm_compute in u "localOnLevel".
Definition n_localOverride : name := Eval vm_compute in u "localOverride".
Definition n_location : name := Eval vm_compute in u "location".
Definition n_locationCondition : name := Eval vm_compute in u "locationCondition".
Definition n_logarithmic : name := Eval vm_compute in u "logarithmic".
Definition n_longPF : name := Eval vm_compute in u "longPF".
Definition n_loss : name := Eval vm_compute in u "loss".
Definition n_lossZero : name := Eval vm_compute in u "lossZero".
Definition n_lot : name := Eval vm_compute in u "lot".
Definition n_lotNumber : name := Eval vm_compute in u "lotNumber".
Definition n_low : name := Eval vm_compute in u "low".
Definition n_lowBreakpointP : name := Eval vm_compute in u "lowBreakpointP".
Definition n_lowControlLimit : name := Eval vm_compute in u "lowControlLimit".
Definition n_lowLevelLimit : name := Eval vm_compute in u "lowLevelLimit".
Definition n_lowLimit : name := Eval vm_compute in u "lowLimit".
Definition n_lowPowerLimit : name := Eval vm_compute in u "lowPowerLimit".
Definition n_lowStep : name := Eval vm_compute in u "lowStep".
Definition n_lowVoltageLimit : name := Eval vm_compute in u "lowVoltageLimit".
Definition n_lowVoltageOverride : name := Eval vm_compute in u "lowVoltageOverride".
Definition n_lowerLimit : name := Eval vm_compute in u "lowerLimit".
Definition n_lowerRampRate : name := Eval vm_compute in u "lowerRampRate".
Definition n_lp : name := Eval vm_compute in u "lp".
Definition n_lpp : name := Eval vm_compute in u "lpp".
Definition n_ls : name := Eval vm_compute in u "ls".
Definition n_ltcFlag : name := Eval vm_compute in u "ltcFlag".
Definition n_m : name := Eval vm_compute in u "m".
Definition n_mName : name := Eval vm_compute in u "mName".
Definition n_mRID : name := Eval vm_compute in u "mRID".
Definition n_mTTR : name := Eval vm_compute in u "mTTR".
Definition n_magBaseU : name := Eval vm_compute in u "magBaseU".
Definition n_magSatFlux : name := Eval vm_compute in u "magSatFlux".
Definition n_mailedDate : name := Eval vm_compute in u "mailedDate".
Definition n_mainAddress : name := Eval vm_compute in u "mainAddress".
Definition n_mainFuelType : name := Eval vm_compute in u "mainFuelType".
Definition n_mainWithTransfer : name := Eval vm_compute in u "mainWithTransfer".
Definition n_maintCode : name := Eval vm_compute in u "maintCode".
Definition n_makingCapacity : name := Eval vm_compute in u "makingCapacity".
Definition n_manualOverRide : name := Eval vm_compute in u "manualOverRide".
Definition n_manualToAVR : name := Eval vm_compute in u "manualToAVR".
Definition n_manufacturedDate : name := Eval vm_compute in u "manufacturedDate".
Definition n_mapLocGrid : name := Eval vm_compute in u "mapLocGrid".
Definition n_markedIndicator : name := Eval vm_compute in u "markedIndicator".
Definition n_markingInstruction : name := Eval vm_compute in u "markingInstruction".
Definition n_material : name := Eval vm_compute in u "material".
Definition n_materialCode : name := Eval vm_compute in u "materialCode".
Definition n_materialKind : name := Eval vm_compute in u "materialKind".
Definition n_maxAngleDiff : name := Eval vm_compute in u "maxAngleDiff".
Definition n_maxContinousOperatingVoltage : name := Eval vm_compute in u "maxContinousOperatingVoltage".
Definition n_maxCurrentRating : name := Eval vm_compute in u "maxCurrentRating".
Definition n_maxEconomicP : name := Eval vm_compute in u "maxEconomicP".
Definition n_maxEnergyAbsorption : name := Eval vm_compute in u "maxEnergyAbsorption".
Definition n_maxErrorRateP : name := Eval vm_compute in u "maxErrorRateP".
Definition n_maxFreqDiff : name := Eval vm_compute in u "maxFreqDiff".
Definition n_maxFuelAllocation : name := Eval vm_compute in u "maxFuelAllocation".
Definition n_maxHeadMaxP : name := Eval vm_compute in u "maxHeadMaxP".
Definition n_maxOperatingP : name := Eval vm_compute in u "maxOperatingP".
Definition n_maxP : name := Eval vm_compute in u "maxP".
Definition n_maxPowerLoss : name := Eval vm_compute in u "maxPowerLoss".
Definition n_maxQ : name := Eval vm_compute in u "maxQ".
Definition n_maxRatio : name := Eval vm_compute in u "maxRatio".
Definition n_maxSwitchOperationCount : name := Eval vm_compute in u "maxSwitchOperationCount".
Definition n_maxU : name := Eval vm_compute in u "maxU".
Definition n_maxValue : name := Eval vm_compute in u "maxValue".
Definition n_maxVoltDiff : name := Eval vm_compute in u "maxVoltDiff".
Definition n_maxerr : name := Eval vm_compute in u "maxerr".
Definition n_maximumActivePower : name := Eval vm_compute in u "maximumActivePower".
Definition n_maximumAllowableSpinningReserve : name := Eval vm_compute in u "maximumAllowableSpinningReserve".
Definition n_maximumLoad : name := Eval vm_compute in u "maximumLoad".
Definition n_maximumReactivePower : name := Eval vm_compute in u "maximumReactivePower".
Definition n_maximumSections : name := Eval vm_compute in u "maximumSections".
Definition n_measured : name := Eval vm_compute in u "measured".
Definition n_measurement0 : name := Eval vm_compute in u "measurement0".
Definition n_measurementType : name := Eval vm_compute in u "measurementType".
Definition n_mechPowerSensorLag : name := Eval vm_compute in u "mechPowerSensorLag".
Definition n_mechanicalLoad0 : name := Eval vm_compute in u "mechanicalLoad0".
Definition n_meetingInterval : name := Eval vm_compute in u "meetingInterval".
Definition n_merchantDebitAmount : name := Eval vm_compute in u "merchantDebitAmount".
Definition n_metaBlock0 : name := Eval vm_compute in u "metaBlock0".
Definition n_metaBlockConSignal0 : name := Eval vm_compute in u "metaBlockConSignal0".
Definition n_metaBlockConnection0 : name := Eval vm_compute in u "metaBlockConnection0".
Definition n_metaBlockConnectivity0 : name := Eval vm_compute in u "metaBlockConnectivity0".
Definition n_metaBlockInput0 : name := Eval vm_compute in u "metaBlockInput0".
Definition n_metaBlockOutput0 : name := Eval vm_compute in u "metaBlockOutput0".
Definition n_metaBlockReference0 : name := Eval vm_compute in u "metaBlockReference0".
Definition n_metaBlockSignal : name := Eval vm_compute in u "metaBlockSignal".
Definition n_metaBlockSignal1 : name := Eval vm_compute in u "metaBlockSignal1".
Definition n_metalHalide : name := Eval vm_compute in u "metalHalide".
Definition n_metrology : name := Eval vm_compute in u "metrology".
Definition n_micrNumber : name := Eval vm_compute in u "micrNumber".
Definition n_minAmount : name := Eval vm_compute in u "minAmount".
Definition n_minCompoundVoltage : name := Eval vm_compute in u "minCompoundVoltage".
Definition n_minEconomicP : name := Eval vm_compute in u "minEconomicP".
Definition n_minErrorRateP : name := Eval vm_compute in u "minErrorRateP".
Definition n_minFontSize : name := Eval vm_compute in u "minFontSize".
Definition n_minFuelAllocation : name := Eval vm_compute in u "minFuelAllocation".
Definition n_minHeadMaxP : name := Eval vm_compute in u "minHeadMaxP".
Definition n_minOperatingP : name := Eval vm_compute in u "minOperatingP".
Definition n_minP : name := Eval vm_compute in u "minP".
Definition n_minQ : name := Eval vm_compute in u "minQ".
Definition n_minSize : name := Eval vm_compute in u "minSize".
Definition n_minU : name := Eval vm_compute in u "minU".
Definition n_minValue : name := Eval vm_compute in u "minValue".
Definition n_minerr : name := Eval vm_compute in u "minerr".
Definition n_minimumActivePower : name := Eval vm_compute in u "minimumActivePower".
Definition n_minimumCurrent : name := Eval vm_compute in u "minimumCurrent".
Definition n_minimumDownTime : name := Eval vm_compute in u "minimumDownTime".
Definition n_minimumOffTime : name := Eval vm_compute in u "minimumOffTime".
Definition n_minimumReactivePower : name := Eval vm_compute in u "minimumReactivePower".
Definition n_minimumRunTime : name := Eval vm_compute in u "minimumRunTime".
Definition n_mobilePhone : name := Eval vm_compute in u "mobilePhone".
Definition n_mode : name := Eval vm_compute in u "mode".
Definition n_modelDetail : name := Eval vm_compute in u "modelDetail".
Definition n_modelNumber : name := Eval vm_compute in u "modelNumber".
Definition n_modelVersion : name := Eval vm_compute in u "modelVersion".
Definition n_momFailureRate : name := Eval vm_compute in u "momFailureRate".
Definition n_monetaryUnit : name := Eval vm_compute in u "monetaryUnit".
Definition n_monitorActivePower : name := Eval vm_compute in u "monitorActivePower".
Definition n_monitorReactivePower : name := Eval vm_compute in u "monitorReactivePower".
Definition n_monitoredPhase : name := Eval vm_compute in u "monitoredPhase".
Definition n_mountingPointX : name := Eval vm_compute in u "mountingPointX".
Definition n_mountingPointY : name := Eval vm_compute in u "mountingPointY".
Definition n_multiplier : name := Eval vm_compute in u "multiplier".
Definition n_multiplyBeforeAdd : name := Eval vm_compute in u "multiplyBeforeAdd".
Definition n_mustStudy : name := Eval vm_compute in u "mustStudy".
Definition n_mwbase : name := Eval vm_compute in u "mwbase".
Definition n_n : name := Eval vm_compute in u "n".
Definition n_name : name := Eval vm_compute in u "name".
Definition n_nearestIntersection : name := Eval vm_compute in u "nearestIntersection".
Definition n_needsInspection : name := Eval vm_compute in u "needsInspection".
Definition n_needsPowerLimitCheck : name := Eval vm_compute in u "needsPowerLimitCheck".
Definition n_needsVoltageLimitCheck : name := Eval vm_compute in u "needsVoltageLimitCheck".
Definition n_negative : name := Eval vm_compute in u "negative".
Definition n_netAmount : name := Eval vm_compute in u "netAmount".
Definition n_netInterchange : name := Eval vm_compute in u "netInterchange".
Definition n_neutralBIL : name := Eval vm_compute in u "neutralBIL".
Definition n_neutralInsulationThickness : name := Eval vm_compute in u "neutralInsulationThickness".
Definition n_neutralStep : name := Eval vm_compute in u "neutralStep".
Definition n_neutralStrandCount : name := Eval vm_compute in u "neutralStrandCount".
Definition n_neutralU : name := Eval vm_compute in u "neutralU".
Definition n_newState : name := Eval vm_compute in u "newState".
Definition n_noLoadLoss : name := Eval vm_compute in u "noLoadLoss".
Definition n_noLoadLossZero : name := Eval vm_compute in u "noLoadLossZero".
Definition n_noPowerInterval : name := Eval vm_compute in u "noPowerInterval".
Definition n_nomQ : name := Eval vm_compute in u "nomQ".
Definition n_nomU : name := Eval vm_compute in u "nomU".
Definition n_nominalDesignVoltage : name := Eval vm_compute in u "nominalDesignVoltage".
Definition n_nominalP : name := Eval vm_compute in u "nominalP".
Definition n_nominalRatio : name := Eval vm_compute in u "nominalRatio".
Definition n_nominalServiceVoltage : name := Eval vm_compute in u "nominalServiceVoltage".
Definition n_nominalTemperature : name := Eval vm_compute in u "nominalTemperature".
Definition n_nominalVoltage : name := Eval vm_compute in u "nominalVoltage".
Definition n_nominalVoltageOutOfPhase : name := Eval vm_compute in u "nominalVoltageOutOfPhase".
Definition n_none : name := Eval vm_compute in u "none".
Definition n_normaIlyInService : name := Eval vm_compute in u "normaIlyInService".
Definition n_normal : name := Eval vm_compute in u "normal".
Definition n_normalHighVoltLimit : name := Eval vm_compute in u "normalHighVoltLimit".
Definition n_normalLowVoltLimit : name := Eval vm_compute in u "normalLowVoltLimit".
Definition n_normalMinOperateLevel : name := Eval vm_compute in u "normalMinOperateLevel".
Definition n_normalOpen : name := Eval vm_compute in u "normalOpen".
Definition n_normalPF : name := Eval vm_compute in u "normalPF".
Definition n_normalSections : name := Eval vm_compute in u "normalSections".
Definition n_normalStep : name := Eval vm_compute in u "normalStep".
Definition n_normalValue : name := Eval vm_compute in u "normalValue".
Definition n_normallyInService : name := Eval vm_compute in u "normallyInService".
Definition n_note : name := Eval vm_compute in u "note".
Definition n_number : name := Eval vm_compute in u "number".
Definition n_numerator : name := Eval vm_compute in u "numerator".
Definition n_oMCost : name := Eval vm_compute in u "oMCost".
Definition n_occupancyDate : name := Eval vm_compute in u "occupancyDate".
Definition n_odometerReadDateTime : name := Eval vm_compute in u "odometerReadDateTime".
Definition n_odometerReading : name := Eval vm_compute in u "odometerReading".
Definition n_oelin : name := Eval vm_compute in u "oelin".
Definition n_off : name := Eval vm_compute in u "off".
Definition n_offset : name := Eval vm_compute in u "offset".
Definition n_offsetX : name := Eval vm_compute in u "offsetX".
Definition n_offsetY : name := Eval vm_compute in u "offsetY".
Definition n_oil : name := Eval vm_compute in u "oil".
Definition n_oilColor : name := Eval vm_compute in u "oilColor".
Definition n_oilDielectricStrength : name := Eval vm_compute in u "oilDielectricStrength".
Definition n_oilIFT : name := Eval vm_compute in u "oilIFT".
Definition n_oilLevel : name := Eval vm_compute in u "oilLevel".
Definition n_oilNeutralizationNumber : name := Eval vm_compute in u "oilNeutralizationNumber".
Definition n_oilPreservationKind : name := Eval vm_compute in u "oilPreservationKind".
Definition n_oldData : name := Eval vm_compute in u "oldData".
Definition n_onAGC : name := Eval vm_compute in u "onAGC".
Definition n_onRequestRead : name := Eval vm_compute in u "onRequestRead".
Definition n_opacity : name := Eval vm_compute in u "opacity".
Definition n_open : name := Eval vm_compute in u "open".
Definition n_openEndStep : name := Eval vm_compute in u "openEndStep".
Definition n_openEndVoltage : name := Eval vm_compute in u "openEndVoltage".
Definition n_operatingMode : name := Eval vm_compute in u "operatingMode".
Definition n_operationInProgress : name := Eval vm_compute in u "operationInProgress".
Definition n_operationTime : name := Eval vm_compute in u "operationTime".
Definition n_operatorBlocked : name := Eval vm_compute in u "operatorBlocked".
Definition n_optOut : name := Eval vm_compute in u "optOut".
Definition n_orientation : name := Eval vm_compute in u "orientation".
Definition n_oscillatory : name := Eval vm_compute in u "oscillatory".
Definition n_other : name := Eval vm_compute in u "other".
Definition n_outBalance : name := Eval vm_compute in u "outBalance".
Definition n_outOfRange : name := Eval vm_compute in u "outOfRange".
Definition n_outOfService : name := Eval vm_compute in u "outOfService".
Definition n_outageDuration : name := Eval vm_compute in u "outageDuration".
Definition n_outageReport : name := Eval vm_compute in u "outageReport".
Definition n_outerJacketKind : name := Eval vm_compute in u "outerJacketKind".
Definition n_overFlow : name := Eval vm_compute in u "overFlow".
Definition n_overRideTimeOut : name := Eval vm_compute in u "overRideTimeOut".
Definition n_overlapbehaviour : name := Eval vm_compute in u "overlapbehaviour".
Definition n_p : name := Eval vm_compute in u "p".
Definition n_pConstantCurrent : name := Eval vm_compute in u "pConstantCurrent".
Definition n_pConstantImpedance : name := Eval vm_compute in u "pConstantImpedance".
Definition n_pConstantPower : name := Eval vm_compute in u "pConstantPower".
Definition n_pFrequencyExponent : name := Eval vm_compute in u "pFrequencyExponent".
Definition n_pNetInjection : name := Eval vm_compute in u "pNetInjection".
Definition n_pTolerance : name := Eval vm_compute in u "pTolerance".
Definition n_pVoltageExponent : name := Eval vm_compute in u "pVoltageExponent".
Definition n_pageNumber : name := Eval vm_compute in u "pageNumber".
Definition n_pan : name := Eval vm_compute in u "pan".
Definition n_parametersFormType : name := Eval vm_compute in u "parametersFormType".
Definition n_password : name := Eval vm_compute in u "password".
Definition n_pathName : name := Eval vm_compute in u "pathName".
Definition n_payAmount : name := Eval vm_compute in u "payAmount".
Definition n_payCycle : name := Eval vm_compute in u "payCycle".
Definition n_payment : name := Eval vm_compute in u "payment".
Definition n_pelton : name := Eval vm_compute in u "pelton".
Definition n_penaltyFactor : name := Eval vm_compute in u "penaltyFactor".
Definition n_pendingRemove : name := Eval vm_compute in u "pendingRemove".
Definition n_penstockType : name := Eval vm_compute in u "penstockType".
Definition n_penta : name := Eval vm_compute in u "penta".
Definition n_percentComplete : name := Eval vm_compute in u "percentComplete".
Definition n_percentOwnership : name := Eval vm_compute in u "percentOwnership".
Definition n_percentage : name := Eval vm_compute in u "percentage".
Definition n_performanceFactor : name := Eval vm_compute in u "performanceFactor".
Definition n_period : name := Eval vm_compute in u "period".
Definition n_permitID : name := Eval vm_compute in u "permitID".
Definition n_pfixed : name := Eval vm_compute in u "pfixed".
Definition n_pfixedPct : name := Eval vm_compute in u "pfixedPct".
Definition n_pfrac : name := Eval vm_compute in u "pfrac".
Definition n_pgv1 : name := Eval vm_compute in u "pgv1".
Definition n_pgv2 : name := Eval vm_compute in u "pgv2".
Definition n_pgv3 : name := Eval vm_compute in u "pgv3".
Definition n_pgv4 : name := Eval vm_compute in u "pgv4".
Definition n_pgv5 : name := Eval vm_compute in u "pgv5".
Definition n_pgv6 : name := Eval vm_compute in u "pgv6".
Definition n_phase : name := Eval vm_compute in u "phase".
Definition n_phaseAngle : name := Eval vm_compute in u "phaseAngle".
Definition n_phaseAngleClock : name := Eval vm_compute in u "phaseAngleClock".
Definition n_phaseCheckReqFlag : name := Eval vm_compute in u "phaseCheckReqFlag".
Definition n_phaseCode : name := Eval vm_compute in u "phaseCode".
Definition n_phaseConductorCount : name := Eval vm_compute in u "phaseConductorCount".
Definition n_phaseConductorSpacing : name := Eval vm_compute in u "phaseConductorSpacing".
Definition n_phaseCount : name := Eval vm_compute in u "phaseCount".
Definition n_phaseShift : name := Eval vm_compute in u "phaseShift".
Definition n_phaseSide1 : name := Eval vm_compute in u "phaseSide1".
Definition n_phaseSide2 : name := Eval vm_compute in u "phaseSide2".
Definition n_phaseTapChangerType : name := Eval vm_compute in u "phaseTapChangerType".
Definition n_phaseTrip : name := Eval vm_compute in u "phaseTrip".
Definition n_phaseTripRating : name := Eval vm_compute in u "phaseTripRating".
Definition n_phases : name := Eval vm_compute in u "phases".
Definition n_phone1 : name := Eval vm_compute in u "phone1".
Definition n_phone2 : name := Eval vm_compute in u "phone2".
Definition n_plantControl : name := Eval vm_compute in u "plantControl".
Definition n_plantDischargeCapacity : name := Eval vm_compute in u "plantDischargeCapacity".
Definition n_plantRatedHead : name := Eval vm_compute in u "plantRatedHead".
Definition n_plantTransferDateTime : name := Eval vm_compute in u "plantTransferDateTime".
Definition n_pmax : name := Eval vm_compute in u "pmax".
Definition n_pmin : name := Eval vm_compute in u "pmin".
Definition n_pmwset : name := Eval vm_compute in u "pmwset".
Definition n_poBox : name := Eval vm_compute in u "poBox".
Definition n_poleCount : name := Eval vm_compute in u "poleCount".
Definition n_polyethylene : name := Eval vm_compute in u "polyethylene".
Definition n_position : name := Eval vm_compute in u "position".
Definition n_positiveFlowIn : name := Eval vm_compute in u "positiveFlowIn".
Definition n_postalAddress : name := Eval vm_compute in u "postalAddress".
Definition n_postalCode : name := Eval vm_compute in u "postalCode".
Definition n_posted : name := Eval vm_compute in u "posted".
Definition n_postedDateTime : name := Eval vm_compute in u "postedDateTime".
Definition n_postingDateTime : name := Eval vm_compute in u "postingDateTime".
Definition n_powerDirectionFlag : name := Eval vm_compute in u "powerDirectionFlag".
Definition n_powerFactorMin : name := Eval vm_compute in u "powerFactorMin".
Definition n_powerLimit : name := Eval vm_compute in u "powerLimit".
Definition n_powerRating : name := Eval vm_compute in u "powerRating".
Definition n_powerSystemStabilizer : name := Eval vm_compute in u "powerSystemStabilizer".
Definition n_powerVariationByTemp : name := Eval vm_compute in u "powerVariationByTemp".
Definition n_prefix : name := Eval vm_compute in u "prefix".
Definition n_preliminaryCode : name := Eval vm_compute in u "preliminaryCode".
Definition n_preliminaryDateTime : name := Eval vm_compute in u "preliminaryDateTime".
Definition n_preliminaryRemark : name := Eval vm_compute in u "preliminaryRemark".
Definition n_preservativeKind : name := Eval vm_compute in u "preservativeKind".
Definition n_pressureCG : name := Eval vm_compute in u "pressureCG".
Definition n_pressureCtrlDG : name := Eval vm_compute in u "pressureCtrlDG".
Definition n_pressureCtrlIG : name := Eval vm_compute in u "pressureCtrlIG".
Definition n_pressureCtrlPG : name := Eval vm_compute in u "pressureCtrlPG".
Definition n_pressureFeedback : name := Eval vm_compute in u "pressureFeedback".
Definition n_pressureLimit : name := Eval vm_compute in u "pressureLimit".
Definition n_pressureSetpointGA : name := Eval vm_compute in u "pressureSetpointGA".
Definition n_pressureSetpointTC1 : name := Eval vm_compute in u "pressureSetpointTC1".
Definition n_pressureSetpointTC2 : name := Eval vm_compute in u "pressureSetpointTC2".
Definition n_previousAmount : name := Eval vm_compute in u "previousAmount".
Definition n_price : name := Eval vm_compute in u "price".
Definition n_priceSignal : name := Eval vm_compute in u "priceSignal".
Definition n_primary : name := Eval vm_compute in u "primary".
Definition n_primaryFlsRating : name := Eval vm_compute in u "primaryFlsRating".
Definition n_primaryRatio : name := Eval vm_compute in u "primaryRatio".
Definition n_primeMoverRating : name := Eval vm_compute in u "primeMoverRating".
Definition n_primitive : name := Eval vm_compute in u "primitive".
Definition n_principle : name := Eval vm_compute in u "principle".
Definition n_principleAmount : name := Eval vm_compute in u "principleAmount".
Definition n_priority : name := Eval vm_compute in u "priority".
Definition n_proForma : name := Eval vm_compute in u "proForma".
Definition n_problemInfo : name := Eval vm_compute in u "problemInfo".
Definition n_programID : name := Eval vm_compute in u "programID".
Definition n_property : name := Eval vm_compute in u "property".
Definition n_propertyAccount : name := Eval vm_compute in u "propertyAccount".
Definition n_propertyData : name := Eval vm_compute in u "propertyData".
Definition n_proportionalGain : name := Eval vm_compute in u "proportionalGain".
Definition n_proprietary : name := Eval vm_compute in u "proprietary".
Definition n_provisionalBalance : name := Eval vm_compute in u "provisionalBalance".
Definition n_pssin : name := Eval vm_compute in u "pssin".
Definition n_ptClass : name := Eval vm_compute in u "ptClass".
Definition n_ptRatio : name := Eval vm_compute in u "ptRatio".
Definition n_pucNumber : name := Eval vm_compute in u "pucNumber".
Definition n_pumpDischAtMaxHead : name := Eval vm_compute in u "pumpDischAtMaxHead".
Definition n_pumpDischAtMinHead : name := Eval vm_compute in u "pumpDischAtMinHead".
Definition n_pumpPowerAtMaxHead : name := Eval vm_compute in u "pumpPowerAtMaxHead".
Definition n_pumpPowerAtMinHead : name := Eval vm_compute in u "pumpPowerAtMinHead".
Definition n_pumpRatedP : name := Eval vm_compute in u "pumpRatedP".
Definition n_pumpVibration : name := Eval vm_compute in u "pumpVibration".
Definition n_pumpedStorage : name := Eval vm_compute in u "pumpedStorage".
Definition n_purchaseDateTime : name := Eval vm_compute in u "purchaseDateTime".
Definition n_purchaseOrderNumber : name := Eval vm_compute in u "purchaseOrderNumber".
Definition n_purchasePrice : name := Eval vm_compute in u "purchasePrice".
Definition n_pvc : name := Eval vm_compute in u "pvc".
Definition n_pymtPlanAmt : name := Eval vm_compute in u "pymtPlanAmt".
Definition n_pymtPlanType : name := Eval vm_compute in u "pymtPlanType".
Definition n_q : name := Eval vm_compute in u "q".
Definition n_qConstantCurrent : name := Eval vm_compute in u "qConstantCurrent".
Definition n_qConstantImpedance : name := Eval vm_compute in u "qConstantImpedance".
Definition n_qConstantPower : name := Eval vm_compute in u "qConstantPower".
Definition n_qFrequencyExponent : name := Eval vm_compute in u "qFrequencyExponent".
Definition n_qNetInjection : name := Eval vm_compute in u "qNetInjection".
Definition n_qPercent : name := Eval vm_compute in u "qPercent".
Definition n_qVoltageExponent : name := Eval vm_compute in u "qVoltageExponent".
Definition n_qfixed : name := Eval vm_compute in u "qfixed".
Definition n_qfixedPct : name := Eval vm_compute in u "qfixedPct".
Definition n_qnl : name := Eval vm_compute in u "qnl".
Definition n_qualificationID : name := Eval vm_compute in u "qualificationID".
Definition n_quality : name := Eval vm_compute in u "quality".
Definition n_quantity : name := Eval vm_compute in u "quantity".
Definition n_queryGrammar : name := Eval vm_compute in u "queryGrammar".
Definition n_questionCategory : name := Eval vm_compute in u "questionCategory".
Definition n_questionCode : name := Eval vm_compute in u "questionCode".
Definition n_questionRemark : name := Eval vm_compute in u "questionRemark".
Definition n_questionText : name := Eval vm_compute in u "questionText".
Definition n_r : name := Eval vm_compute in u "r".
Definition n_r0 : name := Eval vm_compute in u "r0".
Definition n_r0PerR : name := Eval vm_compute in u "r0PerR".
Definition n_r2 : name := Eval vm_compute in u "r2".
Definition n_rAC25 : name := Eval vm_compute in u "rAC25".
Definition n_rAC50 : name := Eval vm_compute in u "rAC50".
Definition n_rAC75 : name := Eval vm_compute in u "rAC75".
Definition n_rDC20 : name := Eval vm_compute in u "rDC20".
Definition n_rDirectSubtrans : name := Eval vm_compute in u "rDirectSubtrans".
Definition n_rDirectSync : name := Eval vm_compute in u "rDirectSync".
Definition n_rDirectTrans : name := Eval vm_compute in u "rDirectTrans".
Definition n_rQuadSubtrans : name := Eval vm_compute in u "rQuadSubtrans".
Definition n_rQuadSync : name := Eval vm_compute in u "rQuadSync".
Definition n_rQuadTrans : name := Eval vm_compute in u "rQuadTrans".
Definition n_ra : name := Eval vm_compute in u "ra".
Definition n_radio : name := Eval vm_compute in u "radio".
Definition n_radius : name := Eval vm_compute in u "radius".
Definition n_raiseRampRate : name := Eval vm_compute in u "raiseRampRate".
Definition n_rampYValue : name := Eval vm_compute in u "rampYValue".
Definition n_rate : name := Eval vm_compute in u "rate".
Definition n_ratedApparentPower : name := Eval vm_compute in u "ratedApparentPower".
Definition n_ratedCapacityP : name := Eval vm_compute in u "ratedCapacityP".
Definition n_ratedCurrent : name := Eval vm_compute in u "ratedCurrent".
Definition n_ratedGrossMaxP : name := Eval vm_compute in u "ratedGrossMaxP".
Definition n_ratedGrossMinP : name := Eval vm_compute in u "ratedGrossMinP".
Definition n_ratedNetMaxP : name := Eval vm_compute in u "ratedNetMaxP".
Definition n_ratedP : name := Eval vm_compute in u "ratedP".
Definition n_ratedPower : name := Eval vm_compute in u "ratedPower".
Definition n_ratedS : name := Eval vm_compute in u "ratedS".
Definition n_ratedU : name := Eval vm_compute in u "ratedU".
Definition n_ratedVoltage : name := Eval vm_compute in u "ratedVoltage".
Definition n_ratingCurrent : name := Eval vm_compute in u "ratingCurrent".
Definition n_ratio : name := Eval vm_compute in u "ratio".
Definition n_rcdInfo : name := Eval vm_compute in u "rcdInfo".
Definition n_rclose : name := Eval vm_compute in u "rclose".
Definition n_rcomp : name := Eval vm_compute in u "rcomp".
Definition n_rcomp2 : name := Eval vm_compute in u "rcomp2".
Definition n_rcrfd : name := Eval vm_compute in u "rcrfd".
Definition n_rdown : name := Eval vm_compute in u "rdown".
Definition n_reactive : name := Eval vm_compute in u "reactive".
Definition n_reactivePerSection : name := Eval vm_compute in u "reactivePerSection".
Definition n_reactivePower : name := Eval vm_compute in u "reactivePower".
Definition n_readRequest : name := Eval vm_compute in u "readRequest".
Definition n_reason : name := Eval vm_compute in u "reason".
Definition n_receiptsGrandTotalBankable : name := Eval vm_compute in u "receiptsGrandTotalBankable".
Definition n_receiptsGrandTotalNonBankable : name := Eval vm_compute in u "receiptsGrandTotalNonBankable".
Definition n_receiptsGrandTotalRounding : name := Eval vm_compute in u "receiptsGrandTotalRounding".
Definition n_receivedDateTime : name := Eval vm_compute in u "receivedDateTime".
Definition n_receiverReference : name := Eval vm_compute in u "receiverReference".
Definition n_recloseDelay : name := Eval vm_compute in u "recloseDelay".
Definition n_recloseLockoutCount : name := Eval vm_compute in u "recloseLockoutCount".
Definition n_recloseStep : name := Eval vm_compute in u "recloseStep".
Definition n_recloser : name := Eval vm_compute in u "recloser".
Definition n_reconditionedDateTime : name := Eval vm_compute in u "reconditionedDateTime".
Definition n_reconfigWinding : name := Eval vm_compute in u "reconfigWinding".
Definition n_reconnectTimeDelay : name := Eval vm_compute in u "reconnectTimeDelay".
Definition n_recurrencePattern : name := Eval vm_compute in u "recurrencePattern".
Definition n_recurrencePeriod : name := Eval vm_compute in u "recurrencePeriod".
Definition n_red : name := Eval vm_compute in u "red".
Definition n_redSourcename : name := Eval vm_compute in u "redSourcename".
Definition n_referenceNumber : name := Eval vm_compute in u "referenceNumber".
Definition n_referencePriority : name := Eval vm_compute in u "referencePriority".
Definition n_referenceTemp : name := Eval vm_compute in u "referenceTemp".
Definition n_regBranch : name := Eval vm_compute in u "regBranch".
Definition n_regBranchEnd : name := Eval vm_compute in u "regBranchEnd".
Definition n_regBranchKind : name := Eval vm_compute in u "regBranchKind".
Definition n_regulationCapability : name := Eval vm_compute in u "regulationCapability".
Definition n_regulationStatus : name := Eval vm_compute in u "regulationStatus".
Definition n_regulationTarget : name := Eval vm_compute in u "regulationTarget".
Definition n_reheater1TC : name := Eval vm_compute in u "reheater1TC".
Definition n_reheater2TC : name := Eval vm_compute in u "reheater2TC".
Definition n_relativeTimeInterval : name := Eval vm_compute in u "relativeTimeInterval".
Definition n_relayCapable : name := Eval vm_compute in u "relayCapable".
Definition n_relayDelayTime : name := Eval vm_compute in u "relayDelayTime".
Definition n_reliefFactor : name := Eval vm_compute in u "reliefFactor".
Definition n_remark : name := Eval vm_compute in u "remark".
Definition n_remote : name := Eval vm_compute in u "remote".
Definition n_remoteControl : name := Eval vm_compute in u "remoteControl".
Definition n_remoteControlled : name := Eval vm_compute in u "remoteControlled".
Definition n_remoteOnly : name := Eval vm_compute in u "remoteOnly".
Definition n_remoteOverRide : name := Eval vm_compute in u "remoteOverRide".
Definition n_remoteUnitType : name := Eval vm_compute in u "remoteUnitType".
Definition n_removalDate : name := Eval vm_compute in u "removalDate".
Definition n_removeWeed : name := Eval vm_compute in u "removeWeed".
Definition n_reportingKind : name := Eval vm_compute in u "reportingKind".
Definition n_requestDateTime : name := Eval vm_compute in u "requestDateTime".
Definition n_requestedWindow : name := Eval vm_compute in u "requestedWindow".
Definition n_requiredControlAction : name := Eval vm_compute in u "requiredControlAction".
Definition n_requiredControlActionInterval : name := Eval vm_compute in u "requiredControlActionInterval".
Definition n_resetKind : name := Eval vm_compute in u "resetKind".
Definition n_residentialAndCommercial : name := Eval vm_compute in u "residentialAndCommercial".
Definition n_resultOf : name := Eval vm_compute in u "resultOf".
Definition n_retailer : name := Eval vm_compute in u "retailer".
Definition n_retained : name := Eval vm_compute in u "retained".
Definition n_revenueKind : name := Eval vm_compute in u "revenueKind".
Definition n_reverseChronology : name := Eval vm_compute in u "reverseChronology".
Definition n_reverseFlowHandling : name := Eval vm_compute in u "reverseFlowHandling".
Definition n_reverseLineDropR : name := Eval vm_compute in u "reverseLineDropR".
Definition n_reverseLineDropX : name := Eval vm_compute in u "reverseLineDropX".
Definition n_reversedId : name := Eval vm_compute in u "reversedId".
Definition n_revisionNumber : name := Eval vm_compute in u "revisionNumber".
Definition n_rfAux1 : name := Eval vm_compute in u "rfAux1".
Definition n_rfAux2 : name := Eval vm_compute in u "rfAux2".
Definition n_rfAux3 : name := Eval vm_compute in u "rfAux3".
Definition n_rfAux4 : name := Eval vm_compute in u "rfAux4".
Definition n_rfAux5 : name := Eval vm_compute in u "rfAux5".
Definition n_rfAux6 : name := Eval vm_compute in u "rfAux6".
Definition n_rfAux7 : name := Eval vm_compute in u "rfAux7".
Definition n_rfAux8 : name := Eval vm_compute in u "rfAux8".
Definition n_rground : name := Eval vm_compute in u "rground".
Definition n_rightDigitCount : name := Eval vm_compute in u "rightDigitCount".
Definition n_riskFactorCost : name := Eval vm_compute in u "riskFactorCost".
Definition n_riverOutletWorks : name := Eval vm_compute in u "riverOutletWorks".
Definition n_rn : name := Eval vm_compute in u "rn".
Definition n_rodPattern : name := Eval vm_compute in u "rodPattern".
Definition n_rodPatternConstant : name := Eval vm_compute in u "rodPatternConstant".
Definition n_rootCause : name := Eval vm_compute in u "rootCause".
Definition n_rootOrigin : name := Eval vm_compute in u "rootOrigin".
Definition n_rootRemark : name := Eval vm_compute in u "rootRemark".
Definition n_ropen : name := Eval vm_compute in u "ropen".
Definition n_rotatingMachine0 : name := Eval vm_compute in u "rotatingMachine0".
Definition n_rotation : name := Eval vm_compute in u "rotation".
Definition n_rounding : name := Eval vm_compute in u "rounding".
Definition n_rperm : name := Eval vm_compute in u "rperm".
Definition n_rr1 : name := Eval vm_compute in u "rr1".
Definition n_rr2 : name := Eval vm_compute in u "rr2".
Definition n_rs : name := Eval vm_compute in u "rs".
Definition n_rselect : name := Eval vm_compute in u "rselect".
Definition n_rtemp : name := Eval vm_compute in u "rtemp".
Definition n_runOfRiver : name := Eval vm_compute in u "runOfRiver".
Definition n_rup : name := Eval vm_compute in u "rup".
Definition n_s1 : name := Eval vm_compute in u "s1".
Definition n_s12 : name := Eval vm_compute in u "s12".
Definition n_s12N : name := Eval vm_compute in u "s12N".
Definition n_sShortCircuit : name := Eval vm_compute in u "sShortCircuit".
Definition n_sVCControlMode : name := Eval vm_compute in u "sVCControlMode".
Definition n_sales : name := Eval vm_compute in u "sales".
Definition n_salientPole : name := Eval vm_compute in u "salientPole".
Definition n_scalarDenominator : name := Eval vm_compute in u "scalarDenominator".
Definition n_scalarFloat : name := Eval vm_compute in u "scalarFloat".
Definition n_scalarNumerator : name := Eval vm_compute in u "scalarNumerator".
Definition n_scanInterval : name := Eval vm_compute in u "scanInterval".
Definition n_schedOverride : name := Eval vm_compute in u "schedOverride".
Definition n_scheduleInterval : name := Eval vm_compute in u "scheduleInterval".
Definition n_scheduledInterval : name := Eval vm_compute in u "scheduledInterval".
Definition n_schedulingBasis : name := Eval vm_compute in u "schedulingBasis".
Definition n_se1 : name := Eval vm_compute in u "se1".
Definition n_se2 : name := Eval vm_compute in u "se2".
Definition n_sealNumber : name := Eval vm_compute in u "sealNumber".
Definition n_sealingWarrantyExpiresDate : name := Eval vm_compute in u "sealingWarrantyExpiresDate".
Definition n_secondary : name := Eval vm_compute in u "secondary".
Definition n_secondaryAddress : name := Eval vm_compute in u "secondaryAddress".
Definition n_secondaryFlsRating : name := Eval vm_compute in u "secondaryFlsRating".
Definition n_secondaryRatio : name := Eval vm_compute in u "secondaryRatio".
Definition n_section : name := Eval vm_compute in u "section".
Definition n_sections : name := Eval vm_compute in u "sections".
Definition n_sector : name := Eval vm_compute in u "sector".
Definition n_semanticTypeIdentifier : name := Eval vm_compute in u "semanticTypeIdentifier".
Definition n_sensingPhaseCode : name := Eval vm_compute in u "sensingPhaseCode".
Definition n_sensorAccuracy : name := Eval vm_compute in u "sensorAccuracy".
Definition n_sensorMaximum : name := Eval vm_compute in u "sensorMaximum".
Definition n_sensorMinimum : name := Eval vm_compute in u "sensorMinimum".
Definition n_sequenceNumber : name := Eval vm_compute in u "sequenceNumber".
Definition n_serialNumber : name := Eval vm_compute in u "serialNumber".
Definition n_serviceDeliveryRemark : name := Eval vm_compute in u "serviceDeliveryRemark".
Definition n_servicePriority : name := Eval vm_compute in u "servicePriority".
Definition n_serviceRequirement : name := Eval vm_compute in u "serviceRequirement".
Definition n_serviceUnitsEnergy : name := Eval vm_compute in u "serviceUnitsEnergy".
Definition n_serviceUnitsError : name := Eval vm_compute in u "serviceUnitsError".
Definition n_setpoint : name := Eval vm_compute in u "setpoint".
Definition n_severity : name := Eval vm_compute in u "severity".
Definition n_shaft1PowerHP : name := Eval vm_compute in u "shaft1PowerHP".
Definition n_shaft1PowerIP : name := Eval vm_compute in u "shaft1PowerIP".
Definition n_shaft1PowerLP1 : name := Eval vm_compute in u "shaft1PowerLP1".
Definition n_shaft1PowerLP2 : name := Eval vm_compute in u "shaft1PowerLP2".
Definition n_shaft2PowerHP : name := Eval vm_compute in u "shaft2PowerHP".
Definition n_shaft2PowerIP : name := Eval vm_compute in u "shaft2PowerIP".
Definition n_shaft2PowerLP1 : name := Eval vm_compute in u "shaft2PowerLP1".
Definition n_shaft2PowerLP2 : name := Eval vm_compute in u "shaft2PowerLP2".
Definition n_sheathAsNeutral : name := Eval vm_compute in u "sheathAsNeutral".
Definition n_shell : name := Eval vm_compute in u "shell".
Definition n_shieldMaterial : name := Eval vm_compute in u "shieldMaterial".
Definition n_shockReported : name := Eval vm_compute in u "shockReported".
Definition n_shortPF : name := Eval vm_compute in u "shortPF".
Definition n_shortTermS : name := Eval vm_compute in u "shortTermS".
Definition n_shutdownCost : name := Eval vm_compute in u "shutdownCost".
Definition n_shutdownDate : name := Eval vm_compute in u "shutdownDate".
Definition n_signDate : name := Eval vm_compute in u "signDate".
Definition n_siteAccessProblem : name := Eval vm_compute in u "siteAccessProblem".
Definition n_size : name := Eval vm_compute in u "size".
Definition n_sizeDepth : name := Eval vm_compute in u "sizeDepth".
Definition n_sizeDescription : name := Eval vm_compute in u "sizeDescription".
Definition n_sizeDiameter : name := Eval vm_compute in u "sizeDiameter".
Definition n_sizeLength : name := Eval vm_compute in u "sizeLength".
Definition n_sizeWidth : name := Eval vm_compute in u "sizeWidth".
Definition n_slope : name := Eval vm_compute in u "slope".
Definition n_slot0 : name := Eval vm_compute in u "slot0".
Definition n_slotConnection0 : name := Eval vm_compute in u "slotConnection0".
Definition n_slotInput0 : name := Eval vm_compute in u "slotInput0".
Definition n_slotOutput0 : name := Eval vm_compute in u "slotOutput0".
Definition n_slotReference0 : name := Eval vm_compute in u "slotReference0".
Definition n_slotname : name := Eval vm_compute in u "slotname".
Definition n_solid : name := Eval vm_compute in u "solid".
Definition n_solidInsulationWeight : name := Eval vm_compute in u "solidInsulationWeight".
Definition n_solidPorcelain : name := Eval vm_compute in u "solidPorcelain".
Definition n_source : name := Eval vm_compute in u "source".
Definition n_sourceID : name := Eval vm_compute in u "sourceID".
Definition n_sourceSide : name := Eval vm_compute in u "sourceSide".
Definition n_spanLength : name := Eval vm_compute in u "spanLength".
Definition n_specialCustomerCount : name := Eval vm_compute in u "specialCustomerCount".
Definition n_specialNeed : name := Eval vm_compute in u "specialNeed".
Definition n_speciesType : name := Eval vm_compute in u "speciesType".
Definition n_specimenID : name := Eval vm_compute in u "specimenID".
Definition n_specimenToLabDateTime : name := Eval vm_compute in u "specimenToLabDateTime".
Definition n_speedRating : name := Eval vm_compute in u "speedRating".
Definition n_speedRegulation : name := Eval vm_compute in u "speedRegulation".
Definition n_spillTravelDelay : name := Eval vm_compute in u "spillTravelDelay".
Definition n_spillWayGateType : name := Eval vm_compute in u "spillWayGateType".
Definition n_spillwayCapacity : name := Eval vm_compute in u "spillwayCapacity".
Definition n_spillwayCrestLength : name := Eval vm_compute in u "spillwayCrestLength".
Definition n_spillwayCrestLevel : name := Eval vm_compute in u "spillwayCrestLevel".
Definition n_spinReserveRamp : name := Eval vm_compute in u "spinReserveRamp".
Definition n_stage : name := Eval vm_compute in u "stage".
Definition n_standard : name := Eval vm_compute in u "standard".
Definition n_start : name := Eval vm_compute in u "start".
Definition n_startDate : name := Eval vm_compute in u "startDate".
Definition n_startDateTime : name := Eval vm_compute in u "startDateTime".
Definition n_startTime : name := Eval vm_compute in u "startTime".
Definition n_startValue : name := Eval vm_compute in u "startValue".
Definition n_startupCost : name := Eval vm_compute in u "startupCost".
Definition n_startupDate : name := Eval vm_compute in u "startupDate".
Definition n_startupPriority : name := Eval vm_compute in u "startupPriority".
Definition n_startupTime : name := Eval vm_compute in u "startupTime".
Definition n_stateOrProvince : name := Eval vm_compute in u "stateOrProvince".
Definition n_staticLoadType : name := Eval vm_compute in u "staticLoadType".
Definition n_status : name := Eval vm_compute in u "status".
Definition n_statusKind : name := Eval vm_compute in u "statusKind".
Definition n_stbyAuxP : name := Eval vm_compute in u "stbyAuxP".
Definition n_steamChestTC : name := Eval vm_compute in u "steamChestTC".
Definition n_steamFlowFG : name := Eval vm_compute in u "steamFlowFG".
Definition n_steamPressureDropLagTC : name := Eval vm_compute in u "steamPressureDropLagTC".
Definition n_steamPressureFG : name := Eval vm_compute in u "steamPressureFG".
Definition n_steamSupplyRating : name := Eval vm_compute in u "steamSupplyRating".
Definition n_steamSupplyRating2 : name := Eval vm_compute in u "steamSupplyRating2".
Definition n_steel : name := Eval vm_compute in u "steel".
Definition n_step : name := Eval vm_compute in u "step".
Definition n_stepChange : name := Eval vm_compute in u "stepChange".
Definition n_stepPhaseIncrement : name := Eval vm_compute in u "stepPhaseIncrement".
Definition n_stepPhaseShiftIncrement : name := Eval vm_compute in u "stepPhaseShiftIncrement".
Definition n_stepVoltageIncrement : name := Eval vm_compute in u "stepVoltageIncrement".
Definition n_stockItem : name := Eval vm_compute in u "stockItem".
Definition n_store : name := Eval vm_compute in u "store".
Definition n_straightLineYValues : name := Eval vm_compute in u "straightLineYValues".
Definition n_strandCount : name := Eval vm_compute in u "strandCount".
Definition n_streetAddress : name := Eval vm_compute in u "streetAddress".
Definition n_streetDetail : name := Eval vm_compute in u "streetDetail".
Definition n_streetlight : name := Eval vm_compute in u "streetlight".
Definition n_style : name := Eval vm_compute in u "style".
Definition n_subCategory : name := Eval vm_compute in u "subCategory".
Definition n_subCode : name := Eval vm_compute in u "subCode".
Definition n_subInterval : name := Eval vm_compute in u "subInterval".
Definition n_subdivision : name := Eval vm_compute in u "subdivision".
Definition n_subject : name := Eval vm_compute in u "subject".
Definition n_subsequentDelay : name := Eval vm_compute in u "subsequentDelay".
Definition n_success : name := Eval vm_compute in u "success".
Definition n_suffix : name := Eval vm_compute in u "suffix".
Definition n_suiteNumber : name := Eval vm_compute in u "suiteNumber".
Definition n_superHeater1Capacity : name := Eval vm_compute in u "superHeater1Capacity".
Definition n_superHeater2Capacity : name := Eval vm_compute in u "superHeater2Capacity".
Definition n_superHeaterPipePD : name := Eval vm_compute in u "superHeaterPipePD".
Definition n_supported : name := Eval vm_compute in u "supported".
Definition n_surgeTankCode : name := Eval vm_compute in u "surgeTankCode".
Definition n_surgeTankCrestLevel : name := Eval vm_compute in u "surgeTankCrestLevel".
Definition n_suspect : name := Eval vm_compute in u "suspect".
Definition n_suspension : name := Eval vm_compute in u "suspension".
Definition n_sv : name := Eval vm_compute in u "sv".
Definition n_switchOnCount : name := Eval vm_compute in u "switchOnCount".
Definition n_switchOnDate : name := Eval vm_compute in u "switchOnDate".
Definition n_switchOperationCycle : name := Eval vm_compute in u "switchOperationCycle".
Definition n_switchStateCount : name := Eval vm_compute in u "switchStateCount".
Definition n_switchedLoad : name := Eval vm_compute in u "switchedLoad".
Definition n_symbol : name := Eval vm_compute in u "symbol".
Definition n_symbolID : name := Eval vm_compute in u "symbolID".
Definition n_synchronousGeneratorType : name := Eval vm_compute in u "synchronousGeneratorType".
Definition n_synchronousMachine0 : name := Eval vm_compute in u "synchronousMachine0".
Definition n_synchronousMotorType : name := Eval vm_compute in u "synchronousMotorType".
Definition n_t1 : name := Eval vm_compute in u "t1".
Definition n_t10 : name := Eval vm_compute in u "t10".
Definition n_t11 : name := Eval vm_compute in u "t11".
Definition n_t2 : name := Eval vm_compute in u "t2".
Definition n_t3 : name := Eval vm_compute in u "t3".
Definition n_t4 : name := Eval vm_compute in u "t4".
Definition n_t5 : name := Eval vm_compute in u "t5".
Definition n_t6 : name := Eval vm_compute in u "t6".
Definition n_t7 : name := Eval vm_compute in u "t7".
Definition n_t8 : name := Eval vm_compute in u "t8".
Definition n_t9 : name := Eval vm_compute in u "t9".
Definition n_ta : name := Eval vm_compute in u "ta".
Definition n_tact : name := Eval vm_compute in u "tact".
Definition n_tagIssueTime : name := Eval vm_compute in u "tagIssueTime".
Definition n_tapeLap : name := Eval vm_compute in u "tapeLap".
Definition n_tapeThickness : name := Eval vm_compute in u "tapeThickness".
Definition n_target : name := Eval vm_compute in u "target".
Definition n_targetRange : name := Eval vm_compute in u "targetRange".
Definition n_targetValue : name := Eval vm_compute in u "targetValue".
Definition n_targetVoltage : name := Eval vm_compute in u "targetVoltage".
Definition n_tariffCycle : name := Eval vm_compute in u "tariffCycle".
Definition n_tatb : name := Eval vm_compute in u "tatb".
Definition n_taxExemption : name := Eval vm_compute in u "taxExemption".
Definition n_tb : name := Eval vm_compute in u "tb".
Definition n_tb1 : name := Eval vm_compute in u "tb1".
Definition n_tb2 : name := Eval vm_compute in u "tb2".
Definition n_tbkr : name := Eval vm_compute in u "tbkr".
Definition n_tc : name := Eval vm_compute in u "tc".
Definition n_tc1 : name := Eval vm_compute in u "tc1".
Definition n_tc2 : name := Eval vm_compute in u "tc2".
Definition n_tcpar : name := Eval vm_compute in u "tcpar".
Definition n_tculControlMode : name := Eval vm_compute in u "tculControlMode".
Definition n_td : name := Eval vm_compute in u "td".
Definition n_tdgov : name := Eval vm_compute in u "tdgov".
Definition n_tdr : name := Eval vm_compute in u "tdr".
Definition n_te : name := Eval vm_compute in u "te".
Definition n_temperature : name := Eval vm_compute in u "temperature".
Definition n_teng : name := Eval vm_compute in u "teng".
Definition n_termsPayment : name := Eval vm_compute in u "termsPayment".
Definition n_tertiary : name := Eval vm_compute in u "tertiary".
Definition n_tertiaryFlsRating : name := Eval vm_compute in u "tertiaryFlsRating".
Definition n_tertiaryRatio : name := Eval vm_compute in u "tertiaryRatio".
Definition n_test : name := Eval vm_compute in u "test".
Definition n_testKind : name := Eval vm_compute in u "testKind".
Definition n_text : name := Eval vm_compute in u "text".
Definition n_tf : name := Eval vm_compute in u "tf".
Definition n_tf1 : name := Eval vm_compute in u "tf1".
Definition n_tf2 : name := Eval vm_compute in u "tf2".
Definition n_tf3 : name := Eval vm_compute in u "tf3".
Definition n_tfload : name := Eval vm_compute in u "tfload".
Definition n_tg : name := Eval vm_compute in u "tg".
Definition n_th : name := Eval vm_compute in u "th".
Definition n_thermallyUpgradedPaper : name := Eval vm_compute in u "thermallyUpgradedPaper".
Definition n_throttlePressureFactor : name := Eval vm_compute in u "throttlePressureFactor".
Definition n_throttlePressureSP : name := Eval vm_compute in u "throttlePressureSP".
Definition n_throwOver : name := Eval vm_compute in u "throwOver".
Definition n_tia : name := Eval vm_compute in u "tia".
Definition n_tieLinePF : name := Eval vm_compute in u "tieLinePF".
Definition n_tieToMeasurement0 : name := Eval vm_compute in u "tieToMeasurement0".
Definition n_time : name := Eval vm_compute in u "time".
Definition n_timeConstant : name := Eval vm_compute in u "timeConstant".
Definition n_timeConstantReactance : name := Eval vm_compute in u "timeConstantReactance".
Definition n_timeDelay1 : name := Eval vm_compute in u "timeDelay1".
Definition n_timeDelay2 : name := Eval vm_compute in u "timeDelay2".
Definition n_timeDelay3 : name := Eval vm_compute in u "timeDelay3".
Definition n_timePeriod : name := Eval vm_compute in u "timePeriod".
Definition n_timeStamp : name := Eval vm_compute in u "timeStamp".
Definition n_timeStep : name := Eval vm_compute in u "timeStep".
Definition n_timeZoneOffset : name := Eval vm_compute in u "timeZoneOffset".
Definition n_title : name := Eval vm_compute in u "title".
Definition n_tj : name := Eval vm_compute in u "tj".
Definition n_tk : name := Eval vm_compute in u "tk".
Definition n_tm : name := Eval vm_compute in u "tm".
Definition n_toTapStep : name := Eval vm_compute in u "toTapStep".
Definition n_tob1 : name := Eval vm_compute in u "tob1".
Definition n_tob2 : name := Eval vm_compute in u "tob2".
Definition n_toc1 : name := Eval vm_compute in u "toc1".
Definition n_toc2 : name := Eval vm_compute in u "toc2".
Definition n_topOilTemp : name := Eval vm_compute in u "topOilTemp".
Definition n_topo : name := Eval vm_compute in u "topo".
Definition n_totalCml : name := Eval vm_compute in u "totalCml".
Definition n_totalCustomerCount : name := Eval vm_compute in u "totalCustomerCount".
Definition n_townDetail : name := Eval vm_compute in u "townDetail".
Definition n_tp : name := Eval vm_compute in u "tp".
Definition n_tpdo : name := Eval vm_compute in u "tpdo".
Definition n_tpelec : name := Eval vm_compute in u "tpelec".
Definition n_tpo : name := Eval vm_compute in u "tpo".
Definition n_tppdo : name := Eval vm_compute in u "tppdo".
Definition n_tppo : name := Eval vm_compute in u "tppo".
Definition n_tppqo : name := Eval vm_compute in u "tppqo".
Definition n_tpqo : name := Eval vm_compute in u "tpqo".
Definition n_tr : name := Eval vm_compute in u "tr".
Definition n_transactionDateTime : name := Eval vm_compute in u "transactionDateTime".
Definition n_transactionsGrandTotal : name := Eval vm_compute in u "transactionsGrandTotal".
Definition n_transactionsGrandTotalRounding : name := Eval vm_compute in u "transactionsGrandTotalRounding".
Definition n_transferType : name := Eval vm_compute in u "transferType".
Definition n_transform : name := Eval vm_compute in u "transform".
Definition n_transformerCTRatio : name := Eval vm_compute in u "transformerCTRatio".
Definition n_transformerRatiosApplied : name := Eval vm_compute in u "transformerRatiosApplied".
Definition n_transformerVTRatio : name := Eval vm_compute in u "transformerVTRatio".
Definition n_transientDroopTime : name := Eval vm_compute in u "transientDroopTime".
Definition n_transientRegulation : name := Eval vm_compute in u "transientRegulation".
Definition n_transmission : name := Eval vm_compute in u "transmission".
Definition n_transmissionOperator : name := Eval vm_compute in u "transmissionOperator".
Definition n_treatedDateTime : name := Eval vm_compute in u "treatedDateTime".
Definition n_treatmentKind : name := Eval vm_compute in u "treatmentKind".
Definition n_treeRetardantCrosslinkedPolyethylene : name := Eval vm_compute in u "treeRetardantCrosslinkedPolyethylene".
Definition n_trench : name := Eval vm_compute in u "trench".
Definition n_trh : name := Eval vm_compute in u "trh".
Definition n_troublePeriod : name := Eval vm_compute in u "troublePeriod".
Definition n_ts : name := Eval vm_compute in u "ts".
Definition n_tsa : name := Eval vm_compute in u "tsa".
Definition n_tsb : name := Eval vm_compute in u "tsb".
Definition n_tub1 : name := Eval vm_compute in u "tub1".
Definition n_tub2 : name := Eval vm_compute in u "tub2".
Definition n_tuc1 : name := Eval vm_compute in u "tuc1".
Definition n_tuc2 : name := Eval vm_compute in u "tuc2".
Definition n_turbineRating : name := Eval vm_compute in u "turbineRating".
Definition n_turbineType : name := Eval vm_compute in u "turbineType".
Definition n_tv : name := Eval vm_compute in u "tv".
Definition n_tw : name := Eval vm_compute in u "tw".
Definition n_tw1 : name := Eval vm_compute in u "tw1".
Definition n_tw2 : name := Eval vm_compute in u "tw2".
Definition n_tw3 : name := Eval vm_compute in u "tw3".
Definition n_tw4 : name := Eval vm_compute in u "tw4".
Definition n_twoWay : name := Eval vm_compute in u "twoWay".
Definition n_type : name := Eval vm_compute in u "type".
Definition n_typeAssetCode : name := Eval vm_compute in u "typeAssetCode".
Definition n_typePSRList : name := Eval vm_compute in u "typePSRList".
Definition n_uc : name := Eval vm_compute in u "uc".
Definition n_uelin : name := Eval vm_compute in u "uelin".
Definition n_unavailable : name := Eval vm_compute in u "unavailable".
Definition n_unbal : name := Eval vm_compute in u "unbal".
Definition n_unit : name := Eval vm_compute in u "unit".
Definition n_unitCost : name := Eval vm_compute in u "unitCost".
Definition n_unitMultiplier : name := Eval vm_compute in u "unitMultiplier".
Definition n_unitSymbol : name := Eval vm_compute in u "unitSymbol".
Definition n_unknown : name := Eval vm_compute in u "unknown".
Definition n_unspecified : name := Eval vm_compute in u "unspecified".
Definition n_uo : name := Eval vm_compute in u "uo".
Definition n_upperLimit : name := Eval vm_compute in u "upperLimit".
Definition n_usage : name := Eval vm_compute in u "usage".
Definition n_usageKind : name := Eval vm_compute in u "usageKind".
Definition n_usePushbutton : name := Eval vm_compute in u "usePushbutton".
Definition n_userID : name := Eval vm_compute in u "userID".
Definition n_using : name := Eval vm_compute in u "using".
Definition n_utcNumber : name := Eval vm_compute in u "utcNumber".
Definition n_v : name := Eval vm_compute in u "v".
Definition n_vRegLineLine : name := Eval vm_compute in u "vRegLineLine".
Definition n_validity : name := Eval vm_compute in u "validity".
Definition n_validityInterval : name := Eval vm_compute in u "validityInterval".
Definition n_value : name := Eval vm_compute in u "value".
Definition n_value1 : name := Eval vm_compute in u "value1".
Definition n_value1Multiplier : name := Eval vm_compute in u "value1Multiplier".
Definition n_value1Unit : name := Eval vm_compute in u "value1Unit".
Definition n_value2 : name := Eval vm_compute in u "value2".
Definition n_value2Multiplier : name := Eval vm_compute in u "value2Multiplier".
Definition n_value2Unit : name := Eval vm_compute in u "value2Unit".
Definition n_valueDateTime : name := Eval vm_compute in u "valueDateTime".
Definition n_valueUninterruptedServiceEnergy : name := Eval vm_compute in u "valueUninterruptedServiceEnergy".
Definition n_valueUninterruptedServiceP : name := Eval vm_compute in u "valueUninterruptedServiceP".
Definition n_valuesInterval : name := Eval vm_compute in u "valuesInterval".
Definition n_vamax : name := Eval vm_compute in u "vamax".
Definition n_vamin : name := Eval vm_compute in u "vamin".
Definition n_variableCost : name := Eval vm_compute in u "variableCost".
Definition n_variablePortion : name := Eval vm_compute in u "variablePortion".
Definition n_vbmax : name := Eval vm_compute in u "vbmax".
Definition n_vectorGroup : name := Eval vm_compute in u "vectorGroup".
Definition n_velm : name := Eval vm_compute in u "velm".
Definition n_vemin : name := Eval vm_compute in u "vemin".
Definition n_vendPortion : name := Eval vm_compute in u "vendPortion".
Definition n_vendPortionArrear : name := Eval vm_compute in u "vendPortionArrear".
Definition n_version : name := Eval vm_compute in u "version".
Definition n_vesion : name := Eval vm_compute in u "vesion".
Definition n_vfelim : name := Eval vm_compute in u "vfelim".
Definition n_vfemax : name := Eval vm_compute in u "vfemax".
Definition n_vgmax : name := Eval vm_compute in u "vgmax".
Definition n_vhmax : name := Eval vm_compute in u "vhmax".
Definition n_vimax : name := Eval vm_compute in u "vimax".
Definition n_vimin : name := Eval vm_compute in u "vimin".
Definition n_vip : name := Eval vm_compute in u "vip".
Definition n_vmax : name := Eval vm_compute in u "vmax".
Definition n_vmin : name := Eval vm_compute in u "vmin".
Definition n_vmmax : name := Eval vm_compute in u "vmmax".
Definition n_vmmin : name := Eval vm_compute in u "vmmin".
Definition n_vmult : name := Eval vm_compute in u "vmult".
Definition n_volt : name := Eval vm_compute in u "volt".
Definition n_voltImbalanceViolCost : name := Eval vm_compute in u "voltImbalanceViolCost".
Definition n_voltLimitViolCost : name := Eval vm_compute in u "voltLimitViolCost".
Definition n_voltage : name := Eval vm_compute in u "voltage".
Definition n_voltageAngle : name := Eval vm_compute in u "voltageAngle".
Definition n_voltageMagnitude : name := Eval vm_compute in u "voltageMagnitude".
Definition n_voltageRating : name := Eval vm_compute in u "voltageRating".
Definition n_voltageSensitivity : name := Eval vm_compute in u "voltageSensitivity".
Definition n_voltageSetPoint : name := Eval vm_compute in u "voltageSetPoint".
Definition n_voltageStepIncrement : name := Eval vm_compute in u "voltageStepIncrement".
Definition n_voltageStepIncrementOutOfPhase : name := Eval vm_compute in u "voltageStepIncrementOutOfPhase".
Definition n_volumeSpec : name := Eval vm_compute in u "volumeSpec".
Definition n_vrmax : name := Eval vm_compute in u "vrmax".
Definition n_vrmin : name := Eval vm_compute in u "vrmin".
Definition n_vsi1max : name := Eval vm_compute in u "vsi1max".
Definition n_vsi1min : name := Eval vm_compute in u "vsi1min".
Definition n_vsi2max : name := Eval vm_compute in u "vsi2max".
Definition n_vsi2min : name := Eval vm_compute in u "vsi2min".
Definition n_vstmax : name := Eval vm_compute in u "vstmax".
Definition n_vstmin : name := Eval vm_compute in u "vstmin".
Definition n_vt : name := Eval vm_compute in u "vt".
Definition n_vtRatioMultiplier : name := Eval vm_compute in u "vtRatioMultiplier".
Definition n_vtmult : name := Eval vm_compute in u "vtmult".
Definition n_warrantyEndDateTime : name := Eval vm_compute in u "warrantyEndDateTime".
Definition n_water : name := Eval vm_compute in u "water".
Definition n_waterContent : name := Eval vm_compute in u "waterContent".
Definition n_waterStartingTime : name := Eval vm_compute in u "waterStartingTime".
Definition n_weatherZone : name := Eval vm_compute in u "weatherZone".
Definition n_web : name := Eval vm_compute in u "web".
Definition n_weedRemovedDate : name := Eval vm_compute in u "weedRemovedDate".
Definition n_weight : name := Eval vm_compute in u "weight".
Definition n_weightTotal : name := Eval vm_compute in u "weightTotal".
Definition n_wellKnownName : name := Eval vm_compute in u "wellKnownName".
Definition n_wfnl : name := Eval vm_compute in u "wfnl".
Definition n_wfspd : name := Eval vm_compute in u "wfspd".
Definition n_width : name := Eval vm_compute in u "width".
Definition n_windMachine : name := Eval vm_compute in u "windMachine".
Definition n_windingConnectionAngle : name := Eval vm_compute in u "windingConnectionAngle".
Definition n_windingInsulationKind : name := Eval vm_compute in u "windingInsulationKind".
Definition n_windingType : name := Eval vm_compute in u "windingType".
Definition n_window : name := Eval vm_compute in u "window".
Definition n_winter : name := Eval vm_compute in u "winter".
Definition n_wireCount : name := Eval vm_compute in u "wireCount".
Definition n_withinTownLimits : name := Eval vm_compute in u "withinTownLimits".
Definition n_withstandCurrent : name := Eval vm_compute in u "withstandCurrent".
Definition n_wood : name := Eval vm_compute in u "wood".
Definition n_workDescription : name := Eval vm_compute in u "workDescription".
Definition n_workEndTime : name := Eval vm_compute in u "workEndTime".
Definition n_workPrice : name := Eval vm_compute in u "workPrice".
Definition n_workStartTime : name := Eval vm_compute in u "workStartTime".
Definition n_x : name := Eval vm_compute in u "x".
Definition n_x0 : name := Eval vm_compute in u "x0".
Definition n_x0PerX : name := Eval vm_compute in u "x0PerX".
Definition n_x1InitialView : name := Eval vm_compute in u "x1InitialView".
Definition n_x2 : name := Eval vm_compute in u "x2".
Definition n_x2InitialView : name := Eval vm_compute in u "x2InitialView".
Definition n_xCoord : name := Eval vm_compute in u "xCoord".
Definition n_xDirectSubtrans : name := Eval vm_compute in u "xDirectSubtrans".
Definition n_xDirectSync : name := Eval vm_compute in u "xDirectSync".
Definition n_xDirectTrans : name := Eval vm_compute in u "xDirectTrans".
Definition n_xMax : name := Eval vm_compute in u "xMax".
Definition n_xMedian : name := Eval vm_compute in u "xMedian".
Definition n_xMultiplier : name := Eval vm_compute in u "xMultiplier".
Definition n_xPerR : name := Eval vm_compute in u "xPerR".
Definition n_xPosition : name := Eval vm_compute in u "xPosition".
Definition n_xQuadSubtrans : name := Eval vm_compute in u "xQuadSubtrans".
Definition n_xQuadSync : name := Eval vm_compute in u "xQuadSync".
Definition n_xQuadTrans : name := Eval vm_compute in u "xQuadTrans".
Definition n_xScale : name := Eval vm_compute in u "xScale".
Definition n_xStepMax : name := Eval vm_compute in u "xStepMax".
Definition n_xStepMin : name := Eval vm_compute in u "xStepMin".
Definition n_xUnit : name := Eval vm_compute in u "xUnit".
Definition n_xcomp : name := Eval vm_compute in u "xcomp".
Definition n_xcomp2 : name := Eval vm_compute in u "xcomp2".
Definition n_xground : name := Eval vm_compute in u "xground".
Definition n_xl : name := Eval vm_compute in u "xl".
Definition n_xlr1 : name := Eval vm_compute in u "xlr1".
Definition n_xlr2 : name := Eval vm_compute in u "xlr2".
Definition n_xls : name := Eval vm_compute in u "xls".
Definition n_xm : name := Eval vm_compute in u "xm".
Definition n_xn : name := Eval vm_compute in u "xn".
Definition n_xp : name := Eval vm_compute in u "xp".
Definition n_xpp : name := Eval vm_compute in u "xpp".
Definition n_xs : name := Eval vm_compute in u "xs".
Definition n_xvalue : name := Eval vm_compute in u "xvalue".
Definition n_y1InitialView : name := Eval vm_compute in u "y1InitialView".
Definition n_y1Multiplier : name := Eval vm_compute in u "y1Multiplier".
Definition n_y1Unit : name := Eval vm_compute in u "y1Unit".
Definition n_y1value : name := Eval vm_compute in u "y1value".
Definition n_y2InitialView : name := Eval vm_compute in u "y2InitialView".
Definition n_y2Multiplier : name := Eval vm_compute in u "y2Multiplier".
Definition n_y2Unit : name := Eval vm_compute in u "y2Unit".
Definition n_y2value : name := Eval vm_compute in u "y2value".
Definition n_y3Multiplier : name := Eval vm_compute in u "y3Multiplier".
Definition n_y3Unit : name := Eval vm_compute in u "y3Unit".
Definition n_y3value : name := Eval vm_compute in u "y3value".
Definition n_yCoord : name := Eval vm_compute in u "yCoord".
Definition n_yPosition : name := Eval vm_compute in u "yPosition".
Definition n_yScale : name := Eval vm_compute in u "yScale".
Definition n_zPosition : name := Eval vm_compute in u "zPosition".
