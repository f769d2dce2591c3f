(** Generated by tools/gen_types.py from the classes of CIM14 and CIM15: do not
    edit. *)
From stdpp Require Import prelude.
From Verif Require Import PyStr PyHeap Schema Names AttrTypes.

(** _attr_types of the classes of CIM14. *)
Definition cim14_types : types := [
  (* CIM14/CombinedVersion.py:42 *) (n_CIM14_CombinedVersion_CombinedVersion, [(n_version, TyStr); (n_date, TyStr)]);
  (* CIM14/Element.py:34 *) (n_CIM14_Element_Element, [(n_UUID, TyStr)]);
  (* CIM14/IEC61968/AssetModels/AssetModel.py:54 *) (n_CIM14_IEC61968_AssetModels_AssetModel_AssetModel, [(n_usageKind, TyStr); (n_corporateStandardKind, TyStr); (n_modelNumber, TyStr); (n_weightTotal, TyFloat); (n_modelVersion, TyStr)]);
  (* CIM14/IEC61968/AssetModels/CableInfo.py:74 *) (n_CIM14_IEC61968_AssetModels_CableInfo_CableInfo, [(n_constructionKind, TyStr); (n_shieldMaterial, TyStr); (n_outerJacketKind, TyStr); (n_isStrandFill, TyBool); (n_diameterOverScreen, TyFloat); (n_diameterOverInsulation, TyFloat); (n_diameterOverJacket, TyFloat); (n_nominalTemperature, TyFloat); (n_diameterOverCore, TyFloat); (n_sheathAsNeutral, TyBool)]);
  (* CIM14/IEC61968/AssetModels/ConcentricNeutralCableInfo.py:46 *) (n_CIM14_IEC61968_AssetModels_ConcentricNeutralCableInfo_ConcentricNeutralCableInfo, [(n_diameterOverNeutral, TyFloat); (n_neutralStrandCount, TyInt)]);
  (* CIM14/IEC61968/AssetModels/ConductorInfo.py:62 *) (n_CIM14_IEC61968_AssetModels_ConductorInfo_ConductorInfo, [(n_usage, TyStr); (n_insulationMaterial, TyStr); (n_insulated, TyBool); (n_insulationThickness, TyFloat); (n_phaseCount, TyInt)]);
  (* CIM14/IEC61968/AssetModels/DistributionWindingTest.py:42 *) (n_CIM14_IEC61968_AssetModels_DistributionWindingTest_DistributionWindingTest, [(n_fromTapStep, TyInt)]);
  (* CIM14/IEC61968/AssetModels/EndDeviceModel.py:38 *) (n_CIM14_IEC61968_AssetModels_EndDeviceModel_EndDeviceModel, []);
  (* CIM14/IEC61968/AssetModels/OpenCircuitTest.py:54 *) (n_CIM14_IEC61968_AssetModels_OpenCircuitTest_OpenCircuitTest, [(n_excitingCurrentZero, TyFloat); (n_noLoadLossZero, TyFloat); (n_noLoadLoss, TyFloat); (n_excitingCurrent, TyFloat)]);
  (* CIM14/IEC61968/AssetModels/OverheadConductorInfo.py:46 *) (n_CIM14_IEC61968_AssetModels_OverheadConductorInfo_OverheadConductorInfo, [(n_neutralInsulationThickness, TyFloat); (n_phaseConductorSpacing, TyFloat); (n_phaseConductorCount, TyInt)]);
  (* CIM14/IEC61968/AssetModels/ShortCircuitTest.py:54 *) (n_CIM14_IEC61968_AssetModels_ShortCircuitTest_ShortCircuitTest, [(n_loadLossZero, TyFloat); (n_leakageImpedanceZero, TyFloat); (n_leakageImpedance, TyFloat); (n_loadLoss, TyFloat)]);
  (* CIM14/IEC61968/AssetModels/TapeShieldCableInfo.py:42 *) (n_CIM14_IEC61968_AssetModels_TapeShieldCableInfo_TapeShieldCableInfo, [(n_tapeThickness, TyFloat); (n_tapeLap, TyFloat)]);
  (* CIM14/IEC61968/AssetModels/ToWindingSpec.py:58 *) (n_CIM14_IEC61968_AssetModels_ToWindingSpec_ToWindingSpec, [(n_voltage, TyFloat); (n_phaseShift, TyFloat); (n_toTapStep, TyInt)]);
  (* CIM14/IEC61968/AssetModels/TransformerInfo.py:42 *) (n_CIM14_IEC61968_AssetModels_TransformerInfo_TransformerInfo, []);
  (* CIM14/IEC61968/AssetModels/WindingInfo.py:86 *) (n_CIM14_IEC61968_AssetModels_WindingInfo_WindingInfo, [(n_connectionKind, TyStr); (n_r, TyFloat); (n_phaseAngle, TyInt); (n_emergencyS, TyFloat); (n_ratedU, TyFloat); (n_insulationU, TyFloat); (n_ratedS, TyFloat); (n_sequenceNumber, TyInt); (n_shortTermS, TyFloat)]);
  (* CIM14/IEC61968/AssetModels/WireArrangement.py:54 *) (n_CIM14_IEC61968_AssetModels_WireArrangement_WireArrangement, [(n_position, TyInt); (n_mountingPointX, TyFloat); (n_mountingPointY, TyFloat)]);
  (* CIM14/IEC61968/AssetModels/WireType.py:90 *) (n_CIM14_IEC61968_AssetModels_WireType_WireType, [(n_material, TyStr); (n_rAC25, TyFloat); (n_sizeDescription, TyStr); (n_rAC75, TyFloat); (n_radius, TyFloat); (n_coreRadius, TyFloat); (n_rAC50, TyFloat); (n_gmr, TyFloat); (n_rDC20, TyFloat); (n_ratedCurrent, TyFloat); (n_coreStrandCount, TyInt); (n_strandCount, TyInt)]);
  (* CIM14/IEC61968/Assets/AcceptanceTest.py:46 *) (n_CIM14_IEC61968_Assets_AcceptanceTest_AcceptanceTest, [(n_success, TyBool); (n_type, TyStr); (n_dateTime, TyStr)]);
  (* CIM14/IEC61968/Assets/Asset.py:123 *) (n_CIM14_IEC61968_Assets_Asset_Asset, [(n_category, TyStr); (n_serialNumber, TyStr); (n_manufacturedDate, TyStr); (n_lotNumber, TyStr); (n_critical, TyBool); (n_application, TyStr); (n_initialLossOfLife, TyFloat); (n_corporateCode, TyStr); (n_purchasePrice, TyFloat); (n_utcNumber, TyStr); (n_installationDate, TyStr); (n_initialCondition, TyStr)]);
  (* CIM14/IEC61968/Assets/AssetContainer.py:42 *) (n_CIM14_IEC61968_Assets_AssetContainer_AssetContainer, []);
  (* CIM14/IEC61968/Assets/AssetFunction.py:58 *) (n_CIM14_IEC61968_Assets_AssetFunction_AssetFunction, [(n_configID, TyStr); (n_programID, TyStr); (n_firmwareID, TyStr); (n_password, TyStr); (n_hardwareID, TyStr)]);
  (* CIM14/IEC61968/Assets/ComMediaAsset.py:34 *) (n_CIM14_IEC61968_Assets_ComMediaAsset_ComMediaAsset, []);
  (* CIM14/IEC61968/Assets/Seal.py:54 *) (n_CIM14_IEC61968_Assets_Seal_Seal, [(n_kind, TyStr); (n_condition, TyStr); (n_sealNumber, TyStr); (n_appliedDateTime, TyStr)]);
  (* CIM14/IEC61968/Common/ActivityRecord.py:61 *) (n_CIM14_IEC61968_Common_ActivityRecord_ActivityRecord, [(n_reason, TyStr); (n_createdDateTime, TyStr); (n_severity, TyStr); (n_category, TyStr)]);
  (* CIM14/IEC61968/Common/Agreement.py:41 *) (n_CIM14_IEC61968_Common_Agreement_Agreement, [(n_signDate, TyStr)]);
  (* CIM14/IEC61968/Common/CoordinateSystem.py:46 *) (n_CIM14_IEC61968_Common_CoordinateSystem_CoordinateSystem, [(n_name, TyStr)]);
  (* CIM14/IEC61968/Common/DateTimeInterval.py:42 *) (n_CIM14_IEC61968_Common_DateTimeInterval_DateTimeInterval, [(n_end, TyStr); (n_start, TyStr)]);
  (* CIM14/IEC61968/Common/Document.py:75 *) (n_CIM14_IEC61968_Common_Document_Document, [(n_revisionNumber, TyStr); (n_subject, TyStr); (n_createdDateTime, TyStr); (n_title, TyStr); (n_category, TyStr); (n_lastModifiedDateTime, TyStr)]);
  (* CIM14/IEC61968/Common/ElectronicAddress.py:61 *) (n_CIM14_IEC61968_Common_ElectronicAddress_ElectronicAddress, [(n_password, TyStr); (n_email, TyStr); (n_radio, TyStr); (n_userID, TyStr); (n_lan, TyStr); (n_web, TyStr)]);
  (* CIM14/IEC61968/Common/Location.py:88 *) (n_CIM14_IEC61968_Common_Location_Location, [(n_geoInfoReference, TyStr); (n_corporateCode, TyStr); (n_direction, TyStr); (n_category, TyStr)]);
  (* CIM14/IEC61968/Common/Organisation.py:49 *) (n_CIM14_IEC61968_Common_Organisation_Organisation, []);
  (* CIM14/IEC61968/Common/PositionPoint.py:58 *) (n_CIM14_IEC61968_Common_PositionPoint_PositionPoint, [(n_xPosition, TyStr); (n_zPosition, TyStr); (n_sequenceNumber, TyInt); (n_yPosition, TyStr)]);
  (* CIM14/IEC61968/Common/PostalAddress.py:48 *) (n_CIM14_IEC61968_Common_PostalAddress_PostalAddress, [(n_poBox, TyStr); (n_postalCode, TyStr)]);
  (* CIM14/IEC61968/Common/Status.py:50 *) (n_CIM14_IEC61968_Common_Status_Status, [(n_reason, TyStr); (n_remark, TyStr); (n_value, TyStr); (n_dateTime, TyStr)]);
  (* CIM14/IEC61968/Common/StreetAddress.py:43 *) (n_CIM14_IEC61968_Common_StreetAddress_StreetAddress, []);
  (* CIM14/IEC61968/Common/StreetDetail.py:74 *) (n_CIM14_IEC61968_Common_StreetDetail_StreetDetail, [(n_number, TyStr); (n_type, TyStr); (n_suiteNumber, TyStr); (n_addressGeneral, TyStr); (n_buildingName, TyStr); (n_name, TyStr); (n_withinTownLimits, TyBool); (n_suffix, TyStr); (n_code, TyStr); (n_prefix, TyStr)]);
  (* CIM14/IEC61968/Common/TelephoneNumber.py:54 *) (n_CIM14_IEC61968_Common_TelephoneNumber_TelephoneNumber, [(n_countryCode, TyStr); (n_cityCode, TyStr); (n_areaCode, TyStr); (n_localNumber, TyStr); (n_extension, TyStr)]);
  (* CIM14/IEC61968/Common/TimePoint.py:56 *) (n_CIM14_IEC61968_Common_TimePoint_TimePoint, [(n_relativeTimeInterval, TyFloat); (n_sequenceNumber, TyInt); (n_dateTime, TyStr)]);
  (* CIM14/IEC61968/Common/TimeSchedule.py:57 *) (n_CIM14_IEC61968_Common_TimeSchedule_TimeSchedule, [(n_recurrencePeriod, TyFloat); (n_disabled, TyBool); (n_offset, TyFloat); (n_recurrencePattern, TyStr)]);
  (* CIM14/IEC61968/Common/TownDetail.py:54 *) (n_CIM14_IEC61968_Common_TownDetail_TownDetail, [(n_code, TyStr); (n_country, TyStr); (n_stateOrProvince, TyStr); (n_name, TyStr); (n_section, TyStr)]);
  (* CIM14/IEC61968/Common/UserAttribute.py:58 *) (n_CIM14_IEC61968_Common_UserAttribute_UserAttribute, [(n_value, TyStr); (n_sequenceNumber, TyInt); (n_name, TyStr)]);
  (* CIM14/IEC61968/Customers/Customer.py:65 *) (n_CIM14_IEC61968_Customers_Customer_Customer, [(n_kind, TyStr); (n_pucNumber, TyStr); (n_specialNeed, TyStr); (n_vip, TyBool)]);
  (* CIM14/IEC61968/Customers/CustomerAccount.py:42 *) (n_CIM14_IEC61968_Customers_CustomerAccount_CustomerAccount, []);
  (* CIM14/IEC61968/Customers/CustomerAgreement.py:94 *) (n_CIM14_IEC61968_Customers_CustomerAgreement_CustomerAgreement, [(n_loadMgmt, TyStr); (n_budgetBill, TyStr); (n_billingCycle, TyStr)]);
  (* CIM14/IEC61968/Customers/PricingStructure.py:78 *) (n_CIM14_IEC61968_Customers_PricingStructure_PricingStructure, [(n_revenueKind, TyStr); (n_code, TyStr); (n_dailyFloorUsage, TyInt); (n_taxExemption, TyBool); (n_dailyEstimatedUsage, TyInt); (n_dailyCeilingUsage, TyInt)]);
  (* CIM14/IEC61968/Customers/ServiceCategory.py:50 *) (n_CIM14_IEC61968_Customers_ServiceCategory_ServiceCategory, [(n_kind, TyStr)]);
  (* CIM14/IEC61968/Customers/ServiceLocation.py:58 *) (n_CIM14_IEC61968_Customers_ServiceLocation_ServiceLocation, [(n_siteAccessProblem, TyStr); (n_accessMethod, TyStr); (n_needsInspection, TyBool)]);
  (* CIM14/IEC61968/Customers/Tariff.py:50 *) (n_CIM14_IEC61968_Customers_Tariff_Tariff, [(n_startDate, TyStr); (n_endDate, TyStr)]);
  (* CIM14/IEC61968/IEC61968CIMVersion.py:42 *) (n_CIM14_IEC61968_IEC61968CIMVersion_IEC61968CIMVersion, [(n_date, TyStr); (n_version, TyStr)]);
  (* CIM14/IEC61968/LoadControl/ConnectDisconnectFunction.py:69 *) (n_CIM14_IEC61968_LoadControl_ConnectDisconnectFunction_ConnectDisconnectFunction, [(n_isLocalAutoReconOp, TyBool); (n_isLocalAutoDisconOp, TyBool); (n_isRemoteAutoReconOp, TyBool); (n_isRemoteAutoDisconOp, TyBool); (n_isConnected, TyBool); (n_eventCount, TyInt); (n_isDelayedDiscon, TyBool)]);
  (* CIM14/IEC61968/LoadControl/RemoteConnectDisconnectInfo.py:82 *) (n_CIM14_IEC61968_LoadControl_RemoteConnectDisconnectInfo_RemoteConnectDisconnectInfo, [(n_needsPowerLimitCheck, TyBool); (n_isEnergyLimiting, TyBool); (n_isArmConnect, TyBool); (n_energyUsageWarning, TyFloat); (n_armedTimeout, TyFloat); (n_energyUsageStartDateTime, TyStr); (n_isArmDisconnect, TyBool); (n_needsVoltageLimitCheck, TyBool); (n_powerLimit, TyFloat); (n_usePushbutton, TyBool); (n_customerVoltageLimit, TyFloat); (n_energyLimit, TyFloat)]);
  (* CIM14/IEC61968/Metering/ComFunction.py:46 *) (n_CIM14_IEC61968_Metering_ComFunction_ComFunction, [(n_amrRouter, TyStr); (n_twoWay, TyBool); (n_amrAddress, TyStr)]);
  (* CIM14/IEC61968/Metering/DemandResponseProgram.py:53 *) (n_CIM14_IEC61968_Metering_DemandResponseProgram_DemandResponseProgram, [(n_type, TyStr)]);
  (* CIM14/IEC61968/Metering/DeviceFunction.py:50 *) (n_CIM14_IEC61968_Metering_DeviceFunction_DeviceFunction, [(n_disabled, TyBool)]);
  (* CIM14/IEC61968/Metering/DynamicDemand.py:46 *) (n_CIM14_IEC61968_Metering_DynamicDemand_DynamicDemand, [(n_kind, TyStr); (n_interval, TyFloat); (n_subInterval, TyFloat)]);
  (* CIM14/IEC61968/Metering/ElectricMeteringFunction.py:78 *) (n_CIM14_IEC61968_Metering_ElectricMeteringFunction_ElectricMeteringFunction, [(n_billingMultiplierApplied, TyBool); (n_kWMultiplier, TyInt); (n_demandMultiplier, TyFloat); (n_demandMultiplierApplied, TyBool); (n_transformerRatiosApplied, TyBool); (n_voltageRating, TyFloat); (n_billingMultiplier, TyFloat); (n_transformerVTRatio, TyFloat); (n_kWhMultiplier, TyInt); (n_transformerCTRatio, TyFloat); (n_currentRating, TyFloat)]);
  (* CIM14/IEC61968/Metering/EndDeviceAsset.py:122 *) (n_CIM14_IEC61968_Metering_EndDeviceAsset_EndDeviceAsset, [(n_readRequest, TyBool); (n_demandResponse, TyBool); (n_relayCapable, TyBool); (n_amrSystem, TyStr); (n_ratedCurrent, TyFloat); (n_phaseCount, TyInt); (n_reverseFlowHandling, TyBool); (n_metrology, TyBool); (n_timeZoneOffset, TyFloat); (n_outageReport, TyBool); (n_dstEnabled, TyBool); (n_disconnect, TyBool); (n_ratedVoltage, TyFloat); (n_loadControl, TyBool)]);
  (* CIM14/IEC61968/Metering/EndDeviceControl.py:69 *) (n_CIM14_IEC61968_Metering_EndDeviceControl_EndDeviceControl, [(n_type, TyStr); (n_drProgramMandatory, TyBool); (n_priceSignal, TyFloat); (n_drProgramLevel, TyInt)]);
  (* CIM14/IEC61968/Metering/EndDeviceEvent.py:46 *) (n_CIM14_IEC61968_Metering_EndDeviceEvent_EndDeviceEvent, [(n_userID, TyStr)]);
  (* CIM14/IEC61968/Metering/EndDeviceGroup.py:50 *) (n_CIM14_IEC61968_Metering_EndDeviceGroup_EndDeviceGroup, [(n_groupAddress, TyInt)]);
  (* CIM14/IEC61968/Metering/IntervalBlock.py:50 *) (n_CIM14_IEC61968_Metering_IntervalBlock_IntervalBlock, []);
  (* CIM14/IEC61968/Metering/IntervalReading.py:46 *) (n_CIM14_IEC61968_Metering_IntervalReading_IntervalReading, [(n_value, TyFloat)]);
  (* CIM14/IEC61968/Metering/MeterAsset.py:62 *) (n_CIM14_IEC61968_Metering_MeterAsset_MeterAsset, [(n_kH, TyFloat); (n_kR, TyFloat); (n_formNumber, TyStr)]);
  (* CIM14/IEC61968/Metering/MeterReading.py:61 *) (n_CIM14_IEC61968_Metering_MeterReading_MeterReading, []);
  (* CIM14/IEC61968/Metering/MeterServiceWork.py:42 *) (n_CIM14_IEC61968_Metering_MeterServiceWork_MeterServiceWork, []);
  (* CIM14/IEC61968/Metering/Pending.py:62 *) (n_CIM14_IEC61968_Metering_Pending_Pending, [(n_scalarDenominator, TyInt); (n_scalarFloat, TyFloat); (n_scalarNumerator, TyInt); (n_multiplyBeforeAdd, TyBool); (n_offset, TyInt)]);
  (* CIM14/IEC61968/Metering/Reading.py:54 *) (n_CIM14_IEC61968_Metering_Reading_Reading, [(n_value, TyFloat)]);
  (* CIM14/IEC61968/Metering/ReadingQuality.py:46 *) (n_CIM14_IEC61968_Metering_ReadingQuality_ReadingQuality, [(n_quality, TyStr)]);
  (* CIM14/IEC61968/Metering/ReadingType.py:85 *) (n_CIM14_IEC61968_Metering_ReadingType_ReadingType, [(n_multiplier, TyStr); (n_kind, TyStr); (n_unit, TyStr); (n_reverseChronology, TyBool); (n_defaultQuality, TyStr); (n_defaultValueDataType, TyStr); (n_channelNumber, TyInt); (n_intervalLength, TyFloat)]);
  (* CIM14/IEC61968/Metering/Register.py:50 *) (n_CIM14_IEC61968_Metering_Register_Register, [(n_leftDigitCount, TyInt); (n_rightDigitCount, TyInt)]);
  (* CIM14/IEC61968/Metering/SDPLocation.py:54 *) (n_CIM14_IEC61968_Metering_SDPLocation_SDPLocation, [(n_remark, TyStr); (n_siteAccessProblem, TyStr); (n_occupancyDate, TyStr); (n_accessMethod, TyStr)]);
  (* CIM14/IEC61968/Metering/ServiceDeliveryPoint.py:114 *) (n_CIM14_IEC61968_Metering_ServiceDeliveryPoint_ServiceDeliveryPoint, [(n_phaseCode, TyStr); (n_ratedPower, TyFloat); (n_servicePriority, TyStr); (n_checkBilling, TyBool); (n_grounded, TyBool); (n_serviceDeliveryRemark, TyStr); (n_ratedCurrent, TyFloat); (n_estimatedLoad, TyFloat); (n_nominalServiceVoltage, TyInt); (n_ctptReference, TyInt)]);
  (* CIM14/IEC61968/PaymentMetering/AccountMovement.py:46 *) (n_CIM14_IEC61968_PaymentMetering_AccountMovement_AccountMovement, [(n_dateTime, TyStr); (n_amount, TyFloat); (n_reason, TyStr)]);
  (* CIM14/IEC61968/PaymentMetering/AccountingUnit.py:50 *) (n_CIM14_IEC61968_PaymentMetering_AccountingUnit_AccountingUnit, [(n_multiplier, TyStr); (n_monetaryUnit, TyStr); (n_energyUnit, TyFloat); (n_value, TyFloat)]);
  (* CIM14/IEC61968/PaymentMetering/AuxiliaryAccount.py:63 *) (n_CIM14_IEC61968_PaymentMetering_AuxiliaryAccount_AuxiliaryAccount, [(n_balance, TyFloat); (n_principleAmount, TyFloat)]);
  (* CIM14/IEC61968/PaymentMetering/AuxiliaryAgreement.py:82 *) (n_CIM14_IEC61968_PaymentMetering_AuxiliaryAgreement_AuxiliaryAgreement, [(n_arrearsInterest, TyFloat); (n_vendPortion, TyFloat); (n_minAmount, TyFloat); (n_auxPriorityCode, TyStr); (n_subCategory, TyStr); (n_auxRef, TyStr); (n_auxCycle, TyStr); (n_vendPortionArrear, TyFloat); (n_payCycle, TyStr); (n_fixedAmount, TyFloat)]);
  (* CIM14/IEC61968/PaymentMetering/BankAccountDetail.py:54 *) (n_CIM14_IEC61968_PaymentMetering_BankAccountDetail_BankAccountDetail, [(n_holderName, TyStr); (n_accountNumber, TyStr); (n_bankName, TyStr); (n_branchCode, TyStr); (n_holderID, TyStr)]);
  (* CIM14/IEC61968/PaymentMetering/Card.py:54 *) (n_CIM14_IEC61968_PaymentMetering_Card_Card, [(n_pan, TyStr); (n_expiryDate, TyStr); (n_cvNumber, TyStr); (n_accountHolderName, TyStr)]);
  (* CIM14/IEC61968/PaymentMetering/Cashier.py:45 *) (n_CIM14_IEC61968_PaymentMetering_Cashier_Cashier, []);
  (* CIM14/IEC61968/PaymentMetering/CashierShift.py:54 *) (n_CIM14_IEC61968_PaymentMetering_CashierShift_CashierShift, [(n_cashFloat, TyFloat)]);
  (* CIM14/IEC61968/PaymentMetering/Charge.py:65 *) (n_CIM14_IEC61968_PaymentMetering_Charge_Charge, [(n_kind, TyStr); (n_variablePortion, TyFloat)]);
  (* CIM14/IEC61968/PaymentMetering/Cheque.py:57 *) (n_CIM14_IEC61968_PaymentMetering_Cheque_Cheque, [(n_kind, TyStr); (n_micrNumber, TyStr); (n_date, TyStr); (n_chequeNumber, TyStr)]);
  (* CIM14/IEC61968/PaymentMetering/ConsumptionTariffInterval.py:50 *) (n_CIM14_IEC61968_PaymentMetering_ConsumptionTariffInterval_ConsumptionTariffInterval, [(n_sequenceNumber, TyInt); (n_startValue, TyFloat)]);
  (* CIM14/IEC61968/PaymentMetering/Due.py:54 *) (n_CIM14_IEC61968_PaymentMetering_Due_Due, [(n_interest, TyFloat); (n_principle, TyFloat); (n_arrears, TyFloat); (n_current, TyFloat); (n_charges, TyFloat)]);
  (* CIM14/IEC61968/PaymentMetering/LineDetail.py:50 *) (n_CIM14_IEC61968_PaymentMetering_LineDetail_LineDetail, [(n_dateTime, TyStr); (n_rounding, TyFloat); (n_note, TyStr); (n_amount, TyFloat)]);
  (* CIM14/IEC61968/PaymentMetering/MerchantAccount.py:58 *) (n_CIM14_IEC61968_PaymentMetering_MerchantAccount_MerchantAccount, [(n_provisionalBalance, TyFloat); (n_currentBalance, TyFloat)]);
  (* CIM14/IEC61968/PaymentMetering/MerchantAgreement.py:38 *) (n_CIM14_IEC61968_PaymentMetering_MerchantAgreement_MerchantAgreement, []);
  (* CIM14/IEC61968/PaymentMetering/PointOfSale.py:46 *) (n_CIM14_IEC61968_PaymentMetering_PointOfSale_PointOfSale, [(n_location, TyStr)]);
  (* CIM14/IEC61968/PaymentMetering/Receipt.py:57 *) (n_CIM14_IEC61968_PaymentMetering_Receipt_Receipt, [(n_isBankable, TyBool)]);
  (* CIM14/IEC61968/PaymentMetering/ServiceSupplier.py:50 *) (n_CIM14_IEC61968_PaymentMetering_ServiceSupplier_ServiceSupplier, [(n_kind, TyStr); (n_issuerIdentificationNumber, TyStr)]);
  (* CIM14/IEC61968/PaymentMetering/Shift.py:57 *) (n_CIM14_IEC61968_PaymentMetering_Shift_Shift, [(n_receiptsGrandTotalNonBankable, TyFloat); (n_receiptsGrandTotalBankable, TyFloat); (n_receiptsGrandTotalRounding, TyFloat); (n_transactionsGrandTotal, TyFloat); (n_transactionsGrandTotalRounding, TyFloat)]);
  (* CIM14/IEC61968/PaymentMetering/TariffProfile.py:50 *) (n_CIM14_IEC61968_PaymentMetering_TariffProfile_TariffProfile, [(n_tariffCycle, TyStr)]);
  (* CIM14/IEC61968/PaymentMetering/Tender.py:58 *) (n_CIM14_IEC61968_PaymentMetering_Tender_Tender, [(n_kind, TyStr); (n_amount, TyFloat); (n_change, TyFloat)]);
  (* CIM14/IEC61968/PaymentMetering/TimeTariffInterval.py:50 *) (n_CIM14_IEC61968_PaymentMetering_TimeTariffInterval_TimeTariffInterval, [(n_sequenceNumber, TyInt); (n_startDateTime, TyStr)]);
  (* CIM14/IEC61968/PaymentMetering/Transaction.py:97 *) (n_CIM14_IEC61968_PaymentMetering_Transaction_Transaction, [(n_kind, TyStr); (n_serviceUnitsEnergy, TyFloat); (n_diverseReference, TyStr); (n_receiverReference, TyStr); (n_donorReference, TyStr); (n_serviceUnitsError, TyFloat); (n_reversedId, TyStr)]);
  (* CIM14/IEC61968/PaymentMetering/Transactor.py:38 *) (n_CIM14_IEC61968_PaymentMetering_Transactor_Transactor, []);
  (* CIM14/IEC61968/PaymentMetering/Vendor.py:50 *) (n_CIM14_IEC61968_PaymentMetering_Vendor_Vendor, []);
  (* CIM14/IEC61968/PaymentMetering/VendorShift.py:58 *) (n_CIM14_IEC61968_PaymentMetering_VendorShift_VendorShift, [(n_merchantDebitAmount, TyFloat); (n_posted, TyBool)]);
  (* CIM14/IEC61968/WiresExt/DistributionLineSegment.py:46 *) (n_CIM14_IEC61968_WiresExt_DistributionLineSegment_DistributionLineSegment, []);
  (* CIM14/IEC61968/WiresExt/DistributionTapChanger.py:82 *) (n_CIM14_IEC61968_WiresExt_DistributionTapChanger_DistributionTapChanger, [(n_monitoredPhase, TyStr); (n_ptRatio, TyFloat); (n_reverseLineDropX, TyFloat); (n_ctRating, TyFloat); (n_reverseLineDropR, TyFloat); (n_lineDropCompensation, TyBool); (n_ctRatio, TyFloat); (n_targetVoltage, TyFloat); (n_limitVoltage, TyFloat); (n_lineDropR, TyFloat); (n_lineDropX, TyFloat); (n_bandVoltage, TyFloat)]);
  (* CIM14/IEC61968/WiresExt/DistributionTransformer.py:50 *) (n_CIM14_IEC61968_WiresExt_DistributionTransformer_DistributionTransformer, []);
  (* CIM14/IEC61968/WiresExt/DistributionTransformerWinding.py:66 *) (n_CIM14_IEC61968_WiresExt_DistributionTransformerWinding_DistributionTransformerWinding, [(n_grounded, TyBool); (n_xground, TyFloat); (n_rground, TyFloat)]);
  (* CIM14/IEC61968/WiresExt/PerLengthPhaseImpedance.py:46 *) (n_CIM14_IEC61968_WiresExt_PerLengthPhaseImpedance_PerLengthPhaseImpedance, [(n_conductorCount, TyInt)]);
  (* CIM14/IEC61968/WiresExt/PerLengthSequenceImpedance.py:70 *) (n_CIM14_IEC61968_WiresExt_PerLengthSequenceImpedance_PerLengthSequenceImpedance, [(n_r0, TyFloat); (n_r, TyFloat); (n_b0ch, TyFloat); (n_x0, TyFloat); (n_gch, TyFloat); (n_g0ch, TyFloat); (n_bch, TyFloat); (n_x, TyFloat)]);
  (* CIM14/IEC61968/WiresExt/PhaseImpedanceData.py:54 *) (n_CIM14_IEC61968_WiresExt_PhaseImpedanceData_PhaseImpedanceData, [(n_r, TyFloat); (n_x, TyFloat); (n_sequenceNumber, TyInt); (n_b, TyFloat)]);
  (* CIM14/IEC61968/WiresExt/TransformerBank.py:42 *) (n_CIM14_IEC61968_WiresExt_TransformerBank_TransformerBank, [(n_vectorGroup, TyStr)]);
  (* CIM14/IEC61968/WiresExt/WindingPiImpedance.py:70 *) (n_CIM14_IEC61968_WiresExt_WindingPiImpedance_WindingPiImpedance, [(n_g, TyFloat); (n_b, TyFloat); (n_r, TyFloat); (n_x0, TyFloat); (n_x, TyFloat); (n_r0, TyFloat); (n_b0, TyFloat); (n_g0, TyFloat)]);
  (* CIM14/IEC61968/Work/Work.py:50 *) (n_CIM14_IEC61968_Work_Work_Work, [(n_kind, TyStr); (n_priority, TyStr); (n_requestDateTime, TyStr)]);
  (* CIM14/IEC61970/Contingency/Contingency.py:42 *) (n_CIM14_IEC61970_Contingency_Contingency_Contingency, [(n_mustStudy, TyBool)]);
  (* CIM14/IEC61970/Contingency/ContingencyElement.py:38 *) (n_CIM14_IEC61970_Contingency_ContingencyElement_ContingencyElement, []);
  (* CIM14/IEC61970/Contingency/ContingencyEquipment.py:42 *) (n_CIM14_IEC61970_Contingency_ContingencyEquipment_ContingencyEquipment, [(n_contingentStatus, TyStr)]);
  (* CIM14/IEC61970/ControlArea/AltGeneratingUnitMeas.py:46 *) (n_CIM14_IEC61970_ControlArea_AltGeneratingUnitMeas_AltGeneratingUnitMeas, [(n_priority, TyInt)]);
  (* CIM14/IEC61970/ControlArea/AltTieMeas.py:46 *) (n_CIM14_IEC61970_ControlArea_AltTieMeas_AltTieMeas, [(n_priority, TyInt)]);
  (* CIM14/IEC61970/ControlArea/ControlArea.py:58 *) (n_CIM14_IEC61970_ControlArea_ControlArea_ControlArea, [(n_type, TyStr); (n_netInterchange, TyFloat); (n_pTolerance, TyFloat)]);
  (* CIM14/IEC61970/ControlArea/ControlAreaGeneratingUnit.py:46 *) (n_CIM14_IEC61970_ControlArea_ControlAreaGeneratingUnit_ControlAreaGeneratingUnit, []);
  (* CIM14/IEC61970/ControlArea/TieFlow.py:50 *) (n_CIM14_IEC61970_ControlArea_TieFlow_TieFlow, [(n_positiveFlowIn, TyBool)]);
  (* CIM14/IEC61970/Core/BasePower.py:38 *) (n_CIM14_IEC61970_Core_BasePower_BasePower, [(n_basePower, TyFloat)]);
  (* CIM14/IEC61970/Core/BaseVoltage.py:54 *) (n_CIM14_IEC61970_Core_BaseVoltage_BaseVoltage, [(n_nominalVoltage, TyFloat); (n_isDC, TyBool)]);
  (* CIM14/IEC61970/Core/BasicIntervalSchedule.py:54 *) (n_CIM14_IEC61970_Core_BasicIntervalSchedule_BasicIntervalSchedule, [(n_value2Multiplier, TyStr); (n_value2Unit, TyStr); (n_value1Multiplier, TyStr); (n_value1Unit, TyStr); (n_startTime, TyStr)]);
  (* CIM14/IEC61970/Core/Bay.py:58 *) (n_CIM14_IEC61970_Core_Bay_Bay, [(n_busBarConfiguration, TyStr); (n_breakerConfiguration, TyStr); (n_bayPowerMeasFlag, TyBool); (n_bayEnergyMeasFlag, TyBool)]);
  (* CIM14/IEC61970/Core/ConductingEquipment.py:58 *) (n_CIM14_IEC61970_Core_ConductingEquipment_ConductingEquipment, [(n_phases, TyStr)]);
  (* CIM14/IEC61970/Core/ConnectivityNode.py:50 *) (n_CIM14_IEC61970_Core_ConnectivityNode_ConnectivityNode, []);
  (* CIM14/IEC61970/Core/ConnectivityNodeContainer.py:42 *) (n_CIM14_IEC61970_Core_ConnectivityNodeContainer_ConnectivityNodeContainer, []);
  (* CIM14/IEC61970/Core/Curve.py:74 *) (n_CIM14_IEC61970_Core_Curve_Curve, [(n_y2Multiplier, TyStr); (n_y3Multiplier, TyStr); (n_y1Unit, TyStr); (n_xMultiplier, TyStr); (n_y3Unit, TyStr); (n_xUnit, TyStr); (n_y1Multiplier, TyStr); (n_curveStyle, TyStr); (n_y2Unit, TyStr)]);
  (* CIM14/IEC61970/Core/CurveData.py:54 *) (n_CIM14_IEC61970_Core_CurveData_CurveData, [(n_y3value, TyFloat); (n_xvalue, TyFloat); (n_y2value, TyFloat); (n_y1value, TyFloat)]);
  (* CIM14/IEC61970/Core/Equipment.py:58 *) (n_CIM14_IEC61970_Core_Equipment_Equipment, [(n_normaIlyInService, TyBool); (n_aggregate, TyBool)]);
  (* CIM14/IEC61970/Core/EquipmentContainer.py:38 *) (n_CIM14_IEC61970_Core_EquipmentContainer_EquipmentContainer, []);
  (* CIM14/IEC61970/Core/GeographicalRegion.py:38 *) (n_CIM14_IEC61970_Core_GeographicalRegion_GeographicalRegion, []);
  (* CIM14/IEC61970/Core/IdentifiedObject.py:62 *) (n_CIM14_IEC61970_Core_IdentifiedObject_IdentifiedObject, [(n_pathName, TyStr); (n_aliasName, TyStr); (n_mRID, TyStr); (n_name, TyStr); (n_description, TyStr); (n_localName, TyStr)]);
  (* CIM14/IEC61970/Core/IrregularIntervalSchedule.py:38 *) (n_CIM14_IEC61970_Core_IrregularIntervalSchedule_IrregularIntervalSchedule, []);
  (* CIM14/IEC61970/Core/IrregularTimePoint.py:50 *) (n_CIM14_IEC61970_Core_IrregularTimePoint_IrregularTimePoint, [(n_time, TyFloat); (n_value2, TyFloat); (n_value1, TyFloat)]);
  (* CIM14/IEC61970/Core/OperatingParticipant.py:38 *) (n_CIM14_IEC61970_Core_OperatingParticipant_OperatingParticipant, []);
  (* CIM14/IEC61970/Core/OperatingShare.py:46 *) (n_CIM14_IEC61970_Core_OperatingShare_OperatingShare, [(n_percentage, TyFloat)]);
  (* CIM14/IEC61970/Core/PSRType.py:38 *) (n_CIM14_IEC61970_Core_PSRType_PSRType, []);
  (* CIM14/IEC61970/Core/PowerSystemResource.py:70 *) (n_CIM14_IEC61970_Core_PowerSystemResource_PowerSystemResource, []);
  (* CIM14/IEC61970/Core/PsrList.py:42 *) (n_CIM14_IEC61970_Core_PsrList_PsrList, [(n_typePSRList, TyStr)]);
  (* CIM14/IEC61970/Core/RegularIntervalSchedule.py:46 *) (n_CIM14_IEC61970_Core_RegularIntervalSchedule_RegularIntervalSchedule, [(n_endTime, TyStr); (n_timeStep, TyFloat)]);
  (* CIM14/IEC61970/Core/RegularTimePoint.py:50 *) (n_CIM14_IEC61970_Core_RegularTimePoint_RegularTimePoint, [(n_value1, TyFloat); (n_sequenceNumber, TyInt); (n_value2, TyFloat)]);
  (* CIM14/IEC61970/Core/ReportingGroup.py:50 *) (n_CIM14_IEC61970_Core_ReportingGroup_ReportingGroup, []);
  (* CIM14/IEC61970/Core/ReportingSuperGroup.py:38 *) (n_CIM14_IEC61970_Core_ReportingSuperGroup_ReportingSuperGroup, []);
  (* CIM14/IEC61970/Core/SubGeographicalRegion.py:46 *) (n_CIM14_IEC61970_Core_SubGeographicalRegion_SubGeographicalRegion, []);
  (* CIM14/IEC61970/Core/Substation.py:46 *) (n_CIM14_IEC61970_Core_Substation_Substation, []);
  (* CIM14/IEC61970/Core/Terminal.py:90 *) (n_CIM14_IEC61970_Core_Terminal_Terminal, [(n_connected, TyBool); (n_sequenceNumber, TyInt)]);
  (* CIM14/IEC61970/Core/Unit.py:54 *) (n_CIM14_IEC61970_Core_Unit_Unit, []);
  (* CIM14/IEC61970/Core/VoltageLevel.py:54 *) (n_CIM14_IEC61970_Core_VoltageLevel_VoltageLevel, [(n_highVoltageLimit, TyFloat); (n_lowVoltageLimit, TyFloat)]);
  (* CIM14/IEC61970/Dynamics/AsynchronousMachine.py:74 *) (n_CIM14_IEC61970_Dynamics_AsynchronousMachine_AsynchronousMachine, [(n_xm, TyFloat); (n_xs, TyFloat); (n_xpp, TyFloat); (n_xlr2, TyFloat); (n_rr2, TyFloat); (n_tpo, TyFloat); (n_rr1, TyFloat); (n_xp, TyFloat); (n_tppo, TyFloat); (n_xlr1, TyFloat)]);
  (* CIM14/IEC61970/Dynamics/AttributeBlockParameter.py:38 *) (n_CIM14_IEC61970_Dynamics_AttributeBlockParameter_AttributeBlockParameter, [(n_attributeName, TyStr)]);
  (* CIM14/IEC61970/Dynamics/Block.py:82 *) (n_CIM14_IEC61970_Dynamics_Block_Block, [(n_positiveFlowIn, TyBool); (n_inService, TyBool)]);
  (* CIM14/IEC61970/Dynamics/BlockConnection.py:46 *) (n_CIM14_IEC61970_Dynamics_BlockConnection_BlockConnection, []);
  (* CIM14/IEC61970/Dynamics/BlockConnectivity.py:46 *) (n_CIM14_IEC61970_Dynamics_BlockConnectivity_BlockConnectivity, []);
  (* CIM14/IEC61970/Dynamics/BlockConstant.py:42 *) (n_CIM14_IEC61970_Dynamics_BlockConstant_BlockConstant, [(n_value, TyFloat)]);
  (* CIM14/IEC61970/Dynamics/BlockInputReference.py:46 *) (n_CIM14_IEC61970_Dynamics_BlockInputReference_BlockInputReference, []);
  (* CIM14/IEC61970/Dynamics/BlockInputType.py:40 *) (n_CIM14_IEC61970_Dynamics_BlockInputType_BlockInputType, []);
  (* CIM14/IEC61970/Dynamics/BlockOutputReference.py:42 *) (n_CIM14_IEC61970_Dynamics_BlockOutputReference_BlockOutputReference, []);
  (* CIM14/IEC61970/Dynamics/BlockOutputType.py:40 *) (n_CIM14_IEC61970_Dynamics_BlockOutputType_BlockOutputType, []);
  (* CIM14/IEC61970/Dynamics/BlockParameter.py:54 *) (n_CIM14_IEC61970_Dynamics_BlockParameter_BlockParameter, [(n_value, TyFloat)]);
  (* CIM14/IEC61970/Dynamics/BlockType.py:42 *) (n_CIM14_IEC61970_Dynamics_BlockType_BlockType, []);
  (* CIM14/IEC61970/Dynamics/BlockUsageInputReference.py:46 *) (n_CIM14_IEC61970_Dynamics_BlockUsageInputReference_BlockUsageInputReference, []);
  (* CIM14/IEC61970/Dynamics/BlockUsageOutputReference.py:46 *) (n_CIM14_IEC61970_Dynamics_BlockUsageOutputReference_BlockUsageOutputReference, []);
  (* CIM14/IEC61970/Dynamics/CompositeModel.py:36 *) (n_CIM14_IEC61970_Dynamics_CompositeModel_CompositeModel, []);
  (* CIM14/IEC61970/Dynamics/ConnectionFrame.py:40 *) (n_CIM14_IEC61970_Dynamics_ConnectionFrame_ConnectionFrame, []);
  (* CIM14/IEC61970/Dynamics/ExcitationSystemLimiter.py:32 *) (n_CIM14_IEC61970_Dynamics_ExcitationSystemLimiter_ExcitationSystemLimiter, []);
  (* CIM14/IEC61970/Dynamics/ExcitationSystems/ExcAC1A.py:110 *) (n_CIM14_IEC61970_Dynamics_ExcitationSystems_ExcAC1A_ExcAC1A, [(n_vrmin, TyFloat); (n_tr, TyFloat); (n_vrmax, TyFloat); (n_ta, TyFloat); (n_kf, TyFloat); (n_te, TyFloat); (n_ka, TyFloat); (n_vamax, TyFloat); (n_tb, TyFloat); (n_e1, TyFloat); (n_kd, TyFloat); (n_se1, TyFloat); (n_vamin, TyFloat); (n_ke, TyFloat); (n_kc, TyFloat); (n_tf, TyFloat); (n_tc, TyFloat); (n_e2, TyFloat); (n_se2, TyFloat)]);
  (* CIM14/IEC61970/Dynamics/ExcitationSystems/ExcAC2A.py:122 *) (n_CIM14_IEC61970_Dynamics_ExcitationSystems_ExcAC2A_ExcAC2A, [(n_vrmin, TyFloat); (n_vamin, TyFloat); (n_kh, TyFloat); (n_vrmax, TyFloat); (n_tb, TyFloat); (n_e1, TyFloat); (n_se1, TyFloat); (n_te, TyFloat); (n_kf, TyFloat); (n_tc, TyFloat); (n_e2, TyFloat); (n_ke, TyFloat); (n_tr, TyFloat); (n_tf, TyFloat); (n_ta, TyFloat); (n_kc, TyFloat); (n_kd, TyFloat); (n_se2, TyFloat); (n_vfemax, TyFloat); (n_vamax, TyFloat); (n_kb, TyFloat); (n_ka, TyFloat)]);
  (* CIM14/IEC61970/Dynamics/ExcitationSystems/ExcAC3A.py:122 *) (n_CIM14_IEC61970_Dynamics_ExcitationSystems_ExcAC3A_ExcAC3A, [(n_kf, TyFloat); (n_e2, TyFloat); (n_te, TyFloat); (n_ka, TyFloat); (n_kr, TyFloat); (n_tc, TyFloat); (n_efdn, TyFloat); (n_ke, TyFloat); (n_e1, TyFloat); (n_kd, TyFloat); (n_se2, TyFloat); (n_vamax, TyFloat); (n_tr, TyFloat); (n_vamin, TyFloat); (n_tf, TyFloat); (n_vemin, TyFloat); (n_kn, TyFloat); (n_vfemax, TyFloat); (n_tb, TyFloat); (n_se1, TyFloat); (n_kc, TyFloat); (n_ta, TyFloat)]);
  (* CIM14/IEC61970/Dynamics/ExcitationSystems/ExcAC4A.py:74 *) (n_CIM14_IEC61970_Dynamics_ExcitationSystems_ExcAC4A_ExcAC4A, [(n_ka, TyFloat); (n_vimin, TyFloat); (n_tb, TyFloat); (n_tr, TyFloat); (n_tc, TyFloat); (n_ta, TyFloat); (n_kc, TyFloat); (n_vrmin, TyFloat); (n_vrmax, TyFloat); (n_vimax, TyFloat)]);
  (* CIM14/IEC61970/Dynamics/ExcitationSystems/ExcAC5A.py:94 *) (n_CIM14_IEC61970_Dynamics_ExcitationSystems_ExcAC5A_ExcAC5A, [(n_ka, TyFloat); (n_e1, TyFloat); (n_kf, TyFloat); (n_te, TyFloat); (n_vrmin, TyFloat); (n_vrmax, TyFloat); (n_se2, TyFloat); (n_tf3, TyFloat); (n_e2, TyFloat); (n_ke, TyFloat); (n_tr, TyFloat); (n_se1, TyFloat); (n_tf2, TyFloat); (n_tf1, TyFloat); (n_ta, TyFloat)]);
  (* CIM14/IEC61970/Dynamics/ExcitationSystems/ExcAC6A.py:126 *) (n_CIM14_IEC61970_Dynamics_ExcitationSystems_ExcAC6A_ExcAC6A, [(n_te, TyFloat); (n_ka, TyFloat); (n_vhmax, TyFloat); (n_kh, TyFloat); (n_tk, TyFloat); (n_ke, TyFloat); (n_se1, TyFloat); (n_tr, TyFloat); (n_vrmin, TyFloat); (n_vrmax, TyFloat); (n_tc, TyFloat); (n_e2, TyFloat); (n_tj, TyFloat); (n_kc, TyFloat); (n_vfelim, TyFloat); (n_ta, TyFloat); (n_th, TyFloat); (n_kd, TyFloat); (n_vamax, TyFloat); (n_tb, TyFloat); (n_e1, TyFloat); (n_vamin, TyFloat); (n_se2, TyFloat)]);
  (* CIM14/IEC61970/Dynamics/ExcitationSystems/ExcAC7B.py:142 *) (n_CIM14_IEC61970_Dynamics_ExcitationSystems_ExcAC7B_ExcAC7B, [(n_kir, TyFloat); (n_kpr, TyFloat); (n_vfemax, TyFloat); (n_te, TyFloat); (n_vemin, TyFloat); (n_ke, TyFloat); (n_kp, TyFloat); (n_kd, TyFloat); (n_kdr, TyFloat); (n_kf3, TyFloat); (n_e1, TyFloat); (n_tdr, TyFloat); (n_se2, TyFloat); (n_kf1, TyFloat); (n_e2, TyFloat); (n_kc, TyFloat); (n_vamin, TyFloat); (n_se1, TyFloat); (n_vrmin, TyFloat); (n_tf, TyFloat); (n_vrmax, TyFloat); (n_kf2, TyFloat); (n_kl, TyFloat); (n_kpa, TyFloat); (n_kia, TyFloat); (n_tr, TyFloat); (n_vamax, TyFloat)]);
  (* CIM14/IEC61970/Dynamics/ExcitationSystems/ExcAC8B.py:114 *) (n_CIM14_IEC61970_Dynamics_ExcitationSystems_ExcAC8B_ExcAC8B, [(n_vfemax, TyFloat); (n_vrmin, TyFloat); (n_ta, TyFloat); (n_tdr, TyFloat); (n_vtmult, TyFloat); (n_ka, TyFloat); (n_kdr, TyFloat); (n_se1, TyFloat); (n_e1, TyFloat); (n_vemin, TyFloat); (n_te, TyFloat); (n_ke, TyFloat); (n_se2, TyFloat); (n_tr, TyFloat); (n_kir, TyFloat); (n_kpr, TyFloat); (n_vrmax, TyFloat); (n_kd, TyFloat); (n_e2, TyFloat); (n_kc, TyFloat)]);
  (* CIM14/IEC61970/Dynamics/ExcitationSystems/ExcBAS.py:34 *) (n_CIM14_IEC61970_Dynamics_ExcitationSystems_ExcBAS_ExcBAS, []);
  (* CIM14/IEC61970/Dynamics/ExcitationSystems/ExcBBC.py:34 *) (n_CIM14_IEC61970_Dynamics_ExcitationSystems_ExcBBC_ExcBBC, []);
  (* CIM14/IEC61970/Dynamics/ExcitationSystems/ExcCZ.py:34 *) (n_CIM14_IEC61970_Dynamics_ExcitationSystems_ExcCZ_ExcCZ, []);
  (* CIM14/IEC61970/Dynamics/ExcitationSystems/ExcDC1A.py:102 *) (n_CIM14_IEC61970_Dynamics_ExcitationSystems_ExcDC1A_ExcDC1A, [(n_ta, TyFloat); (n_ka, TyFloat); (n_e1, TyFloat); (n_tb, TyFloat); (n_se2, TyFloat); (n_te, TyFloat); (n_exclim, TyFloat); (n_e2, TyFloat); (n_tr, TyFloat); (n_uelin, TyFloat); (n_tf, TyFloat); (n_vrmax, TyFloat); (n_kf, TyFloat); (n_ke, TyFloat); (n_se1, TyFloat); (n_vrmin, TyFloat); (n_tc, TyFloat)]);
  (* CIM14/IEC61970/Dynamics/ExcitationSystems/ExcDC2A.py:102 *) (n_CIM14_IEC61970_Dynamics_ExcitationSystems_ExcDC2A_ExcDC2A, [(n_te, TyFloat); (n_ke, TyFloat); (n_e1, TyFloat); (n_tc, TyFloat); (n_se2, TyFloat); (n_tb, TyFloat); (n_uelin, TyFloat); (n_e2, TyFloat); (n_tf, TyFloat); (n_kf, TyFloat); (n_vrmax, TyFloat); (n_se1, TyFloat); (n_ta, TyFloat); (n_ka, TyFloat); (n_tr, TyFloat); (n_exclim, TyFloat); (n_vrmin, TyFloat)]);
  (* CIM14/IEC61970/Dynamics/ExcitationSystems/ExcDC3A.py:82 *) (n_CIM14_IEC61970_Dynamics_ExcitationSystems_ExcDC3A_ExcDC3A, [(n_e1, TyFloat); (n_vrmax, TyFloat); (n_te, TyFloat); (n_ke, TyFloat); (n_tr, TyFloat); (n_se2, TyFloat); (n_trh, TyFloat); (n_vrmin, TyFloat); (n_exclim, TyFloat); (n_e2, TyFloat); (n_kv, TyFloat); (n_se1, TyFloat)]);
  (* CIM14/IEC61970/Dynamics/ExcitationSystems/ExcDC4B.py:114 *) (n_CIM14_IEC61970_Dynamics_ExcitationSystems_ExcDC4B_ExcDC4B, [(n_e1, TyFloat); (n_se2, TyFloat); (n_tf, TyFloat); (n_oelin, TyFloat); (n_ki, TyFloat); (n_ta, TyFloat); (n_vrmax, TyFloat); (n_tr, TyFloat); (n_kf, TyFloat); (n_vrmin, TyFloat); (n_te, TyFloat); (n_ka, TyFloat); (n_kp, TyFloat); (n_td, TyFloat); (n_kd, TyFloat); (n_vemin, TyFloat); (n_ke, TyFloat); (n_se1, TyFloat); (n_e2, TyFloat); (n_uelin, TyFloat)]);
  (* CIM14/IEC61970/Dynamics/ExcitationSystems/ExcELIN1.py:34 *) (n_CIM14_IEC61970_Dynamics_ExcitationSystems_ExcELIN1_ExcELIN1, []);
  (* CIM14/IEC61970/Dynamics/ExcitationSystems/ExcELIN2.py:34 *) (n_CIM14_IEC61970_Dynamics_ExcitationSystems_ExcELIN2_ExcELIN2, []);
  (* CIM14/IEC61970/Dynamics/ExcitationSystems/ExcHU.py:34 *) (n_CIM14_IEC61970_Dynamics_ExcitationSystems_ExcHU_ExcHU, []);
  (* CIM14/IEC61970/Dynamics/ExcitationSystems/ExcPIC.py:34 *) (n_CIM14_IEC61970_Dynamics_ExcitationSystems_ExcPIC_ExcPIC, []);
  (* CIM14/IEC61970/Dynamics/ExcitationSystems/ExcREXS.py:34 *) (n_CIM14_IEC61970_Dynamics_ExcitationSystems_ExcREXS_ExcREXS, []);
  (* CIM14/IEC61970/Dynamics/ExcitationSystems/ExcSCRX.py:66 *) (n_CIM14_IEC61970_Dynamics_ExcitationSystems_ExcSCRX_ExcSCRX, [(n_tb, TyFloat); (n_cswitch, TyBool); (n_emin, TyFloat); (n_k, TyFloat); (n_te, TyFloat); (n_emax, TyFloat); (n_tatb, TyFloat); (n_rcrfd, TyFloat)]);
  (* CIM14/IEC61970/Dynamics/ExcitationSystems/ExcSEXS.py:74 *) (n_CIM14_IEC61970_Dynamics_ExcitationSystems_ExcSEXS_ExcSEXS, [(n_tb, TyFloat); (n_kc, TyFloat); (n_emax, TyFloat); (n_tatb, TyFloat); (n_tc, TyFloat); (n_efdmin, TyFloat); (n_efdmax, TyFloat); (n_emin, TyFloat); (n_k, TyFloat); (n_te, TyFloat)]);
  (* CIM14/IEC61970/Dynamics/ExcitationSystems/ExcSK.py:34 *) (n_CIM14_IEC61970_Dynamics_ExcitationSystems_ExcSK_ExcSK, []);
  (* CIM14/IEC61970/Dynamics/ExcitationSystems/ExcSK2.py:34 *) (n_CIM14_IEC61970_Dynamics_ExcitationSystems_ExcSK2_ExcSK2, []);
  (* CIM14/IEC61970/Dynamics/ExcitationSystems/ExcST1A.py:114 *) (n_CIM14_IEC61970_Dynamics_ExcitationSystems_ExcST1A_ExcST1A, [(n_ta, TyFloat); (n_vimin, TyFloat); (n_vamin, TyFloat); (n_kf, TyFloat); (n_vrmin, TyFloat); (n_ka, TyFloat); (n_tb, TyFloat); (n_vamax, TyFloat); (n_tb1, TyFloat); (n_uelin, TyFloat); (n_kc, TyFloat); (n_tc1, TyFloat); (n_tf, TyFloat); (n_klr, TyFloat); (n_vimax, TyFloat); (n_tc, TyFloat); (n_pssin, TyFloat); (n_vrmax, TyFloat); (n_tr, TyFloat); (n_ilr, TyFloat)]);
  (* CIM14/IEC61970/Dynamics/ExcitationSystems/ExcST2A.py:98 *) (n_CIM14_IEC61970_Dynamics_ExcitationSystems_ExcST2A_ExcST2A, [(n_te, TyFloat); (n_ka, TyFloat); (n_tb, TyFloat); (n_tf, TyFloat); (n_kf, TyFloat); (n_ke, TyFloat); (n_tr, TyFloat); (n_tc, TyFloat); (n_ta, TyFloat); (n_kc, TyFloat); (n_ki, TyFloat); (n_kp, TyFloat); (n_uelin, TyFloat); (n_vrmax, TyFloat); (n_efdmax, TyFloat); (n_vrmin, TyFloat)]);
  (* CIM14/IEC61970/Dynamics/ExcitationSystems/ExcST3A.py:118 *) (n_CIM14_IEC61970_Dynamics_ExcitationSystems_ExcST3A_ExcST3A, [(n_kp, TyFloat); (n_angp, TyFloat); (n_xl, TyFloat); (n_tc, TyFloat); (n_tb, TyFloat); (n_ki, TyFloat); (n_vbmax, TyFloat); (n_kc, TyFloat); (n_vrmax, TyFloat); (n_vimax, TyFloat); (n_vgmax, TyFloat); (n_km, TyFloat); (n_vmmax, TyFloat); (n_ka, TyFloat); (n_tr, TyFloat); (n_vrmin, TyFloat); (n_kg, TyFloat); (n_vimin, TyFloat); (n_vmmin, TyFloat); (n_tm, TyFloat); (n_ta, TyFloat)]);
  (* CIM14/IEC61970/Dynamics/ExcitationSystems/ExcST4B.py:106 *) (n_CIM14_IEC61970_Dynamics_ExcitationSystems_ExcST4B_ExcST4B, [(n_kp, TyFloat); (n_kim, TyFloat); (n_vbmax, TyFloat); (n_kc, TyFloat); (n_kpr, TyFloat); (n_xl, TyFloat); (n_vgmax, TyFloat); (n_vmmin, TyFloat); (n_kg, TyFloat); (n_vmmax, TyFloat); (n_tr, TyFloat); (n_ta, TyFloat); (n_kpm, TyFloat); (n_angp, TyFloat); (n_vrmin, TyFloat); (n_kir, TyFloat); (n_vrmax, TyFloat); (n_ki, TyFloat)]);
  (* CIM14/IEC61970/Dynamics/ExcitationSystems/ExcST5B.py:106 *) (n_CIM14_IEC61970_Dynamics_ExcitationSystems_ExcST5B_ExcST5B, [(n_tb2, TyFloat); (n_tb1, TyFloat); (n_tub2, TyFloat); (n_tuc1, TyFloat); (n_kr, TyFloat); (n_tob2, TyFloat); (n_tob1, TyFloat); (n_tc1, TyFloat); (n_toc1, TyFloat); (n_tub1, TyFloat); (n_tc2, TyFloat); (n_kc, TyFloat); (n_vrmax, TyFloat); (n_tuc2, TyFloat); (n_toc2, TyFloat); (n_t1, TyFloat); (n_tr, TyFloat); (n_vrmin, TyFloat)]);
  (* CIM14/IEC61970/Dynamics/ExcitationSystems/ExcST6B.py:102 *) (n_CIM14_IEC61970_Dynamics_ExcitationSystems_ExcST6B_ExcST6B, [(n_tr, TyFloat); (n_ilr, TyFloat); (n_vrmin, TyFloat); (n_vmult, TyFloat); (n_vrmax, TyFloat); (n_oelin, TyFloat); (n_klr, TyFloat); (n_kg, TyFloat); (n_kpa, TyFloat); (n_vamax, TyFloat); (n_ts, TyFloat); (n_kcl, TyFloat); (n_tg, TyFloat); (n_vamin, TyFloat); (n_kia, TyFloat); (n_kff, TyFloat); (n_km, TyFloat)]);
  (* CIM14/IEC61970/Dynamics/ExcitationSystems/ExcST7B.py:102 *) (n_CIM14_IEC61970_Dynamics_ExcitationSystems_ExcST7B_ExcST7B, [(n_oelin, TyFloat); (n_vmax, TyFloat); (n_tb, TyFloat); (n_kia, TyFloat); (n_kpa, TyFloat); (n_kh, TyFloat); (n_vrmin, TyFloat); (n_ts, TyFloat); (n_tia, TyFloat); (n_tg, TyFloat); (n_tr, TyFloat); (n_tf, TyFloat); (n_vrmax, TyFloat); (n_uelin, TyFloat); (n_kl, TyFloat); (n_vmin, TyFloat); (n_tc, TyFloat)]);
  (* CIM14/IEC61970/Dynamics/ExcitationSystems/ExcWT2E.py:34 *) (n_CIM14_IEC61970_Dynamics_ExcitationSystems_ExcWT2E_ExcWT2E, []);
  (* CIM14/IEC61970/Dynamics/ExcitationSystems/ExcWT3E.py:34 *) (n_CIM14_IEC61970_Dynamics_ExcitationSystems_ExcWT3E_ExcWT3E, []);
  (* CIM14/IEC61970/Dynamics/ExcitationSystems/ExcWT4E.py:34 *) (n_CIM14_IEC61970_Dynamics_ExcitationSystems_ExcWT4E_ExcWT4E, []);
  (* CIM14/IEC61970/Dynamics/ExcitationSystems/ExcitationSystem.py:34 *) (n_CIM14_IEC61970_Dynamics_ExcitationSystems_ExcitationSystem_ExcitationSystem, []);
  (* CIM14/IEC61970/Dynamics/Generators/GenAsync.py:34 *) (n_CIM14_IEC61970_Dynamics_Generators_GenAsync_GenAsync, []);
  (* CIM14/IEC61970/Dynamics/Generators/GenEquiv.py:42 *) (n_CIM14_IEC61970_Dynamics_Generators_GenEquiv_GenEquiv, [(n_xp, TyFloat)]);
  (* CIM14/IEC61970/Dynamics/Generators/GenLoad.py:38 *) (n_CIM14_IEC61970_Dynamics_Generators_GenLoad_GenLoad, []);
  (* CIM14/IEC61970/Dynamics/Loads/AggregateLoad.py:38 *) (n_CIM14_IEC61970_Dynamics_Loads_AggregateLoad_AggregateLoad, []);
  (* CIM14/IEC61970/Dynamics/Loads/LoadMotor.py:86 *) (n_CIM14_IEC61970_Dynamics_Loads_LoadMotor_LoadMotor, [(n_tv, TyFloat); (n_pfrac, TyFloat); (n_vt, TyFloat); (n_d, TyFloat); (n_ra, TyFloat); (n_ls, TyFloat); (n_lfac, TyFloat); (n_tpo, TyFloat); (n_h, TyFloat); (n_lp, TyFloat); (n_lpp, TyFloat); (n_tppo, TyFloat); (n_tbkr, TyFloat)]);
  (* CIM14/IEC61970/Dynamics/Loads/LoadStatic.py:102 *) (n_CIM14_IEC61970_Dynamics_Loads_LoadStatic_LoadStatic, [(n_staticLoadType, TyStr); (n_ep1, TyFloat); (n_kp3, TyFloat); (n_eq3, TyFloat); (n_kp2, TyFloat); (n_eq2, TyFloat); (n_kqf, TyFloat); (n_kq4, TyFloat); (n_kq2, TyFloat); (n_kp1, TyFloat); (n_ep2, TyFloat); (n_eq1, TyFloat); (n_kpf, TyFloat); (n_kp4, TyFloat); (n_kq3, TyFloat); (n_ep3, TyFloat); (n_kq1, TyFloat)]);
  (* CIM14/IEC61970/Dynamics/Loads/LoadStaticArea.py:34 *) (n_CIM14_IEC61970_Dynamics_Loads_LoadStaticArea_LoadStaticArea, []);
  (* CIM14/IEC61970/Dynamics/Loads/LoadStaticBus.py:34 *) (n_CIM14_IEC61970_Dynamics_Loads_LoadStaticBus_LoadStaticBus, []);
  (* CIM14/IEC61970/Dynamics/Loads/LoadStaticOwner.py:34 *) (n_CIM14_IEC61970_Dynamics_Loads_LoadStaticOwner_LoadStaticOwner, []);
  (* CIM14/IEC61970/Dynamics/Loads/LoadStaticSystem.py:34 *) (n_CIM14_IEC61970_Dynamics_Loads_LoadStaticSystem_LoadStaticSystem, []);
  (* CIM14/IEC61970/Dynamics/Loads/LoadStaticZone.py:34 *) (n_CIM14_IEC61970_Dynamics_Loads_LoadStaticZone_LoadStaticZone, []);
  (* CIM14/IEC61970/Dynamics/MetaBlock.py:86 *) (n_CIM14_IEC61970_Dynamics_MetaBlock_MetaBlock, [(n_blockKind, TyStr); (n_internal, TyBool); (n_proprietary, TyBool); (n_primitive, TyBool)]);
  (* CIM14/IEC61970/Dynamics/MetaBlockConInput.py:46 *) (n_CIM14_IEC61970_Dynamics_MetaBlockConInput_MetaBlockConInput, []);
  (* CIM14/IEC61970/Dynamics/MetaBlockConOutput.py:46 *) (n_CIM14_IEC61970_Dynamics_MetaBlockConOutput_MetaBlockConOutput, []);
  (* CIM14/IEC61970/Dynamics/MetaBlockConSignal.py:48 *) (n_CIM14_IEC61970_Dynamics_MetaBlockConSignal_MetaBlockConSignal, []);
  (* CIM14/IEC61970/Dynamics/MetaBlockConnectable.py:70 *) (n_CIM14_IEC61970_Dynamics_MetaBlockConnectable_MetaBlockConnectable, []);
  (* CIM14/IEC61970/Dynamics/MetaBlockConnection.py:56 *) (n_CIM14_IEC61970_Dynamics_MetaBlockConnection_MetaBlockConnection, [(n_slotname, TyStr)]);
  (* CIM14/IEC61970/Dynamics/MetaBlockConnectivity.py:52 *) (n_CIM14_IEC61970_Dynamics_MetaBlockConnectivity_MetaBlockConnectivity, []);
  (* CIM14/IEC61970/Dynamics/MetaBlockInput.py:54 *) (n_CIM14_IEC61970_Dynamics_MetaBlockInput_MetaBlockInput, []);
  (* CIM14/IEC61970/Dynamics/MetaBlockInputReference.py:52 *) (n_CIM14_IEC61970_Dynamics_MetaBlockInputReference_MetaBlockInputReference, [(n_positiveFlowIn, TyBool)]);
  (* CIM14/IEC61970/Dynamics/MetaBlockOutput.py:50 *) (n_CIM14_IEC61970_Dynamics_MetaBlockOutput_MetaBlockOutput, []);
  (* CIM14/IEC61970/Dynamics/MetaBlockOutputReference.py:48 *) (n_CIM14_IEC61970_Dynamics_MetaBlockOutputReference_MetaBlockOutputReference, []);
  (* CIM14/IEC61970/Dynamics/MetaBlockParameter.py:42 *) (n_CIM14_IEC61970_Dynamics_MetaBlockParameter_MetaBlockParameter, []);
  (* CIM14/IEC61970/Dynamics/MetaBlockParameterReference.py:46 *) (n_CIM14_IEC61970_Dynamics_MetaBlockParameterReference_MetaBlockParameterReference, []);
  (* CIM14/IEC61970/Dynamics/MetaBlockReference.py:73 *) (n_CIM14_IEC61970_Dynamics_MetaBlockReference_MetaBlockReference, [(n_equationType, TyStr)]);
  (* CIM14/IEC61970/Dynamics/MetaBlockSignal.py:52 *) (n_CIM14_IEC61970_Dynamics_MetaBlockSignal_MetaBlockSignal, []);
  (* CIM14/IEC61970/Dynamics/MetaBlockState.py:36 *) (n_CIM14_IEC61970_Dynamics_MetaBlockState_MetaBlockState, []);
  (* CIM14/IEC61970/Dynamics/MetaBlockStateReference.py:48 *) (n_CIM14_IEC61970_Dynamics_MetaBlockStateReference_MetaBlockStateReference, [(n_positiveFlowIn, TyBool)]);
  (* CIM14/IEC61970/Dynamics/Motors/MechLoad1.py:50 *) (n_CIM14_IEC61970_Dynamics_Motors_MechLoad1_MechLoad1, [(n_e, TyFloat); (n_b, TyFloat); (n_d, TyFloat); (n_a, TyFloat)]);
  (* CIM14/IEC61970/Dynamics/Motors/MechanicalLoad.py:38 *) (n_CIM14_IEC61970_Dynamics_Motors_MechanicalLoad_MechanicalLoad, []);
  (* CIM14/IEC61970/Dynamics/Motors/MotorAsync.py:34 *) (n_CIM14_IEC61970_Dynamics_Motors_MotorAsync_MotorAsync, []);
  (* CIM14/IEC61970/Dynamics/Motors/MotorSync.py:38 *) (n_CIM14_IEC61970_Dynamics_Motors_MotorSync_MotorSync, [(n_synchronousMotorType, TyStr)]);
  (* CIM14/IEC61970/Dynamics/PowerSystemStabilizers/PowerSystemStabilizer.py:34 *) (n_CIM14_IEC61970_Dynamics_PowerSystemStabilizers_PowerSystemStabilizer_PowerSystemStabilizer, []);
  (* CIM14/IEC61970/Dynamics/PowerSystemStabilizers/PssIEEE1A.py:34 *) (n_CIM14_IEC61970_Dynamics_PowerSystemStabilizers_PssIEEE1A_PssIEEE1A, []);
  (* CIM14/IEC61970/Dynamics/PowerSystemStabilizers/PssIEEE2B.py:158 *) (n_CIM14_IEC61970_Dynamics_PowerSystemStabilizers_PssIEEE2B_PssIEEE2B, [(n_t11, TyFloat); (n_vsi1max, TyFloat); (n_t3, TyFloat); (n_tw3, TyFloat); (n_vstmax, TyFloat); (n_t2, TyFloat); (n_n, TyInt); (n_vsi1min, TyFloat); (n_t9, TyFloat); (n_ks2, TyFloat); (n_vstmin, TyFloat); (n_j1, TyInt); (n_tw1, TyFloat); (n_tb, TyFloat); (n_t7, TyFloat); (n_vsi2max, TyFloat); (n_t6, TyFloat); (n_t1, TyFloat); (n_m, TyInt); (n_vsi2min, TyFloat); (n_a, TyFloat); (n_t4, TyFloat); (n_tw4, TyFloat); (n_ks4, TyFloat); (n_ta, TyFloat); (n_ks3, TyFloat); (n_t10, TyFloat); (n_tw2, TyFloat); (n_j2, TyInt); (n_ks1, TyFloat); (n_t8, TyFloat)]);
  (* CIM14/IEC61970/Dynamics/PowerSystemStabilizers/PssIEEE3B.py:34 *) (n_CIM14_IEC61970_Dynamics_PowerSystemStabilizers_PssIEEE3B_PssIEEE3B, []);
  (* CIM14/IEC61970/Dynamics/PowerSystemStabilizers/PssIEEE4B.py:34 *) (n_CIM14_IEC61970_Dynamics_PowerSystemStabilizers_PssIEEE4B_PssIEEE4B, []);
  (* CIM14/IEC61970/Dynamics/PowerSystemStabilizers/PssPTIST1.py:34 *) (n_CIM14_IEC61970_Dynamics_PowerSystemStabilizers_PssPTIST1_PssPTIST1, []);
  (* CIM14/IEC61970/Dynamics/PowerSystemStabilizers/PssPTIST3.py:34 *) (n_CIM14_IEC61970_Dynamics_PowerSystemStabilizers_PssPTIST3_PssPTIST3, []);
  (* CIM14/IEC61970/Dynamics/PowerSystemStabilizers/PssSB.py:34 *) (n_CIM14_IEC61970_Dynamics_PowerSystemStabilizers_PssSB_PssSB, []);
  (* CIM14/IEC61970/Dynamics/PowerSystemStabilizers/PssSB4.py:34 *) (n_CIM14_IEC61970_Dynamics_PowerSystemStabilizers_PssSB4_PssSB4, []);
  (* CIM14/IEC61970/Dynamics/PowerSystemStabilizers/PssSH.py:34 *) (n_CIM14_IEC61970_Dynamics_PowerSystemStabilizers_PssSH_PssSH, []);
  (* CIM14/IEC61970/Dynamics/PowerSystemStabilizers/PssSK.py:34 *) (n_CIM14_IEC61970_Dynamics_PowerSystemStabilizers_PssSK_PssSK, []);
  (* CIM14/IEC61970/Dynamics/PowerSystemStabilizers/PssWSCC.py:34 *) (n_CIM14_IEC61970_Dynamics_PowerSystemStabilizers_PssWSCC_PssWSCC, []);
  (* CIM14/IEC61970/Dynamics/ProtectiveDevice.py:32 *) (n_CIM14_IEC61970_Dynamics_ProtectiveDevice_ProtectiveDevice, []);
  (* CIM14/IEC61970/Dynamics/RotatingMachine.py:70 *) (n_CIM14_IEC61970_Dynamics_RotatingMachine_RotatingMachine, [(n_parametersFormType, TyStr); (n_d, TyFloat); (n_rs, TyFloat); (n_h, TyFloat); (n_s12, TyFloat); (n_ratedS, TyFloat); (n_s1, TyFloat); (n_xls, TyFloat)]);
  (* CIM14/IEC61970/Dynamics/Slot.py:52 *) (n_CIM14_IEC61970_Dynamics_Slot_Slot, []);
  (* CIM14/IEC61970/Dynamics/SlotConnection.py:46 *) (n_CIM14_IEC61970_Dynamics_SlotConnection_SlotConnection, []);
  (* CIM14/IEC61970/Dynamics/SlotInput.py:44 *) (n_CIM14_IEC61970_Dynamics_SlotInput_SlotInput, []);
  (* CIM14/IEC61970/Dynamics/SlotOutput.py:44 *) (n_CIM14_IEC61970_Dynamics_SlotOutput_SlotOutput, []);
  (* CIM14/IEC61970/Dynamics/SlotReference.py:46 *) (n_CIM14_IEC61970_Dynamics_SlotReference_SlotReference, []);
  (* CIM14/IEC61970/Dynamics/SourceModels.py:32 *) (n_CIM14_IEC61970_Dynamics_SourceModels_SourceModels, []);
  (* CIM14/IEC61970/Dynamics/StaticVarDevice.py:32 *) (n_CIM14_IEC61970_Dynamics_StaticVarDevice_StaticVarDevice, []);
  (* CIM14/IEC61970/Dynamics/TieToMeasurement.py:46 *) (n_CIM14_IEC61970_Dynamics_TieToMeasurement_TieToMeasurement, []);
  (* CIM14/IEC61970/Dynamics/TurbineGovernors/Class1.py:32 *) (n_CIM14_IEC61970_Dynamics_TurbineGovernors_Class1_Class1, []);
  (* CIM14/IEC61970/Dynamics/TurbineGovernors/GovCT1.py:178 *) (n_CIM14_IEC61970_Dynamics_TurbineGovernors_GovCT1_GovCT1, [(n_tdgov, TyFloat); (n_tb, TyFloat); (n_kdgov, TyFloat); (n_db, TyFloat); (n_vmin, TyFloat); (n_kturb, TyFloat); (n_teng, TyFloat); (n_minerr, TyFloat); (n_aset, TyFloat); (n_maxerr, TyFloat); (n_tsa, TyFloat); (n_mwbase, TyFloat); (n_wfspd, TyBool); (n_kiload, TyFloat); (n_kpgov, TyFloat); (n_ldref, TyFloat); (n_vmax, TyFloat); (n_rup, TyFloat); (n_r, TyFloat); (n_tpelec, TyFloat); (n_ta, TyFloat); (n_ropen, TyFloat); (n_kimw, TyFloat); (n_ka, TyFloat); (n_rdown, TyFloat); (n_rclose, TyFloat); (n_dm, TyFloat); (n_tsb, TyFloat); (n_kigov, TyFloat); (n_kpload, TyFloat); (n_tfload, TyFloat); (n_tact, TyFloat); (n_tc, TyFloat); (n_wfnl, TyFloat); (n_pmwset, TyFloat); (n_rselect, TyBool)]);
  (* CIM14/IEC61970/Dynamics/TurbineGovernors/GovCT2.py:32 *) (n_CIM14_IEC61970_Dynamics_TurbineGovernors_GovCT2_GovCT2, []);
  (* CIM14/IEC61970/Dynamics/TurbineGovernors/GovDUM.py:32 *) (n_CIM14_IEC61970_Dynamics_TurbineGovernors_GovDUM_GovDUM, []);
  (* CIM14/IEC61970/Dynamics/TurbineGovernors/GovGASM.py:32 *) (n_CIM14_IEC61970_Dynamics_TurbineGovernors_GovGASM_GovGASM, []);
  (* CIM14/IEC61970/Dynamics/TurbineGovernors/GovGAST.py:32 *) (n_CIM14_IEC61970_Dynamics_TurbineGovernors_GovGAST_GovGAST, []);
  (* CIM14/IEC61970/Dynamics/TurbineGovernors/GovGAST2.py:32 *) (n_CIM14_IEC61970_Dynamics_TurbineGovernors_GovGAST2_GovGAST2, []);
  (* CIM14/IEC61970/Dynamics/TurbineGovernors/GovGASTWD.py:32 *) (n_CIM14_IEC61970_Dynamics_TurbineGovernors_GovGASTWD_GovGASTWD, []);
  (* CIM14/IEC61970/Dynamics/TurbineGovernors/GovHydro0.py:32 *) (n_CIM14_IEC61970_Dynamics_TurbineGovernors_GovHydro0_GovHydro0, []);
  (* CIM14/IEC61970/Dynamics/TurbineGovernors/GovHydro1.py:94 *) (n_CIM14_IEC61970_Dynamics_TurbineGovernors_GovHydro1_GovHydro1, [(n_tf, TyFloat); (n_velm, TyFloat); (n_mwbase, TyFloat); (n_gmin, TyFloat); (n_gmax, TyFloat); (n_rperm, TyFloat); (n_tr, TyFloat); (n_rtemp, TyFloat); (n_qnl, TyFloat); (n_tg, TyFloat); (n_dturb, TyFloat); (n_at, TyFloat); (n_tw, TyFloat)]);
  (* CIM14/IEC61970/Dynamics/TurbineGovernors/GovHydro2.py:148 *) (n_CIM14_IEC61970_Dynamics_TurbineGovernors_GovHydro2_GovHydro2, [(n_tg, TyFloat); (n_uc, TyFloat); (n_gv1, TyFloat); (n_db1, TyFloat); (n_pmax, TyFloat); (n_pgv4, TyFloat); (n_gv5, TyFloat); (n_uo, TyFloat); (n_rperm, TyFloat); (n_db2, TyFloat); (n_pgv5, TyFloat); (n_tw, TyFloat); (n_pgv2, TyFloat); (n_gv3, TyFloat); (n_gv2, TyFloat); (n_rtemp, TyFloat); (n_mwbase, TyFloat); (n_aturb, TyFloat); (n_kturb, TyFloat); (n_pgv3, TyFloat); (n_pmin, TyFloat); (n_tr, TyFloat); (n_eps, TyFloat); (n_gv6, TyFloat); (n_pgv1, TyFloat); (n_tp, TyFloat); (n_pgv6, TyFloat); (n_gv4, TyFloat); (n_bturb, TyFloat)]);
  (* CIM14/IEC61970/Dynamics/TurbineGovernors/GovHydro3.py:32 *) (n_CIM14_IEC61970_Dynamics_TurbineGovernors_GovHydro3_GovHydro3, []);
  (* CIM14/IEC61970/Dynamics/TurbineGovernors/GovHydro4.py:32 *) (n_CIM14_IEC61970_Dynamics_TurbineGovernors_GovHydro4_GovHydro4, []);
  (* CIM14/IEC61970/Dynamics/TurbineGovernors/GovHydroDD.py:32 *) (n_CIM14_IEC61970_Dynamics_TurbineGovernors_GovHydroDD_GovHydroDD, []);
  (* CIM14/IEC61970/Dynamics/TurbineGovernors/GovHydroPID.py:32 *) (n_CIM14_IEC61970_Dynamics_TurbineGovernors_GovHydroPID_GovHydroPID, []);
  (* CIM14/IEC61970/Dynamics/TurbineGovernors/GovHydroPID2.py:32 *) (n_CIM14_IEC61970_Dynamics_TurbineGovernors_GovHydroPID2_GovHydroPID2, []);
  (* CIM14/IEC61970/Dynamics/TurbineGovernors/GovHydroR.py:32 *) (n_CIM14_IEC61970_Dynamics_TurbineGovernors_GovHydroR_GovHydroR, []);
  (* CIM14/IEC61970/Dynamics/TurbineGovernors/GovHydroWEH.py:32 *) (n_CIM14_IEC61970_Dynamics_TurbineGovernors_GovHydroWEH_GovHydroWEH, []);
  (* CIM14/IEC61970/Dynamics/TurbineGovernors/GovHydroWPID.py:32 *) (n_CIM14_IEC61970_Dynamics_TurbineGovernors_GovHydroWPID_GovHydroWPID, []);
  (* CIM14/IEC61970/Dynamics/TurbineGovernors/GovRAV.py:32 *) (n_CIM14_IEC61970_Dynamics_TurbineGovernors_GovRAV_GovRAV, []);
  (* CIM14/IEC61970/Dynamics/TurbineGovernors/GovSteam0.py:66 *) (n_CIM14_IEC61970_Dynamics_TurbineGovernors_GovSteam0_GovSteam0, [(n_t2, TyFloat); (n_t1, TyFloat); (n_vmin, TyFloat); (n_dt, TyFloat); (n_vmax, TyFloat); (n_mwbase, TyFloat); (n_r, TyFloat); (n_t3, TyFloat)]);
  (* CIM14/IEC61970/Dynamics/TurbineGovernors/GovSteam1.py:178 *) (n_CIM14_IEC61970_Dynamics_TurbineGovernors_GovSteam1_GovSteam1, [(n_gv1, TyFloat); (n_pgv3, TyFloat); (n_uo, TyFloat); (n_k1, TyFloat); (n_mwbase, TyFloat); (n_k8, TyFloat); (n_uc, TyFloat); (n_gv5, TyFloat); (n_k7, TyFloat); (n_gv4, TyFloat); (n_k, TyFloat); (n_gv2, TyFloat); (n_db2, TyFloat); (n_pgv4, TyFloat); (n_t6, TyFloat); (n_k2, TyFloat); (n_db1, TyFloat); (n_t5, TyFloat); (n_k5, TyFloat); (n_pgv2, TyFloat); (n_pgv1, TyFloat); (n_t3, TyFloat); (n_t1, TyFloat); (n_k6, TyFloat); (n_gv3, TyFloat); (n_eps, TyFloat); (n_gv6, TyFloat); (n_t4, TyFloat); (n_pgv6, TyFloat); (n_pmin, TyFloat); (n_k4, TyFloat); (n_pgv5, TyFloat); (n_pmax, TyFloat); (n_t7, TyFloat); (n_k3, TyFloat); (n_t2, TyFloat)]);
  (* CIM14/IEC61970/Dynamics/TurbineGovernors/GovSteamCC.py:32 *) (n_CIM14_IEC61970_Dynamics_TurbineGovernors_GovSteamCC_GovSteamCC, []);
  (* CIM14/IEC61970/Dynamics/TurbineGovernors/GovSteamEU.py:32 *) (n_CIM14_IEC61970_Dynamics_TurbineGovernors_GovSteamEU_GovSteamEU, []);
  (* CIM14/IEC61970/Dynamics/TurbineGovernors/GovSteamFV2.py:32 *) (n_CIM14_IEC61970_Dynamics_TurbineGovernors_GovSteamFV2_GovSteamFV2, []);
  (* CIM14/IEC61970/Dynamics/TurbineGovernors/GovSteamFV3.py:32 *) (n_CIM14_IEC61970_Dynamics_TurbineGovernors_GovSteamFV3_GovSteamFV3, []);
  (* CIM14/IEC61970/Dynamics/TurbineGovernors/GovSteamSGO.py:32 *) (n_CIM14_IEC61970_Dynamics_TurbineGovernors_GovSteamSGO_GovSteamSGO, []);
  (* CIM14/IEC61970/Dynamics/TurbineGovernors/GovWT1P.py:32 *) (n_CIM14_IEC61970_Dynamics_TurbineGovernors_GovWT1P_GovWT1P, []);
  (* CIM14/IEC61970/Dynamics/TurbineGovernors/GovWT1T.py:32 *) (n_CIM14_IEC61970_Dynamics_TurbineGovernors_GovWT1T_GovWT1T, []);
  (* CIM14/IEC61970/Dynamics/TurbineGovernors/GovWT2P.py:32 *) (n_CIM14_IEC61970_Dynamics_TurbineGovernors_GovWT2P_GovWT2P, []);
  (* CIM14/IEC61970/Dynamics/TurbineGovernors/GovWT2T.py:32 *) (n_CIM14_IEC61970_Dynamics_TurbineGovernors_GovWT2T_GovWT2T, []);
  (* CIM14/IEC61970/Dynamics/TurbineGovernors/GovWT3P.py:32 *) (n_CIM14_IEC61970_Dynamics_TurbineGovernors_GovWT3P_GovWT3P, []);
  (* CIM14/IEC61970/Dynamics/TurbineGovernors/GovWT3T.py:32 *) (n_CIM14_IEC61970_Dynamics_TurbineGovernors_GovWT3T_GovWT3T, []);
  (* CIM14/IEC61970/Dynamics/TurbineGovernors/GovWT4P.py:32 *) (n_CIM14_IEC61970_Dynamics_TurbineGovernors_GovWT4P_GovWT4P, []);
  (* CIM14/IEC61970/Dynamics/TurbineGovernors/GovWT4T.py:32 *) (n_CIM14_IEC61970_Dynamics_TurbineGovernors_GovWT4T_GovWT4T, []);
  (* CIM14/IEC61970/Dynamics/TurbineGovernors/TLCFB1.py:32 *) (n_CIM14_IEC61970_Dynamics_TurbineGovernors_TLCFB1_TLCFB1, []);
  (* CIM14/IEC61970/Dynamics/TurbineGovernors/TurbineGovernor.py:34 *) (n_CIM14_IEC61970_Dynamics_TurbineGovernors_TurbineGovernor_TurbineGovernor, []);
  (* CIM14/IEC61970/Dynamics/UserBlockParameter.py:38 *) (n_CIM14_IEC61970_Dynamics_UserBlockParameter_UserBlockParameter, []);
  (* CIM14/IEC61970/Dynamics/VoltageCompensator/VcompCross.py:42 *) (n_CIM14_IEC61970_Dynamics_VoltageCompensator_VcompCross_VcompCross, [(n_xcomp2, TyFloat); (n_rcomp2, TyFloat)]);
  (* CIM14/IEC61970/Dynamics/VoltageCompensator/VcompIEEE.py:42 *) (n_CIM14_IEC61970_Dynamics_VoltageCompensator_VcompIEEE_VcompIEEE, [(n_xcomp, TyFloat); (n_rcomp, TyFloat)]);
  (* CIM14/IEC61970/Dynamics/VoltageCompensator/VoltageCompensator.py:34 *) (n_CIM14_IEC61970_Dynamics_VoltageCompensator_VoltageCompensator_VoltageCompensator, []);
  (* CIM14/IEC61970/Equivalents/EquivalentBranch.py:42 *) (n_CIM14_IEC61970_Equivalents_EquivalentBranch_EquivalentBranch, [(n_x, TyFloat); (n_r, TyFloat)]);
  (* CIM14/IEC61970/Equivalents/EquivalentEquipment.py:38 *) (n_CIM14_IEC61970_Equivalents_EquivalentEquipment_EquivalentEquipment, []);
  (* CIM14/IEC61970/Equivalents/EquivalentInjection.py:54 *) (n_CIM14_IEC61970_Equivalents_EquivalentInjection_EquivalentInjection, [(n_maxP, TyFloat); (n_regulationCapability, TyBool); (n_regulationTarget, TyFloat); (n_minP, TyFloat); (n_regulationStatus, TyBool)]);
  (* CIM14/IEC61970/Equivalents/EquivalentNetwork.py:38 *) (n_CIM14_IEC61970_Equivalents_EquivalentNetwork_EquivalentNetwork, []);
  (* CIM14/IEC61970/Equivalents/EquivalentShunt.py:42 *) (n_CIM14_IEC61970_Equivalents_EquivalentShunt_EquivalentShunt, [(n_b, TyFloat); (n_g, TyFloat)]);
  (* CIM14/IEC61970/Generation/GenerationDynamics/BWRSteamSupply.py:118 *) (n_CIM14_IEC61970_Generation_GenerationDynamics_BWRSteamSupply_BWRSteamSupply, [(n_lowerLimit, TyFloat); (n_pressureSetpointGA, TyFloat); (n_rfAux8, TyFloat); (n_rfAux3, TyFloat); (n_rfAux2, TyFloat); (n_highPowerLimit, TyFloat); (n_rodPattern, TyFloat); (n_rodPatternConstant, TyFloat); (n_integralGain, TyFloat); (n_rfAux7, TyFloat); (n_proportionalGain, TyFloat); (n_rfAux6, TyFloat); (n_pressureSetpointTC2, TyFloat); (n_rfAux1, TyFloat); (n_pressureSetpointTC1, TyFloat); (n_inCoreThermalTC, TyFloat); (n_upperLimit, TyFloat); (n_rfAux4, TyFloat); (n_pressureLimit, TyFloat); (n_rfAux5, TyFloat); (n_lowPowerLimit, TyFloat)]);
  (* CIM14/IEC61970/Generation/GenerationDynamics/CTTempActivePowerCurve.py:38 *) (n_CIM14_IEC61970_Generation_GenerationDynamics_CTTempActivePowerCurve_CTTempActivePowerCurve, []);
  (* CIM14/IEC61970/Generation/GenerationDynamics/CombustionTurbine.py:78 *) (n_CIM14_IEC61970_Generation_GenerationDynamics_CombustionTurbine_CombustionTurbine, [(n_capabilityVersusFrequency, TyFloat); (n_heatRecoveryFlag, TyBool); (n_timeConstant, TyFloat); (n_auxPowerVersusFrequency, TyFloat); (n_auxPowerVersusVoltage, TyFloat); (n_referenceTemp, TyFloat); (n_ambientTemp, TyFloat); (n_powerVariationByTemp, TyFloat)]);
  (* CIM14/IEC61970/Generation/GenerationDynamics/DrumBoiler.py:38 *) (n_CIM14_IEC61970_Generation_GenerationDynamics_DrumBoiler_DrumBoiler, [(n_drumBoilerRating, TyFloat)]);
  (* CIM14/IEC61970/Generation/GenerationDynamics/FossilSteamSupply.py:138 *) (n_CIM14_IEC61970_Generation_GenerationDynamics_FossilSteamSupply_FossilSteamSupply, [(n_boilerControlMode, TyStr); (n_superHeater2Capacity, TyFloat); (n_auxPowerVersusFrequency, TyFloat); (n_feedWaterIG, TyFloat); (n_controlPED, TyFloat); (n_throttlePressureSP, TyFloat); (n_pressureCtrlIG, TyFloat); (n_fuelSupplyDelay, TyFloat); (n_controlPEB, TyFloat); (n_controlTC, TyFloat); (n_pressureFeedback, TyInt); (n_feedWaterPG, TyFloat); (n_controlIC, TyFloat); (n_controlPC, TyFloat); (n_minErrorRateP, TyFloat); (n_fuelSupplyTC, TyFloat); (n_fuelDemandLimit, TyFloat); (n_mechPowerSensorLag, TyFloat); (n_pressureCtrlDG, TyFloat); (n_maxErrorRateP, TyFloat); (n_superHeaterPipePD, TyFloat); (n_controlErrorBiasP, TyFloat); (n_feedWaterTC, TyFloat); (n_superHeater1Capacity, TyFloat); (n_auxPowerVersusVoltage, TyFloat); (n_pressureCtrlPG, TyFloat)]);
  (* CIM14/IEC61970/Generation/GenerationDynamics/HeatRecoveryBoiler.py:42 *) (n_CIM14_IEC61970_Generation_GenerationDynamics_HeatRecoveryBoiler_HeatRecoveryBoiler, [(n_steamSupplyRating2, TyFloat)]);
  (* CIM14/IEC61970/Generation/GenerationDynamics/HydroTurbine.py:82 *) (n_CIM14_IEC61970_Generation_GenerationDynamics_HydroTurbine_HydroTurbine, [(n_turbineType, TyStr); (n_turbineRating, TyFloat); (n_maxHeadMaxP, TyFloat); (n_transientDroopTime, TyFloat); (n_speedRegulation, TyFloat); (n_waterStartingTime, TyFloat); (n_speedRating, TyFloat); (n_transientRegulation, TyFloat); (n_gateUpperLimit, TyFloat); (n_minHeadMaxP, TyFloat); (n_gateRateLimit, TyFloat)]);
  (* CIM14/IEC61970/Generation/GenerationDynamics/PWRSteamSupply.py:114 *) (n_CIM14_IEC61970_Generation_GenerationDynamics_PWRSteamSupply_PWRSteamSupply, [(n_pressureCG, TyFloat); (n_throttlePressureSP, TyFloat); (n_coldLegFBLagTC, TyFloat); (n_hotLegSteamGain, TyFloat); (n_coreHTLagTC2, TyFloat); (n_coreHTLagTC1, TyFloat); (n_coreNeutronicsHT, TyFloat); (n_coldLegFBLeadTC1, TyFloat); (n_feedbackFactor, TyFloat); (n_coreNeutronicsEffTC, TyFloat); (n_steamFlowFG, TyFloat); (n_steamPressureDropLagTC, TyFloat); (n_steamPressureFG, TyFloat); (n_coldLegFG1, TyFloat); (n_throttlePressureFactor, TyFloat); (n_coldLegFBLeadTC2, TyFloat); (n_hotLegToColdLegGain, TyFloat); (n_coldLegFG2, TyFloat); (n_hotLegLagTC, TyFloat); (n_coldLegLagTC, TyFloat)]);
  (* CIM14/IEC61970/Generation/GenerationDynamics/PrimeMover.py:42 *) (n_CIM14_IEC61970_Generation_GenerationDynamics_PrimeMover_PrimeMover, [(n_primeMoverRating, TyFloat)]);
  (* CIM14/IEC61970/Generation/GenerationDynamics/SteamSupply.py:42 *) (n_CIM14_IEC61970_Generation_GenerationDynamics_SteamSupply_SteamSupply, [(n_steamSupplyRating, TyFloat)]);
  (* CIM14/IEC61970/Generation/GenerationDynamics/SteamTurbine.py:86 *) (n_CIM14_IEC61970_Generation_GenerationDynamics_SteamTurbine_SteamTurbine, [(n_reheater2TC, TyFloat); (n_shaft1PowerIP, TyFloat); (n_shaft1PowerLP2, TyFloat); (n_reheater1TC, TyFloat); (n_steamChestTC, TyFloat); (n_crossoverTC, TyFloat); (n_shaft2PowerHP, TyFloat); (n_shaft2PowerLP2, TyFloat); (n_shaft2PowerIP, TyFloat); (n_shaft1PowerHP, TyFloat); (n_shaft1PowerLP1, TyFloat); (n_shaft2PowerLP1, TyFloat)]);
  (* CIM14/IEC61970/Generation/GenerationDynamics/Subcritical.py:34 *) (n_CIM14_IEC61970_Generation_GenerationDynamics_Subcritical_Subcritical, []);
  (* CIM14/IEC61970/Generation/GenerationDynamics/Supercritical.py:34 *) (n_CIM14_IEC61970_Generation_GenerationDynamics_Supercritical_Supercritical, []);
  (* CIM14/IEC61970/Generation/Production/AirCompressor.py:46 *) (n_CIM14_IEC61970_Generation_Production_AirCompressor_AirCompressor, [(n_airCompressorRating, TyFloat)]);
  (* CIM14/IEC61970/Generation/Production/CAESPlant.py:50 *) (n_CIM14_IEC61970_Generation_Production_CAESPlant_CAESPlant, [(n_energyStorageCapacity, TyFloat); (n_ratedCapacityP, TyFloat)]);
  (* CIM14/IEC61970/Generation/Production/CogenerationPlant.py:62 *) (n_CIM14_IEC61970_Generation_Production_CogenerationPlant_CogenerationPlant, [(n_cogenLPSteamRating, TyFloat); (n_cogenHPSendoutRating, TyFloat); (n_ratedP, TyFloat); (n_cogenLPSendoutRating, TyFloat); (n_cogenHPSteamRating, TyFloat)]);
  (* CIM14/IEC61970/Generation/Production/CombinedCyclePlant.py:42 *) (n_CIM14_IEC61970_Generation_Production_CombinedCyclePlant_CombinedCyclePlant, [(n_combCyclePlantRating, TyFloat)]);
  (* CIM14/IEC61970/Generation/Production/EmissionAccount.py:46 *) (n_CIM14_IEC61970_Generation_Production_EmissionAccount_EmissionAccount, [(n_emissionType, TyStr); (n_emissionValueSource, TyStr)]);
  (* CIM14/IEC61970/Generation/Production/EmissionCurve.py:50 *) (n_CIM14_IEC61970_Generation_Production_EmissionCurve_EmissionCurve, [(n_emissionType, TyStr); (n_isNetGrossP, TyBool); (n_emissionContent, TyFloat)]);
  (* CIM14/IEC61970/Generation/Production/FossilFuel.py:82 *) (n_CIM14_IEC61970_Generation_Production_FossilFuel_FossilFuel, [(n_fossilFuelType, TyStr); (n_fuelSulfur, TyFloat); (n_fuelMixture, TyFloat); (n_fuelCost, TyFloat); (n_fuelHandlingCost, TyFloat); (n_fuelEffFactor, TyFloat); (n_fuelHeatContent, TyFloat); (n_fuelDispatchCost, TyFloat); (n_lowBreakpointP, TyFloat); (n_highBreakpointP, TyFloat)]);
  (* CIM14/IEC61970/Generation/Production/FuelAllocationSchedule.py:62 *) (n_CIM14_IEC61970_Generation_Production_FuelAllocationSchedule_FuelAllocationSchedule, [(n_fuelType, TyStr); (n_minFuelAllocation, TyFloat); (n_fuelAllocationStartDate, TyStr); (n_maxFuelAllocation, TyFloat); (n_fuelAllocationEndDate, TyStr)]);
  (* CIM14/IEC61970/Generation/Production/GenUnitOpCostCurve.py:42 *) (n_CIM14_IEC61970_Generation_Production_GenUnitOpCostCurve_GenUnitOpCostCurve, [(n_isNetGrossP, TyBool)]);
  (* CIM14/IEC61970/Generation/Production/GenUnitOpSchedule.py:38 *) (n_CIM14_IEC61970_Generation_Production_GenUnitOpSchedule_GenUnitOpSchedule, []);
  (* CIM14/IEC61970/Generation/Production/GeneratingUnit.py:226 *) (n_CIM14_IEC61970_Generation_Production_GeneratingUnit_GeneratingUnit, [(n_genControlMode, TyStr); (n_genOperatingMode, TyStr); (n_genControlSource, TyStr); (n_startupTime, TyFloat); (n_minimumOffTime, TyFloat); (n_spinReserveRamp, TyFloat); (n_controlDeadband, TyFloat); (n_maxOperatingP, TyFloat); (n_fastStartFlag, TyBool); (n_lowControlLimit, TyFloat); (n_baseP, TyFloat); (n_maxEconomicP, TyFloat); (n_efficiency, TyFloat); (n_shortPF, TyFloat); (n_lowerRampRate, TyFloat); (n_stepChange, TyFloat); (n_penaltyFactor, TyFloat); (n_longPF, TyFloat); (n_ratedGrossMinP, TyFloat); (n_ratedGrossMaxP, TyFloat); (n_dispReserveFlag, TyBool); (n_variableCost, TyFloat); (n_modelDetail, TyInt); (n_energyMinP, TyFloat); (n_maximumAllowableSpinningReserve, TyFloat); (n_fuelPriority, TyInt); (n_raiseRampRate, TyFloat); (n_nominalP, TyFloat); (n_normalPF, TyFloat); (n_governorMPL, TyFloat); (n_ratedNetMaxP, TyFloat); (n_controlResponseRate, TyFloat); (n_tieLinePF, TyFloat); (n_governorSCD, TyFloat); (n_controlPulseLow, TyFloat); (n_highControlLimit, TyFloat); (n_initialP, TyFloat); (n_minEconomicP, TyFloat); (n_autoCntrlMarginP, TyFloat); (n_allocSpinResP, TyFloat); (n_startupCost, TyFloat); (n_minOperatingP, TyFloat); (n_controlPulseHigh, TyFloat)]);
  (* CIM14/IEC61970/Generation/Production/GrossToNetActivePowerCurve.py:38 *) (n_CIM14_IEC61970_Generation_Production_GrossToNetActivePowerCurve_GrossToNetActivePowerCurve, []);
  (* CIM14/IEC61970/Generation/Production/HeatInputCurve.py:58 *) (n_CIM14_IEC61970_Generation_Production_HeatInputCurve_HeatInputCurve, [(n_heatInputEff, TyFloat); (n_auxPowerMult, TyFloat); (n_heatInputOffset, TyFloat); (n_isNetGrossP, TyBool); (n_auxPowerOffset, TyFloat)]);
  (* CIM14/IEC61970/Generation/Production/HeatRateCurve.py:42 *) (n_CIM14_IEC61970_Generation_Production_HeatRateCurve_HeatRateCurve, [(n_isNetGrossP, TyBool)]);
  (* CIM14/IEC61970/Generation/Production/HydroGeneratingEfficiencyCurve.py:38 *) (n_CIM14_IEC61970_Generation_Production_HydroGeneratingEfficiencyCurve_HydroGeneratingEfficiencyCurve, []);
  (* CIM14/IEC61970/Generation/Production/HydroGeneratingUnit.py:58 *) (n_CIM14_IEC61970_Generation_Production_HydroGeneratingUnit_HydroGeneratingUnit, [(n_energyConversionCapability, TyStr); (n_hydroUnitWaterCost, TyFloat)]);
  (* CIM14/IEC61970/Generation/Production/HydroPowerPlant.py:86 *) (n_CIM14_IEC61970_Generation_Production_HydroPowerPlant_HydroPowerPlant, [(n_hydroPlantType, TyStr); (n_penstockType, TyStr); (n_surgeTankCode, TyStr); (n_plantRatedHead, TyFloat); (n_plantDischargeCapacity, TyFloat); (n_surgeTankCrestLevel, TyFloat); (n_dischargeTravelDelay, TyFloat); (n_pumpRatedP, TyFloat); (n_genRatedP, TyFloat)]);
  (* CIM14/IEC61970/Generation/Production/HydroPump.py:62 *) (n_CIM14_IEC61970_Generation_Production_HydroPump_HydroPump, [(n_pumpPowerAtMaxHead, TyFloat); (n_pumpPowerAtMinHead, TyFloat); (n_pumpDischAtMinHead, TyFloat); (n_pumpDischAtMaxHead, TyFloat)]);
  (* CIM14/IEC61970/Generation/Production/HydroPumpOpSchedule.py:38 *) (n_CIM14_IEC61970_Generation_Production_HydroPumpOpSchedule_HydroPumpOpSchedule, []);
  (* CIM14/IEC61970/Generation/Production/IncrementalHeatRateCurve.py:42 *) (n_CIM14_IEC61970_Generation_Production_IncrementalHeatRateCurve_IncrementalHeatRateCurve, [(n_isNetGrossP, TyBool)]);
  (* CIM14/IEC61970/Generation/Production/InflowForecast.py:38 *) (n_CIM14_IEC61970_Generation_Production_InflowForecast_InflowForecast, []);
  (* CIM14/IEC61970/Generation/Production/LevelVsVolumeCurve.py:38 *) (n_CIM14_IEC61970_Generation_Production_LevelVsVolumeCurve_LevelVsVolumeCurve, []);
  (* CIM14/IEC61970/Generation/Production/NuclearGeneratingUnit.py:34 *) (n_CIM14_IEC61970_Generation_Production_NuclearGeneratingUnit_NuclearGeneratingUnit, []);
  (* CIM14/IEC61970/Generation/Production/PenstockLossCurve.py:38 *) (n_CIM14_IEC61970_Generation_Production_PenstockLossCurve_PenstockLossCurve, []);
  (* CIM14/IEC61970/Generation/Production/Reservoir.py:106 *) (n_CIM14_IEC61970_Generation_Production_Reservoir_Reservoir, [(n_spillWayGateType, TyStr); (n_fullSupplyLevel, TyFloat); (n_spillTravelDelay, TyFloat); (n_spillwayCrestLength, TyFloat); (n_grossCapacity, TyFloat); (n_riverOutletWorks, TyStr); (n_spillwayCapacity, TyFloat); (n_spillwayCrestLevel, TyFloat); (n_normalMinOperateLevel, TyFloat); (n_energyStorageRating, TyFloat); (n_activeStorageCapacity, TyFloat)]);
  (* CIM14/IEC61970/Generation/Production/ShutdownCurve.py:46 *) (n_CIM14_IEC61970_Generation_Production_ShutdownCurve_ShutdownCurve, [(n_shutdownCost, TyFloat); (n_shutdownDate, TyStr)]);
  (* CIM14/IEC61970/Generation/Production/StartIgnFuelCurve.py:42 *) (n_CIM14_IEC61970_Generation_Production_StartIgnFuelCurve_StartIgnFuelCurve, [(n_ignitionFuelType, TyStr)]);
  (* CIM14/IEC61970/Generation/Production/StartMainFuelCurve.py:42 *) (n_CIM14_IEC61970_Generation_Production_StartMainFuelCurve_StartMainFuelCurve, [(n_mainFuelType, TyStr)]);
  (* CIM14/IEC61970/Generation/Production/StartRampCurve.py:42 *) (n_CIM14_IEC61970_Generation_Production_StartRampCurve_StartRampCurve, [(n_hotStandbyRamp, TyFloat)]);
  (* CIM14/IEC61970/Generation/Production/StartupModel.py:90 *) (n_CIM14_IEC61970_Generation_Production_StartupModel_StartupModel, [(n_stbyAuxP, TyFloat); (n_incrementalMaintCost, TyFloat); (n_hotStandbyHeat, TyFloat); (n_startupPriority, TyInt); (n_fixedMaintCost, TyFloat); (n_startupDate, TyStr); (n_minimumRunTime, TyFloat); (n_startupCost, TyFloat); (n_riskFactorCost, TyFloat); (n_minimumDownTime, TyFloat)]);
  (* CIM14/IEC61970/Generation/Production/SteamSendoutSchedule.py:38 *) (n_CIM14_IEC61970_Generation_Production_SteamSendoutSchedule_SteamSendoutSchedule, []);
  (* CIM14/IEC61970/Generation/Production/TailbayLossCurve.py:38 *) (n_CIM14_IEC61970_Generation_Production_TailbayLossCurve_TailbayLossCurve, []);
  (* CIM14/IEC61970/Generation/Production/TargetLevelSchedule.py:46 *) (n_CIM14_IEC61970_Generation_Production_TargetLevelSchedule_TargetLevelSchedule, [(n_highLevelLimit, TyFloat); (n_lowLevelLimit, TyFloat)]);
  (* CIM14/IEC61970/Generation/Production/ThermalGeneratingUnit.py:86 *) (n_CIM14_IEC61970_Generation_Production_ThermalGeneratingUnit_ThermalGeneratingUnit, [(n_oMCost, TyFloat)]);
  (* CIM14/IEC61970/Generation/Production/WindGeneratingUnit.py:34 *) (n_CIM14_IEC61970_Generation_Production_WindGeneratingUnit_WindGeneratingUnit, []);
  (* CIM14/IEC61970/IEC61970CIMVersion.py:42 *) (n_CIM14_IEC61970_IEC61970CIMVersion_IEC61970CIMVersion, [(n_version, TyStr); (n_date, TyStr)]);
  (* CIM14/IEC61970/Informative/InfCore/ModelingAuthority.py:38 *) (n_CIM14_IEC61970_Informative_InfCore_ModelingAuthority_ModelingAuthority, []);
  (* CIM14/IEC61970/Informative/InfCore/ModelingAuthoritySet.py:42 *) (n_CIM14_IEC61970_Informative_InfCore_ModelingAuthoritySet_ModelingAuthoritySet, []);
  (* CIM14/IEC61970/LoadModel/ConformLoad.py:38 *) (n_CIM14_IEC61970_LoadModel_ConformLoad_ConformLoad, []);
  (* CIM14/IEC61970/LoadModel/ConformLoadGroup.py:42 *) (n_CIM14_IEC61970_LoadModel_ConformLoadGroup_ConformLoadGroup, []);
  (* CIM14/IEC61970/LoadModel/ConformLoadSchedule.py:38 *) (n_CIM14_IEC61970_LoadModel_ConformLoadSchedule_ConformLoadSchedule, []);
  (* CIM14/IEC61970/LoadModel/DayType.py:38 *) (n_CIM14_IEC61970_LoadModel_DayType_DayType, []);
  (* CIM14/IEC61970/LoadModel/EnergyArea.py:38 *) (n_CIM14_IEC61970_LoadModel_EnergyArea_EnergyArea, []);
  (* CIM14/IEC61970/LoadModel/LoadArea.py:38 *) (n_CIM14_IEC61970_LoadModel_LoadArea_LoadArea, []);
  (* CIM14/IEC61970/LoadModel/LoadGroup.py:38 *) (n_CIM14_IEC61970_LoadModel_LoadGroup_LoadGroup, []);
  (* CIM14/IEC61970/LoadModel/LoadResponseCharacteristic.py:82 *) (n_CIM14_IEC61970_LoadModel_LoadResponseCharacteristic_LoadResponseCharacteristic, [(n_pFrequencyExponent, TyFloat); (n_qFrequencyExponent, TyFloat); (n_pConstantPower, TyFloat); (n_pConstantCurrent, TyFloat); (n_pVoltageExponent, TyFloat); (n_pConstantImpedance, TyFloat); (n_qConstantImpedance, TyFloat); (n_qConstantPower, TyFloat); (n_qVoltageExponent, TyFloat); (n_exponentModel, TyBool); (n_qConstantCurrent, TyFloat)]);
  (* CIM14/IEC61970/LoadModel/NonConformLoad.py:38 *) (n_CIM14_IEC61970_LoadModel_NonConformLoad_NonConformLoad, []);
  (* CIM14/IEC61970/LoadModel/NonConformLoadGroup.py:42 *) (n_CIM14_IEC61970_LoadModel_NonConformLoadGroup_NonConformLoadGroup, []);
  (* CIM14/IEC61970/LoadModel/NonConformLoadSchedule.py:38 *) (n_CIM14_IEC61970_LoadModel_NonConformLoadSchedule_NonConformLoadSchedule, []);
  (* CIM14/IEC61970/LoadModel/PowerCutZone.py:46 *) (n_CIM14_IEC61970_LoadModel_PowerCutZone_PowerCutZone, [(n_cutLevel1, TyFloat); (n_cutLevel2, TyFloat)]);
  (* CIM14/IEC61970/LoadModel/Season.py:50 *) (n_CIM14_IEC61970_LoadModel_Season_Season, [(n_name, TyStr); (n_startDate, TyStr); (n_endDate, TyStr)]);
  (* CIM14/IEC61970/LoadModel/SeasonDayTypeSchedule.py:42 *) (n_CIM14_IEC61970_LoadModel_SeasonDayTypeSchedule_SeasonDayTypeSchedule, []);
  (* CIM14/IEC61970/LoadModel/StationSupply.py:34 *) (n_CIM14_IEC61970_LoadModel_StationSupply_StationSupply, []);
  (* CIM14/IEC61970/LoadModel/SubLoadArea.py:42 *) (n_CIM14_IEC61970_LoadModel_SubLoadArea_SubLoadArea, []);
  (* CIM14/IEC61970/Meas/Accumulator.py:46 *) (n_CIM14_IEC61970_Meas_Accumulator_Accumulator, [(n_maxValue, TyInt)]);
  (* CIM14/IEC61970/Meas/AccumulatorLimit.py:42 *) (n_CIM14_IEC61970_Meas_AccumulatorLimit_AccumulatorLimit, [(n_value, TyInt)]);
  (* CIM14/IEC61970/Meas/AccumulatorLimitSet.py:42 *) (n_CIM14_IEC61970_Meas_AccumulatorLimitSet_AccumulatorLimitSet, []);
  (* CIM14/IEC61970/Meas/AccumulatorValue.py:42 *) (n_CIM14_IEC61970_Meas_AccumulatorValue_AccumulatorValue, [(n_value, TyInt)]);
  (* CIM14/IEC61970/Meas/Analog.py:62 *) (n_CIM14_IEC61970_Meas_Analog_Analog, [(n_positiveFlowIn, TyBool); (n_minValue, TyFloat); (n_maxValue, TyFloat); (n_normalValue, TyFloat)]);
  (* CIM14/IEC61970/Meas/AnalogLimit.py:42 *) (n_CIM14_IEC61970_Meas_AnalogLimit_AnalogLimit, [(n_value, TyFloat)]);
  (* CIM14/IEC61970/Meas/AnalogLimitSet.py:42 *) (n_CIM14_IEC61970_Meas_AnalogLimitSet_AnalogLimitSet, []);
  (* CIM14/IEC61970/Meas/AnalogValue.py:50 *) (n_CIM14_IEC61970_Meas_AnalogValue_AnalogValue, [(n_value, TyFloat)]);
  (* CIM14/IEC61970/Meas/Command.py:50 *) (n_CIM14_IEC61970_Meas_Command_Command, [(n_value, TyInt); (n_normalValue, TyInt)]);
  (* CIM14/IEC61970/Meas/Control.py:58 *) (n_CIM14_IEC61970_Meas_Control_Control, [(n_timeStamp, TyStr); (n_operationInProgress, TyBool)]);
  (* CIM14/IEC61970/Meas/ControlType.py:38 *) (n_CIM14_IEC61970_Meas_ControlType_ControlType, []);
  (* CIM14/IEC61970/Meas/CurrentTransformer.py:58 *) (n_CIM14_IEC61970_Meas_CurrentTransformer_CurrentTransformer, [(n_maxRatio, TyFloat); (n_accuracyClass, TyStr); (n_coreCount, TyInt); (n_ctClass, TyStr); (n_usage, TyStr); (n_accuracyLimit, TyStr)]);
  (* CIM14/IEC61970/Meas/Discrete.py:58 *) (n_CIM14_IEC61970_Meas_Discrete_Discrete, [(n_normalValue, TyInt); (n_minValue, TyInt); (n_maxValue, TyInt)]);
  (* CIM14/IEC61970/Meas/DiscreteValue.py:42 *) (n_CIM14_IEC61970_Meas_DiscreteValue_DiscreteValue, [(n_value, TyInt)]);
  (* CIM14/IEC61970/Meas/Limit.py:34 *) (n_CIM14_IEC61970_Meas_Limit_Limit, []);
  (* CIM14/IEC61970/Meas/LimitSet.py:38 *) (n_CIM14_IEC61970_Meas_LimitSet_LimitSet, [(n_isPercentageLimits, TyBool)]);
  (* CIM14/IEC61970/Meas/Measurement.py:66 *) (n_CIM14_IEC61970_Meas_Measurement_Measurement, [(n_measurementType, TyStr)]);
  (* CIM14/IEC61970/Meas/MeasurementValue.py:54 *) (n_CIM14_IEC61970_Meas_MeasurementValue_MeasurementValue, [(n_sensorAccuracy, TyFloat); (n_timeStamp, TyStr)]);
  (* CIM14/IEC61970/Meas/MeasurementValueQuality.py:38 *) (n_CIM14_IEC61970_Meas_MeasurementValueQuality_MeasurementValueQuality, []);
  (* CIM14/IEC61970/Meas/MeasurementValueSource.py:38 *) (n_CIM14_IEC61970_Meas_MeasurementValueSource_MeasurementValueSource, []);
  (* CIM14/IEC61970/Meas/PotentialTransformer.py:46 *) (n_CIM14_IEC61970_Meas_PotentialTransformer_PotentialTransformer, [(n_ptClass, TyStr); (n_accuracyClass, TyStr); (n_nominalRatio, TyFloat)]);
  (* CIM14/IEC61970/Meas/Quality61850.py:82 *) (n_CIM14_IEC61970_Meas_Quality61850_Quality61850, [(n_validity, TyStr); (n_source, TyStr); (n_failure, TyBool); (n_suspect, TyBool); (n_oldData, TyBool); (n_badReference, TyBool); (n_test, TyBool); (n_outOfRange, TyBool); (n_estimatorReplaced, TyBool); (n_oscillatory, TyBool); (n_operatorBlocked, TyBool); (n_overFlow, TyBool)]);
  (* CIM14/IEC61970/Meas/SetPoint.py:54 *) (n_CIM14_IEC61970_Meas_SetPoint_SetPoint, [(n_minValue, TyFloat); (n_value, TyFloat); (n_maxValue, TyFloat); (n_normalValue, TyFloat)]);
  (* CIM14/IEC61970/Meas/StringMeasurement.py:38 *) (n_CIM14_IEC61970_Meas_StringMeasurement_StringMeasurement, []);
  (* CIM14/IEC61970/Meas/StringMeasurementValue.py:42 *) (n_CIM14_IEC61970_Meas_StringMeasurementValue_StringMeasurementValue, [(n_value, TyStr)]);
  (* CIM14/IEC61970/Meas/ValueAliasSet.py:46 *) (n_CIM14_IEC61970_Meas_ValueAliasSet_ValueAliasSet, []);
  (* CIM14/IEC61970/Meas/ValueToAlias.py:42 *) (n_CIM14_IEC61970_Meas_ValueToAlias_ValueToAlias, [(n_value, TyInt)]);
  (* CIM14/IEC61970/OperationalLimits/ActivePowerLimit.py:38 *) (n_CIM14_IEC61970_OperationalLimits_ActivePowerLimit_ActivePowerLimit, [(n_value, TyFloat)]);
  (* CIM14/IEC61970/OperationalLimits/ApparentPowerLimit.py:38 *) (n_CIM14_IEC61970_OperationalLimits_ApparentPowerLimit_ApparentPowerLimit, [(n_value, TyFloat)]);
  (* CIM14/IEC61970/OperationalLimits/BranchGroup.py:62 *) (n_CIM14_IEC61970_OperationalLimits_BranchGroup_BranchGroup, [(n_minimumReactivePower, TyFloat); (n_monitorActivePower, TyBool); (n_minimumActivePower, TyFloat); (n_maximumReactivePower, TyFloat); (n_maximumActivePower, TyFloat); (n_monitorReactivePower, TyBool)]);
  (* CIM14/IEC61970/OperationalLimits/BranchGroupTerminal.py:46 *) (n_CIM14_IEC61970_OperationalLimits_BranchGroupTerminal_BranchGroupTerminal, [(n_positiveFlowIn, TyBool)]);
  (* CIM14/IEC61970/OperationalLimits/CurrentLimit.py:38 *) (n_CIM14_IEC61970_OperationalLimits_CurrentLimit_CurrentLimit, [(n_value, TyFloat)]);
  (* CIM14/IEC61970/OperationalLimits/OperationalLimit.py:46 *) (n_CIM14_IEC61970_OperationalLimits_OperationalLimit_OperationalLimit, [(n_type, TyStr)]);
  (* CIM14/IEC61970/OperationalLimits/OperationalLimitSet.py:46 *) (n_CIM14_IEC61970_OperationalLimits_OperationalLimitSet_OperationalLimitSet, []);
  (* CIM14/IEC61970/OperationalLimits/OperationalLimitType.py:46 *) (n_CIM14_IEC61970_OperationalLimits_OperationalLimitType_OperationalLimitType, [(n_direction, TyStr); (n_acceptableDuration, TyFloat)]);
  (* CIM14/IEC61970/OperationalLimits/VoltageLimit.py:38 *) (n_CIM14_IEC61970_OperationalLimits_VoltageLimit_VoltageLimit, [(n_value, TyFloat)]);
  (* CIM14/IEC61970/Outage/ClearanceTag.py:74 *) (n_CIM14_IEC61970_Outage_ClearanceTag_ClearanceTag, [(n_workStartTime, TyStr); (n_workDescription, TyStr); (n_workEndTime, TyStr); (n_authorityName, TyStr); (n_deenergizeReqFlag, TyBool); (n_groundReqFlag, TyBool); (n_tagIssueTime, TyStr); (n_phaseCheckReqFlag, TyBool)]);
  (* CIM14/IEC61970/Outage/ClearanceTagType.py:38 *) (n_CIM14_IEC61970_Outage_ClearanceTagType_ClearanceTagType, []);
  (* CIM14/IEC61970/Outage/OutageSchedule.py:42 *) (n_CIM14_IEC61970_Outage_OutageSchedule_OutageSchedule, []);
  (* CIM14/IEC61970/Outage/SwitchingOperation.py:50 *) (n_CIM14_IEC61970_Outage_SwitchingOperation_SwitchingOperation, [(n_newState, TyStr); (n_operationTime, TyStr)]);
  (* CIM14/IEC61970/Protection/CurrentRelay.py:62 *) (n_CIM14_IEC61970_Protection_CurrentRelay_CurrentRelay, [(n_currentLimit1, TyFloat); (n_timeDelay3, TyFloat); (n_timeDelay2, TyFloat); (n_currentLimit3, TyFloat); (n_currentLimit2, TyFloat); (n_inverseTimeFlag, TyBool); (n_timeDelay1, TyFloat)]);
  (* CIM14/IEC61970/Protection/FaultIndicator.py:34 *) (n_CIM14_IEC61970_Protection_FaultIndicator_FaultIndicator, []);
  (* CIM14/IEC61970/Protection/ProtectionEquipment.py:61 *) (n_CIM14_IEC61970_Protection_ProtectionEquipment_ProtectionEquipment, [(n_lowLimit, TyFloat); (n_powerDirectionFlag, TyBool); (n_highLimit, TyFloat); (n_relayDelayTime, TyFloat)]);
  (* CIM14/IEC61970/Protection/RecloseSequence.py:46 *) (n_CIM14_IEC61970_Protection_RecloseSequence_RecloseSequence, [(n_recloseDelay, TyFloat); (n_recloseStep, TyInt)]);
  (* CIM14/IEC61970/Protection/SurgeProtector.py:34 *) (n_CIM14_IEC61970_Protection_SurgeProtector_SurgeProtector, []);
  (* CIM14/IEC61970/Protection/SynchrocheckRelay.py:46 *) (n_CIM14_IEC61970_Protection_SynchrocheckRelay_SynchrocheckRelay, [(n_maxFreqDiff, TyFloat); (n_maxVoltDiff, TyFloat); (n_maxAngleDiff, TyFloat)]);
  (* CIM14/IEC61970/SCADA/CommunicationLink.py:38 *) (n_CIM14_IEC61970_SCADA_CommunicationLink_CommunicationLink, []);
  (* CIM14/IEC61970/SCADA/RemoteControl.py:50 *) (n_CIM14_IEC61970_SCADA_RemoteControl_RemoteControl, [(n_actuatorMinimum, TyFloat); (n_remoteControlled, TyBool); (n_actuatorMaximum, TyFloat)]);
  (* CIM14/IEC61970/SCADA/RemotePoint.py:38 *) (n_CIM14_IEC61970_SCADA_RemotePoint_RemotePoint, []);
  (* CIM14/IEC61970/SCADA/RemoteSource.py:54 *) (n_CIM14_IEC61970_SCADA_RemoteSource_RemoteSource, [(n_scanInterval, TyFloat); (n_sensorMaximum, TyFloat); (n_deadband, TyFloat); (n_sensorMinimum, TyFloat)]);
  (* CIM14/IEC61970/SCADA/RemoteUnit.py:46 *) (n_CIM14_IEC61970_SCADA_RemoteUnit_RemoteUnit, [(n_remoteUnitType, TyStr)]);
  (* CIM14/IEC61970/StateVariables/StateVariable.py:34 *) (n_CIM14_IEC61970_StateVariables_StateVariable_StateVariable, []);
  (* CIM14/IEC61970/StateVariables/SvInjection.py:46 *) (n_CIM14_IEC61970_StateVariables_SvInjection_SvInjection, [(n_pNetInjection, TyFloat); (n_qNetInjection, TyFloat)]);
  (* CIM14/IEC61970/StateVariables/SvPowerFlow.py:46 *) (n_CIM14_IEC61970_StateVariables_SvPowerFlow_SvPowerFlow, [(n_q, TyFloat); (n_p, TyFloat)]);
  (* CIM14/IEC61970/StateVariables/SvShortCircuit.py:54 *) (n_CIM14_IEC61970_StateVariables_SvShortCircuit_SvShortCircuit, [(n_x0PerX, TyFloat); (n_sShortCircuit, TyFloat); (n_r0PerR, TyFloat); (n_xPerR, TyFloat)]);
  (* CIM14/IEC61970/StateVariables/SvShuntCompensatorSections.py:46 *) (n_CIM14_IEC61970_StateVariables_SvShuntCompensatorSections_SvShuntCompensatorSections, [(n_continuousSections, TyFloat); (n_sections, TyInt)]);
  (* CIM14/IEC61970/StateVariables/SvStatus.py:42 *) (n_CIM14_IEC61970_StateVariables_SvStatus_SvStatus, [(n_inService, TyBool)]);
  (* CIM14/IEC61970/StateVariables/SvTapStep.py:46 *) (n_CIM14_IEC61970_StateVariables_SvTapStep_SvTapStep, [(n_continuousPosition, TyFloat); (n_position, TyInt)]);
  (* CIM14/IEC61970/StateVariables/SvVoltage.py:46 *) (n_CIM14_IEC61970_StateVariables_SvVoltage_SvVoltage, [(n_angle, TyFloat); (n_v, TyFloat)]);
  (* CIM14/IEC61970/StateVariables/TopologicalIsland.py:42 *) (n_CIM14_IEC61970_StateVariables_TopologicalIsland_TopologicalIsland, []);
  (* CIM14/IEC61970/Topology/BusNameMarker.py:42 *) (n_CIM14_IEC61970_Topology_BusNameMarker_BusNameMarker, []);
  (* CIM14/IEC61970/Topology/TopologicalNode.py:74 *) (n_CIM14_IEC61970_Topology_TopologicalNode_TopologicalNode, []);
  (* CIM14/IEC61970/Wires/ACLineSegment.py:66 *) (n_CIM14_IEC61970_Wires_ACLineSegment_ACLineSegment, [(n_gch, TyFloat); (n_r, TyFloat); (n_x0, TyFloat); (n_bch, TyFloat); (n_x, TyFloat); (n_r0, TyFloat); (n_g0ch, TyFloat); (n_b0ch, TyFloat)]);
  (* CIM14/IEC61970/Wires/Breaker.py:42 *) (n_CIM14_IEC61970_Wires_Breaker_Breaker, [(n_inTransitTime, TyFloat); (n_ratedCurrent, TyFloat)]);
  (* CIM14/IEC61970/Wires/BusbarSection.py:38 *) (n_CIM14_IEC61970_Wires_BusbarSection_BusbarSection, []);
  (* CIM14/IEC61970/Wires/CompositeSwitch.py:42 *) (n_CIM14_IEC61970_Wires_CompositeSwitch_CompositeSwitch, [(n_compositeSwitchType, TyStr)]);
  (* CIM14/IEC61970/Wires/Conductor.py:38 *) (n_CIM14_IEC61970_Wires_Conductor_Conductor, [(n_length, TyFloat)]);
  (* CIM14/IEC61970/Wires/Connector.py:34 *) (n_CIM14_IEC61970_Wires_Connector_Connector, []);
  (* CIM14/IEC61970/Wires/DCLineSegment.py:42 *) (n_CIM14_IEC61970_Wires_DCLineSegment_DCLineSegment, [(n_dcSegmentInductance, TyFloat); (n_dcSegmentResistance, TyFloat)]);
  (* CIM14/IEC61970/Wires/Disconnector.py:34 *) (n_CIM14_IEC61970_Wires_Disconnector_Disconnector, []);
  (* CIM14/IEC61970/Wires/EnergyConsumer.py:70 *) (n_CIM14_IEC61970_Wires_EnergyConsumer_EnergyConsumer, [(n_customerCount, TyInt); (n_qfixedPct, TyFloat); (n_pfixed, TyFloat); (n_pfixedPct, TyFloat); (n_qfixed, TyFloat)]);
  (* CIM14/IEC61970/Wires/EnergySource.py:74 *) (n_CIM14_IEC61970_Wires_EnergySource_EnergySource, [(n_x, TyFloat); (n_activePower, TyFloat); (n_r, TyFloat); (n_nominalVoltage, TyFloat); (n_voltageMagnitude, TyFloat); (n_xn, TyFloat); (n_x0, TyFloat); (n_rn, TyFloat); (n_voltageAngle, TyFloat); (n_r0, TyFloat)]);
  (* CIM14/IEC61970/Wires/FrequencyConverter.py:58 *) (n_CIM14_IEC61970_Wires_FrequencyConverter_FrequencyConverter, [(n_minU, TyFloat); (n_maxU, TyFloat); (n_maxP, TyFloat); (n_minP, TyFloat); (n_frequency, TyFloat); (n_operatingMode, TyStr)]);
  (* CIM14/IEC61970/Wires/Fuse.py:38 *) (n_CIM14_IEC61970_Wires_Fuse_Fuse, [(n_ratingCurrent, TyFloat)]);
  (* CIM14/IEC61970/Wires/Ground.py:34 *) (n_CIM14_IEC61970_Wires_Ground_Ground, []);
  (* CIM14/IEC61970/Wires/GroundDisconnector.py:34 *) (n_CIM14_IEC61970_Wires_GroundDisconnector_GroundDisconnector, []);
  (* CIM14/IEC61970/Wires/HeatExchanger.py:38 *) (n_CIM14_IEC61970_Wires_HeatExchanger_HeatExchanger, []);
  (* CIM14/IEC61970/Wires/ImpedanceVariationCurve.py:38 *) (n_CIM14_IEC61970_Wires_ImpedanceVariationCurve_ImpedanceVariationCurve, []);
  (* CIM14/IEC61970/Wires/Jumper.py:34 *) (n_CIM14_IEC61970_Wires_Jumper_Jumper, []);
  (* CIM14/IEC61970/Wires/Junction.py:34 *) (n_CIM14_IEC61970_Wires_Junction_Junction, []);
  (* CIM14/IEC61970/Wires/Line.py:38 *) (n_CIM14_IEC61970_Wires_Line_Line, []);
  (* CIM14/IEC61970/Wires/LoadBreakSwitch.py:38 *) (n_CIM14_IEC61970_Wires_LoadBreakSwitch_LoadBreakSwitch, [(n_ratedCurrent, TyFloat)]);
  (* CIM14/IEC61970/Wires/MutualCoupling.py:74 *) (n_CIM14_IEC61970_Wires_MutualCoupling_MutualCoupling, [(n_distance22, TyFloat); (n_g0ch, TyFloat); (n_distance12, TyFloat); (n_distance21, TyFloat); (n_x0, TyFloat); (n_b0ch, TyFloat); (n_r0, TyFloat); (n_distance11, TyFloat)]);
  (* CIM14/IEC61970/Wires/PhaseTapChanger.py:74 *) (n_CIM14_IEC61970_Wires_PhaseTapChanger_PhaseTapChanger, [(n_phaseTapChangerType, TyStr); (n_nominalVoltageOutOfPhase, TyFloat); (n_xStepMin, TyFloat); (n_stepPhaseShiftIncrement, TyFloat); (n_windingConnectionAngle, TyFloat); (n_xStepMax, TyFloat); (n_voltageStepIncrementOutOfPhase, TyFloat)]);
  (* CIM14/IEC61970/Wires/PhaseVariationCurve.py:38 *) (n_CIM14_IEC61970_Wires_PhaseVariationCurve_PhaseVariationCurve, []);
  (* CIM14/IEC61970/Wires/Plant.py:34 *) (n_CIM14_IEC61970_Wires_Plant_Plant, []);
  (* CIM14/IEC61970/Wires/PowerTransformer.py:54 *) (n_CIM14_IEC61970_Wires_PowerTransformer_PowerTransformer, [(n_magSatFlux, TyFloat); (n_magBaseU, TyFloat); (n_bmagSat, TyFloat)]);
  (* CIM14/IEC61970/Wires/ProtectedSwitch.py:38 *) (n_CIM14_IEC61970_Wires_ProtectedSwitch_ProtectedSwitch, []);
  (* CIM14/IEC61970/Wires/RatioTapChanger.py:50 *) (n_CIM14_IEC61970_Wires_RatioTapChanger_RatioTapChanger, [(n_tculControlMode, TyStr)]);
  (* CIM14/IEC61970/Wires/RatioVariationCurve.py:38 *) (n_CIM14_IEC61970_Wires_RatioVariationCurve_RatioVariationCurve, []);
  (* CIM14/IEC61970/Wires/ReactiveCapabilityCurve.py:50 *) (n_CIM14_IEC61970_Wires_ReactiveCapabilityCurve_ReactiveCapabilityCurve, [(n_coolantTemperature, TyFloat); (n_hydrogenPressure, TyFloat)]);
  (* CIM14/IEC61970/Wires/RectifierInverter.py:82 *) (n_CIM14_IEC61970_Wires_RectifierInverter_RectifierInverter, [(n_ratedU, TyFloat); (n_compoundResistance, TyFloat); (n_frequency, TyFloat); (n_minCompoundVoltage, TyFloat); (n_minP, TyFloat); (n_maxP, TyFloat); (n_operatingMode, TyStr); (n_commutatingResistance, TyFloat); (n_bridges, TyInt); (n_maxU, TyFloat); (n_commutatingReactance, TyFloat); (n_minU, TyFloat)]);
  (* CIM14/IEC61970/Wires/RegulatingCondEq.py:42 *) (n_CIM14_IEC61970_Wires_RegulatingCondEq_RegulatingCondEq, []);
  (* CIM14/IEC61970/Wires/RegulatingControl.py:66 *) (n_CIM14_IEC61970_Wires_RegulatingControl_RegulatingControl, [(n_mode, TyStr); (n_targetRange, TyFloat); (n_discrete, TyBool); (n_targetValue, TyFloat)]);
  (* CIM14/IEC61970/Wires/RegulationSchedule.py:54 *) (n_CIM14_IEC61970_Wires_RegulationSchedule_RegulationSchedule, [(n_lineDropX, TyFloat); (n_lineDropR, TyFloat); (n_lineDropCompensation, TyBool)]);
  (* CIM14/IEC61970/Wires/Resistor.py:34 *) (n_CIM14_IEC61970_Wires_Resistor_Resistor, []);
  (* CIM14/IEC61970/Wires/SeriesCompensator.py:42 *) (n_CIM14_IEC61970_Wires_SeriesCompensator_SeriesCompensator, [(n_r, TyFloat); (n_x, TyFloat)]);
  (* CIM14/IEC61970/Wires/ShuntCompensator.py:98 *) (n_CIM14_IEC61970_Wires_ShuntCompensator_ShuntCompensator, [(n_maxU, TyFloat); (n_reactivePerSection, TyFloat); (n_aVRDelay, TyFloat); (n_voltageSensitivity, TyFloat); (n_normalSections, TyInt); (n_g0PerSection, TyFloat); (n_maximumSections, TyInt); (n_bPerSection, TyFloat); (n_nomQ, TyFloat); (n_switchOnCount, TyInt); (n_minU, TyFloat); (n_b0PerSection, TyFloat); (n_switchOnDate, TyStr); (n_nomU, TyFloat); (n_gPerSection, TyFloat)]);
  (* CIM14/IEC61970/Wires/StaticVarCompensator.py:54 *) (n_CIM14_IEC61970_Wires_StaticVarCompensator_StaticVarCompensator, [(n_sVCControlMode, TyStr); (n_voltageSetPoint, TyFloat); (n_capacitiveRating, TyFloat); (n_inductiveRating, TyFloat); (n_slope, TyFloat)]);
  (* CIM14/IEC61970/Wires/Switch.py:66 *) (n_CIM14_IEC61970_Wires_Switch_Switch, [(n_switchOnCount, TyInt); (n_switchOnDate, TyStr); (n_retained, TyBool); (n_normalOpen, TyBool)]);
  (* CIM14/IEC61970/Wires/SwitchSchedule.py:38 *) (n_CIM14_IEC61970_Wires_SwitchSchedule_SwitchSchedule, []);
  (* CIM14/IEC61970/Wires/SynchronousMachine.py:182 *) (n_CIM14_IEC61970_Wires_SynchronousMachine_SynchronousMachine, [(n_operatingMode, TyStr); (n_type, TyStr); (n_coolantType, TyStr); (n_xQuadTrans, TyFloat); (n_condenserP, TyFloat); (n_referencePriority, TyInt); (n_damping, TyFloat); (n_x0, TyFloat); (n_r2, TyFloat); (n_minQ, TyFloat); (n_xDirectSync, TyFloat); (n_maxQ, TyFloat); (n_r0, TyFloat); (n_aVRToManualLead, TyFloat); (n_x, TyFloat); (n_inertia, TyFloat); (n_coolantCondition, TyFloat); (n_manualToAVR, TyFloat); (n_r, TyFloat); (n_maxU, TyFloat); (n_xQuadSync, TyFloat); (n_qPercent, TyFloat); (n_xQuadSubtrans, TyFloat); (n_minU, TyFloat); (n_aVRToManualLag, TyFloat); (n_baseQ, TyFloat); (n_xDirectTrans, TyFloat); (n_x2, TyFloat); (n_xDirectSubtrans, TyFloat)]);
  (* CIM14/IEC61970/Wires/TapChanger.py:90 *) (n_CIM14_IEC61970_Wires_TapChanger_TapChanger, [(n_stepVoltageIncrement, TyFloat); (n_normalStep, TyInt); (n_neutralStep, TyInt); (n_subsequentDelay, TyFloat); (n_regulationStatus, TyBool); (n_ltcFlag, TyBool); (n_highStep, TyInt); (n_initialDelay, TyFloat); (n_lowStep, TyInt); (n_neutralU, TyFloat)]);
  (* CIM14/IEC61970/Wires/TapSchedule.py:50 *) (n_CIM14_IEC61970_Wires_TapSchedule_TapSchedule, [(n_lineDropCompensation, TyBool); (n_lineDropR, TyFloat); (n_lineDropX, TyFloat)]);
  (* CIM14/IEC61970/Wires/TransformerWinding.py:126 *) (n_CIM14_IEC61970_Wires_TransformerWinding_TransformerWinding, [(n_connectionType, TyStr); (n_windingType, TyStr); (n_x, TyFloat); (n_grounded, TyBool); (n_g, TyFloat); (n_r, TyFloat); (n_x0, TyFloat); (n_ratedU, TyFloat); (n_ratedS, TyFloat); (n_emergencyS, TyFloat); (n_rground, TyFloat); (n_shortTermS, TyFloat); (n_r0, TyFloat); (n_g0, TyFloat); (n_insulationU, TyFloat); (n_b, TyFloat); (n_b0, TyFloat); (n_xground, TyFloat)]);
  (* CIM14/IEC61970/Wires/VoltageControlZone.py:42 *) (n_CIM14_IEC61970_Wires_VoltageControlZone_VoltageControlZone, []);
  (* CIM14/IEC61970/Wires/WindingTest.py:74 *) (n_CIM14_IEC61970_Wires_WindingTest_WindingTest, [(n_fromTapStep, TyInt); (n_leakageImpedance, TyFloat); (n_noLoadLoss, TyFloat); (n_phaseShift, TyFloat); (n_excitingCurrent, TyFloat); (n_loadLoss, TyFloat); (n_toTapStep, TyInt); (n_voltage, TyFloat)])
].

(** _attr_types of the classes of CIM15. *)
Definition cim15_types : types := [
  (* CIM15/CombinedVersion.py:42 *) (n_CIM15_CombinedVersion_CombinedVersion, [(n_date, TyStr); (n_version, TyStr)]);
  (* CIM15/Element.py:34 *) (n_CIM15_Element_Element, [(n_UUID, TyStr)]);
  (* CIM15/IEC61968/AssetModels/CableInfo.py:78 *) (n_CIM15_IEC61968_AssetModels_CableInfo_CableInfo, [(n_outerJacketKind, TyStr); (n_sheathAsNeutral, TyBool); (n_isStrandFill, TyBool); (n_nominalTemperature, TyFloat); (n_constructionKind, TyStr); (n_diameterOverJacket, TyFloat); (n_diameterOverInsulation, TyFloat); (n_diameterOverScreen, TyFloat); (n_shieldMaterial, TyStr); (n_diameterOverCore, TyFloat)]);
  (* CIM15/IEC61968/AssetModels/ConcentricNeutralCableInfo.py:46 *) (n_CIM15_IEC61968_AssetModels_ConcentricNeutralCableInfo_ConcentricNeutralCableInfo, [(n_neutralStrandCount, TyInt); (n_diameterOverNeutral, TyFloat)]);
  (* CIM15/IEC61968/AssetModels/ConductorInfo.py:62 *) (n_CIM15_IEC61968_AssetModels_ConductorInfo_ConductorInfo, [(n_insulated, TyBool); (n_usage, TyStr); (n_insulationMaterial, TyStr); (n_phaseCount, TyInt); (n_insulationThickness, TyFloat)]);
  (* CIM15/IEC61968/AssetModels/EndDeviceInfo.py:50 *) (n_CIM15_IEC61968_AssetModels_EndDeviceInfo_EndDeviceInfo, [(n_phaseCount, TyInt); (n_ratedCurrent, TyFloat); (n_ratedVoltage, TyFloat)]);
  (* CIM15/IEC61968/AssetModels/NoLoadTest.py:58 *) (n_CIM15_IEC61968_AssetModels_NoLoadTest_NoLoadTest, [(n_excitingCurrent, TyFloat); (n_lossZero, TyFloat); (n_excitingCurrentZero, TyFloat); (n_energisedEndVoltage, TyFloat); (n_loss, TyFloat)]);
  (* CIM15/IEC61968/AssetModels/OpenCircuitTest.py:62 *) (n_CIM15_IEC61968_AssetModels_OpenCircuitTest_OpenCircuitTest, [(n_energisedEndStep, TyInt); (n_openEndVoltage, TyFloat); (n_openEndStep, TyInt); (n_energisedEndVoltage, TyFloat); (n_phaseShift, TyFloat)]);
  (* CIM15/IEC61968/AssetModels/OverheadConductorInfo.py:50 *) (n_CIM15_IEC61968_AssetModels_OverheadConductorInfo_OverheadConductorInfo, [(n_neutralInsulationThickness, TyFloat); (n_phaseConductorSpacing, TyFloat); (n_phaseConductorCount, TyInt)]);
  (* CIM15/IEC61968/AssetModels/PowerTransformerInfo.py:42 *) (n_CIM15_IEC61968_AssetModels_PowerTransformerInfo_PowerTransformerInfo, []);
  (* CIM15/IEC61968/AssetModels/ShortCircuitTest.py:66 *) (n_CIM15_IEC61968_AssetModels_ShortCircuitTest_ShortCircuitTest, [(n_lossZero, TyFloat); (n_leakageImpedance, TyFloat); (n_loss, TyFloat); (n_groundedEndStep, TyInt); (n_leakageImpedanceZero, TyFloat); (n_energisedEndStep, TyInt)]);
  (* CIM15/IEC61968/AssetModels/TapChangerInfo.py:98 *) (n_CIM15_IEC61968_AssetModels_TapChangerInfo_TapChangerInfo, [(n_ctRating, TyFloat); (n_stepPhaseIncrement, TyFloat); (n_ratedApparentPower, TyFloat); (n_frequency, TyFloat); (n_neutralU, TyFloat); (n_ctRatio, TyFloat); (n_stepVoltageIncrement, TyFloat); (n_isTcul, TyBool); (n_neutralStep, TyInt); (n_ratedCurrent, TyFloat); (n_lowStep, TyInt); (n_ratedVoltage, TyFloat); (n_highStep, TyInt); (n_ptRatio, TyFloat); (n_bil, TyFloat)]);
  (* CIM15/IEC61968/AssetModels/TapeShieldCableInfo.py:42 *) (n_CIM15_IEC61968_AssetModels_TapeShieldCableInfo_TapeShieldCableInfo, [(n_tapeLap, TyFloat); (n_tapeThickness, TyFloat)]);
  (* CIM15/IEC61968/AssetModels/TransformerEndInfo.py:110 *) (n_CIM15_IEC61968_AssetModels_TransformerEndInfo_TransformerEndInfo, [(n_r, TyFloat); (n_insulationU, TyFloat); (n_emergencyS, TyFloat); (n_shortTermS, TyFloat); (n_connectionKind, TyStr); (n_endNumber, TyInt); (n_ratedS, TyFloat); (n_ratedU, TyFloat); (n_phaseAngleClock, TyInt)]);
  (* CIM15/IEC61968/AssetModels/TransformerTankInfo.py:54 *) (n_CIM15_IEC61968_AssetModels_TransformerTankInfo_TransformerTankInfo, []);
  (* CIM15/IEC61968/AssetModels/TransformerTest.py:42 *) (n_CIM15_IEC61968_AssetModels_TransformerTest_TransformerTest, [(n_basePower, TyFloat); (n_temperature, TyFloat)]);
  (* CIM15/IEC61968/AssetModels/WireArrangement.py:54 *) (n_CIM15_IEC61968_AssetModels_WireArrangement_WireArrangement, [(n_mountingPointY, TyFloat); (n_mountingPointX, TyFloat); (n_position, TyInt)]);
  (* CIM15/IEC61968/AssetModels/WireType.py:90 *) (n_CIM15_IEC61968_AssetModels_WireType_WireType, [(n_coreRadius, TyFloat); (n_rAC50, TyFloat); (n_coreStrandCount, TyInt); (n_radius, TyFloat); (n_material, TyStr); (n_rDC20, TyFloat); (n_sizeDescription, TyStr); (n_rAC75, TyFloat); (n_gmr, TyFloat); (n_ratedCurrent, TyFloat); (n_strandCount, TyInt); (n_rAC25, TyFloat)]);
  (* CIM15/IEC61968/Assets/AcceptanceTest.py:44 *) (n_CIM15_IEC61968_Assets_AcceptanceTest_AcceptanceTest, [(n_success, TyBool); (n_dateTime, TyStr); (n_type, TyStr)]);
  (* CIM15/IEC61968/Assets/Asset.py:183 *) (n_CIM15_IEC61968_Assets_Asset_Asset, [(n_corporateCode, TyStr); (n_utcNumber, TyStr); (n_initialCondition, TyStr); (n_category, TyStr); (n_serialNumber, TyStr); (n_critical, TyBool); (n_application, TyStr); (n_purchasePrice, TyFloat); (n_initialLossOfLife, TyFloat); (n_manufacturedDate, TyStr); (n_installationDate, TyStr); (n_lotNumber, TyStr)]);
  (* CIM15/IEC61968/Assets/AssetContainer.py:46 *) (n_CIM15_IEC61968_Assets_AssetContainer_AssetContainer, []);
  (* CIM15/IEC61968/Assets/AssetFunction.py:58 *) (n_CIM15_IEC61968_Assets_AssetFunction_AssetFunction, [(n_password, TyStr); (n_hardwareID, TyStr); (n_firmwareID, TyStr); (n_programID, TyStr); (n_configID, TyStr)]);
  (* CIM15/IEC61968/Assets/AssetInfo.py:46 *) (n_CIM15_IEC61968_Assets_AssetInfo_AssetInfo, []);
  (* CIM15/IEC61968/Assets/AssetModel.py:42 *) (n_CIM15_IEC61968_Assets_AssetModel_AssetModel, []);
  (* CIM15/IEC61968/Assets/ComMedia.py:34 *) (n_CIM15_IEC61968_Assets_ComMedia_ComMedia, []);
  (* CIM15/IEC61968/Assets/ProductAssetModel.py:62 *) (n_CIM15_IEC61968_Assets_ProductAssetModel_ProductAssetModel, [(n_modelVersion, TyStr); (n_usageKind, TyStr); (n_corporateStandardKind, TyStr); (n_modelNumber, TyStr); (n_weightTotal, TyFloat)]);
  (* CIM15/IEC61968/Assets/Seal.py:54 *) (n_CIM15_IEC61968_Assets_Seal_Seal, [(n_appliedDateTime, TyStr); (n_sealNumber, TyStr); (n_kind, TyStr); (n_condition, TyStr)]);
  (* CIM15/IEC61968/Common/ActivityRecord.py:73 *) (n_CIM15_IEC61968_Common_ActivityRecord_ActivityRecord, [(n_severity, TyStr); (n_createdDateTime, TyStr); (n_reason, TyStr); (n_category, TyStr)]);
  (* CIM15/IEC61968/Common/Agreement.py:41 *) (n_CIM15_IEC61968_Common_Agreement_Agreement, [(n_signDate, TyStr)]);
  (* CIM15/IEC61968/Common/CoordinateSystem.py:50 *) (n_CIM15_IEC61968_Common_CoordinateSystem_CoordinateSystem, [(n_crsUrn, TyStr)]);
  (* CIM15/IEC61968/Common/Document.py:119 *) (n_CIM15_IEC61968_Common_Document_Document, [(n_revisionNumber, TyStr); (n_createdDateTime, TyStr); (n_lastModifiedDateTime, TyStr); (n_subject, TyStr); (n_title, TyStr); (n_category, TyStr)]);
  (* CIM15/IEC61968/Common/ElectronicAddress.py:59 *) (n_CIM15_IEC61968_Common_ElectronicAddress_ElectronicAddress, [(n_radio, TyStr); (n_password, TyStr); (n_lan, TyStr); (n_userID, TyStr); (n_email, TyStr); (n_web, TyStr)]);
  (* CIM15/IEC61968/Common/Location.py:124 *) (n_CIM15_IEC61968_Common_Location_Location, [(n_category, TyStr); (n_geoInfoReference, TyStr); (n_corporateCode, TyStr); (n_direction, TyStr)]);
  (* CIM15/IEC61968/Common/Organisation.py:53 *) (n_CIM15_IEC61968_Common_Organisation_Organisation, []);
  (* CIM15/IEC61968/Common/PositionPoint.py:54 *) (n_CIM15_IEC61968_Common_PositionPoint_PositionPoint, [(n_xPosition, TyStr); (n_zPosition, TyStr); (n_sequenceNumber, TyInt); (n_yPosition, TyStr)]);
  (* CIM15/IEC61968/Common/PostalAddress.py:46 *) (n_CIM15_IEC61968_Common_PostalAddress_PostalAddress, [(n_poBox, TyStr); (n_postalCode, TyStr)]);
  (* CIM15/IEC61968/Common/Status.py:48 *) (n_CIM15_IEC61968_Common_Status_Status, [(n_reason, TyStr); (n_dateTime, TyStr); (n_value, TyStr); (n_remark, TyStr)]);
  (* CIM15/IEC61968/Common/StreetAddress.py:41 *) (n_CIM15_IEC61968_Common_StreetAddress_StreetAddress, []);
  (* CIM15/IEC61968/Common/StreetDetail.py:72 *) (n_CIM15_IEC61968_Common_StreetDetail_StreetDetail, [(n_withinTownLimits, TyBool); (n_name, TyStr); (n_type, TyStr); (n_prefix, TyStr); (n_buildingName, TyStr); (n_suiteNumber, TyStr); (n_suffix, TyStr); (n_addressGeneral, TyStr); (n_code, TyStr); (n_number, TyStr)]);
  (* CIM15/IEC61968/Common/TelephoneNumber.py:52 *) (n_CIM15_IEC61968_Common_TelephoneNumber_TelephoneNumber, [(n_cityCode, TyStr); (n_localNumber, TyStr); (n_extension, TyStr); (n_areaCode, TyStr); (n_countryCode, TyStr)]);
  (* CIM15/IEC61968/Common/TimePoint.py:60 *) (n_CIM15_IEC61968_Common_TimePoint_TimePoint, [(n_dateTime, TyStr); (n_sequenceNumber, TyInt); (n_relativeTimeInterval, TyFloat)]);
  (* CIM15/IEC61968/Common/TimeSchedule.py:57 *) (n_CIM15_IEC61968_Common_TimeSchedule_TimeSchedule, [(n_recurrencePeriod, TyFloat); (n_disabled, TyBool); (n_offset, TyFloat); (n_recurrencePattern, TyStr)]);
  (* CIM15/IEC61968/Common/TownDetail.py:52 *) (n_CIM15_IEC61968_Common_TownDetail_TownDetail, [(n_name, TyStr); (n_stateOrProvince, TyStr); (n_section, TyStr); (n_code, TyStr); (n_country, TyStr)]);
  (* CIM15/IEC61968/Common/UserAttribute.py:82 *) (n_CIM15_IEC61968_Common_UserAttribute_UserAttribute, [(n_name, TyStr); (n_value, TyStr); (n_sequenceNumber, TyInt)]);
  (* CIM15/IEC61968/Customers/Customer.py:81 *) (n_CIM15_IEC61968_Customers_Customer_Customer, [(n_vip, TyBool); (n_pucNumber, TyStr); (n_specialNeed, TyStr); (n_kind, TyStr)]);
  (* CIM15/IEC61968/Customers/CustomerAccount.py:54 *) (n_CIM15_IEC61968_Customers_CustomerAccount_CustomerAccount, []);
  (* CIM15/IEC61968/Customers/CustomerAgreement.py:94 *) (n_CIM15_IEC61968_Customers_CustomerAgreement_CustomerAgreement, [(n_billingCycle, TyStr); (n_loadMgmt, TyStr); (n_budgetBill, TyStr)]);
  (* CIM15/IEC61968/Customers/PricingStructure.py:78 *) (n_CIM15_IEC61968_Customers_PricingStructure_PricingStructure, [(n_dailyFloorUsage, TyInt); (n_dailyCeilingUsage, TyInt); (n_taxExemption, TyBool); (n_code, TyStr); (n_dailyEstimatedUsage, TyInt); (n_revenueKind, TyStr)]);
  (* CIM15/IEC61968/Customers/ServiceCategory.py:46 *) (n_CIM15_IEC61968_Customers_ServiceCategory_ServiceCategory, [(n_kind, TyStr)]);
  (* CIM15/IEC61968/Customers/ServiceLocation.py:62 *) (n_CIM15_IEC61968_Customers_ServiceLocation_ServiceLocation, [(n_siteAccessProblem, TyStr); (n_accessMethod, TyStr); (n_needsInspection, TyBool)]);
  (* CIM15/IEC61968/Customers/Tariff.py:50 *) (n_CIM15_IEC61968_Customers_Tariff_Tariff, [(n_startDate, TyStr); (n_endDate, TyStr)]);
  (* CIM15/IEC61968/IEC61968CIMVersion.py:42 *) (n_CIM15_IEC61968_IEC61968CIMVersion_IEC61968CIMVersion, [(n_version, TyStr); (n_date, TyStr)]);
  (* CIM15/IEC61968/LoadControl/ConnectDisconnectFunction.py:69 *) (n_CIM15_IEC61968_LoadControl_ConnectDisconnectFunction_ConnectDisconnectFunction, [(n_isDelayedDiscon, TyBool); (n_eventCount, TyInt); (n_isRemoteAutoReconOp, TyBool); (n_isRemoteAutoDisconOp, TyBool); (n_isLocalAutoDisconOp, TyBool); (n_isLocalAutoReconOp, TyBool); (n_isConnected, TyBool)]);
  (* CIM15/IEC61968/LoadControl/RemoteConnectDisconnectInfo.py:80 *) (n_CIM15_IEC61968_LoadControl_RemoteConnectDisconnectInfo_RemoteConnectDisconnectInfo, [(n_isArmConnect, TyBool); (n_energyUsageWarning, TyFloat); (n_needsVoltageLimitCheck, TyBool); (n_customerVoltageLimit, TyFloat); (n_isArmDisconnect, TyBool); (n_isEnergyLimiting, TyBool); (n_armedTimeout, TyFloat); (n_powerLimit, TyFloat); (n_needsPowerLimitCheck, TyBool); (n_usePushbutton, TyBool); (n_energyLimit, TyFloat); (n_energyUsageStartDateTime, TyStr)]);
  (* CIM15/IEC61968/Metering/ComFunction.py:46 *) (n_CIM15_IEC61968_Metering_ComFunction_ComFunction, [(n_amrRouter, TyStr); (n_amrAddress, TyStr); (n_twoWay, TyBool)]);
  (* CIM15/IEC61968/Metering/DemandResponseProgram.py:53 *) (n_CIM15_IEC61968_Metering_DemandResponseProgram_DemandResponseProgram, [(n_type, TyStr)]);
  (* CIM15/IEC61968/Metering/DynamicDemand.py:44 *) (n_CIM15_IEC61968_Metering_DynamicDemand_DynamicDemand, [(n_subInterval, TyFloat); (n_interval, TyFloat); (n_kind, TyStr)]);
  (* CIM15/IEC61968/Metering/ElectricMeteringFunction.py:54 *) (n_CIM15_IEC61968_Metering_ElectricMeteringFunction_ElectricMeteringFunction, [(n_kWMultiplier, TyInt); (n_kWhMultiplier, TyInt)]);
  (* CIM15/IEC61968/Metering/EndDevice.py:70 *) (n_CIM15_IEC61968_Metering_EndDevice_EndDevice, [(n_timeZoneOffset, TyFloat); (n_amrSystem, TyStr)]);
  (* CIM15/IEC61968/Metering/EndDeviceControl.py:69 *) (n_CIM15_IEC61968_Metering_EndDeviceControl_EndDeviceControl, [(n_drProgramLevel, TyInt); (n_drProgramMandatory, TyBool); (n_type, TyStr); (n_priceSignal, TyFloat)]);
  (* CIM15/IEC61968/Metering/EndDeviceEvent.py:46 *) (n_CIM15_IEC61968_Metering_EndDeviceEvent_EndDeviceEvent, [(n_userID, TyStr)]);
  (* CIM15/IEC61968/Metering/EndDeviceFunction.py:58 *) (n_CIM15_IEC61968_Metering_EndDeviceFunction_EndDeviceFunction, [(n_enabled, TyBool); (n_supported, TyBool)]);
  (* CIM15/IEC61968/Metering/EndDeviceGroup.py:50 *) (n_CIM15_IEC61968_Metering_EndDeviceGroup_EndDeviceGroup, [(n_groupAddress, TyInt)]);
  (* CIM15/IEC61968/Metering/IntervalBlock.py:50 *) (n_CIM15_IEC61968_Metering_IntervalBlock_IntervalBlock, []);
  (* CIM15/IEC61968/Metering/IntervalReading.py:46 *) (n_CIM15_IEC61968_Metering_IntervalReading_IntervalReading, [(n_value, TyFloat)]);
  (* CIM15/IEC61968/Metering/Meter.py:62 *) (n_CIM15_IEC61968_Metering_Meter_Meter, [(n_kR, TyFloat); (n_kH, TyFloat); (n_formNumber, TyStr)]);
  (* CIM15/IEC61968/Metering/MeterReading.py:61 *) (n_CIM15_IEC61968_Metering_MeterReading_MeterReading, []);
  (* CIM15/IEC61968/Metering/MeterServiceWork.py:42 *) (n_CIM15_IEC61968_Metering_MeterServiceWork_MeterServiceWork, []);
  (* CIM15/IEC61968/Metering/PendingCalculation.py:62 *) (n_CIM15_IEC61968_Metering_PendingCalculation_PendingCalculation, [(n_scalarNumerator, TyInt); (n_multiplyBeforeAdd, TyBool); (n_scalarDenominator, TyInt); (n_scalarFloat, TyFloat); (n_offset, TyInt)]);
  (* CIM15/IEC61968/Metering/Reading.py:50 *) (n_CIM15_IEC61968_Metering_Reading_Reading, [(n_value, TyFloat)]);
  (* CIM15/IEC61968/Metering/ReadingMultiplier.py:40 *) (n_CIM15_IEC61968_Metering_ReadingMultiplier_ReadingMultiplier, [(n_value, TyFloat); (n_isApplied, TyBool)]);
  (* CIM15/IEC61968/Metering/ReadingQuality.py:46 *) (n_CIM15_IEC61968_Metering_ReadingQuality_ReadingQuality, [(n_quality, TyStr)]);
  (* CIM15/IEC61968/Metering/ReadingType.py:85 *) (n_CIM15_IEC61968_Metering_ReadingType_ReadingType, [(n_multiplier, TyStr); (n_unit, TyStr); (n_kind, TyStr); (n_reverseChronology, TyBool); (n_defaultQuality, TyStr); (n_intervalLength, TyFloat); (n_channelNumber, TyInt); (n_defaultValueDataType, TyStr)]);
  (* CIM15/IEC61968/Metering/Register.py:50 *) (n_CIM15_IEC61968_Metering_Register_Register, [(n_leftDigitCount, TyInt); (n_rightDigitCount, TyInt)]);
  (* CIM15/IEC61968/Metering/SDPLocation.py:54 *) (n_CIM15_IEC61968_Metering_SDPLocation_SDPLocation, [(n_accessMethod, TyStr); (n_remark, TyStr); (n_siteAccessProblem, TyStr); (n_occupancyDate, TyStr)]);
  (* CIM15/IEC61968/Metering/ServiceDeliveryPoint.py:114 *) (n_CIM15_IEC61968_Metering_ServiceDeliveryPoint_ServiceDeliveryPoint, [(n_checkBilling, TyBool); (n_estimatedLoad, TyFloat); (n_ratedPower, TyFloat); (n_servicePriority, TyStr); (n_grounded, TyBool); (n_serviceDeliveryRemark, TyStr); (n_phaseCode, TyStr); (n_ctptReference, TyInt); (n_ratedCurrent, TyFloat); (n_ratedVoltage, TyFloat)]);
  (* CIM15/IEC61968/Metering/SimpleEndDeviceFunction.py:38 *) (n_CIM15_IEC61968_Metering_SimpleEndDeviceFunction_SimpleEndDeviceFunction, [(n_kind, TyStr)]);
  (* CIM15/IEC61968/PaymentMetering/AccountMovement.py:44 *) (n_CIM15_IEC61968_PaymentMetering_AccountMovement_AccountMovement, [(n_dateTime, TyStr); (n_reason, TyStr); (n_amount, TyFloat)]);
  (* CIM15/IEC61968/PaymentMetering/AccountingUnit.py:48 *) (n_CIM15_IEC61968_PaymentMetering_AccountingUnit_AccountingUnit, [(n_multiplier, TyStr); (n_energyUnit, TyFloat); (n_monetaryUnit, TyStr); (n_value, TyFloat)]);
  (* CIM15/IEC61968/PaymentMetering/AuxiliaryAccount.py:63 *) (n_CIM15_IEC61968_PaymentMetering_AuxiliaryAccount_AuxiliaryAccount, [(n_principleAmount, TyFloat); (n_balance, TyFloat)]);
  (* CIM15/IEC61968/PaymentMetering/AuxiliaryAgreement.py:82 *) (n_CIM15_IEC61968_PaymentMetering_AuxiliaryAgreement_AuxiliaryAgreement, [(n_vendPortionArrear, TyFloat); (n_auxRef, TyStr); (n_payCycle, TyStr); (n_arrearsInterest, TyFloat); (n_fixedAmount, TyFloat); (n_vendPortion, TyFloat); (n_subCategory, TyStr); (n_auxCycle, TyStr); (n_auxPriorityCode, TyStr); (n_minAmount, TyFloat)]);
  (* CIM15/IEC61968/PaymentMetering/BankAccountDetail.py:52 *) (n_CIM15_IEC61968_PaymentMetering_BankAccountDetail_BankAccountDetail, [(n_holderID, TyStr); (n_holderName, TyStr); (n_bankName, TyStr); (n_branchCode, TyStr); (n_accountNumber, TyStr)]);
  (* CIM15/IEC61968/PaymentMetering/Card.py:54 *) (n_CIM15_IEC61968_PaymentMetering_Card_Card, [(n_cvNumber, TyStr); (n_expiryDate, TyStr); (n_pan, TyStr); (n_accountHolderName, TyStr)]);
  (* CIM15/IEC61968/PaymentMetering/Cashier.py:41 *) (n_CIM15_IEC61968_PaymentMetering_Cashier_Cashier, []);
  (* CIM15/IEC61968/PaymentMetering/CashierShift.py:54 *) (n_CIM15_IEC61968_PaymentMetering_CashierShift_CashierShift, [(n_cashFloat, TyFloat)]);
  (* CIM15/IEC61968/PaymentMetering/Charge.py:65 *) (n_CIM15_IEC61968_PaymentMetering_Charge_Charge, [(n_variablePortion, TyFloat); (n_kind, TyStr)]);
  (* CIM15/IEC61968/PaymentMetering/Cheque.py:57 *) (n_CIM15_IEC61968_PaymentMetering_Cheque_Cheque, [(n_micrNumber, TyStr); (n_chequeNumber, TyStr); (n_date, TyStr); (n_kind, TyStr)]);
  (* CIM15/IEC61968/PaymentMetering/ConsumptionTariffInterval.py:54 *) (n_CIM15_IEC61968_PaymentMetering_ConsumptionTariffInterval_ConsumptionTariffInterval, [(n_startValue, TyFloat); (n_sequenceNumber, TyInt)]);
  (* CIM15/IEC61968/PaymentMetering/Due.py:52 *) (n_CIM15_IEC61968_PaymentMetering_Due_Due, [(n_interest, TyFloat); (n_charges, TyFloat); (n_principle, TyFloat); (n_current, TyFloat); (n_arrears, TyFloat)]);
  (* CIM15/IEC61968/PaymentMetering/LineDetail.py:48 *) (n_CIM15_IEC61968_PaymentMetering_LineDetail_LineDetail, [(n_amount, TyFloat); (n_rounding, TyFloat); (n_dateTime, TyStr); (n_note, TyStr)]);
  (* CIM15/IEC61968/PaymentMetering/MerchantAccount.py:54 *) (n_CIM15_IEC61968_PaymentMetering_MerchantAccount_MerchantAccount, [(n_currentBalance, TyFloat); (n_provisionalBalance, TyFloat)]);
  (* CIM15/IEC61968/PaymentMetering/MerchantAgreement.py:38 *) (n_CIM15_IEC61968_PaymentMetering_MerchantAgreement_MerchantAgreement, []);
  (* CIM15/IEC61968/PaymentMetering/PointOfSale.py:42 *) (n_CIM15_IEC61968_PaymentMetering_PointOfSale_PointOfSale, [(n_location, TyStr)]);
  (* CIM15/IEC61968/PaymentMetering/Receipt.py:57 *) (n_CIM15_IEC61968_PaymentMetering_Receipt_Receipt, [(n_isBankable, TyBool)]);
  (* CIM15/IEC61968/PaymentMetering/ServiceSupplier.py:54 *) (n_CIM15_IEC61968_PaymentMetering_ServiceSupplier_ServiceSupplier, [(n_issuerIdentificationNumber, TyStr); (n_kind, TyStr)]);
  (* CIM15/IEC61968/PaymentMetering/Shift.py:57 *) (n_CIM15_IEC61968_PaymentMetering_Shift_Shift, [(n_transactionsGrandTotal, TyFloat); (n_receiptsGrandTotalBankable, TyFloat); (n_receiptsGrandTotalRounding, TyFloat); (n_transactionsGrandTotalRounding, TyFloat); (n_receiptsGrandTotalNonBankable, TyFloat)]);
  (* CIM15/IEC61968/PaymentMetering/TariffProfile.py:50 *) (n_CIM15_IEC61968_PaymentMetering_TariffProfile_TariffProfile, [(n_tariffCycle, TyStr)]);
  (* CIM15/IEC61968/PaymentMetering/Tender.py:58 *) (n_CIM15_IEC61968_PaymentMetering_Tender_Tender, [(n_kind, TyStr); (n_change, TyFloat); (n_amount, TyFloat)]);
  (* CIM15/IEC61968/PaymentMetering/TimeTariffInterval.py:54 *) (n_CIM15_IEC61968_PaymentMetering_TimeTariffInterval_TimeTariffInterval, [(n_startDateTime, TyStr); (n_sequenceNumber, TyInt)]);
  (* CIM15/IEC61968/PaymentMetering/Transaction.py:97 *) (n_CIM15_IEC61968_PaymentMetering_Transaction_Transaction, [(n_donorReference, TyStr); (n_kind, TyStr); (n_receiverReference, TyStr); (n_serviceUnitsError, TyFloat); (n_diverseReference, TyStr); (n_serviceUnitsEnergy, TyFloat); (n_reversedId, TyStr)]);
  (* CIM15/IEC61968/PaymentMetering/Transactor.py:38 *) (n_CIM15_IEC61968_PaymentMetering_Transactor_Transactor, []);
  (* CIM15/IEC61968/PaymentMetering/Vendor.py:38 *) (n_CIM15_IEC61968_PaymentMetering_Vendor_Vendor, []);
  (* CIM15/IEC61968/PaymentMetering/VendorShift.py:58 *) (n_CIM15_IEC61968_PaymentMetering_VendorShift_VendorShift, [(n_merchantDebitAmount, TyFloat); (n_posted, TyBool)]);
  (* CIM15/IEC61968/Work/Work.py:86 *) (n_CIM15_IEC61968_Work_Work_Work, [(n_kind, TyStr); (n_priority, TyStr); (n_requestDateTime, TyStr)]);
  (* CIM15/IEC61970/AuxiliaryEquipment/AuxiliaryEquipment.py:38 *) (n_CIM15_IEC61970_AuxiliaryEquipment_AuxiliaryEquipment_AuxiliaryEquipment, []);
  (* CIM15/IEC61970/AuxiliaryEquipment/CurrentTransformer.py:62 *) (n_CIM15_IEC61970_AuxiliaryEquipment_CurrentTransformer_CurrentTransformer, [(n_ctClass, TyStr); (n_accuracyLimit, TyStr); (n_usage, TyStr); (n_accuracyClass, TyStr); (n_coreCount, TyInt); (n_maxRatio, TyFloat)]);
  (* CIM15/IEC61970/AuxiliaryEquipment/FaultIndicator.py:38 *) (n_CIM15_IEC61970_AuxiliaryEquipment_FaultIndicator_FaultIndicator, []);
  (* CIM15/IEC61970/AuxiliaryEquipment/PotentialTransformer.py:50 *) (n_CIM15_IEC61970_AuxiliaryEquipment_PotentialTransformer_PotentialTransformer, [(n_nominalRatio, TyFloat); (n_accuracyClass, TyStr); (n_ptClass, TyStr)]);
  (* CIM15/IEC61970/AuxiliaryEquipment/Sensor.py:34 *) (n_CIM15_IEC61970_AuxiliaryEquipment_Sensor_Sensor, []);
  (* CIM15/IEC61970/AuxiliaryEquipment/SurgeProtector.py:38 *) (n_CIM15_IEC61970_AuxiliaryEquipment_SurgeProtector_SurgeProtector, []);
  (* CIM15/IEC61970/Contingency/Contingency.py:42 *) (n_CIM15_IEC61970_Contingency_Contingency_Contingency, [(n_mustStudy, TyBool)]);
  (* CIM15/IEC61970/Contingency/ContingencyElement.py:38 *) (n_CIM15_IEC61970_Contingency_ContingencyElement_ContingencyElement, []);
  (* CIM15/IEC61970/Contingency/ContingencyEquipment.py:42 *) (n_CIM15_IEC61970_Contingency_ContingencyEquipment_ContingencyEquipment, [(n_contingentStatus, TyStr)]);
  (* CIM15/IEC61970/ControlArea/AltGeneratingUnitMeas.py:46 *) (n_CIM15_IEC61970_ControlArea_AltGeneratingUnitMeas_AltGeneratingUnitMeas, [(n_priority, TyInt)]);
  (* CIM15/IEC61970/ControlArea/AltTieMeas.py:46 *) (n_CIM15_IEC61970_ControlArea_AltTieMeas_AltTieMeas, [(n_priority, TyInt)]);
  (* CIM15/IEC61970/ControlArea/ControlArea.py:58 *) (n_CIM15_IEC61970_ControlArea_ControlArea_ControlArea, [(n_type, TyStr); (n_pTolerance, TyFloat); (n_netInterchange, TyFloat)]);
  (* CIM15/IEC61970/ControlArea/ControlAreaGeneratingUnit.py:46 *) (n_CIM15_IEC61970_ControlArea_ControlAreaGeneratingUnit_ControlAreaGeneratingUnit, []);
  (* CIM15/IEC61970/ControlArea/TieFlow.py:50 *) (n_CIM15_IEC61970_ControlArea_TieFlow_TieFlow, [(n_positiveFlowIn, TyBool)]);
  (* CIM15/IEC61970/Core/BasePower.py:38 *) (n_CIM15_IEC61970_Core_BasePower_BasePower, [(n_basePower, TyFloat)]);
  (* CIM15/IEC61970/Core/BaseVoltage.py:57 *) (n_CIM15_IEC61970_Core_BaseVoltage_BaseVoltage, [(n_nominalVoltage, TyFloat); (n_isDC, TyBool)]);
  (* CIM15/IEC61970/Core/BasicIntervalSchedule.py:54 *) (n_CIM15_IEC61970_Core_BasicIntervalSchedule_BasicIntervalSchedule, [(n_startTime, TyStr); (n_value1Multiplier, TyStr); (n_value2Unit, TyStr); (n_value1Unit, TyStr); (n_value2Multiplier, TyStr)]);
  (* CIM15/IEC61970/Core/Bay.py:58 *) (n_CIM15_IEC61970_Core_Bay_Bay, [(n_bayPowerMeasFlag, TyBool); (n_bayEnergyMeasFlag, TyBool); (n_busBarConfiguration, TyStr); (n_breakerConfiguration, TyStr)]);
  (* CIM15/IEC61970/Core/ConductingEquipment.py:58 *) (n_CIM15_IEC61970_Core_ConductingEquipment_ConductingEquipment, []);
  (* CIM15/IEC61970/Core/ConnectivityNode.py:46 *) (n_CIM15_IEC61970_Core_ConnectivityNode_ConnectivityNode, []);
  (* CIM15/IEC61970/Core/ConnectivityNodeContainer.py:42 *) (n_CIM15_IEC61970_Core_ConnectivityNodeContainer_ConnectivityNodeContainer, []);
  (* CIM15/IEC61970/Core/Curve.py:74 *) (n_CIM15_IEC61970_Core_Curve_Curve, [(n_xUnit, TyStr); (n_y1Multiplier, TyStr); (n_y2Unit, TyStr); (n_y3Multiplier, TyStr); (n_y1Unit, TyStr); (n_xMultiplier, TyStr); (n_y3Unit, TyStr); (n_y2Multiplier, TyStr); (n_curveStyle, TyStr)]);
  (* CIM15/IEC61970/Core/CurveData.py:54 *) (n_CIM15_IEC61970_Core_CurveData_CurveData, [(n_y3value, TyFloat); (n_xvalue, TyFloat); (n_y2value, TyFloat); (n_y1value, TyFloat)]);
  (* CIM15/IEC61970/Core/Equipment.py:59 *) (n_CIM15_IEC61970_Core_Equipment_Equipment, [(n_normallyInService, TyBool); (n_aggregate, TyBool)]);
  (* CIM15/IEC61970/Core/EquipmentContainer.py:38 *) (n_CIM15_IEC61970_Core_EquipmentContainer_EquipmentContainer, []);
  (* CIM15/IEC61970/Core/GeographicalRegion.py:38 *) (n_CIM15_IEC61970_Core_GeographicalRegion_GeographicalRegion, []);
  (* CIM15/IEC61970/Core/IdentifiedObject.py:58 *) (n_CIM15_IEC61970_Core_IdentifiedObject_IdentifiedObject, [(n_mRID, TyStr); (n_aliasName, TyStr); (n_name, TyStr)]);
  (* CIM15/IEC61970/Core/IrregularIntervalSchedule.py:38 *) (n_CIM15_IEC61970_Core_IrregularIntervalSchedule_IrregularIntervalSchedule, []);
  (* CIM15/IEC61970/Core/IrregularTimePoint.py:50 *) (n_CIM15_IEC61970_Core_IrregularTimePoint_IrregularTimePoint, [(n_time, TyFloat); (n_value1, TyFloat); (n_value2, TyFloat)]);
  (* CIM15/IEC61970/Core/Name.py:46 *) (n_CIM15_IEC61970_Core_Name_Name, [(n_name, TyStr)]);
  (* CIM15/IEC61970/Core/NameType.py:50 *) (n_CIM15_IEC61970_Core_NameType_NameType, [(n_name, TyStr); (n_description, TyStr)]);
  (* CIM15/IEC61970/Core/NameTypeAuthority.py:46 *) (n_CIM15_IEC61970_Core_NameTypeAuthority_NameTypeAuthority, [(n_name, TyStr); (n_description, TyStr)]);
  (* CIM15/IEC61970/Core/OperatingParticipant.py:38 *) (n_CIM15_IEC61970_Core_OperatingParticipant_OperatingParticipant, []);
  (* CIM15/IEC61970/Core/OperatingShare.py:46 *) (n_CIM15_IEC61970_Core_OperatingShare_OperatingShare, [(n_percentage, TyFloat)]);
  (* CIM15/IEC61970/Core/PSRType.py:38 *) (n_CIM15_IEC61970_Core_PSRType_PSRType, []);
  (* CIM15/IEC61970/Core/PowerSystemResource.py:94 *) (n_CIM15_IEC61970_Core_PowerSystemResource_PowerSystemResource, []);
  (* CIM15/IEC61970/Core/PsrList.py:42 *) (n_CIM15_IEC61970_Core_PsrList_PsrList, [(n_typePSRList, TyStr)]);
  (* CIM15/IEC61970/Core/RegularIntervalSchedule.py:46 *) (n_CIM15_IEC61970_Core_RegularIntervalSchedule_RegularIntervalSchedule, [(n_endTime, TyStr); (n_timeStep, TyFloat)]);
  (* CIM15/IEC61970/Core/RegularTimePoint.py:50 *) (n_CIM15_IEC61970_Core_RegularTimePoint_RegularTimePoint, [(n_value2, TyFloat); (n_value1, TyFloat); (n_sequenceNumber, TyInt)]);
  (* CIM15/IEC61970/Core/ReportingGroup.py:50 *) (n_CIM15_IEC61970_Core_ReportingGroup_ReportingGroup, []);
  (* CIM15/IEC61970/Core/ReportingSuperGroup.py:38 *) (n_CIM15_IEC61970_Core_ReportingSuperGroup_ReportingSuperGroup, []);
  (* CIM15/IEC61970/Core/SubGeographicalRegion.py:46 *) (n_CIM15_IEC61970_Core_SubGeographicalRegion_SubGeographicalRegion, []);
  (* CIM15/IEC61970/Core/Substation.py:46 *) (n_CIM15_IEC61970_Core_Substation_Substation, []);
  (* CIM15/IEC61970/Core/Terminal.py:106 *) (n_CIM15_IEC61970_Core_Terminal_Terminal, [(n_phases, TyStr); (n_connected, TyBool); (n_sequenceNumber, TyInt)]);
  (* CIM15/IEC61970/Core/VoltageLevel.py:54 *) (n_CIM15_IEC61970_Core_VoltageLevel_VoltageLevel, [(n_highVoltageLimit, TyFloat); (n_lowVoltageLimit, TyFloat)]);
  (* CIM15/IEC61970/CutsJumpers/Clamp.py:42 *) (n_CIM15_IEC61970_CutsJumpers_Clamp_Clamp, [(n_lengthFromTerminal1, TyFloat)]);
  (* CIM15/IEC61970/CutsJumpers/Cut.py:42 *) (n_CIM15_IEC61970_CutsJumpers_Cut_Cut, [(n_lengthFromTerminal1, TyFloat)]);
  (* CIM15/IEC61970/Domain/DateTimeInterval.py:40 *) (n_CIM15_IEC61970_Domain_DateTimeInterval_DateTimeInterval, [(n_start, TyStr); (n_end, TyStr)]);
  (* CIM15/IEC61970/Equivalents/EquivalentBranch.py:42 *) (n_CIM15_IEC61970_Equivalents_EquivalentBranch_EquivalentBranch, [(n_x, TyFloat); (n_r, TyFloat)]);
  (* CIM15/IEC61970/Equivalents/EquivalentEquipment.py:38 *) (n_CIM15_IEC61970_Equivalents_EquivalentEquipment_EquivalentEquipment, []);
  (* CIM15/IEC61970/Equivalents/EquivalentInjection.py:54 *) (n_CIM15_IEC61970_Equivalents_EquivalentInjection_EquivalentInjection, [(n_regulationCapability, TyBool); (n_maxP, TyFloat); (n_regulationStatus, TyBool); (n_regulationTarget, TyFloat); (n_minP, TyFloat)]);
  (* CIM15/IEC61970/Equivalents/EquivalentNetwork.py:38 *) (n_CIM15_IEC61970_Equivalents_EquivalentNetwork_EquivalentNetwork, []);
  (* CIM15/IEC61970/Equivalents/EquivalentShunt.py:42 *) (n_CIM15_IEC61970_Equivalents_EquivalentShunt_EquivalentShunt, [(n_b, TyFloat); (n_g, TyFloat)]);
  (* CIM15/IEC61970/Generation/GenerationDynamics/BWRSteamSupply.py:118 *) (n_CIM15_IEC61970_Generation_GenerationDynamics_BWRSteamSupply_BWRSteamSupply, [(n_lowerLimit, TyFloat); (n_pressureSetpointTC1, TyFloat); (n_pressureSetpointTC2, TyFloat); (n_rodPattern, TyFloat); (n_pressureSetpointGA, TyFloat); (n_upperLimit, TyFloat); (n_pressureLimit, TyFloat); (n_rfAux5, TyFloat); (n_rfAux6, TyFloat); (n_rfAux3, TyFloat); (n_rodPatternConstant, TyFloat); (n_rfAux4, TyFloat); (n_rfAux7, TyFloat); (n_rfAux8, TyFloat); (n_highPowerLimit, TyFloat); (n_rfAux1, TyFloat); (n_inCoreThermalTC, TyFloat); (n_rfAux2, TyFloat); (n_proportionalGain, TyFloat); (n_lowPowerLimit, TyFloat); (n_integralGain, TyFloat)]);
  (* CIM15/IEC61970/Generation/GenerationDynamics/CTTempActivePowerCurve.py:38 *) (n_CIM15_IEC61970_Generation_GenerationDynamics_CTTempActivePowerCurve_CTTempActivePowerCurve, []);
  (* CIM15/IEC61970/Generation/GenerationDynamics/CombustionTurbine.py:78 *) (n_CIM15_IEC61970_Generation_GenerationDynamics_CombustionTurbine_CombustionTurbine, [(n_capabilityVersusFrequency, TyFloat); (n_referenceTemp, TyFloat); (n_auxPowerVersusFrequency, TyFloat); (n_powerVariationByTemp, TyFloat); (n_auxPowerVersusVoltage, TyFloat); (n_timeConstant, TyFloat); (n_heatRecoveryFlag, TyBool); (n_ambientTemp, TyFloat)]);
  (* CIM15/IEC61970/Generation/GenerationDynamics/DrumBoiler.py:38 *) (n_CIM15_IEC61970_Generation_GenerationDynamics_DrumBoiler_DrumBoiler, [(n_drumBoilerRating, TyFloat)]);
  (* CIM15/IEC61970/Generation/GenerationDynamics/FossilSteamSupply.py:138 *) (n_CIM15_IEC61970_Generation_GenerationDynamics_FossilSteamSupply_FossilSteamSupply, [(n_fuelDemandLimit, TyFloat); (n_auxPowerVersusFrequency, TyFloat); (n_mechPowerSensorLag, TyFloat); (n_pressureCtrlDG, TyFloat); (n_throttlePressureSP, TyFloat); (n_feedWaterPG, TyFloat); (n_feedWaterTC, TyFloat); (n_controlPC, TyFloat); (n_fuelSupplyDelay, TyFloat); (n_controlPED, TyFloat); (n_controlPEB, TyFloat); (n_boilerControlMode, TyStr); (n_controlTC, TyFloat); (n_minErrorRateP, TyFloat); (n_superHeater1Capacity, TyFloat); (n_controlErrorBiasP, TyFloat); (n_pressureCtrlIG, TyFloat); (n_feedWaterIG, TyFloat); (n_pressureFeedback, TyInt); (n_auxPowerVersusVoltage, TyFloat); (n_fuelSupplyTC, TyFloat); (n_maxErrorRateP, TyFloat); (n_superHeaterPipePD, TyFloat); (n_pressureCtrlPG, TyFloat); (n_superHeater2Capacity, TyFloat); (n_controlIC, TyFloat)]);
  (* CIM15/IEC61970/Generation/GenerationDynamics/HeatRecoveryBoiler.py:42 *) (n_CIM15_IEC61970_Generation_GenerationDynamics_HeatRecoveryBoiler_HeatRecoveryBoiler, [(n_steamSupplyRating2, TyFloat)]);
  (* CIM15/IEC61970/Generation/GenerationDynamics/HydroTurbine.py:78 *) (n_CIM15_IEC61970_Generation_GenerationDynamics_HydroTurbine_HydroTurbine, [(n_maxHeadMaxP, TyFloat); (n_minHeadMaxP, TyFloat); (n_turbineRating, TyFloat); (n_gateRateLimit, TyFloat); (n_turbineType, TyStr); (n_gateUpperLimit, TyFloat); (n_speedRating, TyFloat); (n_speedRegulation, TyFloat); (n_transientDroopTime, TyFloat); (n_transientRegulation, TyFloat); (n_waterStartingTime, TyFloat)]);
  (* CIM15/IEC61970/Generation/GenerationDynamics/PWRSteamSupply.py:114 *) (n_CIM15_IEC61970_Generation_GenerationDynamics_PWRSteamSupply_PWRSteamSupply, [(n_coreNeutronicsHT, TyFloat); (n_steamFlowFG, TyFloat); (n_hotLegToColdLegGain, TyFloat); (n_steamPressureDropLagTC, TyFloat); (n_coreHTLagTC1, TyFloat); (n_coreHTLagTC2, TyFloat); (n_hotLegLagTC, TyFloat); (n_throttlePressureSP, TyFloat); (n_hotLegSteamGain, TyFloat); (n_throttlePressureFactor, TyFloat); (n_coldLegFBLagTC, TyFloat); (n_pressureCG, TyFloat); (n_steamPressureFG, TyFloat); (n_feedbackFactor, TyFloat); (n_coreNeutronicsEffTC, TyFloat); (n_coldLegFG2, TyFloat); (n_coldLegFG1, TyFloat); (n_coldLegLagTC, TyFloat); (n_coldLegFBLeadTC2, TyFloat); (n_coldLegFBLeadTC1, TyFloat)]);
  (* CIM15/IEC61970/Generation/GenerationDynamics/PrimeMover.py:42 *) (n_CIM15_IEC61970_Generation_GenerationDynamics_PrimeMover_PrimeMover, [(n_primeMoverRating, TyFloat)]);
  (* CIM15/IEC61970/Generation/GenerationDynamics/SteamSupply.py:42 *) (n_CIM15_IEC61970_Generation_GenerationDynamics_SteamSupply_SteamSupply, [(n_steamSupplyRating, TyFloat)]);
  (* CIM15/IEC61970/Generation/GenerationDynamics/SteamTurbine.py:86 *) (n_CIM15_IEC61970_Generation_GenerationDynamics_SteamTurbine_SteamTurbine, [(n_shaft1PowerIP, TyFloat); (n_shaft2PowerIP, TyFloat); (n_crossoverTC, TyFloat); (n_shaft1PowerLP1, TyFloat); (n_shaft1PowerLP2, TyFloat); (n_reheater1TC, TyFloat); (n_shaft2PowerLP1, TyFloat); (n_shaft2PowerLP2, TyFloat); (n_reheater2TC, TyFloat); (n_steamChestTC, TyFloat); (n_shaft1PowerHP, TyFloat); (n_shaft2PowerHP, TyFloat)]);
  (* CIM15/IEC61970/Generation/GenerationDynamics/Subcritical.py:34 *) (n_CIM15_IEC61970_Generation_GenerationDynamics_Subcritical_Subcritical, []);
  (* CIM15/IEC61970/Generation/GenerationDynamics/Supercritical.py:34 *) (n_CIM15_IEC61970_Generation_GenerationDynamics_Supercritical_Supercritical, []);
  (* CIM15/IEC61970/Generation/Production/AirCompressor.py:46 *) (n_CIM15_IEC61970_Generation_Production_AirCompressor_AirCompressor, [(n_airCompressorRating, TyFloat)]);
  (* CIM15/IEC61970/Generation/Production/CAESPlant.py:50 *) (n_CIM15_IEC61970_Generation_Production_CAESPlant_CAESPlant, [(n_ratedCapacityP, TyFloat); (n_energyStorageCapacity, TyFloat)]);
  (* CIM15/IEC61970/Generation/Production/CogenerationPlant.py:62 *) (n_CIM15_IEC61970_Generation_Production_CogenerationPlant_CogenerationPlant, [(n_cogenLPSteamRating, TyFloat); (n_cogenLPSendoutRating, TyFloat); (n_ratedP, TyFloat); (n_cogenHPSendoutRating, TyFloat); (n_cogenHPSteamRating, TyFloat)]);
  (* CIM15/IEC61970/Generation/Production/CombinedCyclePlant.py:42 *) (n_CIM15_IEC61970_Generation_Production_CombinedCyclePlant_CombinedCyclePlant, [(n_combCyclePlantRating, TyFloat)]);
  (* CIM15/IEC61970/Generation/Production/EmissionAccount.py:46 *) (n_CIM15_IEC61970_Generation_Production_EmissionAccount_EmissionAccount, [(n_emissionType, TyStr); (n_emissionValueSource, TyStr)]);
  (* CIM15/IEC61970/Generation/Production/EmissionCurve.py:50 *) (n_CIM15_IEC61970_Generation_Production_EmissionCurve_EmissionCurve, [(n_emissionContent, TyFloat); (n_isNetGrossP, TyBool); (n_emissionType, TyStr)]);
  (* CIM15/IEC61970/Generation/Production/FossilFuel.py:82 *) (n_CIM15_IEC61970_Generation_Production_FossilFuel_FossilFuel, [(n_fuelSulfur, TyFloat); (n_fuelCost, TyFloat); (n_fossilFuelType, TyStr); (n_lowBreakpointP, TyFloat); (n_fuelDispatchCost, TyFloat); (n_fuelHandlingCost, TyFloat); (n_fuelHeatContent, TyFloat); (n_fuelEffFactor, TyFloat); (n_fuelMixture, TyFloat); (n_highBreakpointP, TyFloat)]);
  (* CIM15/IEC61970/Generation/Production/FuelAllocationSchedule.py:62 *) (n_CIM15_IEC61970_Generation_Production_FuelAllocationSchedule_FuelAllocationSchedule, [(n_minFuelAllocation, TyFloat); (n_fuelAllocationEndDate, TyStr); (n_maxFuelAllocation, TyFloat); (n_fuelAllocationStartDate, TyStr); (n_fuelType, TyStr)]);
  (* CIM15/IEC61970/Generation/Production/GenUnitOpCostCurve.py:42 *) (n_CIM15_IEC61970_Generation_Production_GenUnitOpCostCurve_GenUnitOpCostCurve, [(n_isNetGrossP, TyBool)]);
  (* CIM15/IEC61970/Generation/Production/GenUnitOpSchedule.py:38 *) (n_CIM15_IEC61970_Generation_Production_GenUnitOpSchedule_GenUnitOpSchedule, []);
  (* CIM15/IEC61970/Generation/Production/GeneratingUnit.py:226 *) (n_CIM15_IEC61970_Generation_Production_GeneratingUnit_GeneratingUnit, [(n_ratedGrossMinP, TyFloat); (n_efficiency, TyFloat); (n_stepChange, TyFloat); (n_ratedNetMaxP, TyFloat); (n_tieLinePF, TyFloat); (n_dispReserveFlag, TyBool); (n_controlPulseHigh, TyFloat); (n_startupTime, TyFloat); (n_maxOperatingP, TyFloat); (n_genControlSource, TyStr); (n_normalPF, TyFloat); (n_initialP, TyFloat); (n_spinReserveRamp, TyFloat); (n_allocSpinResP, TyFloat); (n_minEconomicP, TyFloat); (n_longPF, TyFloat); (n_nominalP, TyFloat); (n_controlResponseRate, TyFloat); (n_ratedGrossMaxP, TyFloat); (n_penaltyFactor, TyFloat); (n_fastStartFlag, TyBool); (n_minimumOffTime, TyFloat); (n_shortPF, TyFloat); (n_governorMPL, TyFloat); (n_energyMinP, TyFloat); (n_fuelPriority, TyInt); (n_maxEconomicP, TyFloat); (n_autoCntrlMarginP, TyFloat); (n_highControlLimit, TyFloat); (n_modelDetail, TyStr); (n_controlPulseLow, TyFloat); (n_raiseRampRate, TyFloat); (n_controlDeadband, TyFloat); (n_baseP, TyFloat); (n_startupCost, TyFloat); (n_variableCost, TyFloat); (n_genOperatingMode, TyStr); (n_lowerRampRate, TyFloat); (n_minOperatingP, TyFloat); (n_lowControlLimit, TyFloat); (n_maximumAllowableSpinningReserve, TyFloat); (n_genControlMode, TyStr); (n_governorSCD, TyFloat)]);
  (* CIM15/IEC61970/Generation/Production/GrossToNetActivePowerCurve.py:38 *) (n_CIM15_IEC61970_Generation_Production_GrossToNetActivePowerCurve_GrossToNetActivePowerCurve, []);
  (* CIM15/IEC61970/Generation/Production/HeatInputCurve.py:58 *) (n_CIM15_IEC61970_Generation_Production_HeatInputCurve_HeatInputCurve, [(n_isNetGrossP, TyBool); (n_heatInputEff, TyFloat); (n_heatInputOffset, TyFloat); (n_auxPowerOffset, TyFloat); (n_auxPowerMult, TyFloat)]);
  (* CIM15/IEC61970/Generation/Production/HeatRateCurve.py:42 *) (n_CIM15_IEC61970_Generation_Production_HeatRateCurve_HeatRateCurve, [(n_isNetGrossP, TyBool)]);
  (* CIM15/IEC61970/Generation/Production/HydroGeneratingEfficiencyCurve.py:38 *) (n_CIM15_IEC61970_Generation_Production_HydroGeneratingEfficiencyCurve_HydroGeneratingEfficiencyCurve, []);
  (* CIM15/IEC61970/Generation/Production/HydroGeneratingUnit.py:58 *) (n_CIM15_IEC61970_Generation_Production_HydroGeneratingUnit_HydroGeneratingUnit, [(n_energyConversionCapability, TyStr); (n_hydroUnitWaterCost, TyFloat)]);
  (* CIM15/IEC61970/Generation/Production/HydroPowerPlant.py:86 *) (n_CIM15_IEC61970_Generation_Production_HydroPowerPlant_HydroPowerPlant, [(n_penstockType, TyStr); (n_pumpRatedP, TyFloat); (n_hydroPlantType, TyStr); (n_surgeTankCrestLevel, TyFloat); (n_dischargeTravelDelay, TyFloat); (n_plantDischargeCapacity, TyFloat); (n_plantRatedHead, TyFloat); (n_genRatedP, TyFloat); (n_surgeTankCode, TyStr)]);
  (* CIM15/IEC61970/Generation/Production/HydroPump.py:62 *) (n_CIM15_IEC61970_Generation_Production_HydroPump_HydroPump, [(n_pumpDischAtMaxHead, TyFloat); (n_pumpDischAtMinHead, TyFloat); (n_pumpPowerAtMinHead, TyFloat); (n_pumpPowerAtMaxHead, TyFloat)]);
  (* CIM15/IEC61970/Generation/Production/HydroPumpOpSchedule.py:38 *) (n_CIM15_IEC61970_Generation_Production_HydroPumpOpSchedule_HydroPumpOpSchedule, []);
  (* CIM15/IEC61970/Generation/Production/IncrementalHeatRateCurve.py:42 *) (n_CIM15_IEC61970_Generation_Production_IncrementalHeatRateCurve_IncrementalHeatRateCurve, [(n_isNetGrossP, TyBool)]);
  (* CIM15/IEC61970/Generation/Production/InflowForecast.py:38 *) (n_CIM15_IEC61970_Generation_Production_InflowForecast_InflowForecast, []);
  (* CIM15/IEC61970/Generation/Production/LevelVsVolumeCurve.py:38 *) (n_CIM15_IEC61970_Generation_Production_LevelVsVolumeCurve_LevelVsVolumeCurve, []);
  (* CIM15/IEC61970/Generation/Production/NuclearGeneratingUnit.py:34 *) (n_CIM15_IEC61970_Generation_Production_NuclearGeneratingUnit_NuclearGeneratingUnit, []);
  (* CIM15/IEC61970/Generation/Production/PenstockLossCurve.py:38 *) (n_CIM15_IEC61970_Generation_Production_PenstockLossCurve_PenstockLossCurve, []);
  (* CIM15/IEC61970/Generation/Production/Reservoir.py:106 *) (n_CIM15_IEC61970_Generation_Production_Reservoir_Reservoir, [(n_spillwayCapacity, TyFloat); (n_energyStorageRating, TyFloat); (n_grossCapacity, TyFloat); (n_riverOutletWorks, TyStr); (n_spillwayCrestLevel, TyFloat); (n_normalMinOperateLevel, TyFloat); (n_spillwayCrestLength, TyFloat); (n_spillTravelDelay, TyFloat); (n_activeStorageCapacity, TyFloat); (n_spillWayGateType, TyStr); (n_fullSupplyLevel, TyFloat)]);
  (* CIM15/IEC61970/Generation/Production/ShutdownCurve.py:46 *) (n_CIM15_IEC61970_Generation_Production_ShutdownCurve_ShutdownCurve, [(n_shutdownDate, TyStr); (n_shutdownCost, TyFloat)]);
  (* CIM15/IEC61970/Generation/Production/StartIgnFuelCurve.py:42 *) (n_CIM15_IEC61970_Generation_Production_StartIgnFuelCurve_StartIgnFuelCurve, [(n_ignitionFuelType, TyStr)]);
  (* CIM15/IEC61970/Generation/Production/StartMainFuelCurve.py:42 *) (n_CIM15_IEC61970_Generation_Production_StartMainFuelCurve_StartMainFuelCurve, [(n_mainFuelType, TyStr)]);
  (* CIM15/IEC61970/Generation/Production/StartRampCurve.py:42 *) (n_CIM15_IEC61970_Generation_Production_StartRampCurve_StartRampCurve, [(n_hotStandbyRamp, TyFloat)]);
  (* CIM15/IEC61970/Generation/Production/StartupModel.py:90 *) (n_CIM15_IEC61970_Generation_Production_StartupModel_StartupModel, [(n_startupCost, TyFloat); (n_stbyAuxP, TyFloat); (n_minimumRunTime, TyFloat); (n_riskFactorCost, TyFloat); (n_minimumDownTime, TyFloat); (n_fixedMaintCost, TyFloat); (n_startupDate, TyStr); (n_hotStandbyHeat, TyFloat); (n_startupPriority, TyInt); (n_incrementalMaintCost, TyFloat)]);
  (* CIM15/IEC61970/Generation/Production/SteamSendoutSchedule.py:38 *) (n_CIM15_IEC61970_Generation_Production_SteamSendoutSchedule_SteamSendoutSchedule, []);
  (* CIM15/IEC61970/Generation/Production/TailbayLossCurve.py:38 *) (n_CIM15_IEC61970_Generation_Production_TailbayLossCurve_TailbayLossCurve, []);
  (* CIM15/IEC61970/Generation/Production/TargetLevelSchedule.py:46 *) (n_CIM15_IEC61970_Generation_Production_TargetLevelSchedule_TargetLevelSchedule, [(n_lowLevelLimit, TyFloat); (n_highLevelLimit, TyFloat)]);
  (* CIM15/IEC61970/Generation/Production/ThermalGeneratingUnit.py:86 *) (n_CIM15_IEC61970_Generation_Production_ThermalGeneratingUnit_ThermalGeneratingUnit, [(n_oMCost, TyFloat)]);
  (* CIM15/IEC61970/Generation/Production/WindGeneratingUnit.py:34 *) (n_CIM15_IEC61970_Generation_Production_WindGeneratingUnit_WindGeneratingUnit, []);
  (* CIM15/IEC61970/Graphics/DiagramObject.py:74 *) (n_CIM15_IEC61970_Graphics_DiagramObject_DiagramObject, [(n_offsetY, TyFloat); (n_offsetX, TyFloat); (n_isPolygon, TyBool); (n_rotation, TyFloat); (n_drawingOrder, TyInt)]);
  (* CIM15/IEC61970/Graphics/DiagramObjectGluePoint.py:38 *) (n_CIM15_IEC61970_Graphics_DiagramObjectGluePoint_DiagramObjectGluePoint, []);
  (* CIM15/IEC61970/Graphics/DiagramObjectPoint.py:58 *) (n_CIM15_IEC61970_Graphics_DiagramObjectPoint_DiagramObjectPoint, [(n_sequenceNumber, TyInt); (n_xPosition, TyFloat); (n_yPosition, TyFloat); (n_zPosition, TyFloat)]);
  (* CIM15/IEC61970/Graphics/DiagramObjectStyle.py:38 *) (n_CIM15_IEC61970_Graphics_DiagramObjectStyle_DiagramObjectStyle, []);
  (* CIM15/IEC61970/Graphics/TextDiagramObject.py:38 *) (n_CIM15_IEC61970_Graphics_TextDiagramObject_TextDiagramObject, [(n_text, TyStr)]);
  (* CIM15/IEC61970/Graphics/VisibilityLayer.py:42 *) (n_CIM15_IEC61970_Graphics_VisibilityLayer_VisibilityLayer, [(n_drawingOrder, TyInt)]);
  (* CIM15/IEC61970/IEC61970CIMVersion.py:42 *) (n_CIM15_IEC61970_IEC61970CIMVersion_IEC61970CIMVersion, [(n_date, TyStr); (n_version, TyStr)]);
  (* CIM15/IEC61970/Informative/InfAssetModels/AssetModelCatalogue.py:41 *) (n_CIM15_IEC61970_Informative_InfAssetModels_AssetModelCatalogue_AssetModelCatalogue, []);
  (* CIM15/IEC61970/Informative/InfAssetModels/AssetModelCatalogueItem.py:54 *) (n_CIM15_IEC61970_Informative_InfAssetModels_AssetModelCatalogueItem_AssetModelCatalogueItem, [(n_unitCost, TyFloat)]);
  (* CIM15/IEC61970/Informative/InfAssetModels/TransformerAssetModel.py:98 *) (n_CIM15_IEC61970_Informative_InfAssetModels_TransformerAssetModel_TransformerAssetModel, [(n_neutralBIL, TyFloat); (n_constructionKind, TyStr); (n_coreCoilsWeight, TyFloat); (n_windingInsulationKind, TyStr); (n_hourOverLoadRating, TyFloat); (n_altPrimaryNomVoltage, TyFloat); (n_altSecondaryNomVoltage, TyFloat); (n_reconfigWinding, TyBool); (n_function, TyStr); (n_oilPreservationKind, TyStr); (n_dayOverLoadRating, TyFloat); (n_coreKind, TyStr); (n_autoTransformer, TyBool); (n_solidInsulationWeight, TyFloat)]);
  (* CIM15/IEC61970/Informative/InfAssets/AssetAssetRole.py:42 *) (n_CIM15_IEC61970_Informative_InfAssets_AssetAssetRole_AssetAssetRole, []);
  (* CIM15/IEC61970/Informative/InfAssets/AssetPropertyCurve.py:42 *) (n_CIM15_IEC61970_Informative_InfAssets_AssetPropertyCurve_AssetPropertyCurve, []);
  (* CIM15/IEC61970/Informative/InfAssets/BreakerInfo.py:38 *) (n_CIM15_IEC61970_Informative_InfAssets_BreakerInfo_BreakerInfo, [(n_phaseTrip, TyFloat)]);
  (* CIM15/IEC61970/Informative/InfAssets/Bushing.py:62 *) (n_CIM15_IEC61970_Informative_InfAssets_Bushing_Bushing, [(n_c2PowerFactor, TyFloat); (n_c2Capacitance, TyFloat); (n_c1PowerFactor, TyFloat); (n_insulationKind, TyStr); (n_c1Capacitance, TyFloat)]);
  (* CIM15/IEC61970/Informative/InfAssets/BushingInsulationPF.py:49 *) (n_CIM15_IEC61970_Informative_InfAssets_BushingInsulationPF_BushingInsulationPF, [(n_testKind, TyStr)]);
  (* CIM15/IEC61970/Informative/InfAssets/Cabinet.py:34 *) (n_CIM15_IEC61970_Informative_InfAssets_Cabinet_Cabinet, []);
  (* CIM15/IEC61970/Informative/InfAssets/ComEquipment.py:38 *) (n_CIM15_IEC61970_Informative_InfAssets_ComEquipment_ComEquipment, []);
  (* CIM15/IEC61970/Informative/InfAssets/CompositeSwitchInfo.py:70 *) (n_CIM15_IEC61970_Informative_InfAssets_CompositeSwitchInfo_CompositeSwitchInfo, [(n_kind, TyStr); (n_phaseCode, TyStr); (n_remote, TyBool); (n_switchStateCount, TyInt); (n_ratedVoltage, TyFloat); (n_ganged, TyBool); (n_phaseCount, TyInt); (n_initOpMode, TyStr); (n_interruptingRating, TyFloat)]);
  (* CIM15/IEC61970/Informative/InfAssets/ConductorAsset.py:54 *) (n_CIM15_IEC61970_Informative_InfAssets_ConductorAsset_ConductorAsset, [(n_isHorizontal, TyBool); (n_groundingMethod, TyStr); (n_insulated, TyBool)]);
  (* CIM15/IEC61970/Informative/InfAssets/CurrentTransformerInfo.py:97 *) (n_CIM15_IEC61970_Informative_InfAssets_CurrentTransformerInfo_CurrentTransformerInfo, [(n_tertiaryFlsRating, TyFloat); (n_coreCount, TyInt); (n_secondaryFlsRating, TyFloat); (n_usage, TyStr); (n_accuracyClass, TyStr); (n_ctClass, TyStr); (n_kneePointVoltage, TyFloat); (n_coreBurden, TyFloat); (n_accuracyLimit, TyFloat); (n_kneePointCurrent, TyFloat); (n_primaryFlsRating, TyFloat)]);
  (* CIM15/IEC61970/Informative/InfAssets/DimensionsInfo.py:66 *) (n_CIM15_IEC61970_Informative_InfAssets_DimensionsInfo_DimensionsInfo, [(n_sizeWidth, TyFloat); (n_sizeDiameter, TyFloat); (n_sizeLength, TyFloat); (n_orientation, TyStr); (n_sizeDepth, TyFloat)]);
  (* CIM15/IEC61970/Informative/InfAssets/DocAssetRole.py:42 *) (n_CIM15_IEC61970_Informative_InfAssets_DocAssetRole_DocAssetRole, []);
  (* CIM15/IEC61970/Informative/InfAssets/Duct.py:50 *) (n_CIM15_IEC61970_Informative_InfAssets_Duct_Duct, [(n_xCoord, TyInt); (n_yCoord, TyInt)]);
  (* CIM15/IEC61970/Informative/InfAssets/DuctBank.py:42 *) (n_CIM15_IEC61970_Informative_InfAssets_DuctBank_DuctBank, [(n_circuitCount, TyInt)]);
  (* CIM15/IEC61970/Informative/InfAssets/ElectricalInfo.py:102 *) (n_CIM15_IEC61970_Informative_InfAssets_ElectricalInfo_ElectricalInfo, [(n_phaseCount, TyInt); (n_ratedApparentPower, TyFloat); (n_phaseCode, TyStr); (n_frequency, TyFloat); (n_r0, TyFloat); (n_r, TyFloat); (n_bil, TyFloat); (n_x0, TyFloat); (n_x, TyFloat); (n_ratedCurrent, TyFloat); (n_wireCount, TyInt); (n_b0, TyFloat); (n_b, TyFloat); (n_ratedVoltage, TyFloat); (n_g, TyFloat); (n_g0, TyFloat); (n_isConnected, TyBool)]);
  (* CIM15/IEC61970/Informative/InfAssets/FACTSDevice.py:38 *) (n_CIM15_IEC61970_Informative_InfAssets_FACTSDevice_FACTSDevice, [(n_kind, TyStr)]);
  (* CIM15/IEC61970/Informative/InfAssets/Facility.py:38 *) (n_CIM15_IEC61970_Informative_InfAssets_Facility_Facility, [(n_kind, TyStr)]);
  (* CIM15/IEC61970/Informative/InfAssets/FailureEvent.py:50 *) (n_CIM15_IEC61970_Informative_InfAssets_FailureEvent_FailureEvent, [(n_failureIsolationMethod, TyStr); (n_corporateCode, TyStr); (n_faultLocatingMethod, TyStr); (n_location, TyStr)]);
  (* CIM15/IEC61970/Informative/InfAssets/FaultIndicatorInfo.py:42 *) (n_CIM15_IEC61970_Informative_InfAssets_FaultIndicatorInfo_FaultIndicatorInfo, [(n_resetKind, TyStr)]);
  (* CIM15/IEC61970/Informative/InfAssets/FinancialInfo.py:82 *) (n_CIM15_IEC61970_Informative_InfAssets_FinancialInfo_FinancialInfo, [(n_warrantyEndDateTime, TyStr); (n_costDescription, TyStr); (n_purchaseDateTime, TyStr); (n_account, TyStr); (n_financialValue, TyFloat); (n_purchaseOrderNumber, TyStr); (n_plantTransferDateTime, TyStr); (n_quantity, TyStr); (n_valueDateTime, TyStr); (n_costType, TyStr); (n_actualPurchaseCost, TyFloat)]);
  (* CIM15/IEC61970/Informative/InfAssets/GenericAssetModelOrMaterial.py:74 *) (n_CIM15_IEC61970_Informative_InfAssets_GenericAssetModelOrMaterial_GenericAssetModelOrMaterial, [(n_estimatedUnitCost, TyFloat); (n_stockItem, TyBool); (n_quantity, TyStr)]);
  (* CIM15/IEC61970/Informative/InfAssets/Joint.py:46 *) (n_CIM15_IEC61970_Informative_InfAssets_Joint_Joint, [(n_insulation, TyStr); (n_fillKind, TyStr); (n_configurationKind, TyStr)]);
  (* CIM15/IEC61970/Informative/InfAssets/Medium.py:50 *) (n_CIM15_IEC61970_Informative_InfAssets_Medium_Medium, [(n_kind, TyStr); (n_volumeSpec, TyFloat)]);
  (* CIM15/IEC61970/Informative/InfAssets/MountingConnection.py:42 *) (n_CIM15_IEC61970_Informative_InfAssets_MountingConnection_MountingConnection, []);
  (* CIM15/IEC61970/Informative/InfAssets/MountingPoint.py:54 *) (n_CIM15_IEC61970_Informative_InfAssets_MountingPoint_MountingPoint, [(n_xCoord, TyInt); (n_phaseCode, TyStr); (n_yCoord, TyInt)]);
  (* CIM15/IEC61970/Informative/InfAssets/OrgAssetRole.py:46 *) (n_CIM15_IEC61970_Informative_InfAssets_OrgAssetRole_OrgAssetRole, [(n_percentOwnership, TyFloat)]);
  (* CIM15/IEC61970/Informative/InfAssets/Pole.py:82 *) (n_CIM15_IEC61970_Informative_InfAssets_Pole_Pole, [(n_breastBlock, TyBool); (n_diameter, TyFloat); (n_baseKind, TyStr); (n_jpaReference, TyStr); (n_treatmentKind, TyStr); (n_preservativeKind, TyStr); (n_length, TyFloat); (n_construction, TyStr); (n_speciesType, TyStr); (n_classification, TyStr); (n_treatedDateTime, TyStr)]);
  (* CIM15/IEC61970/Informative/InfAssets/PotentialTransformerInfo.py:58 *) (n_CIM15_IEC61970_Informative_InfAssets_PotentialTransformerInfo_PotentialTransformerInfo, [(n_ptClass, TyStr); (n_accuracyClass, TyStr)]);
  (* CIM15/IEC61970/Informative/InfAssets/PowerRating.py:50 *) (n_CIM15_IEC61970_Informative_InfAssets_PowerRating_PowerRating, [(n_stage, TyInt); (n_powerRating, TyFloat); (n_coolingKind, TyStr)]);
  (* CIM15/IEC61970/Informative/InfAssets/Procedure.py:66 *) (n_CIM15_IEC61970_Informative_InfAssets_Procedure_Procedure, [(n_corporateCode, TyStr); (n_sequenceNumber, TyStr); (n_kind, TyStr); (n_instruction, TyStr)]);
  (* CIM15/IEC61970/Informative/InfAssets/ProcedureDataSet.py:54 *) (n_CIM15_IEC61970_Informative_InfAssets_ProcedureDataSet_ProcedureDataSet, [(n_completedDateTime, TyStr)]);
  (* CIM15/IEC61970/Informative/InfAssets/ProtectionEquipmentInfo.py:42 *) (n_CIM15_IEC61970_Informative_InfAssets_ProtectionEquipmentInfo_ProtectionEquipmentInfo, [(n_groundTrip, TyFloat); (n_phaseTrip, TyFloat)]);
  (* CIM15/IEC61970/Informative/InfAssets/RecloserInfo.py:54 *) (n_CIM15_IEC61970_Informative_InfAssets_RecloserInfo_RecloserInfo, [(n_groundTripNormalEnabled, TyBool); (n_groundTripCapable, TyBool); (n_recloseLockoutCount, TyInt); (n_phaseTripRating, TyFloat); (n_groundTripRating, TyFloat)]);
  (* CIM15/IEC61970/Informative/InfAssets/ReliabilityInfo.py:50 *) (n_CIM15_IEC61970_Informative_InfAssets_ReliabilityInfo_ReliabilityInfo, [(n_momFailureRate, TyFloat); (n_mTTR, TyFloat)]);
  (* CIM15/IEC61970/Informative/InfAssets/SVC.py:42 *) (n_CIM15_IEC61970_Informative_InfAssets_SVC_SVC, [(n_inductiveRating, TyFloat); (n_capacitiveRating, TyFloat)]);
  (* CIM15/IEC61970/Informative/InfAssets/ShuntCompensatorInfo.py:42 *) (n_CIM15_IEC61970_Informative_InfAssets_ShuntCompensatorInfo_ShuntCompensatorInfo, [(n_maxPowerLoss, TyFloat)]);
  (* CIM15/IEC61970/Informative/InfAssets/ShuntImpedanceInfo.py:106 *) (n_CIM15_IEC61970_Informative_InfAssets_ShuntImpedanceInfo_ShuntImpedanceInfo, [(n_maxSwitchOperationCount, TyInt); (n_localControlKind, TyStr); (n_switchOperationCycle, TyFloat); (n_vRegLineLine, TyBool); (n_highVoltageOverride, TyFloat); (n_lowVoltageOverride, TyFloat); (n_regBranch, TyStr); (n_cellSize, TyFloat); (n_localOnLevel, TyStr); (n_regBranchKind, TyStr); (n_normalOpen, TyBool); (n_controlKind, TyStr); (n_regBranchEnd, TyInt); (n_branchDirect, TyInt); (n_localOffLevel, TyStr); (n_sensingPhaseCode, TyStr); (n_localOverride, TyBool)]);
  (* CIM15/IEC61970/Informative/InfAssets/Specification.py:62 *) (n_CIM15_IEC61970_Informative_InfAssets_Specification_Specification, []);
  (* CIM15/IEC61970/Informative/InfAssets/Streetlight.py:50 *) (n_CIM15_IEC61970_Informative_InfAssets_Streetlight_Streetlight, [(n_armLength, TyFloat); (n_lampKind, TyStr); (n_lightRating, TyFloat)]);
  (* CIM15/IEC61970/Informative/InfAssets/Structure.py:70 *) (n_CIM15_IEC61970_Informative_InfAssets_Structure_Structure, [(n_ratedVoltage, TyFloat); (n_fumigantAppliedDate, TyStr); (n_weedRemovedDate, TyStr); (n_removeWeed, TyBool); (n_height, TyFloat); (n_fumigantName, TyStr); (n_materialKind, TyStr)]);
  (* CIM15/IEC61970/Informative/InfAssets/StructureSupport.py:66 *) (n_CIM15_IEC61970_Informative_InfAssets_StructureSupport_StructureSupport, [(n_anchorRodCount, TyInt); (n_length, TyFloat); (n_anchorRodLength, TyFloat); (n_direction, TyFloat); (n_anchorKind, TyStr); (n_kind, TyStr); (n_size, TyStr)]);
  (* CIM15/IEC61970/Informative/InfAssets/SubstationAsset.py:38 *) (n_CIM15_IEC61970_Informative_InfAssets_SubstationAsset_SubstationAsset, [(n_function, TyStr)]);
  (* CIM15/IEC61970/Informative/InfAssets/SurgeProtectorInfo.py:54 *) (n_CIM15_IEC61970_Informative_InfAssets_SurgeProtectorInfo_SurgeProtectorInfo, [(n_maxCurrentRating, TyFloat); (n_maxContinousOperatingVoltage, TyFloat); (n_nominalDesignVoltage, TyFloat); (n_maxEnergyAbsorption, TyFloat)]);
  (* CIM15/IEC61970/Informative/InfAssets/SwitchInfo.py:70 *) (n_CIM15_IEC61970_Informative_InfAssets_SwitchInfo_SwitchInfo, [(n_dielectricStrength, TyFloat); (n_gang, TyBool); (n_makingCapacity, TyFloat); (n_withstandCurrent, TyFloat); (n_loadBreak, TyBool); (n_minimumCurrent, TyFloat); (n_interruptingRating, TyFloat); (n_remote, TyBool); (n_poleCount, TyInt)]);
  (* CIM15/IEC61970/Informative/InfAssets/TestDataSet.py:46 *) (n_CIM15_IEC61970_Informative_InfAssets_TestDataSet_TestDataSet, [(n_specimenToLabDateTime, TyStr); (n_conclusion, TyStr); (n_specimenID, TyStr)]);
  (* CIM15/IEC61970/Informative/InfAssets/Tool.py:42 *) (n_CIM15_IEC61970_Informative_InfAssets_Tool_Tool, [(n_lastCalibrationDate, TyStr)]);
  (* CIM15/IEC61970/Informative/InfAssets/Tower.py:38 *) (n_CIM15_IEC61970_Informative_InfAssets_Tower_Tower, [(n_constructionKind, TyStr)]);
  (* CIM15/IEC61970/Informative/InfAssets/TransformerAsset.py:54 *) (n_CIM15_IEC61970_Informative_InfAssets_TransformerAsset_TransformerAsset, [(n_reconditionedDateTime, TyStr)]);
  (* CIM15/IEC61970/Informative/InfAssets/TransformerObservation.py:109 *) (n_CIM15_IEC61970_Informative_InfAssets_TransformerObservation_TransformerObservation, [(n_oilNeutralizationNumber, TyStr); (n_waterContent, TyStr); (n_oilLevel, TyStr); (n_freqResp, TyStr); (n_oilDielectricStrength, TyFloat); (n_oilColor, TyStr); (n_hotSpotTemp, TyFloat); (n_dga, TyStr); (n_furfuralDP, TyStr); (n_oilIFT, TyStr); (n_bushingTemp, TyFloat); (n_topOilTemp, TyFloat); (n_pumpVibration, TyStr)]);
  (* CIM15/IEC61970/Informative/InfAssets/UndergroundStructure.py:50 *) (n_CIM15_IEC61970_Informative_InfAssets_UndergroundStructure_UndergroundStructure, [(n_hasVentilation, TyBool); (n_kind, TyStr); (n_material, TyStr); (n_sealingWarrantyExpiresDate, TyStr)]);
  (* CIM15/IEC61970/Informative/InfAssets/Vehicle.py:50 *) (n_CIM15_IEC61970_Informative_InfAssets_Vehicle_Vehicle, [(n_odometerReading, TyFloat); (n_odometerReadDateTime, TyStr); (n_usageKind, TyStr)]);
  (* CIM15/IEC61970/Informative/InfAssets/WindingInsulation.py:65 *) (n_CIM15_IEC61970_Informative_InfAssets_WindingInsulation_WindingInsulation, [(n_insulationPFStatus, TyStr); (n_insulationResistance, TyStr); (n_leakageReactance, TyFloat)]);
  (* CIM15/IEC61970/Informative/InfAssets/WorkEquipment.py:42 *) (n_CIM15_IEC61970_Informative_InfAssets_WorkEquipment_WorkEquipment, []);
  (* CIM15/IEC61970/Informative/InfCommon/Bank.py:50 *) (n_CIM15_IEC61970_Informative_InfCommon_Bank_Bank, [(n_bic, TyStr); (n_iban, TyStr); (n_branchCode, TyStr)]);
  (* CIM15/IEC61970/Informative/InfCommon/BankAccount.py:46 *) (n_CIM15_IEC61970_Informative_InfCommon_BankAccount_BankAccount, [(n_accountNumber, TyStr)]);
  (* CIM15/IEC61970/Informative/InfCommon/BusinessPlan.py:34 *) (n_CIM15_IEC61970_Informative_InfCommon_BusinessPlan_BusinessPlan, []);
  (* CIM15/IEC61970/Informative/InfCommon/BusinessRole.py:45 *) (n_CIM15_IEC61970_Informative_InfCommon_BusinessRole_BusinessRole, [(n_category, TyStr)]);
  (* CIM15/IEC61970/Informative/InfCommon/Craft.py:53 *) (n_CIM15_IEC61970_Informative_InfCommon_Craft_Craft, [(n_category, TyStr)]);
  (* CIM15/IEC61970/Informative/InfCommon/DocDocRole.py:42 *) (n_CIM15_IEC61970_Informative_InfCommon_DocDocRole_DocDocRole, []);
  (* CIM15/IEC61970/Informative/InfCommon/DocPsrRole.py:42 *) (n_CIM15_IEC61970_Informative_InfCommon_DocPsrRole_DocPsrRole, []);
  (* CIM15/IEC61970/Informative/InfCommon/Ratio.py:40 *) (n_CIM15_IEC61970_Informative_InfCommon_Ratio_Ratio, [(n_numerator, TyFloat); (n_denominator, TyFloat)]);
  (* CIM15/IEC61970/Informative/InfCommon/Role.py:41 *) (n_CIM15_IEC61970_Informative_InfCommon_Role_Role, [(n_category, TyStr)]);
  (* CIM15/IEC61970/Informative/InfCommon/ScheduleParameterInfo.py:55 *) (n_CIM15_IEC61970_Informative_InfCommon_ScheduleParameterInfo_ScheduleParameterInfo, []);
  (* CIM15/IEC61970/Informative/InfCommon/ScheduledEvent.py:65 *) (n_CIM15_IEC61970_Informative_InfCommon_ScheduledEvent_ScheduledEvent, [(n_duration, TyFloat); (n_category, TyStr)]);
  (* CIM15/IEC61970/Informative/InfCommon/Skill.py:57 *) (n_CIM15_IEC61970_Informative_InfCommon_Skill_Skill, [(n_effectiveDateTime, TyStr); (n_level, TyStr)]);
  (* CIM15/IEC61970/Informative/InfCore/ModelingAuthority.py:38 *) (n_CIM15_IEC61970_Informative_InfCore_ModelingAuthority_ModelingAuthority, []);
  (* CIM15/IEC61970/Informative/InfCore/ModelingAuthoritySet.py:42 *) (n_CIM15_IEC61970_Informative_InfCore_ModelingAuthoritySet_ModelingAuthoritySet, []);
  (* CIM15/IEC61970/Informative/InfCustomers/ComplianceEvent.py:38 *) (n_CIM15_IEC61970_Informative_InfCustomers_ComplianceEvent_ComplianceEvent, [(n_deadline, TyStr)]);
  (* CIM15/IEC61970/Informative/InfCustomers/CustomerBillingInfo.py:74 *) (n_CIM15_IEC61970_Informative_InfCustomers_CustomerBillingInfo_CustomerBillingInfo, [(n_pymtPlanType, TyStr); (n_kind, TyStr); (n_pymtPlanAmt, TyFloat); (n_lastPaymentAmt, TyFloat); (n_dueDate, TyStr); (n_outBalance, TyFloat); (n_lastPaymentDate, TyStr); (n_billingDate, TyStr)]);
  (* CIM15/IEC61970/Informative/InfCustomers/ExternalCustomerAgreement.py:34 *) (n_CIM15_IEC61970_Informative_InfCustomers_ExternalCustomerAgreement_ExternalCustomerAgreement, []);
  (* CIM15/IEC61970/Informative/InfCustomers/OutageHistory.py:38 *) (n_CIM15_IEC61970_Informative_InfCustomers_OutageHistory_OutageHistory, []);
  (* CIM15/IEC61970/Informative/InfCustomers/PowerQualityPricing.py:70 *) (n_CIM15_IEC61970_Informative_InfCustomers_PowerQualityPricing_PowerQualityPricing, [(n_normalLowVoltLimit, TyFloat); (n_valueUninterruptedServiceEnergy, TyFloat); (n_voltLimitViolCost, TyFloat); (n_normalHighVoltLimit, TyFloat); (n_emergencyHighVoltLimit, TyFloat); (n_emergencyLowVoltLimit, TyFloat); (n_powerFactorMin, TyFloat); (n_voltImbalanceViolCost, TyFloat); (n_valueUninterruptedServiceP, TyFloat)]);
  (* CIM15/IEC61970/Informative/InfCustomers/ServiceGuarantee.py:49 *) (n_CIM15_IEC61970_Informative_InfCustomers_ServiceGuarantee_ServiceGuarantee, [(n_automaticPay, TyBool); (n_payAmount, TyFloat); (n_serviceRequirement, TyStr)]);
  (* CIM15/IEC61970/Informative/InfCustomers/StandardIndustryCode.py:42 *) (n_CIM15_IEC61970_Informative_InfCustomers_StandardIndustryCode_StandardIndustryCode, [(n_code, TyStr)]);
  (* CIM15/IEC61970/Informative/InfCustomers/SubscribePowerCurve.py:34 *) (n_CIM15_IEC61970_Informative_InfCustomers_SubscribePowerCurve_SubscribePowerCurve, []);
  (* CIM15/IEC61970/Informative/InfCustomers/WorkBillingInfo.py:74 *) (n_CIM15_IEC61970_Informative_InfCustomers_WorkBillingInfo_WorkBillingInfo, [(n_issueDateTime, TyStr); (n_deposit, TyFloat); (n_costEstimate, TyFloat); (n_discount, TyFloat); (n_dueDateTime, TyStr); (n_receivedDateTime, TyStr); (n_workPrice, TyFloat)]);
  (* CIM15/IEC61970/Informative/InfERPSupport/DocErpPersonRole.py:42 *) (n_CIM15_IEC61970_Informative_InfERPSupport_DocErpPersonRole_DocErpPersonRole, []);
  (* CIM15/IEC61970/Informative/InfERPSupport/DocOrgRole.py:42 *) (n_CIM15_IEC61970_Informative_InfERPSupport_DocOrgRole_DocOrgRole, []);
  (* CIM15/IEC61970/Informative/InfERPSupport/ErpBOM.py:42 *) (n_CIM15_IEC61970_Informative_InfERPSupport_ErpBOM_ErpBOM, []);
  (* CIM15/IEC61970/Informative/InfERPSupport/ErpBankAccount.py:38 *) (n_CIM15_IEC61970_Informative_InfERPSupport_ErpBankAccount_ErpBankAccount, [(n_bankABA, TyStr)]);
  (* CIM15/IEC61970/Informative/InfERPSupport/ErpBomItemData.py:46 *) (n_CIM15_IEC61970_Informative_InfERPSupport_ErpBomItemData_ErpBomItemData, []);
  (* CIM15/IEC61970/Informative/InfERPSupport/ErpChartOfAccounts.py:34 *) (n_CIM15_IEC61970_Informative_InfERPSupport_ErpChartOfAccounts_ErpChartOfAccounts, []);
  (* CIM15/IEC61970/Informative/InfERPSupport/ErpCompetency.py:38 *) (n_CIM15_IEC61970_Informative_InfERPSupport_ErpCompetency_ErpCompetency, []);
  (* CIM15/IEC61970/Informative/InfERPSupport/ErpEngChangeOrder.py:34 *) (n_CIM15_IEC61970_Informative_InfERPSupport_ErpEngChangeOrder_ErpEngChangeOrder, []);
  (* CIM15/IEC61970/Informative/InfERPSupport/ErpInventory.py:41 *) (n_CIM15_IEC61970_Informative_InfERPSupport_ErpInventory_ErpInventory, []);
  (* CIM15/IEC61970/Informative/InfERPSupport/ErpInventoryCount.py:45 *) (n_CIM15_IEC61970_Informative_InfERPSupport_ErpInventoryCount_ErpInventoryCount, []);
  (* CIM15/IEC61970/Informative/InfERPSupport/ErpInvoice.py:78 *) (n_CIM15_IEC61970_Informative_InfERPSupport_ErpInvoice_ErpInvoice, [(n_mailedDate, TyStr); (n_transactionDateTime, TyStr); (n_amount, TyFloat); (n_dueDate, TyStr); (n_billMediaKind, TyStr); (n_referenceNumber, TyStr); (n_kind, TyStr); (n_transferType, TyStr); (n_proForma, TyBool)]);
  (* CIM15/IEC61970/Informative/InfERPSupport/ErpInvoiceLineItem.py:117 *) (n_CIM15_IEC61970_Informative_InfERPSupport_ErpInvoiceLineItem_ErpInvoiceLineItem, [(n_lineNumber, TyStr); (n_glDateTime, TyStr); (n_lineAmount, TyFloat); (n_netAmount, TyFloat); (n_kind, TyStr); (n_lineVersion, TyStr); (n_glAccount, TyStr); (n_previousAmount, TyFloat)]);
  (* CIM15/IEC61970/Informative/InfERPSupport/ErpIssueInventory.py:45 *) (n_CIM15_IEC61970_Informative_InfERPSupport_ErpIssueInventory_ErpIssueInventory, []);
  (* CIM15/IEC61970/Informative/InfERPSupport/ErpItemMaster.py:41 *) (n_CIM15_IEC61970_Informative_InfERPSupport_ErpItemMaster_ErpItemMaster, []);
  (* CIM15/IEC61970/Informative/InfERPSupport/ErpJournal.py:38 *) (n_CIM15_IEC61970_Informative_InfERPSupport_ErpJournal_ErpJournal, []);
  (* CIM15/IEC61970/Informative/InfERPSupport/ErpJournalEntry.py:81 *) (n_CIM15_IEC61970_Informative_InfERPSupport_ErpJournalEntry_ErpJournalEntry, [(n_transactionDateTime, TyStr); (n_sourceID, TyStr); (n_postingDateTime, TyStr); (n_amount, TyFloat); (n_accountID, TyStr)]);
  (* CIM15/IEC61970/Informative/InfERPSupport/ErpLedBudLineItem.py:45 *) (n_CIM15_IEC61970_Informative_InfERPSupport_ErpLedBudLineItem_ErpLedBudLineItem, []);
  (* CIM15/IEC61970/Informative/InfERPSupport/ErpLedger.py:38 *) (n_CIM15_IEC61970_Informative_InfERPSupport_ErpLedger_ErpLedger, []);
  (* CIM15/IEC61970/Informative/InfERPSupport/ErpLedgerBudget.py:38 *) (n_CIM15_IEC61970_Informative_InfERPSupport_ErpLedgerBudget_ErpLedgerBudget, []);
  (* CIM15/IEC61970/Informative/InfERPSupport/ErpLedgerEntry.py:73 *) (n_CIM15_IEC61970_Informative_InfERPSupport_ErpLedgerEntry_ErpLedgerEntry, [(n_transactionDateTime, TyStr); (n_accountKind, TyStr); (n_amount, TyFloat); (n_postedDateTime, TyStr); (n_accountID, TyStr)]);
  (* CIM15/IEC61970/Informative/InfERPSupport/ErpOrganisation.py:114 *) (n_CIM15_IEC61970_Informative_InfERPSupport_ErpOrganisation_ErpOrganisation, [(n_category, TyStr); (n_code, TyStr); (n_industryID, TyStr); (n_governmentID, TyStr); (n_optOut, TyBool); (n_isCostCenter, TyBool); (n_isProfitCenter, TyBool); (n_mode, TyStr)]);
  (* CIM15/IEC61970/Informative/InfERPSupport/ErpPOLineItem.py:54 *) (n_CIM15_IEC61970_Informative_InfERPSupport_ErpPOLineItem_ErpPOLineItem, []);
  (* CIM15/IEC61970/Informative/InfERPSupport/ErpPayable.py:42 *) (n_CIM15_IEC61970_Informative_InfERPSupport_ErpPayable_ErpPayable, []);
  (* CIM15/IEC61970/Informative/InfERPSupport/ErpPayableLineItem.py:53 *) (n_CIM15_IEC61970_Informative_InfERPSupport_ErpPayableLineItem_ErpPayableLineItem, []);
  (* CIM15/IEC61970/Informative/InfERPSupport/ErpPayment.py:50 *) (n_CIM15_IEC61970_Informative_InfERPSupport_ErpPayment_ErpPayment, [(n_termsPayment, TyStr)]);
  (* CIM15/IEC61970/Informative/InfERPSupport/ErpPerson.py:146 *) (n_CIM15_IEC61970_Informative_InfERPSupport_ErpPerson_ErpPerson, [(n_category, TyStr); (n_lastName, TyStr); (n_firstName, TyStr); (n_governmentID, TyStr); (n_mName, TyStr); (n_suffix, TyStr); (n_specialNeed, TyStr); (n_prefix, TyStr)]);
  (* CIM15/IEC61970/Informative/InfERPSupport/ErpPersonnel.py:41 *) (n_CIM15_IEC61970_Informative_InfERPSupport_ErpPersonnel_ErpPersonnel, []);
  (* CIM15/IEC61970/Informative/InfERPSupport/ErpProjectAccounting.py:50 *) (n_CIM15_IEC61970_Informative_InfERPSupport_ErpProjectAccounting_ErpProjectAccounting, []);
  (* CIM15/IEC61970/Informative/InfERPSupport/ErpPurchaseOrder.py:38 *) (n_CIM15_IEC61970_Informative_InfERPSupport_ErpPurchaseOrder_ErpPurchaseOrder, []);
  (* CIM15/IEC61970/Informative/InfERPSupport/ErpQuote.py:38 *) (n_CIM15_IEC61970_Informative_InfERPSupport_ErpQuote_ErpQuote, []);
  (* CIM15/IEC61970/Informative/InfERPSupport/ErpQuoteLineItem.py:61 *) (n_CIM15_IEC61970_Informative_InfERPSupport_ErpQuoteLineItem_ErpQuoteLineItem, []);
  (* CIM15/IEC61970/Informative/InfERPSupport/ErpRecDelvLineItem.py:57 *) (n_CIM15_IEC61970_Informative_InfERPSupport_ErpRecDelvLineItem_ErpRecDelvLineItem, []);
  (* CIM15/IEC61970/Informative/InfERPSupport/ErpRecLineItem.py:53 *) (n_CIM15_IEC61970_Informative_InfERPSupport_ErpRecLineItem_ErpRecLineItem, []);
  (* CIM15/IEC61970/Informative/InfERPSupport/ErpReceivable.py:38 *) (n_CIM15_IEC61970_Informative_InfERPSupport_ErpReceivable_ErpReceivable, []);
  (* CIM15/IEC61970/Informative/InfERPSupport/ErpReceiveDelivery.py:38 *) (n_CIM15_IEC61970_Informative_InfERPSupport_ErpReceiveDelivery_ErpReceiveDelivery, []);
  (* CIM15/IEC61970/Informative/InfERPSupport/ErpReqLineItem.py:73 *) (n_CIM15_IEC61970_Informative_InfERPSupport_ErpReqLineItem_ErpReqLineItem, [(n_cost, TyFloat); (n_quantity, TyInt); (n_deliveryDate, TyStr); (n_code, TyStr)]);
  (* CIM15/IEC61970/Informative/InfERPSupport/ErpRequisition.py:38 *) (n_CIM15_IEC61970_Informative_InfERPSupport_ErpRequisition_ErpRequisition, []);
  (* CIM15/IEC61970/Informative/InfERPSupport/ErpSalesOrder.py:34 *) (n_CIM15_IEC61970_Informative_InfERPSupport_ErpSalesOrder_ErpSalesOrder, []);
  (* CIM15/IEC61970/Informative/InfERPSupport/ErpSiteLevelData.py:41 *) (n_CIM15_IEC61970_Informative_InfERPSupport_ErpSiteLevelData_ErpSiteLevelData, []);
  (* CIM15/IEC61970/Informative/InfERPSupport/ErpTimeEntry.py:45 *) (n_CIM15_IEC61970_Informative_InfERPSupport_ErpTimeEntry_ErpTimeEntry, []);
  (* CIM15/IEC61970/Informative/InfERPSupport/ErpTimeSheet.py:38 *) (n_CIM15_IEC61970_Informative_InfERPSupport_ErpTimeSheet_ErpTimeSheet, []);
  (* CIM15/IEC61970/Informative/InfERPSupport/OrgErpPersonRole.py:46 *) (n_CIM15_IEC61970_Informative_InfERPSupport_OrgErpPersonRole_OrgErpPersonRole, [(n_clientID, TyStr)]);
  (* CIM15/IEC61970/Informative/InfERPSupport/OrgOrgRole.py:46 *) (n_CIM15_IEC61970_Informative_InfERPSupport_OrgOrgRole_OrgOrgRole, [(n_clientID, TyStr)]);
  (* CIM15/IEC61970/Informative/InfGMLSupport/Diagram.py:74 *) (n_CIM15_IEC61970_Informative_InfGMLSupport_Diagram_Diagram, [(n_y1InitialView, TyFloat); (n_kind, TyStr); (n_x2InitialView, TyFloat); (n_x1InitialView, TyFloat); (n_orientation, TyStr); (n_y2InitialView, TyFloat)]);
  (* CIM15/IEC61970/Informative/InfGMLSupport/GmlBaseSymbol.py:38 *) (n_CIM15_IEC61970_Informative_InfGMLSupport_GmlBaseSymbol_GmlBaseSymbol, []);
  (* CIM15/IEC61970/Informative/InfGMLSupport/GmlColour.py:58 *) (n_CIM15_IEC61970_Informative_InfGMLSupport_GmlColour_GmlColour, [(n_red, TyStr); (n_green, TyStr); (n_blue, TyStr)]);
  (* CIM15/IEC61970/Informative/InfGMLSupport/GmlDiagramObject.py:70 *) (n_CIM15_IEC61970_Informative_InfGMLSupport_GmlDiagramObject_GmlDiagramObject, []);
  (* CIM15/IEC61970/Informative/InfGMLSupport/GmlFeatureStyle.py:82 *) (n_CIM15_IEC61970_Informative_InfGMLSupport_GmlFeatureStyle_GmlFeatureStyle, [(n_semanticTypeIdentifier, TyStr); (n_featureType, TyStr); (n_version, TyStr); (n_featureTypeName, TyStr); (n_featureConstraint, TyStr); (n_baseType, TyStr); (n_queryGrammar, TyStr)]);
  (* CIM15/IEC61970/Informative/InfGMLSupport/GmlFeatureType.py:38 *) (n_CIM15_IEC61970_Informative_InfGMLSupport_GmlFeatureType_GmlFeatureType, []);
  (* CIM15/IEC61970/Informative/InfGMLSupport/GmlFill.py:58 *) (n_CIM15_IEC61970_Informative_InfGMLSupport_GmlFill_GmlFill, [(n_opacity, TyFloat)]);
  (* CIM15/IEC61970/Informative/InfGMLSupport/GmlFont.py:66 *) (n_CIM15_IEC61970_Informative_InfGMLSupport_GmlFont_GmlFont, [(n_absoluteSize, TyBool); (n_size, TyStr); (n_style, TyStr); (n_family, TyStr); (n_weight, TyStr)]);
  (* CIM15/IEC61970/Informative/InfGMLSupport/GmlGeometryStyle.py:54 *) (n_CIM15_IEC61970_Informative_InfGMLSupport_GmlGeometryStyle_GmlGeometryStyle, [(n_geometryProperty, TyStr); (n_geometryType, TyStr); (n_symbol, TyStr)]);
  (* CIM15/IEC61970/Informative/InfGMLSupport/GmlGraphic.py:70 *) (n_CIM15_IEC61970_Informative_InfGMLSupport_GmlGraphic_GmlGraphic, [(n_rotation, TyFloat); (n_size, TyInt); (n_symbolID, TyStr); (n_minSize, TyInt); (n_opacity, TyFloat); (n_xScale, TyFloat); (n_yScale, TyFloat)]);
  (* CIM15/IEC61970/Informative/InfGMLSupport/GmlHalo.py:46 *) (n_CIM15_IEC61970_Informative_InfGMLSupport_GmlHalo_GmlHalo, [(n_radius, TyStr); (n_opacity, TyFloat)]);
  (* CIM15/IEC61970/Informative/InfGMLSupport/GmlLabelPlacement.py:66 *) (n_CIM15_IEC61970_Informative_InfGMLSupport_GmlLabelPlacement_GmlLabelPlacement, [(n_displacementX, TyStr); (n_rotation, TyStr); (n_displacementY, TyStr); (n_type, TyStr); (n_anchorX, TyStr); (n_anchorY, TyStr); (n_offset, TyStr)]);
  (* CIM15/IEC61970/Informative/InfGMLSupport/GmlLabelStyle.py:58 *) (n_CIM15_IEC61970_Informative_InfGMLSupport_GmlLabelStyle_GmlLabelStyle, [(n_transform, TyStr); (n_labelExpression, TyStr); (n_style, TyStr)]);
  (* CIM15/IEC61970/Informative/InfGMLSupport/GmlLineGeometry.py:38 *) (n_CIM15_IEC61970_Informative_InfGMLSupport_GmlLineGeometry_GmlLineGeometry, [(n_sourceSide, TyStr)]);
  (* CIM15/IEC61970/Informative/InfGMLSupport/GmlLineSymbol.py:46 *) (n_CIM15_IEC61970_Informative_InfGMLSupport_GmlLineSymbol_GmlLineSymbol, [(n_sourceSide, TyStr)]);
  (* CIM15/IEC61970/Informative/InfGMLSupport/GmlMark.py:50 *) (n_CIM15_IEC61970_Informative_InfGMLSupport_GmlMark_GmlMark, [(n_wellKnownName, TyStr)]);
  (* CIM15/IEC61970/Informative/InfGMLSupport/GmlObservation.py:62 *) (n_CIM15_IEC61970_Informative_InfGMLSupport_GmlObservation_GmlObservation, [(n_resultOf, TyStr); (n_target, TyStr); (n_using, TyStr); (n_dateTime, TyStr)]);
  (* CIM15/IEC61970/Informative/InfGMLSupport/GmlPointGeometry.py:34 *) (n_CIM15_IEC61970_Informative_InfGMLSupport_GmlPointGeometry_GmlPointGeometry, []);
  (* CIM15/IEC61970/Informative/InfGMLSupport/GmlPointSymbol.py:42 *) (n_CIM15_IEC61970_Informative_InfGMLSupport_GmlPointSymbol_GmlPointSymbol, []);
  (* CIM15/IEC61970/Informative/InfGMLSupport/GmlPolygonGeometry.py:34 *) (n_CIM15_IEC61970_Informative_InfGMLSupport_GmlPolygonGeometry_GmlPolygonGeometry, []);
  (* CIM15/IEC61970/Informative/InfGMLSupport/GmlPolygonSymbol.py:46 *) (n_CIM15_IEC61970_Informative_InfGMLSupport_GmlPolygonSymbol_GmlPolygonSymbol, []);
  (* CIM15/IEC61970/Informative/InfGMLSupport/GmlPosition.py:34 *) (n_CIM15_IEC61970_Informative_InfGMLSupport_GmlPosition_GmlPosition, []);
  (* CIM15/IEC61970/Informative/InfGMLSupport/GmlRasterSymbol.py:70 *) (n_CIM15_IEC61970_Informative_InfGMLSupport_GmlRasterSymbol_GmlRasterSymbol, [(n_graySourcename, TyStr); (n_greenSourceName, TyStr); (n_opacity, TyFloat); (n_reliefFactor, TyStr); (n_redSourcename, TyStr); (n_overlapbehaviour, TyStr); (n_brighnessOnly, TyBool); (n_blueSourcename, TyStr)]);
  (* CIM15/IEC61970/Informative/InfGMLSupport/GmlSelector.py:42 *) (n_CIM15_IEC61970_Informative_InfGMLSupport_GmlSelector_GmlSelector, []);
  (* CIM15/IEC61970/Informative/InfGMLSupport/GmlStroke.py:82 *) (n_CIM15_IEC61970_Informative_InfGMLSupport_GmlStroke_GmlStroke, [(n_lineCap, TyStr); (n_width, TyFloat); (n_linejoin, TyStr); (n_dashArray, TyStr); (n_lineStyle, TyStr); (n_dashOffset, TyStr); (n_opacity, TyFloat)]);
  (* CIM15/IEC61970/Informative/InfGMLSupport/GmlSvgParameter.py:54 *) (n_CIM15_IEC61970_Informative_InfGMLSupport_GmlSvgParameter_GmlSvgParameter, [(n_attribute, TyStr); (n_value, TyStr)]);
  (* CIM15/IEC61970/Informative/InfGMLSupport/GmlSymbol.py:54 *) (n_CIM15_IEC61970_Informative_InfGMLSupport_GmlSymbol_GmlSymbol, [(n_version, TyStr); (n_level, TyStr); (n_type, TyStr)]);
  (* CIM15/IEC61970/Informative/InfGMLSupport/GmlTextSymbol.py:74 *) (n_CIM15_IEC61970_Informative_InfGMLSupport_GmlTextSymbol_GmlTextSymbol, [(n_label, TyStr); (n_labelType, TyStr); (n_fieldID, TyStr); (n_minFontSize, TyInt); (n_property, TyStr)]);
  (* CIM15/IEC61970/Informative/InfGMLSupport/GmlTopologyStyle.py:42 *) (n_CIM15_IEC61970_Informative_InfGMLSupport_GmlTopologyStyle_GmlTopologyStyle, []);
  (* CIM15/IEC61970/Informative/InfGMLSupport/GmlValue.py:54 *) (n_CIM15_IEC61970_Informative_InfGMLSupport_GmlValue_GmlValue, [(n_dateTime, TyStr); (n_timePeriod, TyStr); (n_value, TyFloat)]);
  (* CIM15/IEC61970/Informative/InfGMLSupport/Map.py:42 *) (n_CIM15_IEC61970_Informative_InfGMLSupport_Map_Map, [(n_pageNumber, TyInt); (n_mapLocGrid, TyStr)]);
  (* CIM15/IEC61970/Informative/InfLoadControl/LoadLimitFunction.py:50 *) (n_CIM15_IEC61970_Informative_InfLoadControl_LoadLimitFunction_LoadLimitFunction, [(n_disconnectTimeDelay, TyFloat); (n_isAutoReconOp, TyBool); (n_reconnectTimeDelay, TyFloat); (n_maximumLoad, TyFloat)]);
  (* CIM15/IEC61970/Informative/InfLoadControl/LoadMgmtFunction.py:66 *) (n_CIM15_IEC61970_Informative_InfLoadControl_LoadMgmtFunction_LoadMgmtFunction, [(n_schedulingBasis, TyStr); (n_remoteOverRide, TyBool); (n_isAutoOp, TyBool); (n_loadStatus, TyStr); (n_manualOverRide, TyBool); (n_overRideTimeOut, TyFloat)]);
  (* CIM15/IEC61970/Informative/InfLoadControl/LoadMgmtRecord.py:42 *) (n_CIM15_IEC61970_Informative_InfLoadControl_LoadMgmtRecord_LoadMgmtRecord, [(n_loadReduction, TyFloat)]);
  (* CIM15/IEC61970/Informative/InfLoadControl/LoadShedFunction.py:38 *) (n_CIM15_IEC61970_Informative_InfLoadControl_LoadShedFunction_LoadShedFunction, [(n_switchedLoad, TyFloat)]);
  (* CIM15/IEC61970/Informative/InfLocations/Direction.py:42 *) (n_CIM15_IEC61970_Informative_InfLocations_Direction_Direction, [(n_directionInfo, TyStr)]);
  (* CIM15/IEC61970/Informative/InfLocations/Hazard.py:45 *) (n_CIM15_IEC61970_Informative_InfLocations_Hazard_Hazard, [(n_category, TyStr)]);
  (* CIM15/IEC61970/Informative/InfLocations/LandProperty.py:77 *) (n_CIM15_IEC61970_Informative_InfLocations_LandProperty_LandProperty, [(n_kind, TyStr); (n_externalRecordReference, TyStr); (n_demographicKind, TyStr)]);
  (* CIM15/IEC61970/Informative/InfLocations/LocationGrant.py:42 *) (n_CIM15_IEC61970_Informative_InfLocations_LocationGrant_LocationGrant, [(n_propertyData, TyStr)]);
  (* CIM15/IEC61970/Informative/InfLocations/OrgPropertyRole.py:42 *) (n_CIM15_IEC61970_Informative_InfLocations_OrgPropertyRole_OrgPropertyRole, []);
  (* CIM15/IEC61970/Informative/InfLocations/PersonPropertyRole.py:42 *) (n_CIM15_IEC61970_Informative_InfLocations_PersonPropertyRole_PersonPropertyRole, []);
  (* CIM15/IEC61970/Informative/InfLocations/RedLine.py:41 *) (n_CIM15_IEC61970_Informative_InfLocations_RedLine_RedLine, []);
  (* CIM15/IEC61970/Informative/InfLocations/RightOfWay.py:42 *) (n_CIM15_IEC61970_Informative_InfLocations_RightOfWay_RightOfWay, [(n_propertyData, TyStr)]);
  (* CIM15/IEC61970/Informative/InfLocations/Route.py:49 *) (n_CIM15_IEC61970_Informative_InfLocations_Route_Route, [(n_category, TyStr)]);
  (* CIM15/IEC61970/Informative/InfLocations/Zone.py:38 *) (n_CIM15_IEC61970_Informative_InfLocations_Zone_Zone, [(n_kind, TyStr)]);
  (* CIM15/IEC61970/Informative/InfMetering/GasMeteringFunction.py:34 *) (n_CIM15_IEC61970_Informative_InfMetering_GasMeteringFunction_GasMeteringFunction, []);
  (* CIM15/IEC61970/Informative/InfMetering/WaterMeteringFunction.py:34 *) (n_CIM15_IEC61970_Informative_InfMetering_WaterMeteringFunction_WaterMeteringFunction, []);
  (* CIM15/IEC61970/Informative/InfOperations/CallBack.py:69 *) (n_CIM15_IEC61970_Informative_InfOperations_CallBack_CallBack, [(n_dateTime, TyStr); (n_comment, TyStr); (n_advice, TyStr); (n_contactDetail, TyStr); (n_problemInfo, TyStr)]);
  (* CIM15/IEC61970/Informative/InfOperations/ChangeItem.py:85 *) (n_CIM15_IEC61970_Informative_InfOperations_ChangeItem_ChangeItem, [(n_sequenceNumber, TyInt); (n_kind, TyStr)]);
  (* CIM15/IEC61970/Informative/InfOperations/ChangeSet.py:49 *) (n_CIM15_IEC61970_Informative_InfOperations_ChangeSet_ChangeSet, []);
  (* CIM15/IEC61970/Informative/InfOperations/Circuit.py:38 *) (n_CIM15_IEC61970_Informative_InfOperations_Circuit_Circuit, []);
  (* CIM15/IEC61970/Informative/InfOperations/CircuitSection.py:46 *) (n_CIM15_IEC61970_Informative_InfOperations_CircuitSection_CircuitSection, [(n_connectionKind, TyStr)]);
  (* CIM15/IEC61970/Informative/InfOperations/ErpPersonScheduleStepRole.py:42 *) (n_CIM15_IEC61970_Informative_InfOperations_ErpPersonScheduleStepRole_ErpPersonScheduleStepRole, []);
  (* CIM15/IEC61970/Informative/InfOperations/IncidentCode.py:42 *) (n_CIM15_IEC61970_Informative_InfOperations_IncidentCode_IncidentCode, [(n_subCode, TyStr)]);
  (* CIM15/IEC61970/Informative/InfOperations/IncidentRecord.py:45 *) (n_CIM15_IEC61970_Informative_InfOperations_IncidentRecord_IncidentRecord, []);
  (* CIM15/IEC61970/Informative/InfOperations/LandBase.py:34 *) (n_CIM15_IEC61970_Informative_InfOperations_LandBase_LandBase, []);
  (* CIM15/IEC61970/Informative/InfOperations/NetworkDataSet.py:57 *) (n_CIM15_IEC61970_Informative_InfOperations_NetworkDataSet_NetworkDataSet, [(n_category, TyStr)]);
  (* CIM15/IEC61970/Informative/InfOperations/OperationalRestriction.py:37 *) (n_CIM15_IEC61970_Informative_InfOperations_OperationalRestriction_OperationalRestriction, []);
  (* CIM15/IEC61970/Informative/InfOperations/OrgPsrRole.py:42 *) (n_CIM15_IEC61970_Informative_InfOperations_OrgPsrRole_OrgPsrRole, []);
  (* CIM15/IEC61970/Informative/InfOperations/OutageCode.py:46 *) (n_CIM15_IEC61970_Informative_InfOperations_OutageCode_OutageCode, [(n_subCode, TyStr)]);
  (* CIM15/IEC61970/Informative/InfOperations/OutageNotification.py:50 *) (n_CIM15_IEC61970_Informative_InfOperations_OutageNotification_OutageNotification, [(n_expectedInterruptionCount, TyInt); (n_duration, TyFloat); (n_reason, TyStr)]);
  (* CIM15/IEC61970/Informative/InfOperations/OutageRecord.py:66 *) (n_CIM15_IEC61970_Informative_InfOperations_OutageRecord_OutageRecord, [(n_endDateTime, TyStr); (n_isPlanned, TyBool); (n_damageCode, TyStr); (n_actionTaken, TyStr); (n_mode, TyStr)]);
  (* CIM15/IEC61970/Informative/InfOperations/OutageReport.py:58 *) (n_CIM15_IEC61970_Informative_InfOperations_OutageReport_OutageReport, [(n_customerCount, TyInt); (n_averageCml, TyFloat); (n_outageDuration, TyFloat); (n_totalCml, TyFloat)]);
  (* CIM15/IEC61970/Informative/InfOperations/OutageStep.py:104 *) (n_CIM15_IEC61970_Informative_InfOperations_OutageStep_OutageStep, [(n_averageCml, TyFloat); (n_damage, TyBool); (n_specialCustomerCount, TyInt); (n_criticalCustomerCount, TyInt); (n_estimatedRestoreDateTime, TyStr); (n_shockReported, TyBool); (n_callerCount, TyInt); (n_fatality, TyBool); (n_jobPriority, TyStr); (n_totalCustomerCount, TyInt); (n_injury, TyBool); (n_totalCml, TyFloat)]);
  (* CIM15/IEC61970/Informative/InfOperations/OutageStepPsrRole.py:42 *) (n_CIM15_IEC61970_Informative_InfOperations_OutageStepPsrRole_OutageStepPsrRole, []);
  (* CIM15/IEC61970/Informative/InfOperations/PSREvent.py:42 *) (n_CIM15_IEC61970_Informative_InfOperations_PSREvent_PSREvent, [(n_kind, TyStr)]);
  (* CIM15/IEC61970/Informative/InfOperations/PlannedOutage.py:46 *) (n_CIM15_IEC61970_Informative_InfOperations_PlannedOutage_PlannedOutage, [(n_kind, TyStr)]);
  (* CIM15/IEC61970/Informative/InfOperations/SafetyDocument.py:46 *) (n_CIM15_IEC61970_Informative_InfOperations_SafetyDocument_SafetyDocument, []);
  (* CIM15/IEC61970/Informative/InfOperations/SwitchingSchedule.py:53 *) (n_CIM15_IEC61970_Informative_InfOperations_SwitchingSchedule_SwitchingSchedule, [(n_reason, TyStr)]);
  (* CIM15/IEC61970/Informative/InfOperations/SwitchingStep.py:69 *) (n_CIM15_IEC61970_Informative_InfOperations_SwitchingStep_SwitchingStep, [(n_statusKind, TyStr); (n_text, TyStr); (n_requiredControlAction, TyStr); (n_desiredEndState, TyStr)]);
  (* CIM15/IEC61970/Informative/InfOperations/TroubleTicket.py:85 *) (n_CIM15_IEC61970_Informative_InfOperations_TroubleTicket_TroubleTicket, [(n_firstCallDateTime, TyStr); (n_estimatedRestoreDateTime, TyStr); (n_informBeforeRestored, TyBool); (n_reportingKind, TyStr); (n_priority, TyStr); (n_informAfterRestored, TyBool); (n_advice, TyStr); (n_hazardCode, TyStr); (n_callBack, TyBool)]);
  (* CIM15/IEC61970/Informative/InfTypeAsset/GeneratorTypeAsset.py:98 *) (n_CIM15_IEC61970_Informative_InfTypeAsset_GeneratorTypeAsset_GeneratorTypeAsset, [(n_xDirectSync, TyFloat); (n_rQuadSubtrans, TyFloat); (n_rDirectSync, TyFloat); (n_rDirectSubtrans, TyFloat); (n_maxQ, TyFloat); (n_xQuadSync, TyFloat); (n_minQ, TyFloat); (n_minP, TyFloat); (n_maxP, TyFloat); (n_rQuadSync, TyFloat); (n_xQuadSubtrans, TyFloat); (n_rDirectTrans, TyFloat); (n_rQuadTrans, TyFloat); (n_xDirectSubtrans, TyFloat); (n_xDirectTrans, TyFloat); (n_xQuadTrans, TyFloat)]);
  (* CIM15/IEC61970/Informative/InfTypeAsset/TypeAssetCatalogue.py:41 *) (n_CIM15_IEC61970_Informative_InfTypeAsset_TypeAssetCatalogue_TypeAssetCatalogue, []);
  (* CIM15/IEC61970/Informative/InfWork/AccessPermit.py:54 *) (n_CIM15_IEC61970_Informative_InfWork_AccessPermit_AccessPermit, [(n_applicationNumber, TyStr); (n_payment, TyFloat); (n_effectiveDate, TyStr); (n_expirationDate, TyStr); (n_permitID, TyStr)]);
  (* CIM15/IEC61970/Informative/InfWork/Appointment.py:56 *) (n_CIM15_IEC61970_Informative_InfWork_Appointment_Appointment, [(n_callAhead, TyBool); (n_remark, TyStr)]);
  (* CIM15/IEC61970/Informative/InfWork/Assignment.py:41 *) (n_CIM15_IEC61970_Informative_InfWork_Assignment_Assignment, []);
  (* CIM15/IEC61970/Informative/InfWork/BusinessCase.py:46 *) (n_CIM15_IEC61970_Informative_InfWork_BusinessCase_BusinessCase, [(n_corporateCode, TyStr)]);
  (* CIM15/IEC61970/Informative/InfWork/CUAllowableAction.py:41 *) (n_CIM15_IEC61970_Informative_InfWork_CUAllowableAction_CUAllowableAction, []);
  (* CIM15/IEC61970/Informative/InfWork/CUAsset.py:53 *) (n_CIM15_IEC61970_Informative_InfWork_CUAsset_CUAsset, [(n_quantity, TyStr); (n_typeAssetCode, TyStr)]);
  (* CIM15/IEC61970/Informative/InfWork/CUContractorItem.py:49 *) (n_CIM15_IEC61970_Informative_InfWork_CUContractorItem_CUContractorItem, [(n_bidAmount, TyFloat); (n_activityCode, TyStr)]);
  (* CIM15/IEC61970/Informative/InfWork/CUGroup.py:53 *) (n_CIM15_IEC61970_Informative_InfWork_CUGroup_CUGroup, []);
  (* CIM15/IEC61970/Informative/InfWork/CULaborCode.py:45 *) (n_CIM15_IEC61970_Informative_InfWork_CULaborCode_CULaborCode, [(n_code, TyStr)]);
  (* CIM15/IEC61970/Informative/InfWork/CULaborItem.py:61 *) (n_CIM15_IEC61970_Informative_InfWork_CULaborItem_CULaborItem, [(n_laborDuration, TyFloat); (n_laborRate, TyFloat); (n_activityCode, TyStr)]);
  (* CIM15/IEC61970/Informative/InfWork/CUMaterialItem.py:57 *) (n_CIM15_IEC61970_Informative_InfWork_CUMaterialItem_CUMaterialItem, [(n_quantity, TyStr); (n_corporateCode, TyStr)]);
  (* CIM15/IEC61970/Informative/InfWork/CUWorkEquipmentItem.py:53 *) (n_CIM15_IEC61970_Informative_InfWork_CUWorkEquipmentItem_CUWorkEquipmentItem, [(n_rate, TyFloat); (n_equipCode, TyStr)]);
  (* CIM15/IEC61970/Informative/InfWork/Capability.py:60 *) (n_CIM15_IEC61970_Informative_InfWork_Capability_Capability, [(n_category, TyStr); (n_performanceFactor, TyStr)]);
  (* CIM15/IEC61970/Informative/InfWork/CompatibleUnit.py:86 *) (n_CIM15_IEC61970_Informative_InfWork_CompatibleUnit_CompatibleUnit, [(n_quantity, TyStr); (n_estCost, TyFloat)]);
  (* CIM15/IEC61970/Informative/InfWork/ConditionFactor.py:57 *) (n_CIM15_IEC61970_Informative_InfWork_ConditionFactor_ConditionFactor, [(n_kind, TyStr); (n_cfValue, TyStr)]);
  (* CIM15/IEC61970/Informative/InfWork/ContractorItem.py:61 *) (n_CIM15_IEC61970_Informative_InfWork_ContractorItem_ContractorItem, [(n_bidAmount, TyFloat); (n_activityCode, TyStr); (n_cost, TyFloat)]);
  (* CIM15/IEC61970/Informative/InfWork/CostType.py:73 *) (n_CIM15_IEC61970_Informative_InfWork_CostType_CostType, [(n_stage, TyStr); (n_code, TyStr); (n_level, TyStr); (n_amountAssignable, TyBool)]);
  (* CIM15/IEC61970/Informative/InfWork/Crew.py:90 *) (n_CIM15_IEC61970_Informative_InfWork_Crew_Crew, [(n_category, TyStr)]);
  (* CIM15/IEC61970/Informative/InfWork/Design.py:78 *) (n_CIM15_IEC61970_Informative_InfWork_Design_Design, [(n_costEstimate, TyFloat); (n_kind, TyStr); (n_price, TyFloat)]);
  (* CIM15/IEC61970/Informative/InfWork/DesignLocation.py:73 *) (n_CIM15_IEC61970_Informative_InfWork_DesignLocation_DesignLocation, [(n_spanLength, TyFloat)]);
  (* CIM15/IEC61970/Informative/InfWork/DesignLocationCU.py:85 *) (n_CIM15_IEC61970_Informative_InfWork_DesignLocationCU_DesignLocationCU, [(n_energizationFlag, TyBool); (n_cuUsage, TyStr); (n_removalDate, TyStr); (n_cuAction, TyStr); (n_cuAccount, TyStr); (n_cuQuantity, TyStr)]);
  (* CIM15/IEC61970/Informative/InfWork/DiagnosisDataSet.py:86 *) (n_CIM15_IEC61970_Informative_InfWork_DiagnosisDataSet_DiagnosisDataSet, [(n_finalCause, TyStr); (n_finalRemark, TyStr); (n_phaseCode, TyStr); (n_preliminaryDateTime, TyStr); (n_preliminaryCode, TyStr); (n_rootRemark, TyStr); (n_rootCause, TyStr); (n_preliminaryRemark, TyStr); (n_effect, TyStr); (n_finalOrigin, TyStr); (n_finalCode, TyStr); (n_rootOrigin, TyStr); (n_failureMode, TyStr)]);
  (* CIM15/IEC61970/Informative/InfWork/EquipmentItem.py:53 *) (n_CIM15_IEC61970_Informative_InfWork_EquipmentItem_EquipmentItem, [(n_code, TyStr); (n_cost, TyFloat)]);
  (* CIM15/IEC61970/Informative/InfWork/InfoQuestion.py:62 *) (n_CIM15_IEC61970_Informative_InfWork_InfoQuestion_InfoQuestion, [(n_answer, TyStr); (n_answerRemark, TyStr); (n_questionText, TyStr); (n_answerDateTime, TyStr); (n_questionCode, TyStr); (n_questionRemark, TyStr); (n_questionCategory, TyStr)]);
  (* CIM15/IEC61970/Informative/InfWork/InspectionDataSet.py:42 *) (n_CIM15_IEC61970_Informative_InfWork_InspectionDataSet_InspectionDataSet, [(n_locationCondition, TyStr)]);
  (* CIM15/IEC61970/Informative/InfWork/LaborItem.py:65 *) (n_CIM15_IEC61970_Informative_InfWork_LaborItem_LaborItem, [(n_cost, TyFloat); (n_laborRate, TyFloat); (n_laborDuration, TyFloat); (n_activityCode, TyStr)]);
  (* CIM15/IEC61970/Informative/InfWork/MaintenanceDataSet.py:46 *) (n_CIM15_IEC61970_Informative_InfWork_MaintenanceDataSet_MaintenanceDataSet, [(n_conditionAfter, TyStr); (n_conditionBefore, TyStr); (n_maintCode, TyStr)]);
  (* CIM15/IEC61970/Informative/InfWork/MaterialItem.py:97 *) (n_CIM15_IEC61970_Informative_InfWork_MaterialItem_MaterialItem, [(n_costDescription, TyStr); (n_quantity, TyStr); (n_materialCode, TyStr); (n_externalRefID, TyStr); (n_costType, TyStr); (n_account, TyStr); (n_actualCost, TyFloat)]);
  (* CIM15/IEC61970/Informative/InfWork/MiscCostItem.py:69 *) (n_CIM15_IEC61970_Informative_InfWork_MiscCostItem_MiscCostItem, [(n_quantity, TyStr); (n_costPerUnit, TyFloat); (n_externalRefID, TyStr); (n_account, TyStr); (n_costType, TyStr)]);
  (* CIM15/IEC61970/Informative/InfWork/NonStandardItem.py:42 *) (n_CIM15_IEC61970_Informative_InfWork_NonStandardItem_NonStandardItem, [(n_code, TyStr); (n_amount, TyFloat)]);
  (* CIM15/IEC61970/Informative/InfWork/OneCallRequest.py:50 *) (n_CIM15_IEC61970_Informative_InfWork_OneCallRequest_OneCallRequest, [(n_markedIndicator, TyBool); (n_explosivesUsed, TyBool); (n_markingInstruction, TyStr)]);
  (* CIM15/IEC61970/Informative/InfWork/OverheadCost.py:53 *) (n_CIM15_IEC61970_Informative_InfWork_OverheadCost_OverheadCost, [(n_code, TyStr); (n_cost, TyFloat)]);
  (* CIM15/IEC61970/Informative/InfWork/Project.py:62 *) (n_CIM15_IEC61970_Informative_InfWork_Project_Project, [(n_budget, TyFloat)]);
  (* CIM15/IEC61970/Informative/InfWork/PropertyUnit.py:61 *) (n_CIM15_IEC61970_Informative_InfWork_PropertyUnit_PropertyUnit, [(n_accountingUsage, TyStr); (n_propertyAccount, TyStr); (n_activityCode, TyStr)]);
  (* CIM15/IEC61970/Informative/InfWork/QualificationRequirement.py:54 *) (n_CIM15_IEC61970_Informative_InfWork_QualificationRequirement_QualificationRequirement, [(n_qualificationID, TyStr)]);
  (* CIM15/IEC61970/Informative/InfWork/Regulation.py:38 *) (n_CIM15_IEC61970_Informative_InfWork_Regulation_Regulation, [(n_referenceNumber, TyStr)]);
  (* CIM15/IEC61970/Informative/InfWork/Request.py:62 *) (n_CIM15_IEC61970_Informative_InfWork_Request_Request, [(n_actionNeeded, TyStr); (n_priority, TyStr); (n_corporateCode, TyStr)]);
  (* CIM15/IEC61970/Informative/InfWork/ShiftPattern.py:52 *) (n_CIM15_IEC61970_Informative_InfWork_ShiftPattern_ShiftPattern, [(n_cycleCount, TyInt); (n_assignmentType, TyStr)]);
  (* CIM15/IEC61970/Informative/InfWork/TypeMaterial.py:66 *) (n_CIM15_IEC61970_Informative_InfWork_TypeMaterial_TypeMaterial, [(n_stockItem, TyBool); (n_costType, TyStr); (n_quantity, TyStr); (n_estUnitCost, TyFloat)]);
  (* CIM15/IEC61970/Informative/InfWork/Usage.py:49 *) (n_CIM15_IEC61970_Informative_InfWork_Usage_Usage, []);
  (* CIM15/IEC61970/Informative/InfWork/WorkCostDetail.py:102 *) (n_CIM15_IEC61970_Informative_InfWork_WorkCostDetail_WorkCostDetail, [(n_type, TyStr); (n_isDebit, TyBool); (n_transactionDateTime, TyStr); (n_amount, TyFloat)]);
  (* CIM15/IEC61970/Informative/InfWork/WorkCostSummary.py:38 *) (n_CIM15_IEC61970_Informative_InfWork_WorkCostSummary_WorkCostSummary, []);
  (* CIM15/IEC61970/Informative/InfWork/WorkFlowStep.py:49 *) (n_CIM15_IEC61970_Informative_InfWork_WorkFlowStep_WorkFlowStep, [(n_sequenceNumber, TyInt)]);
  (* CIM15/IEC61970/Informative/InfWork/WorkLocation.py:58 *) (n_CIM15_IEC61970_Informative_InfWork_WorkLocation_WorkLocation, [(n_subdivision, TyStr); (n_nearestIntersection, TyStr); (n_block, TyStr); (n_lot, TyStr)]);
  (* CIM15/IEC61970/Informative/InfWork/WorkStatusEntry.py:38 *) (n_CIM15_IEC61970_Informative_InfWork_WorkStatusEntry_WorkStatusEntry, [(n_percentComplete, TyFloat)]);
  (* CIM15/IEC61970/Informative/InfWork/WorkTask.py:110 *) (n_CIM15_IEC61970_Informative_InfWork_WorkTask_WorkTask, [(n_priority, TyStr); (n_schedOverride, TyStr)]);
  (* CIM15/IEC61970/LoadModel/ConformLoad.py:38 *) (n_CIM15_IEC61970_LoadModel_ConformLoad_ConformLoad, []);
  (* CIM15/IEC61970/LoadModel/ConformLoadGroup.py:42 *) (n_CIM15_IEC61970_LoadModel_ConformLoadGroup_ConformLoadGroup, []);
  (* CIM15/IEC61970/LoadModel/ConformLoadSchedule.py:38 *) (n_CIM15_IEC61970_LoadModel_ConformLoadSchedule_ConformLoadSchedule, []);
  (* CIM15/IEC61970/LoadModel/DayType.py:38 *) (n_CIM15_IEC61970_LoadModel_DayType_DayType, []);
  (* CIM15/IEC61970/LoadModel/EnergyArea.py:38 *) (n_CIM15_IEC61970_LoadModel_EnergyArea_EnergyArea, []);
  (* CIM15/IEC61970/LoadModel/LoadArea.py:38 *) (n_CIM15_IEC61970_LoadModel_LoadArea_LoadArea, []);
  (* CIM15/IEC61970/LoadModel/LoadGroup.py:38 *) (n_CIM15_IEC61970_LoadModel_LoadGroup_LoadGroup, []);
  (* CIM15/IEC61970/LoadModel/LoadResponseCharacteristic.py:82 *) (n_CIM15_IEC61970_LoadModel_LoadResponseCharacteristic_LoadResponseCharacteristic, [(n_pFrequencyExponent, TyFloat); (n_pConstantPower, TyFloat); (n_exponentModel, TyBool); (n_qFrequencyExponent, TyFloat); (n_pVoltageExponent, TyFloat); (n_qConstantImpedance, TyFloat); (n_qConstantPower, TyFloat); (n_pConstantImpedance, TyFloat); (n_pConstantCurrent, TyFloat); (n_qVoltageExponent, TyFloat); (n_qConstantCurrent, TyFloat)]);
  (* CIM15/IEC61970/LoadModel/NonConformLoad.py:38 *) (n_CIM15_IEC61970_LoadModel_NonConformLoad_NonConformLoad, []);
  (* CIM15/IEC61970/LoadModel/NonConformLoadGroup.py:42 *) (n_CIM15_IEC61970_LoadModel_NonConformLoadGroup_NonConformLoadGroup, []);
  (* CIM15/IEC61970/LoadModel/NonConformLoadSchedule.py:38 *) (n_CIM15_IEC61970_LoadModel_NonConformLoadSchedule_NonConformLoadSchedule, []);
  (* CIM15/IEC61970/LoadModel/PowerCutZone.py:46 *) (n_CIM15_IEC61970_LoadModel_PowerCutZone_PowerCutZone, [(n_cutLevel2, TyFloat); (n_cutLevel1, TyFloat)]);
  (* CIM15/IEC61970/LoadModel/Season.py:50 *) (n_CIM15_IEC61970_LoadModel_Season_Season, [(n_name, TyStr); (n_startDate, TyStr); (n_endDate, TyStr)]);
  (* CIM15/IEC61970/LoadModel/SeasonDayTypeSchedule.py:42 *) (n_CIM15_IEC61970_LoadModel_SeasonDayTypeSchedule_SeasonDayTypeSchedule, []);
  (* CIM15/IEC61970/LoadModel/StationSupply.py:34 *) (n_CIM15_IEC61970_LoadModel_StationSupply_StationSupply, []);
  (* CIM15/IEC61970/LoadModel/SubLoadArea.py:42 *) (n_CIM15_IEC61970_LoadModel_SubLoadArea_SubLoadArea, []);
  (* CIM15/IEC61970/Meas/Accumulator.py:46 *) (n_CIM15_IEC61970_Meas_Accumulator_Accumulator, [(n_maxValue, TyInt)]);
  (* CIM15/IEC61970/Meas/AccumulatorLimit.py:42 *) (n_CIM15_IEC61970_Meas_AccumulatorLimit_AccumulatorLimit, [(n_value, TyInt)]);
  (* CIM15/IEC61970/Meas/AccumulatorLimitSet.py:42 *) (n_CIM15_IEC61970_Meas_AccumulatorLimitSet_AccumulatorLimitSet, []);
  (* CIM15/IEC61970/Meas/AccumulatorValue.py:42 *) (n_CIM15_IEC61970_Meas_AccumulatorValue_AccumulatorValue, [(n_value, TyInt)]);
  (* CIM15/IEC61970/Meas/Analog.py:62 *) (n_CIM15_IEC61970_Meas_Analog_Analog, [(n_maxValue, TyFloat); (n_normalValue, TyFloat); (n_positiveFlowIn, TyBool); (n_minValue, TyFloat)]);
  (* CIM15/IEC61970/Meas/AnalogLimit.py:42 *) (n_CIM15_IEC61970_Meas_AnalogLimit_AnalogLimit, [(n_value, TyFloat)]);
  (* CIM15/IEC61970/Meas/AnalogLimitSet.py:42 *) (n_CIM15_IEC61970_Meas_AnalogLimitSet_AnalogLimitSet, []);
  (* CIM15/IEC61970/Meas/AnalogValue.py:50 *) (n_CIM15_IEC61970_Meas_AnalogValue_AnalogValue, [(n_value, TyFloat)]);
  (* CIM15/IEC61970/Meas/Command.py:50 *) (n_CIM15_IEC61970_Meas_Command_Command, [(n_value, TyInt); (n_normalValue, TyInt)]);
  (* CIM15/IEC61970/Meas/Control.py:62 *) (n_CIM15_IEC61970_Meas_Control_Control, [(n_unitSymbol, TyStr); (n_unitMultiplier, TyStr); (n_operationInProgress, TyBool); (n_timeStamp, TyStr)]);
  (* CIM15/IEC61970/Meas/ControlType.py:38 *) (n_CIM15_IEC61970_Meas_ControlType_ControlType, []);
  (* CIM15/IEC61970/Meas/Discrete.py:58 *) (n_CIM15_IEC61970_Meas_Discrete_Discrete, [(n_normalValue, TyInt); (n_minValue, TyInt); (n_maxValue, TyInt)]);
  (* CIM15/IEC61970/Meas/DiscreteValue.py:42 *) (n_CIM15_IEC61970_Meas_DiscreteValue_DiscreteValue, [(n_value, TyInt)]);
  (* CIM15/IEC61970/Meas/Limit.py:38 *) (n_CIM15_IEC61970_Meas_Limit_Limit, []);
  (* CIM15/IEC61970/Meas/LimitSet.py:38 *) (n_CIM15_IEC61970_Meas_LimitSet_LimitSet, [(n_isPercentageLimits, TyBool)]);
  (* CIM15/IEC61970/Meas/Measurement.py:70 *) (n_CIM15_IEC61970_Meas_Measurement_Measurement, [(n_phases, TyStr); (n_measurementType, TyStr); (n_unitMultiplier, TyStr); (n_unitSymbol, TyStr)]);
  (* CIM15/IEC61970/Meas/MeasurementValue.py:66 *) (n_CIM15_IEC61970_Meas_MeasurementValue_MeasurementValue, [(n_sensorAccuracy, TyFloat); (n_timeStamp, TyStr)]);
  (* CIM15/IEC61970/Meas/MeasurementValueQuality.py:38 *) (n_CIM15_IEC61970_Meas_MeasurementValueQuality_MeasurementValueQuality, []);
  (* CIM15/IEC61970/Meas/MeasurementValueSource.py:38 *) (n_CIM15_IEC61970_Meas_MeasurementValueSource_MeasurementValueSource, []);
  (* CIM15/IEC61970/Meas/Quality61850.py:82 *) (n_CIM15_IEC61970_Meas_Quality61850_Quality61850, [(n_overFlow, TyBool); (n_estimatorReplaced, TyBool); (n_validity, TyStr); (n_operatorBlocked, TyBool); (n_oldData, TyBool); (n_failure, TyBool); (n_source, TyStr); (n_outOfRange, TyBool); (n_badReference, TyBool); (n_suspect, TyBool); (n_test, TyBool); (n_oscillatory, TyBool)]);
  (* CIM15/IEC61970/Meas/SetPoint.py:54 *) (n_CIM15_IEC61970_Meas_SetPoint_SetPoint, [(n_maxValue, TyFloat); (n_minValue, TyFloat); (n_normalValue, TyFloat); (n_value, TyFloat)]);
  (* CIM15/IEC61970/Meas/StringMeasurement.py:38 *) (n_CIM15_IEC61970_Meas_StringMeasurement_StringMeasurement, []);
  (* CIM15/IEC61970/Meas/StringMeasurementValue.py:42 *) (n_CIM15_IEC61970_Meas_StringMeasurementValue_StringMeasurementValue, [(n_value, TyStr)]);
  (* CIM15/IEC61970/Meas/ValueAliasSet.py:46 *) (n_CIM15_IEC61970_Meas_ValueAliasSet_ValueAliasSet, []);
  (* CIM15/IEC61970/Meas/ValueToAlias.py:42 *) (n_CIM15_IEC61970_Meas_ValueToAlias_ValueToAlias, [(n_value, TyInt)]);
  (* CIM15/IEC61970/OperationalLimits/ActivePowerLimit.py:42 *) (n_CIM15_IEC61970_OperationalLimits_ActivePowerLimit_ActivePowerLimit, [(n_value, TyFloat)]);
  (* CIM15/IEC61970/OperationalLimits/ActivePowerLimitSet.py:36 *) (n_CIM15_IEC61970_OperationalLimits_ActivePowerLimitSet_ActivePowerLimitSet, []);
  (* CIM15/IEC61970/OperationalLimits/ApparentPowerLimit.py:42 *) (n_CIM15_IEC61970_OperationalLimits_ApparentPowerLimit_ApparentPowerLimit, [(n_value, TyFloat)]);
  (* CIM15/IEC61970/OperationalLimits/ApparentPowerLimitSet.py:36 *) (n_CIM15_IEC61970_OperationalLimits_ApparentPowerLimitSet_ApparentPowerLimitSet, []);
  (* CIM15/IEC61970/OperationalLimits/BranchGroup.py:62 *) (n_CIM15_IEC61970_OperationalLimits_BranchGroup_BranchGroup, [(n_minimumReactivePower, TyFloat); (n_maximumReactivePower, TyFloat); (n_maximumActivePower, TyFloat); (n_minimumActivePower, TyFloat); (n_monitorActivePower, TyBool); (n_monitorReactivePower, TyBool)]);
  (* CIM15/IEC61970/OperationalLimits/BranchGroupTerminal.py:46 *) (n_CIM15_IEC61970_OperationalLimits_BranchGroupTerminal_BranchGroupTerminal, [(n_positiveFlowIn, TyBool)]);
  (* CIM15/IEC61970/OperationalLimits/CheckPoint.py:37 *) (n_CIM15_IEC61970_OperationalLimits_CheckPoint_CheckPoint, []);
  (* CIM15/IEC61970/OperationalLimits/CurrentLimit.py:42 *) (n_CIM15_IEC61970_OperationalLimits_CurrentLimit_CurrentLimit, [(n_value, TyFloat)]);
  (* CIM15/IEC61970/OperationalLimits/CurrentLimitSet.py:36 *) (n_CIM15_IEC61970_OperationalLimits_CurrentLimitSet_CurrentLimitSet, []);
  (* CIM15/IEC61970/OperationalLimits/OperationalLimit.py:42 *) (n_CIM15_IEC61970_OperationalLimits_OperationalLimit_OperationalLimit, []);
  (* CIM15/IEC61970/OperationalLimits/OperationalLimitSet.py:42 *) (n_CIM15_IEC61970_OperationalLimits_OperationalLimitSet_OperationalLimitSet, []);
  (* CIM15/IEC61970/OperationalLimits/OperationalLimitType.py:46 *) (n_CIM15_IEC61970_OperationalLimits_OperationalLimitType_OperationalLimitType, [(n_direction, TyStr); (n_acceptableDuration, TyFloat)]);
  (* CIM15/IEC61970/OperationalLimits/VoltageCheckPoint.py:41 *) (n_CIM15_IEC61970_OperationalLimits_VoltageCheckPoint_VoltageCheckPoint, []);
  (* CIM15/IEC61970/OperationalLimits/VoltageLimit.py:42 *) (n_CIM15_IEC61970_OperationalLimits_VoltageLimit_VoltageLimit, [(n_value, TyFloat)]);
  (* CIM15/IEC61970/OperationalLimits/VoltageLimitSet.py:36 *) (n_CIM15_IEC61970_OperationalLimits_VoltageLimitSet_VoltageLimitSet, []);
  (* CIM15/IEC61970/OperationalLimits/VoltageTimeCurve.py:33 *) (n_CIM15_IEC61970_OperationalLimits_VoltageTimeCurve_VoltageTimeCurve, []);
  (* CIM15/IEC61970/Outage/ClearanceTag.py:78 *) (n_CIM15_IEC61970_Outage_ClearanceTag_ClearanceTag, [(n_workStartTime, TyStr); (n_phaseCheckReqFlag, TyBool); (n_deenergizeReqFlag, TyBool); (n_authorityName, TyStr); (n_tagIssueTime, TyStr); (n_groundReqFlag, TyBool); (n_workDescription, TyStr); (n_workEndTime, TyStr)]);
  (* CIM15/IEC61970/Outage/ClearanceTagType.py:38 *) (n_CIM15_IEC61970_Outage_ClearanceTagType_ClearanceTagType, []);
  (* CIM15/IEC61970/Outage/OutageSchedule.py:46 *) (n_CIM15_IEC61970_Outage_OutageSchedule_OutageSchedule, []);
  (* CIM15/IEC61970/Outage/SwitchingOperation.py:50 *) (n_CIM15_IEC61970_Outage_SwitchingOperation_SwitchingOperation, [(n_operationTime, TyStr); (n_newState, TyStr)]);
  (* CIM15/IEC61970/Protection/CurrentRelay.py:62 *) (n_CIM15_IEC61970_Protection_CurrentRelay_CurrentRelay, [(n_currentLimit3, TyFloat); (n_currentLimit2, TyFloat); (n_currentLimit1, TyFloat); (n_inverseTimeFlag, TyBool); (n_timeDelay3, TyFloat); (n_timeDelay2, TyFloat); (n_timeDelay1, TyFloat)]);
  (* CIM15/IEC61970/Protection/ProtectionEquipment.py:66 *) (n_CIM15_IEC61970_Protection_ProtectionEquipment_ProtectionEquipment, [(n_highLimit, TyFloat); (n_powerDirectionFlag, TyBool); (n_lowLimit, TyFloat); (n_unitSymbol, TyStr); (n_relayDelayTime, TyFloat); (n_unitMultiplier, TyStr)]);
  (* CIM15/IEC61970/Protection/RecloseSequence.py:46 *) (n_CIM15_IEC61970_Protection_RecloseSequence_RecloseSequence, [(n_recloseStep, TyInt); (n_recloseDelay, TyFloat)]);
  (* CIM15/IEC61970/Protection/SynchrocheckRelay.py:46 *) (n_CIM15_IEC61970_Protection_SynchrocheckRelay_SynchrocheckRelay, [(n_maxFreqDiff, TyFloat); (n_maxAngleDiff, TyFloat); (n_maxVoltDiff, TyFloat)]);
  (* CIM15/IEC61970/SCADA/CommunicationLink.py:38 *) (n_CIM15_IEC61970_SCADA_CommunicationLink_CommunicationLink, []);
  (* CIM15/IEC61970/SCADA/RemoteControl.py:50 *) (n_CIM15_IEC61970_SCADA_RemoteControl_RemoteControl, [(n_actuatorMaximum, TyFloat); (n_actuatorMinimum, TyFloat); (n_remoteControlled, TyBool)]);
  (* CIM15/IEC61970/SCADA/RemotePoint.py:38 *) (n_CIM15_IEC61970_SCADA_RemotePoint_RemotePoint, []);
  (* CIM15/IEC61970/SCADA/RemoteSource.py:54 *) (n_CIM15_IEC61970_SCADA_RemoteSource_RemoteSource, [(n_sensorMinimum, TyFloat); (n_deadband, TyFloat); (n_sensorMaximum, TyFloat); (n_scanInterval, TyFloat)]);
  (* CIM15/IEC61970/SCADA/RemoteUnit.py:46 *) (n_CIM15_IEC61970_SCADA_RemoteUnit_RemoteUnit, [(n_remoteUnitType, TyStr)]);
  (* CIM15/IEC61970/StateVariables/StateVariable.py:34 *) (n_CIM15_IEC61970_StateVariables_StateVariable_StateVariable, []);
  (* CIM15/IEC61970/StateVariables/SvInjection.py:46 *) (n_CIM15_IEC61970_StateVariables_SvInjection_SvInjection, [(n_pNetInjection, TyFloat); (n_qNetInjection, TyFloat)]);
  (* CIM15/IEC61970/StateVariables/SvPowerFlow.py:46 *) (n_CIM15_IEC61970_StateVariables_SvPowerFlow_SvPowerFlow, [(n_p, TyFloat); (n_q, TyFloat)]);
  (* CIM15/IEC61970/StateVariables/SvShortCircuit.py:54 *) (n_CIM15_IEC61970_StateVariables_SvShortCircuit_SvShortCircuit, [(n_sShortCircuit, TyFloat); (n_r0PerR, TyFloat); (n_x0PerX, TyFloat); (n_xPerR, TyFloat)]);
  (* CIM15/IEC61970/StateVariables/SvShuntCompensatorSections.py:42 *) (n_CIM15_IEC61970_StateVariables_SvShuntCompensatorSections_SvShuntCompensatorSections, [(n_sections, TyFloat)]);
  (* CIM15/IEC61970/StateVariables/SvStatus.py:42 *) (n_CIM15_IEC61970_StateVariables_SvStatus_SvStatus, [(n_inService, TyBool)]);
  (* CIM15/IEC61970/StateVariables/SvTapStep.py:42 *) (n_CIM15_IEC61970_StateVariables_SvTapStep_SvTapStep, [(n_position, TyFloat)]);
  (* CIM15/IEC61970/StateVariables/SvVoltage.py:46 *) (n_CIM15_IEC61970_StateVariables_SvVoltage_SvVoltage, [(n_angle, TyFloat); (n_v, TyFloat)]);
  (* CIM15/IEC61970/StateVariables/TopologicalIsland.py:42 *) (n_CIM15_IEC61970_StateVariables_TopologicalIsland_TopologicalIsland, []);
  (* CIM15/IEC61970/Topology/BusNameMarker.py:42 *) (n_CIM15_IEC61970_Topology_BusNameMarker_BusNameMarker, []);
  (* CIM15/IEC61970/Topology/TopologicalNode.py:74 *) (n_CIM15_IEC61970_Topology_TopologicalNode_TopologicalNode, []);
  (* CIM15/IEC61970/Wires/ACLineSegment.py:110 *) (n_CIM15_IEC61970_Wires_ACLineSegment_ACLineSegment, [(n_g0ch, TyFloat); (n_r, TyFloat); (n_x, TyFloat); (n_gch, TyFloat); (n_r0, TyFloat); (n_bch, TyFloat); (n_b0ch, TyFloat); (n_x0, TyFloat)]);
  (* CIM15/IEC61970/Wires/Breaker.py:38 *) (n_CIM15_IEC61970_Wires_Breaker_Breaker, [(n_inTransitTime, TyFloat)]);
  (* CIM15/IEC61970/Wires/BusbarSection.py:38 *) (n_CIM15_IEC61970_Wires_BusbarSection_BusbarSection, []);
  (* CIM15/IEC61970/Wires/CompositeSwitch.py:42 *) (n_CIM15_IEC61970_Wires_CompositeSwitch_CompositeSwitch, [(n_compositeSwitchType, TyStr)]);
  (* CIM15/IEC61970/Wires/Conductor.py:38 *) (n_CIM15_IEC61970_Wires_Conductor_Conductor, [(n_length, TyFloat)]);
  (* CIM15/IEC61970/Wires/Connector.py:34 *) (n_CIM15_IEC61970_Wires_Connector_Connector, []);
  (* CIM15/IEC61970/Wires/CurrentTemperatureCurve.py:37 *) (n_CIM15_IEC61970_Wires_CurrentTemperatureCurve_CurrentTemperatureCurve, []);
  (* CIM15/IEC61970/Wires/DCLineSegment.py:42 *) (n_CIM15_IEC61970_Wires_DCLineSegment_DCLineSegment, [(n_dcSegmentInductance, TyFloat); (n_dcSegmentResistance, TyFloat)]);
  (* CIM15/IEC61970/Wires/Disconnector.py:34 *) (n_CIM15_IEC61970_Wires_Disconnector_Disconnector, []);
  (* CIM15/IEC61970/Wires/EnergyConsumer.py:70 *) (n_CIM15_IEC61970_Wires_EnergyConsumer_EnergyConsumer, [(n_qfixedPct, TyFloat); (n_customerCount, TyInt); (n_pfixedPct, TyFloat); (n_pfixed, TyFloat); (n_qfixed, TyFloat)]);
  (* CIM15/IEC61970/Wires/EnergySource.py:74 *) (n_CIM15_IEC61970_Wires_EnergySource_EnergySource, [(n_r0, TyFloat); (n_voltageMagnitude, TyFloat); (n_xn, TyFloat); (n_nominalVoltage, TyFloat); (n_x, TyFloat); (n_r, TyFloat); (n_voltageAngle, TyFloat); (n_rn, TyFloat); (n_x0, TyFloat); (n_activePower, TyFloat)]);
  (* CIM15/IEC61970/Wires/FrequencyConverter.py:58 *) (n_CIM15_IEC61970_Wires_FrequencyConverter_FrequencyConverter, [(n_maxU, TyFloat); (n_maxP, TyFloat); (n_frequency, TyFloat); (n_minP, TyFloat); (n_minU, TyFloat); (n_operatingMode, TyStr)]);
  (* CIM15/IEC61970/Wires/Fuse.py:34 *) (n_CIM15_IEC61970_Wires_Fuse_Fuse, []);
  (* CIM15/IEC61970/Wires/Ground.py:38 *) (n_CIM15_IEC61970_Wires_Ground_Ground, []);
  (* CIM15/IEC61970/Wires/GroundDisconnector.py:34 *) (n_CIM15_IEC61970_Wires_GroundDisconnector_GroundDisconnector, []);
  (* CIM15/IEC61970/Wires/Jumper.py:34 *) (n_CIM15_IEC61970_Wires_Jumper_Jumper, []);
  (* CIM15/IEC61970/Wires/Junction.py:34 *) (n_CIM15_IEC61970_Wires_Junction_Junction, []);
  (* CIM15/IEC61970/Wires/Line.py:38 *) (n_CIM15_IEC61970_Wires_Line_Line, []);
  (* CIM15/IEC61970/Wires/LoadBreakSwitch.py:34 *) (n_CIM15_IEC61970_Wires_LoadBreakSwitch_LoadBreakSwitch, []);
  (* CIM15/IEC61970/Wires/MutualCoupling.py:74 *) (n_CIM15_IEC61970_Wires_MutualCoupling_MutualCoupling, [(n_distance12, TyFloat); (n_distance11, TyFloat); (n_r0, TyFloat); (n_distance22, TyFloat); (n_distance21, TyFloat); (n_b0ch, TyFloat); (n_x0, TyFloat); (n_g0ch, TyFloat)]);
  (* CIM15/IEC61970/Wires/PerLengthPhaseImpedance.py:46 *) (n_CIM15_IEC61970_Wires_PerLengthPhaseImpedance_PerLengthPhaseImpedance, [(n_conductorCount, TyInt)]);
  (* CIM15/IEC61970/Wires/PerLengthSequenceImpedance.py:70 *) (n_CIM15_IEC61970_Wires_PerLengthSequenceImpedance_PerLengthSequenceImpedance, [(n_x, TyFloat); (n_r, TyFloat); (n_bch, TyFloat); (n_r0, TyFloat); (n_g0ch, TyFloat); (n_b0ch, TyFloat); (n_gch, TyFloat); (n_x0, TyFloat)]);
  (* CIM15/IEC61970/Wires/PhaseImpedanceData.py:54 *) (n_CIM15_IEC61970_Wires_PhaseImpedanceData_PhaseImpedanceData, [(n_r, TyFloat); (n_x, TyFloat); (n_b, TyFloat); (n_sequenceNumber, TyInt)]);
  (* CIM15/IEC61970/Wires/PhaseTapChanger.py:42 *) (n_CIM15_IEC61970_Wires_PhaseTapChanger_PhaseTapChanger, []);
  (* CIM15/IEC61970/Wires/PhaseTapChangerAsymetrical.py:38 *) (n_CIM15_IEC61970_Wires_PhaseTapChangerAsymetrical_PhaseTapChangerAsymetrical, [(n_windingConnectionAngle, TyFloat)]);
  (* CIM15/IEC61970/Wires/PhaseTapChangerLinear.py:38 *) (n_CIM15_IEC61970_Wires_PhaseTapChangerLinear_PhaseTapChangerLinear, [(n_stepPhaseShiftIncrement, TyFloat)]);
  (* CIM15/IEC61970/Wires/PhaseTapChangerNonLinear.py:46 *) (n_CIM15_IEC61970_Wires_PhaseTapChangerNonLinear_PhaseTapChangerNonLinear, [(n_xMedian, TyFloat); (n_voltageStepIncrement, TyFloat); (n_xMax, TyFloat)]);
  (* CIM15/IEC61970/Wires/PhaseTapChangerSymetrical.py:34 *) (n_CIM15_IEC61970_Wires_PhaseTapChangerSymetrical_PhaseTapChangerSymetrical, []);
  (* CIM15/IEC61970/Wires/PhaseTapChangerTabular.py:42 *) (n_CIM15_IEC61970_Wires_PhaseTapChangerTabular_PhaseTapChangerTabular, []);
  (* CIM15/IEC61970/Wires/PhaseTapChangerTabularPoint.py:50 *) (n_CIM15_IEC61970_Wires_PhaseTapChangerTabularPoint_PhaseTapChangerTabularPoint, [(n_x, TyFloat); (n_step, TyInt); (n_angle, TyFloat)]);
  (* CIM15/IEC61970/Wires/Plant.py:34 *) (n_CIM15_IEC61970_Wires_Plant_Plant, []);
  (* CIM15/IEC61970/Wires/PowerTransformer.py:50 *) (n_CIM15_IEC61970_Wires_PowerTransformer_PowerTransformer, [(n_vectorGroup, TyStr)]);
  (* CIM15/IEC61970/Wires/PowerTransformerEnd.py:82 *) (n_CIM15_IEC61970_Wires_PowerTransformerEnd_PowerTransformerEnd, [(n_x0, TyFloat); (n_b0, TyFloat); (n_g0, TyFloat); (n_ratedS, TyFloat); (n_b, TyFloat); (n_ratedU, TyFloat); (n_g, TyFloat); (n_r, TyFloat); (n_x, TyFloat); (n_r0, TyFloat); (n_connectionKind, TyStr)]);
  (* CIM15/IEC61970/Wires/ProtectedSwitch.py:46 *) (n_CIM15_IEC61970_Wires_ProtectedSwitch_ProtectedSwitch, [(n_breakingCapacity, TyFloat)]);
  (* CIM15/IEC61970/Wires/RatioTapChanger.py:50 *) (n_CIM15_IEC61970_Wires_RatioTapChanger_RatioTapChanger, [(n_stepVoltageIncrement, TyFloat); (n_tculControlMode, TyStr)]);
  (* CIM15/IEC61970/Wires/RatioTapChangerTabular.py:42 *) (n_CIM15_IEC61970_Wires_RatioTapChangerTabular_RatioTapChangerTabular, []);
  (* CIM15/IEC61970/Wires/RatioTapChangerTabularPoint.py:50 *) (n_CIM15_IEC61970_Wires_RatioTapChangerTabularPoint_RatioTapChangerTabularPoint, [(n_x, TyFloat); (n_ratio, TyFloat); (n_step, TyInt)]);
  (* CIM15/IEC61970/Wires/ReactiveCapabilityCurve.py:50 *) (n_CIM15_IEC61970_Wires_ReactiveCapabilityCurve_ReactiveCapabilityCurve, [(n_hydrogenPressure, TyFloat); (n_coolantTemperature, TyFloat)]);
  (* CIM15/IEC61970/Wires/Recloser.py:34 *) (n_CIM15_IEC61970_Wires_Recloser_Recloser, []);
  (* CIM15/IEC61970/Wires/RectifierInverter.py:82 *) (n_CIM15_IEC61970_Wires_RectifierInverter_RectifierInverter, [(n_ratedU, TyFloat); (n_maxU, TyFloat); (n_bridges, TyInt); (n_compoundResistance, TyFloat); (n_commutatingResistance, TyFloat); (n_minP, TyFloat); (n_operatingMode, TyStr); (n_minU, TyFloat); (n_commutatingReactance, TyFloat); (n_maxP, TyFloat); (n_frequency, TyFloat); (n_minCompoundVoltage, TyFloat)]);
  (* CIM15/IEC61970/Wires/RegulatingCondEq.py:42 *) (n_CIM15_IEC61970_Wires_RegulatingCondEq_RegulatingCondEq, []);
  (* CIM15/IEC61970/Wires/RegulatingControl.py:66 *) (n_CIM15_IEC61970_Wires_RegulatingControl_RegulatingControl, [(n_mode, TyStr); (n_targetRange, TyFloat); (n_discrete, TyBool); (n_targetValue, TyFloat); (n_monitoredPhase, TyStr)]);
  (* CIM15/IEC61970/Wires/RegulationSchedule.py:42 *) (n_CIM15_IEC61970_Wires_RegulationSchedule_RegulationSchedule, []);
  (* CIM15/IEC61970/Wires/Resistor.py:34 *) (n_CIM15_IEC61970_Wires_Resistor_Resistor, []);
  (* CIM15/IEC61970/Wires/Sectionaliser.py:34 *) (n_CIM15_IEC61970_Wires_Sectionaliser_Sectionaliser, []);
  (* CIM15/IEC61970/Wires/SeriesCompensator.py:42 *) (n_CIM15_IEC61970_Wires_SeriesCompensator_SeriesCompensator, [(n_x, TyFloat); (n_r, TyFloat)]);
  (* CIM15/IEC61970/Wires/ShuntCompensator.py:102 *) (n_CIM15_IEC61970_Wires_ShuntCompensator_ShuntCompensator, [(n_nomQ, TyFloat); (n_maxU, TyFloat); (n_gPerSection, TyFloat); (n_voltageSensitivity, TyFloat); (n_nomU, TyFloat); (n_b0PerSection, TyFloat); (n_maximumSections, TyInt); (n_bPerSection, TyFloat); (n_aVRDelay, TyFloat); (n_minU, TyFloat); (n_normalSections, TyInt); (n_reactivePerSection, TyFloat); (n_switchOnCount, TyInt); (n_switchOnDate, TyStr); (n_g0PerSection, TyFloat)]);
  (* CIM15/IEC61970/Wires/StaticVarCompensator.py:54 *) (n_CIM15_IEC61970_Wires_StaticVarCompensator_StaticVarCompensator, [(n_slope, TyFloat); (n_sVCControlMode, TyStr); (n_capacitiveRating, TyFloat); (n_voltageSetPoint, TyFloat); (n_inductiveRating, TyFloat)]);
  (* CIM15/IEC61970/Wires/Switch.py:78 *) (n_CIM15_IEC61970_Wires_Switch_Switch, [(n_switchOnDate, TyStr); (n_normalOpen, TyBool); (n_ratedCurrent, TyFloat); (n_retained, TyBool); (n_switchOnCount, TyInt)]);
  (* CIM15/IEC61970/Wires/SwitchSchedule.py:38 *) (n_CIM15_IEC61970_Wires_SwitchSchedule_SwitchSchedule, []);
  (* CIM15/IEC61970/Wires/SynchronousMachine.py:174 *) (n_CIM15_IEC61970_Wires_SynchronousMachine_SynchronousMachine, [(n_ratedS, TyFloat); (n_r2, TyFloat); (n_r0, TyFloat); (n_manualToAVR, TyFloat); (n_qPercent, TyFloat); (n_coolantCondition, TyFloat); (n_condenserP, TyFloat); (n_xQuadTrans, TyFloat); (n_xQuadSubtrans, TyFloat); (n_xQuadSync, TyFloat); (n_xDirectSync, TyFloat); (n_minQ, TyFloat); (n_aVRToManualLag, TyFloat); (n_damping, TyFloat); (n_operatingMode, TyStr); (n_xDirectSubtrans, TyFloat); (n_coolantType, TyStr); (n_aVRToManualLead, TyFloat); (n_minU, TyFloat); (n_maxQ, TyFloat); (n_referencePriority, TyInt); (n_maxU, TyFloat); (n_xDirectTrans, TyFloat); (n_inertia, TyFloat); (n_baseQ, TyFloat); (n_type, TyStr); (n_r, TyFloat); (n_x0, TyFloat); (n_x2, TyFloat); (n_x, TyFloat)]);
  (* CIM15/IEC61970/Wires/TapChanger.py:86 *) (n_CIM15_IEC61970_Wires_TapChanger_TapChanger, [(n_neutralU, TyFloat); (n_regulationStatus, TyBool); (n_subsequentDelay, TyFloat); (n_normalStep, TyInt); (n_ltcFlag, TyBool); (n_lowStep, TyInt); (n_neutralStep, TyInt); (n_initialDelay, TyFloat); (n_highStep, TyInt)]);
  (* CIM15/IEC61970/Wires/TapChangerControl.py:62 *) (n_CIM15_IEC61970_Wires_TapChangerControl_TapChangerControl, [(n_lineDropR, TyFloat); (n_lineDropX, TyFloat); (n_reverseLineDropX, TyFloat); (n_reverseLineDropR, TyFloat); (n_lineDropCompensation, TyBool); (n_limitVoltage, TyFloat)]);
  (* CIM15/IEC61970/Wires/TapSchedule.py:38 *) (n_CIM15_IEC61970_Wires_TapSchedule_TapSchedule, []);
  (* CIM15/IEC61970/Wires/TransformerCoreAdmittance.py:56 *) (n_CIM15_IEC61970_Wires_TransformerCoreAdmittance_TransformerCoreAdmittance, [(n_g0, TyFloat); (n_b0, TyFloat); (n_g, TyFloat); (n_b, TyFloat)]);
  (* CIM15/IEC61970/Wires/TransformerEnd.py:105 *) (n_CIM15_IEC61970_Wires_TransformerEnd_TransformerEnd, [(n_endNumber, TyInt); (n_rground, TyFloat); (n_grounded, TyBool); (n_magBaseU, TyFloat); (n_magSatFlux, TyFloat); (n_bmagSat, TyFloat); (n_xground, TyFloat)]);
  (* CIM15/IEC61970/Wires/TransformerMeshImpedance.py:66 *) (n_CIM15_IEC61970_Wires_TransformerMeshImpedance_TransformerMeshImpedance, [(n_r, TyFloat); (n_x, TyFloat); (n_x0, TyFloat); (n_r0, TyFloat)]);
  (* CIM15/IEC61970/Wires/TransformerStarImpedance.py:54 *) (n_CIM15_IEC61970_Wires_TransformerStarImpedance_TransformerStarImpedance, [(n_x0, TyFloat); (n_x, TyFloat); (n_r, TyFloat); (n_r0, TyFloat)]);
  (* CIM15/IEC61970/Wires/TransformerTank.py:54 *) (n_CIM15_IEC61970_Wires_TransformerTank_TransformerTank, []);
  (* CIM15/IEC61970/Wires/TransformerTankEnd.py:42 *) (n_CIM15_IEC61970_Wires_TransformerTankEnd_TransformerTankEnd, [(n_phases, TyStr)]);
  (* CIM15/IEC61970/Wires/VoltageControlZone.py:42 *) (n_CIM15_IEC61970_Wires_VoltageControlZone_VoltageControlZone, []);
  (* CIM15/IEC61970/WiresPhaseModel/ACLineSegmentPhase.py:40 *) (n_CIM15_IEC61970_WiresPhaseModel_ACLineSegmentPhase_ACLineSegmentPhase, [(n_phase, TyStr)]);
  (* CIM15/IEC61970/WiresPhaseModel/EnergyConsumerPhase.py:41 *) (n_CIM15_IEC61970_WiresPhaseModel_EnergyConsumerPhase_EnergyConsumerPhase, [(n_pfixed, TyFloat); (n_qfixed, TyFloat)]);
  (* CIM15/IEC61970/WiresPhaseModel/ShuntCompensatorPhase.py:38 *) (n_CIM15_IEC61970_WiresPhaseModel_ShuntCompensatorPhase_ShuntCompensatorPhase, []);
  (* CIM15/IEC61970/WiresPhaseModel/SwitchPhase.py:50 *) (n_CIM15_IEC61970_WiresPhaseModel_SwitchPhase_SwitchPhase, [(n_phaseSide1, TyStr); (n_phaseSide2, TyStr); (n_normalOpen, TyBool)]);
  (* CIM15/IEC62325/IEC62325CIMVersion.py:42 *) (n_CIM15_IEC62325_IEC62325CIMVersion_IEC62325CIMVersion, [(n_date, TyStr); (n_version, TyStr)]);
  (* CIM15/IEC62325/MarketParticipant.py:36 *) (n_CIM15_IEC62325_MarketParticipant_MarketParticipant, []);
  (* CIM15/IEC62325/MarketRole.py:45 *) (n_CIM15_IEC62325_MarketRole_MarketRole, [(n_kind, TyStr)]);
  (* CIM15/Package.py:32 *) (n_CIM15_Package_Package, []);
  (* CIM15/PackageDependencies/PackageDependenciesCIMVeresion.py:42 *) (n_CIM15_PackageDependencies_PackageDependenciesCIMVeresion_PackageDependenciesCIMVeresion, [(n_vesion, TyStr); (n_date, TyStr)]);
  (* CIM15/Stereotype.py:32 *) (n_CIM15_Stereotype_Stereotype, [])
].

(** _attr_types of the classes of CIM14.CDPSM.Balanced. *)
Definition cim14_cdpsm_balanced_types : types := [
  (* CIM14/CDPSM/Balanced/Element.py:34 *) (n_CIM14_CDPSM_Balanced_Element_Element, [(n_UUID, TyStr)]);
  (* CIM14/CDPSM/Balanced/IEC61968/AssetModels/CableInfo.py:74 *) (n_CIM14_CDPSM_Balanced_IEC61968_AssetModels_CableInfo_CableInfo, [(n_nominalTemperature, TyFloat); (n_diameterOverScreen, TyFloat); (n_sheathAsNeutral, TyBool); (n_diameterOverJacket, TyFloat); (n_diameterOverCore, TyFloat); (n_constructionKind, TyStr); (n_outerJacketKind, TyStr); (n_isStrandFill, TyBool); (n_shieldMaterial, TyStr); (n_diameterOverInsulation, TyFloat)]);
  (* CIM14/CDPSM/Balanced/IEC61968/AssetModels/ConcentricNeutralCableInfo.py:46 *) (n_CIM14_CDPSM_Balanced_IEC61968_AssetModels_ConcentricNeutralCableInfo_ConcentricNeutralCableInfo, [(n_neutralStrandCount, TyInt); (n_diameterOverNeutral, TyFloat)]);
  (* CIM14/CDPSM/Balanced/IEC61968/AssetModels/ConductorInfo.py:62 *) (n_CIM14_CDPSM_Balanced_IEC61968_AssetModels_ConductorInfo_ConductorInfo, [(n_phaseCount, TyInt); (n_insulationMaterial, TyStr); (n_insulationThickness, TyFloat); (n_insulated, TyBool); (n_usage, TyStr)]);
  (* CIM14/CDPSM/Balanced/IEC61968/AssetModels/DistributionWindingTest.py:42 *) (n_CIM14_CDPSM_Balanced_IEC61968_AssetModels_DistributionWindingTest_DistributionWindingTest, [(n_fromTapStep, TyInt)]);
  (* CIM14/CDPSM/Balanced/IEC61968/AssetModels/OpenCircuitTest.py:55 *) (n_CIM14_CDPSM_Balanced_IEC61968_AssetModels_OpenCircuitTest_OpenCircuitTest, [(n_noLoadLossZero, TyFloat); (n_noLoadLoss, TyFloat); (n_excitingCurrent, TyFloat); (n_excitingCurrentZero, TyFloat)]);
  (* CIM14/CDPSM/Balanced/IEC61968/AssetModels/OverheadConductorInfo.py:46 *) (n_CIM14_CDPSM_Balanced_IEC61968_AssetModels_OverheadConductorInfo_OverheadConductorInfo, [(n_neutralInsulationThickness, TyFloat); (n_phaseConductorCount, TyInt); (n_phaseConductorSpacing, TyFloat)]);
  (* CIM14/CDPSM/Balanced/IEC61968/AssetModels/ShortCircuitTest.py:54 *) (n_CIM14_CDPSM_Balanced_IEC61968_AssetModels_ShortCircuitTest_ShortCircuitTest, [(n_loadLossZero, TyFloat); (n_leakageImpedanceZero, TyFloat); (n_leakageImpedance, TyFloat); (n_loadLoss, TyFloat)]);
  (* CIM14/CDPSM/Balanced/IEC61968/AssetModels/TapeShieldCableInfo.py:42 *) (n_CIM14_CDPSM_Balanced_IEC61968_AssetModels_TapeShieldCableInfo_TapeShieldCableInfo, [(n_tapeThickness, TyFloat); (n_tapeLap, TyFloat)]);
  (* CIM14/CDPSM/Balanced/IEC61968/AssetModels/ToWindingSpec.py:59 *) (n_CIM14_CDPSM_Balanced_IEC61968_AssetModels_ToWindingSpec_ToWindingSpec, [(n_toTapStep, TyInt); (n_voltage, TyFloat); (n_phaseShift, TyFloat)]);
  (* CIM14/CDPSM/Balanced/IEC61968/AssetModels/TransformerInfo.py:42 *) (n_CIM14_CDPSM_Balanced_IEC61968_AssetModels_TransformerInfo_TransformerInfo, []);
  (* CIM14/CDPSM/Balanced/IEC61968/AssetModels/WindingInfo.py:86 *) (n_CIM14_CDPSM_Balanced_IEC61968_AssetModels_WindingInfo_WindingInfo, [(n_sequenceNumber, TyInt); (n_ratedS, TyFloat); (n_ratedU, TyFloat); (n_connectionKind, TyStr); (n_emergencyS, TyFloat); (n_r, TyFloat); (n_phaseAngle, TyInt); (n_insulationU, TyFloat); (n_shortTermS, TyFloat)]);
  (* CIM14/CDPSM/Balanced/IEC61968/AssetModels/WireArrangement.py:54 *) (n_CIM14_CDPSM_Balanced_IEC61968_AssetModels_WireArrangement_WireArrangement, [(n_mountingPointX, TyFloat); (n_mountingPointY, TyFloat); (n_position, TyInt)]);
  (* CIM14/CDPSM/Balanced/IEC61968/AssetModels/WireType.py:90 *) (n_CIM14_CDPSM_Balanced_IEC61968_AssetModels_WireType_WireType, [(n_rAC75, TyFloat); (n_coreRadius, TyFloat); (n_coreStrandCount, TyInt); (n_rAC25, TyFloat); (n_radius, TyFloat); (n_gmr, TyFloat); (n_rDC20, TyFloat); (n_rAC50, TyFloat); (n_material, TyStr); (n_sizeDescription, TyStr); (n_strandCount, TyInt); (n_ratedCurrent, TyFloat)]);
  (* CIM14/CDPSM/Balanced/IEC61968/Common/GeoLocation.py:38 *) (n_CIM14_CDPSM_Balanced_IEC61968_Common_GeoLocation_GeoLocation, []);
  (* CIM14/CDPSM/Balanced/IEC61968/Common/Location.py:40 *) (n_CIM14_CDPSM_Balanced_IEC61968_Common_Location_Location, []);
  (* CIM14/CDPSM/Balanced/IEC61968/Common/PositionPoint.py:52 *) (n_CIM14_CDPSM_Balanced_IEC61968_Common_PositionPoint_PositionPoint, [(n_xPosition, TyStr); (n_sequenceNumber, TyInt); (n_yPosition, TyStr)]);
  (* CIM14/CDPSM/Balanced/IEC61968/WiresExt/DistributionLineSegment.py:52 *) (n_CIM14_CDPSM_Balanced_IEC61968_WiresExt_DistributionLineSegment_DistributionLineSegment, []);
  (* CIM14/CDPSM/Balanced/IEC61968/WiresExt/DistributionTapChanger.py:81 *) (n_CIM14_CDPSM_Balanced_IEC61968_WiresExt_DistributionTapChanger_DistributionTapChanger, [(n_lineDropR, TyFloat); (n_monitoredPhase, TyStr); (n_lineDropCompensation, TyBool); (n_ptRatio, TyFloat); (n_ctRatio, TyFloat); (n_reverseLineDropR, TyFloat); (n_limitVoltage, TyFloat); (n_reverseLineDropX, TyFloat); (n_bandVoltage, TyFloat); (n_targetVoltage, TyFloat); (n_lineDropX, TyFloat)]);
  (* CIM14/CDPSM/Balanced/IEC61968/WiresExt/DistributionTransformer.py:49 *) (n_CIM14_CDPSM_Balanced_IEC61968_WiresExt_DistributionTransformer_DistributionTransformer, []);
  (* CIM14/CDPSM/Balanced/IEC61968/WiresExt/DistributionTransformerWinding.py:67 *) (n_CIM14_CDPSM_Balanced_IEC61968_WiresExt_DistributionTransformerWinding_DistributionTransformerWinding, [(n_rground, TyFloat); (n_xground, TyFloat); (n_grounded, TyBool)]);
  (* CIM14/CDPSM/Balanced/IEC61968/WiresExt/PerLengthPhaseImpedance.py:46 *) (n_CIM14_CDPSM_Balanced_IEC61968_WiresExt_PerLengthPhaseImpedance_PerLengthPhaseImpedance, [(n_conductorCount, TyInt)]);
  (* CIM14/CDPSM/Balanced/IEC61968/WiresExt/PerLengthSequenceImpedance.py:70 *) (n_CIM14_CDPSM_Balanced_IEC61968_WiresExt_PerLengthSequenceImpedance_PerLengthSequenceImpedance, [(n_x, TyFloat); (n_gch, TyFloat); (n_r0, TyFloat); (n_x0, TyFloat); (n_g0ch, TyFloat); (n_b0ch, TyFloat); (n_r, TyFloat); (n_bch, TyFloat)]);
  (* CIM14/CDPSM/Balanced/IEC61968/WiresExt/PhaseImpedanceData.py:54 *) (n_CIM14_CDPSM_Balanced_IEC61968_WiresExt_PhaseImpedanceData_PhaseImpedanceData, [(n_x, TyFloat); (n_sequenceNumber, TyInt); (n_b, TyFloat); (n_r, TyFloat)]);
  (* CIM14/CDPSM/Balanced/IEC61968/WiresExt/TransformerBank.py:42 *) (n_CIM14_CDPSM_Balanced_IEC61968_WiresExt_TransformerBank_TransformerBank, [(n_vectorGroup, TyStr)]);
  (* CIM14/CDPSM/Balanced/IEC61968/WiresExt/WindingPiImpedance.py:70 *) (n_CIM14_CDPSM_Balanced_IEC61968_WiresExt_WindingPiImpedance_WindingPiImpedance, [(n_x, TyFloat); (n_g, TyFloat); (n_r0, TyFloat); (n_r, TyFloat); (n_b, TyFloat); (n_g0, TyFloat); (n_x0, TyFloat); (n_b0, TyFloat)]);
  (* CIM14/CDPSM/Balanced/IEC61970/Core/BaseVoltage.py:46 *) (n_CIM14_CDPSM_Balanced_IEC61970_Core_BaseVoltage_BaseVoltage, [(n_nominalVoltage, TyFloat)]);
  (* CIM14/CDPSM/Balanced/IEC61970/Core/Bay.py:38 *) (n_CIM14_CDPSM_Balanced_IEC61970_Core_Bay_Bay, []);
  (* CIM14/CDPSM/Balanced/IEC61970/Core/ConductingEquipment.py:46 *) (n_CIM14_CDPSM_Balanced_IEC61970_Core_ConductingEquipment_ConductingEquipment, [(n_phases, TyStr)]);
  (* CIM14/CDPSM/Balanced/IEC61970/Core/ConnectivityNodeContainer.py:38 *) (n_CIM14_CDPSM_Balanced_IEC61970_Core_ConnectivityNodeContainer_ConnectivityNodeContainer, []);
  (* CIM14/CDPSM/Balanced/IEC61970/Core/Equipment.py:42 *) (n_CIM14_CDPSM_Balanced_IEC61970_Core_Equipment_Equipment, [(n_normaIlyInService, TyBool)]);
  (* CIM14/CDPSM/Balanced/IEC61970/Core/EquipmentContainer.py:38 *) (n_CIM14_CDPSM_Balanced_IEC61970_Core_EquipmentContainer_EquipmentContainer, []);
  (* CIM14/CDPSM/Balanced/IEC61970/Core/GeographicalRegion.py:38 *) (n_CIM14_CDPSM_Balanced_IEC61970_Core_GeographicalRegion_GeographicalRegion, []);
  (* CIM14/CDPSM/Balanced/IEC61970/Core/IdentifiedObject.py:54 *) (n_CIM14_CDPSM_Balanced_IEC61970_Core_IdentifiedObject_IdentifiedObject, [(n_mRID, TyStr); (n_description, TyStr); (n_name, TyStr); (n_localName, TyStr); (n_aliasName, TyStr)]);
  (* CIM14/CDPSM/Balanced/IEC61970/Core/PSRType.py:38 *) (n_CIM14_CDPSM_Balanced_IEC61970_Core_PSRType_PSRType, []);
  (* CIM14/CDPSM/Balanced/IEC61970/Core/PowerSystemResource.py:43 *) (n_CIM14_CDPSM_Balanced_IEC61970_Core_PowerSystemResource_PowerSystemResource, []);
  (* CIM14/CDPSM/Balanced/IEC61970/Core/SubGeographicalRegion.py:46 *) (n_CIM14_CDPSM_Balanced_IEC61970_Core_SubGeographicalRegion_SubGeographicalRegion, []);
  (* CIM14/CDPSM/Balanced/IEC61970/Core/Substation.py:42 *) (n_CIM14_CDPSM_Balanced_IEC61970_Core_Substation_Substation, []);
  (* CIM14/CDPSM/Balanced/IEC61970/Core/Terminal.py:50 *) (n_CIM14_CDPSM_Balanced_IEC61970_Core_Terminal_Terminal, [(n_sequenceNumber, TyInt); (n_connected, TyBool)]);
  (* CIM14/CDPSM/Balanced/IEC61970/Core/VoltageLevel.py:54 *) (n_CIM14_CDPSM_Balanced_IEC61970_Core_VoltageLevel_VoltageLevel, [(n_lowVoltageLimit, TyFloat); (n_highVoltageLimit, TyFloat)]);
  (* CIM14/CDPSM/Balanced/IEC61970/Generation/Production/GeneratingUnit.py:50 *) (n_CIM14_CDPSM_Balanced_IEC61970_Generation_Production_GeneratingUnit_GeneratingUnit, [(n_ratedNetMaxP, TyFloat); (n_genControlSource, TyStr); (n_initialP, TyFloat)]);
  (* CIM14/CDPSM/Balanced/IEC61970/IEC61970CIMVersion.py:42 *) (n_CIM14_CDPSM_Balanced_IEC61970_IEC61970CIMVersion_IEC61970CIMVersion, [(n_date, TyStr); (n_version, TyStr)]);
  (* CIM14/CDPSM/Balanced/IEC61970/LoadModel/LoadResponseCharacteristic.py:90 *) (n_CIM14_CDPSM_Balanced_IEC61970_LoadModel_LoadResponseCharacteristic_LoadResponseCharacteristic, [(n_pVoltageExponent, TyFloat); (n_qConstantCurrent, TyFloat); (n_pFrequencyExponent, TyFloat); (n_exponentModel, TyBool); (n_qConstantImpedance, TyFloat); (n_pConstantCurrent, TyFloat); (n_qFrequencyExponent, TyFloat); (n_pConstantPower, TyFloat); (n_qVoltageExponent, TyFloat); (n_qConstantPower, TyFloat); (n_pConstantImpedance, TyFloat)]);
  (* CIM14/CDPSM/Balanced/IEC61970/StateVariables/SvTapStep.py:46 *) (n_CIM14_CDPSM_Balanced_IEC61970_StateVariables_SvTapStep_SvTapStep, [(n_continuousPosition, TyFloat); (n_position, TyInt)]);
  (* CIM14/CDPSM/Balanced/IEC61970/Topology/ConnectivityNode.py:42 *) (n_CIM14_CDPSM_Balanced_IEC61970_Topology_ConnectivityNode_ConnectivityNode, []);
  (* CIM14/CDPSM/Balanced/IEC61970/Wires/ACLineSegment.py:58 *) (n_CIM14_CDPSM_Balanced_IEC61970_Wires_ACLineSegment_ACLineSegment, [(n_r, TyFloat); (n_x0, TyFloat); (n_bch, TyFloat); (n_x, TyFloat); (n_b0ch, TyFloat); (n_r0, TyFloat)]);
  (* CIM14/CDPSM/Balanced/IEC61970/Wires/Breaker.py:38 *) (n_CIM14_CDPSM_Balanced_IEC61970_Wires_Breaker_Breaker, [(n_ratedCurrent, TyFloat)]);
  (* CIM14/CDPSM/Balanced/IEC61970/Wires/BusbarSection.py:35 *) (n_CIM14_CDPSM_Balanced_IEC61970_Wires_BusbarSection_BusbarSection, []);
  (* CIM14/CDPSM/Balanced/IEC61970/Wires/Conductor.py:38 *) (n_CIM14_CDPSM_Balanced_IEC61970_Wires_Conductor_Conductor, [(n_length, TyFloat)]);
  (* CIM14/CDPSM/Balanced/IEC61970/Wires/Disconnector.py:34 *) (n_CIM14_CDPSM_Balanced_IEC61970_Wires_Disconnector_Disconnector, []);
  (* CIM14/CDPSM/Balanced/IEC61970/Wires/EnergyConsumer.py:58 *) (n_CIM14_CDPSM_Balanced_IEC61970_Wires_EnergyConsumer_EnergyConsumer, [(n_pfixed, TyFloat); (n_pfixedPct, TyFloat); (n_qfixedPct, TyFloat); (n_qfixed, TyFloat); (n_customerCount, TyInt)]);
  (* CIM14/CDPSM/Balanced/IEC61970/Wires/EnergySource.py:50 *) (n_CIM14_CDPSM_Balanced_IEC61970_Wires_EnergySource_EnergySource, [(n_x, TyFloat); (n_voltageMagnitude, TyFloat); (n_voltageAngle, TyFloat); (n_nominalVoltage, TyFloat)]);
  (* CIM14/CDPSM/Balanced/IEC61970/Wires/Fuse.py:38 *) (n_CIM14_CDPSM_Balanced_IEC61970_Wires_Fuse_Fuse, [(n_ratingCurrent, TyFloat)]);
  (* CIM14/CDPSM/Balanced/IEC61970/Wires/Junction.py:34 *) (n_CIM14_CDPSM_Balanced_IEC61970_Wires_Junction_Junction, []);
  (* CIM14/CDPSM/Balanced/IEC61970/Wires/Line.py:38 *) (n_CIM14_CDPSM_Balanced_IEC61970_Wires_Line_Line, []);
  (* CIM14/CDPSM/Balanced/IEC61970/Wires/LoadBreakSwitch.py:38 *) (n_CIM14_CDPSM_Balanced_IEC61970_Wires_LoadBreakSwitch_LoadBreakSwitch, [(n_ratedCurrent, TyFloat)]);
  (* CIM14/CDPSM/Balanced/IEC61970/Wires/RatioTapChanger.py:42 *) (n_CIM14_CDPSM_Balanced_IEC61970_Wires_RatioTapChanger_RatioTapChanger, [(n_tculControlMode, TyStr)]);
  (* CIM14/CDPSM/Balanced/IEC61970/Wires/ShuntCompensator.py:54 *) (n_CIM14_CDPSM_Balanced_IEC61970_Wires_ShuntCompensator_ShuntCompensator, [(n_nomQ, TyFloat); (n_nomU, TyFloat); (n_normalSections, TyInt); (n_maximumSections, TyInt); (n_reactivePerSection, TyFloat)]);
  (* CIM14/CDPSM/Balanced/IEC61970/Wires/Switch.py:38 *) (n_CIM14_CDPSM_Balanced_IEC61970_Wires_Switch_Switch, [(n_normalOpen, TyBool)]);
  (* CIM14/CDPSM/Balanced/IEC61970/Wires/SynchronousMachine.py:58 *) (n_CIM14_CDPSM_Balanced_IEC61970_Wires_SynchronousMachine_SynchronousMachine, [(n_baseQ, TyFloat); (n_operatingMode, TyStr); (n_type, TyStr); (n_maxQ, TyFloat); (n_minQ, TyFloat)]);
  (* CIM14/CDPSM/Balanced/IEC61970/Wires/TapChanger.py:78 *) (n_CIM14_CDPSM_Balanced_IEC61970_Wires_TapChanger_TapChanger, [(n_stepVoltageIncrement, TyFloat); (n_subsequentDelay, TyFloat); (n_neutralStep, TyInt); (n_normalStep, TyInt); (n_ltcFlag, TyBool); (n_neutralU, TyFloat); (n_lowStep, TyInt); (n_initialDelay, TyFloat); (n_regulationStatus, TyBool); (n_highStep, TyInt)])
].

(** _attr_types of the classes of CIM14.CDPSM.GIS_Connectivity. *)
Definition cim14_cdpsm_gis_connectivity_types : types := [
  (* CIM14/CDPSM/GIS_Connectivity/Element.py:34 *) (n_CIM14_CDPSM_GIS_Connectivity_Element_Element, [(n_UUID, TyStr)]);
  (* CIM14/CDPSM/GIS_Connectivity/IEC61968/AssetModels/CableInfo.py:74 *) (n_CIM14_CDPSM_GIS_Connectivity_IEC61968_AssetModels_CableInfo_CableInfo, [(n_nominalTemperature, TyFloat); (n_diameterOverScreen, TyFloat); (n_sheathAsNeutral, TyBool); (n_diameterOverJacket, TyFloat); (n_diameterOverCore, TyFloat); (n_constructionKind, TyStr); (n_outerJacketKind, TyStr); (n_isStrandFill, TyBool); (n_shieldMaterial, TyStr); (n_diameterOverInsulation, TyFloat)]);
  (* CIM14/CDPSM/GIS_Connectivity/IEC61968/AssetModels/ConcentricNeutralCableInfo.py:46 *) (n_CIM14_CDPSM_GIS_Connectivity_IEC61968_AssetModels_ConcentricNeutralCableInfo_ConcentricNeutralCableInfo, [(n_neutralStrandCount, TyInt); (n_diameterOverNeutral, TyFloat)]);
  (* CIM14/CDPSM/GIS_Connectivity/IEC61968/AssetModels/ConductorInfo.py:62 *) (n_CIM14_CDPSM_GIS_Connectivity_IEC61968_AssetModels_ConductorInfo_ConductorInfo, [(n_phaseCount, TyInt); (n_insulationMaterial, TyStr); (n_insulationThickness, TyFloat); (n_insulated, TyBool); (n_usage, TyStr)]);
  (* CIM14/CDPSM/GIS_Connectivity/IEC61968/AssetModels/DistributionWindingTest.py:42 *) (n_CIM14_CDPSM_GIS_Connectivity_IEC61968_AssetModels_DistributionWindingTest_DistributionWindingTest, [(n_fromTapStep, TyInt)]);
  (* CIM14/CDPSM/GIS_Connectivity/IEC61968/AssetModels/OpenCircuitTest.py:55 *) (n_CIM14_CDPSM_GIS_Connectivity_IEC61968_AssetModels_OpenCircuitTest_OpenCircuitTest, [(n_noLoadLossZero, TyFloat); (n_noLoadLoss, TyFloat); (n_excitingCurrent, TyFloat); (n_excitingCurrentZero, TyFloat)]);
  (* CIM14/CDPSM/GIS_Connectivity/IEC61968/AssetModels/OverheadConductorInfo.py:46 *) (n_CIM14_CDPSM_GIS_Connectivity_IEC61968_AssetModels_OverheadConductorInfo_OverheadConductorInfo, [(n_neutralInsulationThickness, TyFloat); (n_phaseConductorCount, TyInt); (n_phaseConductorSpacing, TyFloat)]);
  (* CIM14/CDPSM/GIS_Connectivity/IEC61968/AssetModels/ShortCircuitTest.py:54 *) (n_CIM14_CDPSM_GIS_Connectivity_IEC61968_AssetModels_ShortCircuitTest_ShortCircuitTest, [(n_loadLossZero, TyFloat); (n_leakageImpedanceZero, TyFloat); (n_leakageImpedance, TyFloat); (n_loadLoss, TyFloat)]);
  (* CIM14/CDPSM/GIS_Connectivity/IEC61968/AssetModels/TapeShieldCableInfo.py:42 *) (n_CIM14_CDPSM_GIS_Connectivity_IEC61968_AssetModels_TapeShieldCableInfo_TapeShieldCableInfo, [(n_tapeThickness, TyFloat); (n_tapeLap, TyFloat)]);
  (* CIM14/CDPSM/GIS_Connectivity/IEC61968/AssetModels/ToWindingSpec.py:59 *) (n_CIM14_CDPSM_GIS_Connectivity_IEC61968_AssetModels_ToWindingSpec_ToWindingSpec, [(n_toTapStep, TyInt); (n_voltage, TyFloat); (n_phaseShift, TyFloat)]);
  (* CIM14/CDPSM/GIS_Connectivity/IEC61968/AssetModels/TransformerInfo.py:38 *) (n_CIM14_CDPSM_GIS_Connectivity_IEC61968_AssetModels_TransformerInfo_TransformerInfo, []);
  (* CIM14/CDPSM/GIS_Connectivity/IEC61968/AssetModels/WindingInfo.py:58 *) (n_CIM14_CDPSM_GIS_Connectivity_IEC61968_AssetModels_WindingInfo_WindingInfo, [(n_ratedS, TyFloat); (n_ratedU, TyFloat); (n_connectionKind, TyStr)]);
  (* CIM14/CDPSM/GIS_Connectivity/IEC61968/AssetModels/WireArrangement.py:54 *) (n_CIM14_CDPSM_GIS_Connectivity_IEC61968_AssetModels_WireArrangement_WireArrangement, [(n_mountingPointX, TyFloat); (n_mountingPointY, TyFloat); (n_position, TyInt)]);
  (* CIM14/CDPSM/GIS_Connectivity/IEC61968/AssetModels/WireType.py:90 *) (n_CIM14_CDPSM_GIS_Connectivity_IEC61968_AssetModels_WireType_WireType, [(n_rAC75, TyFloat); (n_coreRadius, TyFloat); (n_coreStrandCount, TyInt); (n_rAC25, TyFloat); (n_radius, TyFloat); (n_gmr, TyFloat); (n_rDC20, TyFloat); (n_rAC50, TyFloat); (n_material, TyStr); (n_sizeDescription, TyStr); (n_strandCount, TyInt); (n_ratedCurrent, TyFloat)]);
  (* CIM14/CDPSM/GIS_Connectivity/IEC61968/Common/GeoLocation.py:38 *) (n_CIM14_CDPSM_GIS_Connectivity_IEC61968_Common_GeoLocation_GeoLocation, []);
  (* CIM14/CDPSM/GIS_Connectivity/IEC61968/Common/Location.py:40 *) (n_CIM14_CDPSM_GIS_Connectivity_IEC61968_Common_Location_Location, []);
  (* CIM14/CDPSM/GIS_Connectivity/IEC61968/Common/PositionPoint.py:52 *) (n_CIM14_CDPSM_GIS_Connectivity_IEC61968_Common_PositionPoint_PositionPoint, [(n_xPosition, TyStr); (n_sequenceNumber, TyInt); (n_yPosition, TyStr)]);
  (* CIM14/CDPSM/GIS_Connectivity/IEC61968/WiresExt/DistributionLineSegment.py:52 *) (n_CIM14_CDPSM_GIS_Connectivity_IEC61968_WiresExt_DistributionLineSegment_DistributionLineSegment, []);
  (* CIM14/CDPSM/GIS_Connectivity/IEC61968/WiresExt/DistributionTapChanger.py:37 *) (n_CIM14_CDPSM_GIS_Connectivity_IEC61968_WiresExt_DistributionTapChanger_DistributionTapChanger, []);
  (* CIM14/CDPSM/GIS_Connectivity/IEC61968/WiresExt/DistributionTransformer.py:49 *) (n_CIM14_CDPSM_GIS_Connectivity_IEC61968_WiresExt_DistributionTransformer_DistributionTransformer, []);
  (* CIM14/CDPSM/GIS_Connectivity/IEC61968/WiresExt/DistributionTransformerWinding.py:51 *) (n_CIM14_CDPSM_GIS_Connectivity_IEC61968_WiresExt_DistributionTransformerWinding_DistributionTransformerWinding, []);
  (* CIM14/CDPSM/GIS_Connectivity/IEC61968/WiresExt/PerLengthPhaseImpedance.py:46 *) (n_CIM14_CDPSM_GIS_Connectivity_IEC61968_WiresExt_PerLengthPhaseImpedance_PerLengthPhaseImpedance, [(n_conductorCount, TyInt)]);
  (* CIM14/CDPSM/GIS_Connectivity/IEC61968/WiresExt/PerLengthSequenceImpedance.py:62 *) (n_CIM14_CDPSM_GIS_Connectivity_IEC61968_WiresExt_PerLengthSequenceImpedance_PerLengthSequenceImpedance, [(n_x, TyFloat); (n_r0, TyFloat); (n_x0, TyFloat); (n_b0ch, TyFloat); (n_r, TyFloat); (n_bch, TyFloat)]);
  (* CIM14/CDPSM/GIS_Connectivity/IEC61968/WiresExt/PhaseImpedanceData.py:54 *) (n_CIM14_CDPSM_GIS_Connectivity_IEC61968_WiresExt_PhaseImpedanceData_PhaseImpedanceData, [(n_x, TyFloat); (n_sequenceNumber, TyInt); (n_b, TyFloat); (n_r, TyFloat)]);
  (* CIM14/CDPSM/GIS_Connectivity/IEC61968/WiresExt/TransformerBank.py:38 *) (n_CIM14_CDPSM_GIS_Connectivity_IEC61968_WiresExt_TransformerBank_TransformerBank, []);
  (* CIM14/CDPSM/GIS_Connectivity/IEC61968/WiresExt/WindingPiImpedance.py:66 *) (n_CIM14_CDPSM_GIS_Connectivity_IEC61968_WiresExt_WindingPiImpedance_WindingPiImpedance, [(n_x, TyFloat); (n_g, TyFloat); (n_r0, TyFloat); (n_r, TyFloat); (n_b, TyFloat); (n_g0, TyFloat); (n_x0, TyFloat); (n_b0, TyFloat)]);
  (* CIM14/CDPSM/GIS_Connectivity/IEC61970/Core/BaseVoltage.py:46 *) (n_CIM14_CDPSM_GIS_Connectivity_IEC61970_Core_BaseVoltage_BaseVoltage, [(n_nominalVoltage, TyFloat)]);
  (* CIM14/CDPSM/GIS_Connectivity/IEC61970/Core/Bay.py:38 *) (n_CIM14_CDPSM_GIS_Connectivity_IEC61970_Core_Bay_Bay, []);
  (* CIM14/CDPSM/GIS_Connectivity/IEC61970/Core/ConductingEquipment.py:46 *) (n_CIM14_CDPSM_GIS_Connectivity_IEC61970_Core_ConductingEquipment_ConductingEquipment, [(n_phases, TyStr)]);
  (* CIM14/CDPSM/GIS_Connectivity/IEC61970/Core/ConnectivityNodeContainer.py:38 *) (n_CIM14_CDPSM_GIS_Connectivity_IEC61970_Core_ConnectivityNodeContainer_ConnectivityNodeContainer, []);
  (* CIM14/CDPSM/GIS_Connectivity/IEC61970/Core/Equipment.py:42 *) (n_CIM14_CDPSM_GIS_Connectivity_IEC61970_Core_Equipment_Equipment, [(n_normaIlyInService, TyBool)]);
  (* CIM14/CDPSM/GIS_Connectivity/IEC61970/Core/EquipmentContainer.py:38 *) (n_CIM14_CDPSM_GIS_Connectivity_IEC61970_Core_EquipmentContainer_EquipmentContainer, []);
  (* CIM14/CDPSM/GIS_Connectivity/IEC61970/Core/GeographicalRegion.py:38 *) (n_CIM14_CDPSM_GIS_Connectivity_IEC61970_Core_GeographicalRegion_GeographicalRegion, []);
  (* CIM14/CDPSM/GIS_Connectivity/IEC61970/Core/IdentifiedObject.py:54 *) (n_CIM14_CDPSM_GIS_Connectivity_IEC61970_Core_IdentifiedObject_IdentifiedObject, [(n_mRID, TyStr); (n_description, TyStr); (n_name, TyStr); (n_localName, TyStr); (n_aliasName, TyStr)]);
  (* CIM14/CDPSM/GIS_Connectivity/IEC61970/Core/PSRType.py:38 *) (n_CIM14_CDPSM_GIS_Connectivity_IEC61970_Core_PSRType_PSRType, []);
  (* CIM14/CDPSM/GIS_Connectivity/IEC61970/Core/PowerSystemResource.py:43 *) (n_CIM14_CDPSM_GIS_Connectivity_IEC61970_Core_PowerSystemResource_PowerSystemResource, []);
  (* CIM14/CDPSM/GIS_Connectivity/IEC61970/Core/SubGeographicalRegion.py:46 *) (n_CIM14_CDPSM_GIS_Connectivity_IEC61970_Core_SubGeographicalRegion_SubGeographicalRegion, []);
  (* CIM14/CDPSM/GIS_Connectivity/IEC61970/Core/Substation.py:42 *) (n_CIM14_CDPSM_GIS_Connectivity_IEC61970_Core_Substation_Substation, []);
  (* CIM14/CDPSM/GIS_Connectivity/IEC61970/Core/Terminal.py:50 *) (n_CIM14_CDPSM_GIS_Connectivity_IEC61970_Core_Terminal_Terminal, [(n_sequenceNumber, TyInt); (n_connected, TyBool)]);
  (* CIM14/CDPSM/GIS_Connectivity/IEC61970/Core/VoltageLevel.py:54 *) (n_CIM14_CDPSM_GIS_Connectivity_IEC61970_Core_VoltageLevel_VoltageLevel, [(n_lowVoltageLimit, TyFloat); (n_highVoltageLimit, TyFloat)]);
  (* CIM14/CDPSM/GIS_Connectivity/IEC61970/Generation/Production/GeneratingUnit.py:50 *) (n_CIM14_CDPSM_GIS_Connectivity_IEC61970_Generation_Production_GeneratingUnit_GeneratingUnit, [(n_ratedNetMaxP, TyFloat); (n_genControlSource, TyStr); (n_initialP, TyFloat)]);
  (* CIM14/CDPSM/GIS_Connectivity/IEC61970/IEC61970CIMVersion.py:42 *) (n_CIM14_CDPSM_GIS_Connectivity_IEC61970_IEC61970CIMVersion_IEC61970CIMVersion, [(n_date, TyStr); (n_version, TyStr)]);
  (* CIM14/CDPSM/GIS_Connectivity/IEC61970/LoadModel/LoadResponseCharacteristic.py:86 *) (n_CIM14_CDPSM_GIS_Connectivity_IEC61970_LoadModel_LoadResponseCharacteristic_LoadResponseCharacteristic, [(n_pVoltageExponent, TyFloat); (n_qConstantCurrent, TyFloat); (n_pFrequencyExponent, TyFloat); (n_exponentModel, TyBool); (n_qConstantImpedance, TyFloat); (n_pConstantCurrent, TyFloat); (n_qFrequencyExponent, TyFloat); (n_pConstantPower, TyFloat); (n_qVoltageExponent, TyFloat); (n_qConstantPower, TyFloat); (n_pConstantImpedance, TyFloat)]);
  (* CIM14/CDPSM/GIS_Connectivity/IEC61970/StateVariables/SvTapStep.py:46 *) (n_CIM14_CDPSM_GIS_Connectivity_IEC61970_StateVariables_SvTapStep_SvTapStep, [(n_continuousPosition, TyFloat); (n_position, TyInt)]);
  (* CIM14/CDPSM/GIS_Connectivity/IEC61970/Topology/ConnectivityNode.py:42 *) (n_CIM14_CDPSM_GIS_Connectivity_IEC61970_Topology_ConnectivityNode_ConnectivityNode, []);
  (* CIM14/CDPSM/GIS_Connectivity/IEC61970/Wires/ACLineSegment.py:58 *) (n_CIM14_CDPSM_GIS_Connectivity_IEC61970_Wires_ACLineSegment_ACLineSegment, [(n_r, TyFloat); (n_x0, TyFloat); (n_bch, TyFloat); (n_x, TyFloat); (n_b0ch, TyFloat); (n_r0, TyFloat)]);
  (* CIM14/CDPSM/GIS_Connectivity/IEC61970/Wires/Breaker.py:38 *) (n_CIM14_CDPSM_GIS_Connectivity_IEC61970_Wires_Breaker_Breaker, [(n_ratedCurrent, TyFloat)]);
  (* CIM14/CDPSM/GIS_Connectivity/IEC61970/Wires/BusbarSection.py:35 *) (n_CIM14_CDPSM_GIS_Connectivity_IEC61970_Wires_BusbarSection_BusbarSection, []);
  (* CIM14/CDPSM/GIS_Connectivity/IEC61970/Wires/Conductor.py:38 *) (n_CIM14_CDPSM_GIS_Connectivity_IEC61970_Wires_Conductor_Conductor, [(n_length, TyFloat)]);
  (* CIM14/CDPSM/GIS_Connectivity/IEC61970/Wires/Disconnector.py:34 *) (n_CIM14_CDPSM_GIS_Connectivity_IEC61970_Wires_Disconnector_Disconnector, []);
  (* CIM14/CDPSM/GIS_Connectivity/IEC61970/Wires/EnergyConsumer.py:46 *) (n_CIM14_CDPSM_GIS_Connectivity_IEC61970_Wires_EnergyConsumer_EnergyConsumer, [(n_pfixed, TyFloat); (n_qfixed, TyFloat); (n_customerCount, TyInt)]);
  (* CIM14/CDPSM/GIS_Connectivity/IEC61970/Wires/EnergySource.py:50 *) (n_CIM14_CDPSM_GIS_Connectivity_IEC61970_Wires_EnergySource_EnergySource, [(n_x, TyFloat); (n_voltageMagnitude, TyFloat); (n_voltageAngle, TyFloat); (n_nominalVoltage, TyFloat)]);
  (* CIM14/CDPSM/GIS_Connectivity/IEC61970/Wires/Fuse.py:38 *) (n_CIM14_CDPSM_GIS_Connectivity_IEC61970_Wires_Fuse_Fuse, [(n_ratingCurrent, TyFloat)]);
  (* CIM14/CDPSM/GIS_Connectivity/IEC61970/Wires/Junction.py:34 *) (n_CIM14_CDPSM_GIS_Connectivity_IEC61970_Wires_Junction_Junction, []);
  (* CIM14/CDPSM/GIS_Connectivity/IEC61970/Wires/Line.py:38 *) (n_CIM14_CDPSM_GIS_Connectivity_IEC61970_Wires_Line_Line, []);
  (* CIM14/CDPSM/GIS_Connectivity/IEC61970/Wires/LoadBreakSwitch.py:38 *) (n_CIM14_CDPSM_GIS_Connectivity_IEC61970_Wires_LoadBreakSwitch_LoadBreakSwitch, [(n_ratedCurrent, TyFloat)]);
  (* CIM14/CDPSM/GIS_Connectivity/IEC61970/Wires/RatioTapChanger.py:42 *) (n_CIM14_CDPSM_GIS_Connectivity_IEC61970_Wires_RatioTapChanger_RatioTapChanger, [(n_tculControlMode, TyStr)]);
  (* CIM14/CDPSM/GIS_Connectivity/IEC61970/Wires/ShuntCompensator.py:42 *) (n_CIM14_CDPSM_GIS_Connectivity_IEC61970_Wires_ShuntCompensator_ShuntCompensator, [(n_nomQ, TyFloat); (n_nomU, TyFloat)]);
  (* CIM14/CDPSM/GIS_Connectivity/IEC61970/Wires/Switch.py:38 *) (n_CIM14_CDPSM_GIS_Connectivity_IEC61970_Wires_Switch_Switch, [(n_normalOpen, TyBool)]);
  (* CIM14/CDPSM/GIS_Connectivity/IEC61970/Wires/SynchronousMachine.py:58 *) (n_CIM14_CDPSM_GIS_Connectivity_IEC61970_Wires_SynchronousMachine_SynchronousMachine, [(n_baseQ, TyFloat); (n_operatingMode, TyStr); (n_type, TyStr); (n_maxQ, TyFloat); (n_minQ, TyFloat)]);
  (* CIM14/CDPSM/GIS_Connectivity/IEC61970/Wires/TapChanger.py:78 *) (n_CIM14_CDPSM_GIS_Connectivity_IEC61970_Wires_TapChanger_TapChanger, [(n_stepVoltageIncrement, TyFloat); (n_subsequentDelay, TyFloat); (n_neutralStep, TyInt); (n_normalStep, TyInt); (n_ltcFlag, TyBool); (n_neutralU, TyFloat); (n_lowStep, TyInt); (n_initialDelay, TyFloat); (n_regulationStatus, TyBool); (n_highStep, TyInt)])
].

(** _attr_types of the classes of CIM14.CDPSM.Unbalanced. *)
Definition cim14_cdpsm_unbalanced_types : types := [
  (* CIM14/CDPSM/Unbalanced/Element.py:34 *) (n_CIM14_CDPSM_Unbalanced_Element_Element, [(n_UUID, TyStr)]);
  (* CIM14/CDPSM/Unbalanced/IEC61968/AssetModels/CableInfo.py:74 *) (n_CIM14_CDPSM_Unbalanced_IEC61968_AssetModels_CableInfo_CableInfo, [(n_nominalTemperature, TyFloat); (n_diameterOverScreen, TyFloat); (n_sheathAsNeutral, TyBool); (n_diameterOverJacket, TyFloat); (n_diameterOverCore, TyFloat); (n_constructionKind, TyStr); (n_outerJacketKind, TyStr); (n_isStrandFill, TyBool); (n_shieldMaterial, TyStr); (n_diameterOverInsulation, TyFloat)]);
  (* CIM14/CDPSM/Unbalanced/IEC61968/AssetModels/ConcentricNeutralCableInfo.py:46 *) (n_CIM14_CDPSM_Unbalanced_IEC61968_AssetModels_ConcentricNeutralCableInfo_ConcentricNeutralCableInfo, [(n_neutralStrandCount, TyInt); (n_diameterOverNeutral, TyFloat)]);
  (* CIM14/CDPSM/Unbalanced/IEC61968/AssetModels/ConductorInfo.py:62 *) (n_CIM14_CDPSM_Unbalanced_IEC61968_AssetModels_ConductorInfo_ConductorInfo, [(n_phaseCount, TyInt); (n_insulationMaterial, TyStr); (n_insulationThickness, TyFloat); (n_insulated, TyBool); (n_usage, TyStr)]);
  (* CIM14/CDPSM/Unbalanced/IEC61968/AssetModels/DistributionWindingTest.py:42 *) (n_CIM14_CDPSM_Unbalanced_IEC61968_AssetModels_DistributionWindingTest_DistributionWindingTest, [(n_fromTapStep, TyInt)]);
  (* CIM14/CDPSM/Unbalanced/IEC61968/AssetModels/OpenCircuitTest.py:55 *) (n_CIM14_CDPSM_Unbalanced_IEC61968_AssetModels_OpenCircuitTest_OpenCircuitTest, [(n_noLoadLossZero, TyFloat); (n_noLoadLoss, TyFloat); (n_excitingCurrent, TyFloat); (n_excitingCurrentZero, TyFloat)]);
  (* CIM14/CDPSM/Unbalanced/IEC61968/AssetModels/OverheadConductorInfo.py:46 *) (n_CIM14_CDPSM_Unbalanced_IEC61968_AssetModels_OverheadConductorInfo_OverheadConductorInfo, [(n_neutralInsulationThickness, TyFloat); (n_phaseConductorCount, TyInt); (n_phaseConductorSpacing, TyFloat)]);
  (* CIM14/CDPSM/Unbalanced/IEC61968/AssetModels/ShortCircuitTest.py:54 *) (n_CIM14_CDPSM_Unbalanced_IEC61968_AssetModels_ShortCircuitTest_ShortCircuitTest, [(n_loadLossZero, TyFloat); (n_leakageImpedanceZero, TyFloat); (n_leakageImpedance, TyFloat); (n_loadLoss, TyFloat)]);
  (* CIM14/CDPSM/Unbalanced/IEC61968/AssetModels/TapeShieldCableInfo.py:42 *) (n_CIM14_CDPSM_Unbalanced_IEC61968_AssetModels_TapeShieldCableInfo_TapeShieldCableInfo, [(n_tapeThickness, TyFloat); (n_tapeLap, TyFloat)]);
  (* CIM14/CDPSM/Unbalanced/IEC61968/AssetModels/ToWindingSpec.py:59 *) (n_CIM14_CDPSM_Unbalanced_IEC61968_AssetModels_ToWindingSpec_ToWindingSpec, [(n_toTapStep, TyInt); (n_voltage, TyFloat); (n_phaseShift, TyFloat)]);
  (* CIM14/CDPSM/Unbalanced/IEC61968/AssetModels/TransformerInfo.py:42 *) (n_CIM14_CDPSM_Unbalanced_IEC61968_AssetModels_TransformerInfo_TransformerInfo, []);
  (* CIM14/CDPSM/Unbalanced/IEC61968/AssetModels/WindingInfo.py:86 *) (n_CIM14_CDPSM_Unbalanced_IEC61968_AssetModels_WindingInfo_WindingInfo, [(n_sequenceNumber, TyInt); (n_ratedS, TyFloat); (n_ratedU, TyFloat); (n_connectionKind, TyStr); (n_emergencyS, TyFloat); (n_r, TyFloat); (n_phaseAngle, TyInt); (n_insulationU, TyFloat); (n_shortTermS, TyFloat)]);
  (* CIM14/CDPSM/Unbalanced/IEC61968/AssetModels/WireArrangement.py:54 *) (n_CIM14_CDPSM_Unbalanced_IEC61968_AssetModels_WireArrangement_WireArrangement, [(n_mountingPointX, TyFloat); (n_mountingPointY, TyFloat); (n_position, TyInt)]);
  (* CIM14/CDPSM/Unbalanced/IEC61968/AssetModels/WireType.py:90 *) (n_CIM14_CDPSM_Unbalanced_IEC61968_AssetModels_WireType_WireType, [(n_rAC75, TyFloat); (n_coreRadius, TyFloat); (n_coreStrandCount, TyInt); (n_rAC25, TyFloat); (n_radius, TyFloat); (n_gmr, TyFloat); (n_rDC20, TyFloat); (n_rAC50, TyFloat); (n_material, TyStr); (n_sizeDescription, TyStr); (n_strandCount, TyInt); (n_ratedCurrent, TyFloat)]);
  (* CIM14/CDPSM/Unbalanced/IEC61968/Common/GeoLocation.py:38 *) (n_CIM14_CDPSM_Unbalanced_IEC61968_Common_GeoLocation_GeoLocation, []);
  (* CIM14/CDPSM/Unbalanced/IEC61968/Common/Location.py:40 *) (n_CIM14_CDPSM_Unbalanced_IEC61968_Common_Location_Location, []);
  (* CIM14/CDPSM/Unbalanced/IEC61968/Common/PositionPoint.py:52 *) (n_CIM14_CDPSM_Unbalanced_IEC61968_Common_PositionPoint_PositionPoint, [(n_sequenceNumber, TyInt); (n_xPosition, TyStr); (n_yPosition, TyStr)]);
  (* CIM14/CDPSM/Unbalanced/IEC61968/WiresExt/DistributionLineSegment.py:52 *) (n_CIM14_CDPSM_Unbalanced_IEC61968_WiresExt_DistributionLineSegment_DistributionLineSegment, []);
  (* CIM14/CDPSM/Unbalanced/IEC61968/WiresExt/DistributionTapChanger.py:81 *) (n_CIM14_CDPSM_Unbalanced_IEC61968_WiresExt_DistributionTapChanger_DistributionTapChanger, [(n_lineDropR, TyFloat); (n_monitoredPhase, TyStr); (n_lineDropCompensation, TyBool); (n_ptRatio, TyFloat); (n_ctRatio, TyFloat); (n_reverseLineDropR, TyFloat); (n_limitVoltage, TyFloat); (n_reverseLineDropX, TyFloat); (n_bandVoltage, TyFloat); (n_targetVoltage, TyFloat); (n_lineDropX, TyFloat)]);
  (* CIM14/CDPSM/Unbalanced/IEC61968/WiresExt/DistributionTransformer.py:49 *) (n_CIM14_CDPSM_Unbalanced_IEC61968_WiresExt_DistributionTransformer_DistributionTransformer, []);
  (* CIM14/CDPSM/Unbalanced/IEC61968/WiresExt/DistributionTransformerWinding.py:67 *) (n_CIM14_CDPSM_Unbalanced_IEC61968_WiresExt_DistributionTransformerWinding_DistributionTransformerWinding, [(n_rground, TyFloat); (n_xground, TyFloat); (n_grounded, TyBool)]);
  (* CIM14/CDPSM/Unbalanced/IEC61968/WiresExt/PerLengthPhaseImpedance.py:46 *) (n_CIM14_CDPSM_Unbalanced_IEC61968_WiresExt_PerLengthPhaseImpedance_PerLengthPhaseImpedance, [(n_conductorCount, TyInt)]);
  (* CIM14/CDPSM/Unbalanced/IEC61968/WiresExt/PerLengthSequenceImpedance.py:62 *) (n_CIM14_CDPSM_Unbalanced_IEC61968_WiresExt_PerLengthSequenceImpedance_PerLengthSequenceImpedance, [(n_x, TyFloat); (n_r0, TyFloat); (n_x0, TyFloat); (n_b0ch, TyFloat); (n_r, TyFloat); (n_bch, TyFloat)]);
  (* CIM14/CDPSM/Unbalanced/IEC61968/WiresExt/PhaseImpedanceData.py:54 *) (n_CIM14_CDPSM_Unbalanced_IEC61968_WiresExt_PhaseImpedanceData_PhaseImpedanceData, [(n_x, TyFloat); (n_sequenceNumber, TyInt); (n_b, TyFloat); (n_r, TyFloat)]);
  (* CIM14/CDPSM/Unbalanced/IEC61968/WiresExt/TransformerBank.py:42 *) (n_CIM14_CDPSM_Unbalanced_IEC61968_WiresExt_TransformerBank_TransformerBank, [(n_vectorGroup, TyStr)]);
  (* CIM14/CDPSM/Unbalanced/IEC61968/WiresExt/WindingPiImpedance.py:70 *) (n_CIM14_CDPSM_Unbalanced_IEC61968_WiresExt_WindingPiImpedance_WindingPiImpedance, [(n_x, TyFloat); (n_g, TyFloat); (n_r0, TyFloat); (n_r, TyFloat); (n_b, TyFloat); (n_g0, TyFloat); (n_x0, TyFloat); (n_b0, TyFloat)]);
  (* CIM14/CDPSM/Unbalanced/IEC61970/Core/BaseVoltage.py:46 *) (n_CIM14_CDPSM_Unbalanced_IEC61970_Core_BaseVoltage_BaseVoltage, [(n_nominalVoltage, TyFloat)]);
  (* CIM14/CDPSM/Unbalanced/IEC61970/Core/Bay.py:38 *) (n_CIM14_CDPSM_Unbalanced_IEC61970_Core_Bay_Bay, []);
  (* CIM14/CDPSM/Unbalanced/IEC61970/Core/ConductingEquipment.py:46 *) (n_CIM14_CDPSM_Unbalanced_IEC61970_Core_ConductingEquipment_ConductingEquipment, [(n_phases, TyStr)]);
  (* CIM14/CDPSM/Unbalanced/IEC61970/Core/ConnectivityNodeContainer.py:38 *) (n_CIM14_CDPSM_Unbalanced_IEC61970_Core_ConnectivityNodeContainer_ConnectivityNodeContainer, []);
  (* CIM14/CDPSM/Unbalanced/IEC61970/Core/Equipment.py:42 *) (n_CIM14_CDPSM_Unbalanced_IEC61970_Core_Equipment_Equipment, [(n_normaIlyInService, TyBool)]);
  (* CIM14/CDPSM/Unbalanced/IEC61970/Core/EquipmentContainer.py:38 *) (n_CIM14_CDPSM_Unbalanced_IEC61970_Core_EquipmentContainer_EquipmentContainer, []);
  (* CIM14/CDPSM/Unbalanced/IEC61970/Core/GeographicalRegion.py:38 *) (n_CIM14_CDPSM_Unbalanced_IEC61970_Core_GeographicalRegion_GeographicalRegion, []);
  (* CIM14/CDPSM/Unbalanced/IEC61970/Core/IdentifiedObject.py:54 *) (n_CIM14_CDPSM_Unbalanced_IEC61970_Core_IdentifiedObject_IdentifiedObject, [(n_mRID, TyStr); (n_description, TyStr); (n_name, TyStr); (n_localName, TyStr); (n_aliasName, TyStr)]);
  (* CIM14/CDPSM/Unbalanced/IEC61970/Core/PSRType.py:38 *) (n_CIM14_CDPSM_Unbalanced_IEC61970_Core_PSRType_PSRType, []);
  (* CIM14/CDPSM/Unbalanced/IEC61970/Core/PowerSystemResource.py:43 *) (n_CIM14_CDPSM_Unbalanced_IEC61970_Core_PowerSystemResource_PowerSystemResource, []);
  (* CIM14/CDPSM/Unbalanced/IEC61970/Core/SubGeographicalRegion.py:46 *) (n_CIM14_CDPSM_Unbalanced_IEC61970_Core_SubGeographicalRegion_SubGeographicalRegion, []);
  (* CIM14/CDPSM/Unbalanced/IEC61970/Core/Substation.py:42 *) (n_CIM14_CDPSM_Unbalanced_IEC61970_Core_Substation_Substation, []);
  (* CIM14/CDPSM/Unbalanced/IEC61970/Core/Terminal.py:50 *) (n_CIM14_CDPSM_Unbalanced_IEC61970_Core_Terminal_Terminal, [(n_sequenceNumber, TyInt); (n_connected, TyBool)]);
  (* CIM14/CDPSM/Unbalanced/IEC61970/Core/VoltageLevel.py:54 *) (n_CIM14_CDPSM_Unbalanced_IEC61970_Core_VoltageLevel_VoltageLevel, [(n_lowVoltageLimit, TyFloat); (n_highVoltageLimit, TyFloat)]);
  (* CIM14/CDPSM/Unbalanced/IEC61970/Generation/Production/GeneratingUnit.py:50 *) (n_CIM14_CDPSM_Unbalanced_IEC61970_Generation_Production_GeneratingUnit_GeneratingUnit, [(n_ratedNetMaxP, TyFloat); (n_genControlSource, TyStr); (n_initialP, TyFloat)]);
  (* CIM14/CDPSM/Unbalanced/IEC61970/IEC61970CIMVersion.py:42 *) (n_CIM14_CDPSM_Unbalanced_IEC61970_IEC61970CIMVersion_IEC61970CIMVersion, [(n_date, TyStr); (n_version, TyStr)]);
  (* CIM14/CDPSM/Unbalanced/IEC61970/LoadModel/LoadResponseCharacteristic.py:90 *) (n_CIM14_CDPSM_Unbalanced_IEC61970_LoadModel_LoadResponseCharacteristic_LoadResponseCharacteristic, [(n_pVoltageExponent, TyFloat); (n_qConstantCurrent, TyFloat); (n_pFrequencyExponent, TyFloat); (n_exponentModel, TyBool); (n_qConstantImpedance, TyFloat); (n_pConstantCurrent, TyFloat); (n_qFrequencyExponent, TyFloat); (n_pConstantPower, TyFloat); (n_qVoltageExponent, TyFloat); (n_qConstantPower, TyFloat); (n_pConstantImpedance, TyFloat)]);
  (* CIM14/CDPSM/Unbalanced/IEC61970/StateVariables/SvTapStep.py:46 *) (n_CIM14_CDPSM_Unbalanced_IEC61970_StateVariables_SvTapStep_SvTapStep, [(n_continuousPosition, TyFloat); (n_position, TyInt)]);
  (* CIM14/CDPSM/Unbalanced/IEC61970/Topology/ConnectivityNode.py:42 *) (n_CIM14_CDPSM_Unbalanced_IEC61970_Topology_ConnectivityNode_ConnectivityNode, []);
  (* CIM14/CDPSM/Unbalanced/IEC61970/Wires/ACLineSegment.py:58 *) (n_CIM14_CDPSM_Unbalanced_IEC61970_Wires_ACLineSegment_ACLineSegment, [(n_r, TyFloat); (n_x0, TyFloat); (n_bch, TyFloat); (n_x, TyFloat); (n_b0ch, TyFloat); (n_r0, TyFloat)]);
  (* CIM14/CDPSM/Unbalanced/IEC61970/Wires/Breaker.py:38 *) (n_CIM14_CDPSM_Unbalanced_IEC61970_Wires_Breaker_Breaker, [(n_ratedCurrent, TyFloat)]);
  (* CIM14/CDPSM/Unbalanced/IEC61970/Wires/BusbarSection.py:35 *) (n_CIM14_CDPSM_Unbalanced_IEC61970_Wires_BusbarSection_BusbarSection, []);
  (* CIM14/CDPSM/Unbalanced/IEC61970/Wires/Conductor.py:38 *) (n_CIM14_CDPSM_Unbalanced_IEC61970_Wires_Conductor_Conductor, [(n_length, TyFloat)]);
  (* CIM14/CDPSM/Unbalanced/IEC61970/Wires/Disconnector.py:34 *) (n_CIM14_CDPSM_Unbalanced_IEC61970_Wires_Disconnector_Disconnector, []);
  (* CIM14/CDPSM/Unbalanced/IEC61970/Wires/EnergyConsumer.py:58 *) (n_CIM14_CDPSM_Unbalanced_IEC61970_Wires_EnergyConsumer_EnergyConsumer, [(n_pfixed, TyFloat); (n_pfixedPct, TyFloat); (n_qfixedPct, TyFloat); (n_qfixed, TyFloat); (n_customerCount, TyInt)]);
  (* CIM14/CDPSM/Unbalanced/IEC61970/Wires/EnergySource.py:50 *) (n_CIM14_CDPSM_Unbalanced_IEC61970_Wires_EnergySource_EnergySource, [(n_x, TyFloat); (n_voltageMagnitude, TyFloat); (n_voltageAngle, TyFloat); (n_nominalVoltage, TyFloat)]);
  (* CIM14/CDPSM/Unbalanced/IEC61970/Wires/Fuse.py:38 *) (n_CIM14_CDPSM_Unbalanced_IEC61970_Wires_Fuse_Fuse, [(n_ratingCurrent, TyFloat)]);
  (* CIM14/CDPSM/Unbalanced/IEC61970/Wires/Junction.py:34 *) (n_CIM14_CDPSM_Unbalanced_IEC61970_Wires_Junction_Junction, []);
  (* CIM14/CDPSM/Unbalanced/IEC61970/Wires/Line.py:38 *) (n_CIM14_CDPSM_Unbalanced_IEC61970_Wires_Line_Line, []);
  (* CIM14/CDPSM/Unbalanced/IEC61970/Wires/LoadBreakSwitch.py:38 *) (n_CIM14_CDPSM_Unbalanced_IEC61970_Wires_LoadBreakSwitch_LoadBreakSwitch, [(n_ratedCurrent, TyFloat)]);
  (* CIM14/CDPSM/Unbalanced/IEC61970/Wires/RatioTapChanger.py:42 *) (n_CIM14_CDPSM_Unbalanced_IEC61970_Wires_RatioTapChanger_RatioTapChanger, [(n_tculControlMode, TyStr)]);
  (* CIM14/CDPSM/Unbalanced/IEC61970/Wires/ShuntCompensator.py:54 *) (n_CIM14_CDPSM_Unbalanced_IEC61970_Wires_ShuntCompensator_ShuntCompensator, [(n_nomQ, TyFloat); (n_nomU, TyFloat); (n_normalSections, TyInt); (n_maximumSections, TyInt); (n_reactivePerSection, TyFloat)]);
  (* CIM14/CDPSM/Unbalanced/IEC61970/Wires/Switch.py:38 *) (n_CIM14_CDPSM_Unbalanced_IEC61970_Wires_Switch_Switch, [(n_normalOpen, TyBool)]);
  (* CIM14/CDPSM/Unbalanced/IEC61970/Wires/SynchronousMachine.py:58 *) (n_CIM14_CDPSM_Unbalanced_IEC61970_Wires_SynchronousMachine_SynchronousMachine, [(n_baseQ, TyFloat); (n_operatingMode, TyStr); (n_type, TyStr); (n_maxQ, TyFloat); (n_minQ, TyFloat)]);
  (* CIM14/CDPSM/Unbalanced/IEC61970/Wires/TapChanger.py:78 *) (n_CIM14_CDPSM_Unbalanced_IEC61970_Wires_TapChanger_TapChanger, [(n_stepVoltageIncrement, TyFloat); (n_subsequentDelay, TyFloat); (n_neutralStep, TyInt); (n_normalStep, TyInt); (n_ltcFlag, TyBool); (n_neutralU, TyFloat); (n_lowStep, TyInt); (n_initialDelay, TyFloat); (n_regulationStatus, TyBool); (n_highStep, TyInt)])
].

(** _attr_types of the classes of CIM14.CPSM.Equipment. *)
Definition cim14_cpsm_equipment_types : types := [
  (* CIM14/CPSM/Equipment/ControlArea/ControlArea.py:58 *) (n_CIM14_CPSM_Equipment_ControlArea_ControlArea_ControlArea, [(n_netInterchange, TyFloat); (n_type, TyStr); (n_pTolerance, TyFloat)]);
  (* CIM14/CPSM/Equipment/ControlArea/ControlAreaGeneratingUnit.py:42 *) (n_CIM14_CPSM_Equipment_ControlArea_ControlAreaGeneratingUnit_ControlAreaGeneratingUnit, []);
  (* CIM14/CPSM/Equipment/ControlArea/TieFlow.py:46 *) (n_CIM14_CPSM_Equipment_ControlArea_TieFlow_TieFlow, [(n_positiveFlowIn, TyBool)]);
  (* CIM14/CPSM/Equipment/Core/BaseVoltage.py:46 *) (n_CIM14_CPSM_Equipment_Core_BaseVoltage_BaseVoltage, [(n_nominalVoltage, TyFloat)]);
  (* CIM14/CPSM/Equipment/Core/BasicIntervalSchedule.py:46 *) (n_CIM14_CPSM_Equipment_Core_BasicIntervalSchedule_BasicIntervalSchedule, [(n_startTime, TyStr); (n_value1Unit, TyStr); (n_value2Unit, TyStr)]);
  (* CIM14/CPSM/Equipment/Core/Bay.py:38 *) (n_CIM14_CPSM_Equipment_Core_Bay_Bay, []);
  (* CIM14/CPSM/Equipment/Core/ConductingEquipment.py:42 *) (n_CIM14_CPSM_Equipment_Core_ConductingEquipment_ConductingEquipment, []);
  (* CIM14/CPSM/Equipment/Core/ConnectivityNode.py:42 *) (n_CIM14_CPSM_Equipment_Core_ConnectivityNode_ConnectivityNode, []);
  (* CIM14/CPSM/Equipment/Core/ConnectivityNodeContainer.py:38 *) (n_CIM14_CPSM_Equipment_Core_ConnectivityNodeContainer_ConnectivityNodeContainer, []);
  (* CIM14/CPSM/Equipment/Core/Curve.py:58 *) (n_CIM14_CPSM_Equipment_Core_Curve_Curve, [(n_y1Unit, TyStr); (n_y2Unit, TyStr); (n_y3Unit, TyStr); (n_curveStyle, TyStr); (n_xUnit, TyStr)]);
  (* CIM14/CPSM/Equipment/Core/CurveData.py:54 *) (n_CIM14_CPSM_Equipment_Core_CurveData_CurveData, [(n_y1value, TyFloat); (n_xvalue, TyFloat); (n_y3value, TyFloat); (n_y2value, TyFloat)]);
  (* CIM14/CPSM/Equipment/Core/Equipment.py:46 *) (n_CIM14_CPSM_Equipment_Core_Equipment_Equipment, [(n_aggregate, TyBool)]);
  (* CIM14/CPSM/Equipment/Core/EquipmentContainer.py:38 *) (n_CIM14_CPSM_Equipment_Core_EquipmentContainer_EquipmentContainer, []);
  (* CIM14/CPSM/Equipment/Core/GeographicalRegion.py:38 *) (n_CIM14_CPSM_Equipment_Core_GeographicalRegion_GeographicalRegion, []);
  (* CIM14/CPSM/Equipment/Core/IdentifiedObject.py:50 *) (n_CIM14_CPSM_Equipment_Core_IdentifiedObject_IdentifiedObject, [(n_description, TyStr); (n_name, TyStr); (n_aliasName, TyStr); (n_pathName, TyStr)]);
  (* CIM14/CPSM/Equipment/Core/PowerSystemResource.py:38 *) (n_CIM14_CPSM_Equipment_Core_PowerSystemResource_PowerSystemResource, []);
  (* CIM14/CPSM/Equipment/Core/RegularIntervalSchedule.py:46 *) (n_CIM14_CPSM_Equipment_Core_RegularIntervalSchedule_RegularIntervalSchedule, [(n_timeStep, TyFloat); (n_endTime, TyStr)]);
  (* CIM14/CPSM/Equipment/Core/RegularTimePoint.py:50 *) (n_CIM14_CPSM_Equipment_Core_RegularTimePoint_RegularTimePoint, [(n_sequenceNumber, TyInt); (n_value1, TyFloat); (n_value2, TyFloat)]);
  (* CIM14/CPSM/Equipment/Core/SubGeographicalRegion.py:46 *) (n_CIM14_CPSM_Equipment_Core_SubGeographicalRegion_SubGeographicalRegion, []);
  (* CIM14/CPSM/Equipment/Core/Substation.py:42 *) (n_CIM14_CPSM_Equipment_Core_Substation_Substation, []);
  (* CIM14/CPSM/Equipment/Core/Terminal.py:70 *) (n_CIM14_CPSM_Equipment_Core_Terminal_Terminal, [(n_sequenceNumber, TyInt)]);
  (* CIM14/CPSM/Equipment/Core/Unit.py:38 *) (n_CIM14_CPSM_Equipment_Core_Unit_Unit, []);
  (* CIM14/CPSM/Equipment/Core/VoltageLevel.py:54 *) (n_CIM14_CPSM_Equipment_Core_VoltageLevel_VoltageLevel, [(n_lowVoltageLimit, TyFloat); (n_highVoltageLimit, TyFloat)]);
  (* CIM14/CPSM/Equipment/Element.py:34 *) (n_CIM14_CPSM_Equipment_Element_Element, [(n_UUID, TyStr)]);
  (* CIM14/CPSM/Equipment/Equivalents/EquivalentBranch.py:42 *) (n_CIM14_CPSM_Equipment_Equivalents_EquivalentBranch_EquivalentBranch, [(n_r, TyFloat); (n_x, TyFloat)]);
  (* CIM14/CPSM/Equipment/Equivalents/EquivalentEquipment.py:38 *) (n_CIM14_CPSM_Equipment_Equivalents_EquivalentEquipment_EquivalentEquipment, []);
  (* CIM14/CPSM/Equipment/Equivalents/EquivalentInjection.py:54 *) (n_CIM14_CPSM_Equipment_Equivalents_EquivalentInjection_EquivalentInjection, [(n_regulationCapability, TyBool); (n_maxP, TyFloat); (n_regulationStatus, TyBool); (n_minP, TyFloat); (n_regulationTarget, TyFloat)]);
  (* CIM14/CPSM/Equipment/Equivalents/EquivalentNetwork.py:38 *) (n_CIM14_CPSM_Equipment_Equivalents_EquivalentNetwork_EquivalentNetwork, []);
  (* CIM14/CPSM/Equipment/Equivalents/EquivalentShunt.py:42 *) (n_CIM14_CPSM_Equipment_Equivalents_EquivalentShunt_EquivalentShunt, [(n_b, TyFloat); (n_g, TyFloat)]);
  (* CIM14/CPSM/Equipment/Generation/Production/FossilFuel.py:42 *) (n_CIM14_CPSM_Equipment_Generation_Production_FossilFuel_FossilFuel, [(n_fossilFuelType, TyStr)]);
  (* CIM14/CPSM/Equipment/Generation/Production/GeneratingUnit.py:106 *) (n_CIM14_CPSM_Equipment_Generation_Production_GeneratingUnit_GeneratingUnit, [(n_maxOperatingP, TyFloat); (n_ratedGrossMaxP, TyFloat); (n_variableCost, TyFloat); (n_minOperatingP, TyFloat); (n_ratedGrossMinP, TyFloat); (n_shortPF, TyFloat); (n_ratedNetMaxP, TyFloat); (n_longPF, TyFloat); (n_startupCost, TyFloat); (n_genControlSource, TyStr); (n_nominalP, TyFloat); (n_governorSCD, TyFloat); (n_maximumAllowableSpinningReserve, TyFloat); (n_initialP, TyFloat); (n_normalPF, TyFloat)]);
  (* CIM14/CPSM/Equipment/Generation/Production/GrossToNetActivePowerCurve.py:38 *) (n_CIM14_CPSM_Equipment_Generation_Production_GrossToNetActivePowerCurve_GrossToNetActivePowerCurve, []);
  (* CIM14/CPSM/Equipment/Generation/Production/HydroGeneratingUnit.py:34 *) (n_CIM14_CPSM_Equipment_Generation_Production_HydroGeneratingUnit_HydroGeneratingUnit, []);
  (* CIM14/CPSM/Equipment/Generation/Production/HydroPump.py:38 *) (n_CIM14_CPSM_Equipment_Generation_Production_HydroPump_HydroPump, []);
  (* CIM14/CPSM/Equipment/Generation/Production/NuclearGeneratingUnit.py:34 *) (n_CIM14_CPSM_Equipment_Generation_Production_NuclearGeneratingUnit_NuclearGeneratingUnit, []);
  (* CIM14/CPSM/Equipment/Generation/Production/ThermalGeneratingUnit.py:38 *) (n_CIM14_CPSM_Equipment_Generation_Production_ThermalGeneratingUnit_ThermalGeneratingUnit, []);
  (* CIM14/CPSM/Equipment/Generation/Production/WindGeneratingUnit.py:34 *) (n_CIM14_CPSM_Equipment_Generation_Production_WindGeneratingUnit_WindGeneratingUnit, []);
  (* CIM14/CPSM/Equipment/IEC61970CIMVersion.py:42 *) (n_CIM14_CPSM_Equipment_IEC61970CIMVersion_IEC61970CIMVersion, [(n_date, TyStr); (n_version, TyStr)]);
  (* CIM14/CPSM/Equipment/LoadModel/ConformLoad.py:38 *) (n_CIM14_CPSM_Equipment_LoadModel_ConformLoad_ConformLoad, []);
  (* CIM14/CPSM/Equipment/LoadModel/ConformLoadGroup.py:42 *) (n_CIM14_CPSM_Equipment_LoadModel_ConformLoadGroup_ConformLoadGroup, []);
  (* CIM14/CPSM/Equipment/LoadModel/ConformLoadSchedule.py:38 *) (n_CIM14_CPSM_Equipment_LoadModel_ConformLoadSchedule_ConformLoadSchedule, []);
  (* CIM14/CPSM/Equipment/LoadModel/DayType.py:38 *) (n_CIM14_CPSM_Equipment_LoadModel_DayType_DayType, []);
  (* CIM14/CPSM/Equipment/LoadModel/EnergyArea.py:38 *) (n_CIM14_CPSM_Equipment_LoadModel_EnergyArea_EnergyArea, []);
  (* CIM14/CPSM/Equipment/LoadModel/LoadArea.py:38 *) (n_CIM14_CPSM_Equipment_LoadModel_LoadArea_LoadArea, []);
  (* CIM14/CPSM/Equipment/LoadModel/LoadGroup.py:38 *) (n_CIM14_CPSM_Equipment_LoadModel_LoadGroup_LoadGroup, []);
  (* CIM14/CPSM/Equipment/LoadModel/LoadResponseCharacteristic.py:82 *) (n_CIM14_CPSM_Equipment_LoadModel_LoadResponseCharacteristic_LoadResponseCharacteristic, [(n_pVoltageExponent, TyFloat); (n_qConstantCurrent, TyFloat); (n_pFrequencyExponent, TyFloat); (n_exponentModel, TyBool); (n_qConstantImpedance, TyFloat); (n_pConstantCurrent, TyFloat); (n_qFrequencyExponent, TyFloat); (n_pConstantPower, TyFloat); (n_qVoltageExponent, TyFloat); (n_qConstantPower, TyFloat); (n_pConstantImpedance, TyFloat)]);
  (* CIM14/CPSM/Equipment/LoadModel/NonConformLoad.py:38 *) (n_CIM14_CPSM_Equipment_LoadModel_NonConformLoad_NonConformLoad, []);
  (* CIM14/CPSM/Equipment/LoadModel/NonConformLoadGroup.py:42 *) (n_CIM14_CPSM_Equipment_LoadModel_NonConformLoadGroup_NonConformLoadGroup, []);
  (* CIM14/CPSM/Equipment/LoadModel/NonConformLoadSchedule.py:38 *) (n_CIM14_CPSM_Equipment_LoadModel_NonConformLoadSchedule_NonConformLoadSchedule, []);
  (* CIM14/CPSM/Equipment/LoadModel/Season.py:50 *) (n_CIM14_CPSM_Equipment_LoadModel_Season_Season, [(n_startDate, TyStr); (n_endDate, TyStr); (n_name, TyStr)]);
  (* CIM14/CPSM/Equipment/LoadModel/SeasonDayTypeSchedule.py:42 *) (n_CIM14_CPSM_Equipment_LoadModel_SeasonDayTypeSchedule_SeasonDayTypeSchedule, []);
  (* CIM14/CPSM/Equipment/LoadModel/StationSupply.py:34 *) (n_CIM14_CPSM_Equipment_LoadModel_StationSupply_StationSupply, []);
  (* CIM14/CPSM/Equipment/LoadModel/SubLoadArea.py:42 *) (n_CIM14_CPSM_Equipment_LoadModel_SubLoadArea_SubLoadArea, []);
  (* CIM14/CPSM/Equipment/Meas/Accumulator.py:38 *) (n_CIM14_CPSM_Equipment_Meas_Accumulator_Accumulator, []);
  (* CIM14/CPSM/Equipment/Meas/AccumulatorValue.py:38 *) (n_CIM14_CPSM_Equipment_Meas_AccumulatorValue_AccumulatorValue, []);
  (* CIM14/CPSM/Equipment/Meas/Analog.py:42 *) (n_CIM14_CPSM_Equipment_Meas_Analog_Analog, [(n_positiveFlowIn, TyBool)]);
  (* CIM14/CPSM/Equipment/Meas/AnalogValue.py:38 *) (n_CIM14_CPSM_Equipment_Meas_AnalogValue_AnalogValue, []);
  (* CIM14/CPSM/Equipment/Meas/Discrete.py:38 *) (n_CIM14_CPSM_Equipment_Meas_Discrete_Discrete, []);
  (* CIM14/CPSM/Equipment/Meas/DiscreteValue.py:38 *) (n_CIM14_CPSM_Equipment_Meas_DiscreteValue_DiscreteValue, []);
  (* CIM14/CPSM/Equipment/Meas/Measurement.py:50 *) (n_CIM14_CPSM_Equipment_Meas_Measurement_Measurement, [(n_measurementType, TyStr)]);
  (* CIM14/CPSM/Equipment/Meas/MeasurementValue.py:38 *) (n_CIM14_CPSM_Equipment_Meas_MeasurementValue_MeasurementValue, []);
  (* CIM14/CPSM/Equipment/Meas/MeasurementValueSource.py:38 *) (n_CIM14_CPSM_Equipment_Meas_MeasurementValueSource_MeasurementValueSource, []);
  (* CIM14/CPSM/Equipment/OperationalLimits/ActivePowerLimit.py:38 *) (n_CIM14_CPSM_Equipment_OperationalLimits_ActivePowerLimit_ActivePowerLimit, [(n_value, TyFloat)]);
  (* CIM14/CPSM/Equipment/OperationalLimits/ApparentPowerLimit.py:38 *) (n_CIM14_CPSM_Equipment_OperationalLimits_ApparentPowerLimit_ApparentPowerLimit, [(n_value, TyFloat)]);
  (* CIM14/CPSM/Equipment/OperationalLimits/CurrentLimit.py:38 *) (n_CIM14_CPSM_Equipment_OperationalLimits_CurrentLimit_CurrentLimit, [(n_value, TyFloat)]);
  (* CIM14/CPSM/Equipment/OperationalLimits/OperationalLimit.py:42 *) (n_CIM14_CPSM_Equipment_OperationalLimits_OperationalLimit_OperationalLimit, [(n_type, TyStr)]);
  (* CIM14/CPSM/Equipment/OperationalLimits/OperationalLimitSet.py:46 *) (n_CIM14_CPSM_Equipment_OperationalLimits_OperationalLimitSet_OperationalLimitSet, []);
  (* CIM14/CPSM/Equipment/OperationalLimits/OperationalLimitType.py:42 *) (n_CIM14_CPSM_Equipment_OperationalLimits_OperationalLimitType_OperationalLimitType, [(n_direction, TyStr); (n_acceptableDuration, TyFloat)]);
  (* CIM14/CPSM/Equipment/OperationalLimits/VoltageLimit.py:38 *) (n_CIM14_CPSM_Equipment_OperationalLimits_VoltageLimit_VoltageLimit, [(n_value, TyFloat)]);
  (* CIM14/CPSM/Equipment/Wires/ACLineSegment.py:66 *) (n_CIM14_CPSM_Equipment_Wires_ACLineSegment_ACLineSegment, [(n_g0ch, TyFloat); (n_r, TyFloat); (n_x0, TyFloat); (n_bch, TyFloat); (n_x, TyFloat); (n_b0ch, TyFloat); (n_gch, TyFloat); (n_r0, TyFloat)]);
  (* CIM14/CPSM/Equipment/Wires/Breaker.py:38 *) (n_CIM14_CPSM_Equipment_Wires_Breaker_Breaker, [(n_ratedCurrent, TyFloat)]);
  (* CIM14/CPSM/Equipment/Wires/BusbarSection.py:34 *) (n_CIM14_CPSM_Equipment_Wires_BusbarSection_BusbarSection, []);
  (* CIM14/CPSM/Equipment/Wires/Conductor.py:38 *) (n_CIM14_CPSM_Equipment_Wires_Conductor_Conductor, [(n_length, TyFloat)]);
  (* CIM14/CPSM/Equipment/Wires/Disconnector.py:34 *) (n_CIM14_CPSM_Equipment_Wires_Disconnector_Disconnector, []);
  (* CIM14/CPSM/Equipment/Wires/EnergyConsumer.py:54 *) (n_CIM14_CPSM_Equipment_Wires_EnergyConsumer_EnergyConsumer, [(n_pfixed, TyFloat); (n_pfixedPct, TyFloat); (n_qfixedPct, TyFloat); (n_qfixed, TyFloat)]);
  (* CIM14/CPSM/Equipment/Wires/ImpedanceVariationCurve.py:38 *) (n_CIM14_CPSM_Equipment_Wires_ImpedanceVariationCurve_ImpedanceVariationCurve, []);
  (* CIM14/CPSM/Equipment/Wires/Line.py:38 *) (n_CIM14_CPSM_Equipment_Wires_Line_Line, []);
  (* CIM14/CPSM/Equipment/Wires/LoadBreakSwitch.py:38 *) (n_CIM14_CPSM_Equipment_Wires_LoadBreakSwitch_LoadBreakSwitch, [(n_ratedCurrent, TyFloat)]);
  (* CIM14/CPSM/Equipment/Wires/MutualCoupling.py:74 *) (n_CIM14_CPSM_Equipment_Wires_MutualCoupling_MutualCoupling, [(n_g0ch, TyFloat); (n_r0, TyFloat); (n_x0, TyFloat); (n_distance11, TyFloat); (n_distance12, TyFloat); (n_distance22, TyFloat); (n_distance21, TyFloat); (n_b0ch, TyFloat)]);
  (* CIM14/CPSM/Equipment/Wires/PhaseTapChanger.py:70 *) (n_CIM14_CPSM_Equipment_Wires_PhaseTapChanger_PhaseTapChanger, [(n_nominalVoltageOutOfPhase, TyFloat); (n_windingConnectionAngle, TyFloat); (n_phaseTapChangerType, TyStr); (n_xStepMin, TyFloat); (n_xStepMax, TyFloat); (n_stepPhaseShiftIncrement, TyFloat); (n_voltageStepIncrementOutOfPhase, TyFloat)]);
  (* CIM14/CPSM/Equipment/Wires/PhaseVariationCurve.py:38 *) (n_CIM14_CPSM_Equipment_Wires_PhaseVariationCurve_PhaseVariationCurve, []);
  (* CIM14/CPSM/Equipment/Wires/PowerTransformer.py:38 *) (n_CIM14_CPSM_Equipment_Wires_PowerTransformer_PowerTransformer, []);
  (* CIM14/CPSM/Equipment/Wires/RatioTapChanger.py:46 *) (n_CIM14_CPSM_Equipment_Wires_RatioTapChanger_RatioTapChanger, [(n_tculControlMode, TyStr)]);
  (* CIM14/CPSM/Equipment/Wires/RatioVariationCurve.py:38 *) (n_CIM14_CPSM_Equipment_Wires_RatioVariationCurve_RatioVariationCurve, []);
  (* CIM14/CPSM/Equipment/Wires/ReactiveCapabilityCurve.py:38 *) (n_CIM14_CPSM_Equipment_Wires_ReactiveCapabilityCurve_ReactiveCapabilityCurve, []);
  (* CIM14/CPSM/Equipment/Wires/RegulatingCondEq.py:38 *) (n_CIM14_CPSM_Equipment_Wires_RegulatingCondEq_RegulatingCondEq, []);
  (* CIM14/CPSM/Equipment/Wires/RegulatingControl.py:66 *) (n_CIM14_CPSM_Equipment_Wires_RegulatingControl_RegulatingControl, [(n_targetRange, TyFloat); (n_mode, TyStr); (n_discrete, TyBool); (n_targetValue, TyFloat)]);
  (* CIM14/CPSM/Equipment/Wires/RegulationSchedule.py:38 *) (n_CIM14_CPSM_Equipment_Wires_RegulationSchedule_RegulationSchedule, []);
  (* CIM14/CPSM/Equipment/Wires/SeriesCompensator.py:42 *) (n_CIM14_CPSM_Equipment_Wires_SeriesCompensator_SeriesCompensator, [(n_r, TyFloat); (n_x, TyFloat)]);
  (* CIM14/CPSM/Equipment/Wires/ShuntCompensator.py:62 *) (n_CIM14_CPSM_Equipment_Wires_ShuntCompensator_ShuntCompensator, [(n_g0PerSection, TyFloat); (n_bPerSection, TyFloat); (n_nomU, TyFloat); (n_gPerSection, TyFloat); (n_normalSections, TyInt); (n_b0PerSection, TyFloat); (n_maximumSections, TyInt)]);
  (* CIM14/CPSM/Equipment/Wires/StaticVarCompensator.py:54 *) (n_CIM14_CPSM_Equipment_Wires_StaticVarCompensator_StaticVarCompensator, [(n_voltageSetPoint, TyFloat); (n_capacitiveRating, TyFloat); (n_slope, TyFloat); (n_inductiveRating, TyFloat); (n_sVCControlMode, TyStr)]);
  (* CIM14/CPSM/Equipment/Wires/Switch.py:42 *) (n_CIM14_CPSM_Equipment_Wires_Switch_Switch, [(n_normalOpen, TyBool)]);
  (* CIM14/CPSM/Equipment/Wires/SwitchSchedule.py:38 *) (n_CIM14_CPSM_Equipment_Wires_SwitchSchedule_SwitchSchedule, []);
  (* CIM14/CPSM/Equipment/Wires/SynchronousMachine.py:94 *) (n_CIM14_CPSM_Equipment_Wires_SynchronousMachine_SynchronousMachine, [(n_x0, TyFloat); (n_qPercent, TyFloat); (n_x2, TyFloat); (n_r, TyFloat); (n_operatingMode, TyStr); (n_r0, TyFloat); (n_type, TyStr); (n_r2, TyFloat); (n_maxQ, TyFloat); (n_x, TyFloat); (n_ratedS, TyFloat); (n_minQ, TyFloat)]);
  (* CIM14/CPSM/Equipment/Wires/TapChanger.py:78 *) (n_CIM14_CPSM_Equipment_Wires_TapChanger_TapChanger, [(n_stepVoltageIncrement, TyFloat); (n_neutralStep, TyInt); (n_normalStep, TyInt); (n_ltcFlag, TyBool); (n_neutralU, TyFloat); (n_lowStep, TyInt); (n_regulationStatus, TyBool); (n_highStep, TyInt)]);
  (* CIM14/CPSM/Equipment/Wires/TapSchedule.py:38 *) (n_CIM14_CPSM_Equipment_Wires_TapSchedule_TapSchedule, []);
  (* CIM14/CPSM/Equipment/Wires/TransformerWinding.py:98 *) (n_CIM14_CPSM_Equipment_Wires_TransformerWinding_TransformerWinding, [(n_x, TyFloat); (n_x0, TyFloat); (n_b0, TyFloat); (n_g0, TyFloat); (n_rground, TyFloat); (n_b, TyFloat); (n_connectionType, TyStr); (n_ratedS, TyFloat); (n_r, TyFloat); (n_r0, TyFloat); (n_ratedU, TyFloat); (n_xground, TyFloat); (n_windingType, TyStr)])
].

(** _attr_types of the classes of CIM14.CPSM.StateVariables. *)
Definition cim14_cpsm_statevariables_types : types := [
  (* CIM14/CPSM/StateVariables/Core/Terminal.py:38 *) (n_CIM14_CPSM_StateVariables_Core_Terminal_Terminal, []);
  (* CIM14/CPSM/StateVariables/Element.py:34 *) (n_CIM14_CPSM_StateVariables_Element_Element, [(n_UUID, TyStr)]);
  (* CIM14/CPSM/StateVariables/StateVariables/SvInjection.py:46 *) (n_CIM14_CPSM_StateVariables_StateVariables_SvInjection_SvInjection, [(n_qNetInjection, TyFloat); (n_pNetInjection, TyFloat)]);
  (* CIM14/CPSM/StateVariables/StateVariables/SvPowerFlow.py:46 *) (n_CIM14_CPSM_StateVariables_StateVariables_SvPowerFlow_SvPowerFlow, [(n_p, TyFloat); (n_q, TyFloat)]);
  (* CIM14/CPSM/StateVariables/StateVariables/SvShortCircuit.py:54 *) (n_CIM14_CPSM_StateVariables_StateVariables_SvShortCircuit_SvShortCircuit, [(n_sShortCircuit, TyFloat); (n_x0PerX, TyFloat); (n_r0PerR, TyFloat); (n_xPerR, TyFloat)]);
  (* CIM14/CPSM/StateVariables/StateVariables/SvShuntCompensatorSections.py:46 *) (n_CIM14_CPSM_StateVariables_StateVariables_SvShuntCompensatorSections_SvShuntCompensatorSections, [(n_sections, TyInt); (n_continuousSections, TyFloat)]);
  (* CIM14/CPSM/StateVariables/StateVariables/SvTapStep.py:46 *) (n_CIM14_CPSM_StateVariables_StateVariables_SvTapStep_SvTapStep, [(n_position, TyInt); (n_continuousPosition, TyFloat)]);
  (* CIM14/CPSM/StateVariables/StateVariables/SvVoltage.py:46 *) (n_CIM14_CPSM_StateVariables_StateVariables_SvVoltage_SvVoltage, [(n_angle, TyFloat); (n_v, TyFloat)]);
  (* CIM14/CPSM/StateVariables/StateVariables/TopologicalIsland.py:42 *) (n_CIM14_CPSM_StateVariables_StateVariables_TopologicalIsland_TopologicalIsland, []);
  (* CIM14/CPSM/StateVariables/Topology/TopologicalNode.py:54 *) (n_CIM14_CPSM_StateVariables_Topology_TopologicalNode_TopologicalNode, []);
  (* CIM14/CPSM/StateVariables/Wires/ShuntCompensator.py:38 *) (n_CIM14_CPSM_StateVariables_Wires_ShuntCompensator_ShuntCompensator, []);
  (* CIM14/CPSM/StateVariables/Wires/TapChanger.py:38 *) (n_CIM14_CPSM_StateVariables_Wires_TapChanger_TapChanger, [])
].

(** _attr_types of the classes of CIM14.CPSM.Topology. *)
Definition cim14_cpsm_topology_types : types := [
  (* CIM14/CPSM/Topology/Core/BaseVoltage.py:38 *) (n_CIM14_CPSM_Topology_Core_BaseVoltage_BaseVoltage, []);
  (* CIM14/CPSM/Topology/Core/ConnectivityNode.py:38 *) (n_CIM14_CPSM_Topology_Core_ConnectivityNode_ConnectivityNode, []);
  (* CIM14/CPSM/Topology/Core/IdentifiedObject.py:42 *) (n_CIM14_CPSM_Topology_Core_IdentifiedObject_IdentifiedObject, [(n_name, TyStr); (n_description, TyStr)]);
  (* CIM14/CPSM/Topology/Core/Terminal.py:42 *) (n_CIM14_CPSM_Topology_Core_Terminal_Terminal, [(n_connected, TyBool)]);
  (* CIM14/CPSM/Topology/Element.py:34 *) (n_CIM14_CPSM_Topology_Element_Element, [(n_UUID, TyStr)]);
  (* CIM14/CPSM/Topology/Topology/TopologicalNode.py:46 *) (n_CIM14_CPSM_Topology_Topology_TopologicalNode_TopologicalNode, [])
].

(** _attr_types of the classes of CIM14.ENTSOE.Dynamics. *)
Definition cim14_entsoe_dynamics_types : types := [
  (* CIM14/ENTSOE/Dynamics/Element.py:34 *) (n_CIM14_ENTSOE_Dynamics_Element_Element, [(n_UUID, TyStr)]);
  (* CIM14/ENTSOE/Dynamics/IEC61968/Assets/AssetsAsset.py:36 *) (n_CIM14_ENTSOE_Dynamics_IEC61968_Assets_AssetsAsset_AssetsAsset, []);
  (* CIM14/ENTSOE/Dynamics/IEC61968/Common/CommonLocation.py:36 *) (n_CIM14_ENTSOE_Dynamics_IEC61968_Common_CommonLocation_CommonLocation, []);
  (* CIM14/ENTSOE/Dynamics/IEC61968/Customers/CustomersCustomerAgreement.py:36 *) (n_CIM14_ENTSOE_Dynamics_IEC61968_Customers_CustomersCustomerAgreement_CustomersCustomerAgreement, []);
  (* CIM14/ENTSOE/Dynamics/IEC61970/Contingency/ContingencyContingencyEquipment.py:36 *) (n_CIM14_ENTSOE_Dynamics_IEC61970_Contingency_ContingencyContingencyEquipment_ContingencyContingencyEquipment, []);
  (* CIM14/ENTSOE/Dynamics/IEC61970/Core/CoreBaseVoltage.py:36 *) (n_CIM14_ENTSOE_Dynamics_IEC61970_Core_CoreBaseVoltage_CoreBaseVoltage, []);
  (* CIM14/ENTSOE/Dynamics/IEC61970/Core/CoreConductingEquipment.py:56 *) (n_CIM14_ENTSOE_Dynamics_IEC61970_Core_CoreConductingEquipment_CoreConductingEquipment, [(n_phases, TyStr)]);
  (* CIM14/ENTSOE/Dynamics/IEC61970/Core/CoreEquipment.py:56 *) (n_CIM14_ENTSOE_Dynamics_IEC61970_Core_CoreEquipment_CoreEquipment, [(n_normaIlyInService, TyBool); (n_aggregate, TyBool)]);
  (* CIM14/ENTSOE/Dynamics/IEC61970/Core/CoreEquipmentContainer.py:36 *) (n_CIM14_ENTSOE_Dynamics_IEC61970_Core_CoreEquipmentContainer_CoreEquipmentContainer, []);
  (* CIM14/ENTSOE/Dynamics/IEC61970/Core/CoreIdentifiedObject.py:60 *) (n_CIM14_ENTSOE_Dynamics_IEC61970_Core_CoreIdentifiedObject_CoreIdentifiedObject, [(n_mRID, TyStr); (n_description, TyStr); (n_name, TyStr); (n_localName, TyStr); (n_aliasName, TyStr); (n_pathName, TyStr)]);
  (* CIM14/ENTSOE/Dynamics/IEC61970/Core/CoreOperatingShare.py:36 *) (n_CIM14_ENTSOE_Dynamics_IEC61970_Core_CoreOperatingShare_CoreOperatingShare, []);
  (* CIM14/ENTSOE/Dynamics/IEC61970/Core/CorePSRType.py:36 *) (n_CIM14_ENTSOE_Dynamics_IEC61970_Core_CorePSRType_CorePSRType, []);
  (* CIM14/ENTSOE/Dynamics/IEC61970/Core/CorePowerSystemResource.py:68 *) (n_CIM14_ENTSOE_Dynamics_IEC61970_Core_CorePowerSystemResource_CorePowerSystemResource, []);
  (* CIM14/ENTSOE/Dynamics/IEC61970/Core/CorePsrList.py:36 *) (n_CIM14_ENTSOE_Dynamics_IEC61970_Core_CorePsrList_CorePsrList, []);
  (* CIM14/ENTSOE/Dynamics/IEC61970/Core/CoreReportingGroup.py:36 *) (n_CIM14_ENTSOE_Dynamics_IEC61970_Core_CoreReportingGroup_CoreReportingGroup, []);
  (* CIM14/ENTSOE/Dynamics/IEC61970/Core/CoreTerminal.py:36 *) (n_CIM14_ENTSOE_Dynamics_IEC61970_Core_CoreTerminal_CoreTerminal, []);
  (* CIM14/ENTSOE/Dynamics/IEC61970/Dynamics/DynamicsAsynchronousMachine.py:72 *) (n_CIM14_ENTSOE_Dynamics_IEC61970_Dynamics_DynamicsAsynchronousMachine_DynamicsAsynchronousMachine, [(n_rr1, TyFloat); (n_xp, TyFloat); (n_tpo, TyFloat); (n_xm, TyFloat); (n_xs, TyFloat); (n_rr2, TyFloat); (n_xlr1, TyFloat); (n_xlr2, TyFloat); (n_tppo, TyFloat); (n_xpp, TyFloat)]);
  (* CIM14/ENTSOE/Dynamics/IEC61970/Dynamics/DynamicsAttributeBlockParameter.py:36 *) (n_CIM14_ENTSOE_Dynamics_IEC61970_Dynamics_DynamicsAttributeBlockParameter_DynamicsAttributeBlockParameter, [(n_attributeName, TyStr)]);
  (* CIM14/ENTSOE/Dynamics/IEC61970/Dynamics/DynamicsBlock.py:60 *) (n_CIM14_ENTSOE_Dynamics_IEC61970_Dynamics_DynamicsBlock_DynamicsBlock, [(n_inService, TyBool); (n_positiveFlowIn, TyBool)]);
  (* CIM14/ENTSOE/Dynamics/IEC61970/Dynamics/DynamicsBlockConnection.py:44 *) (n_CIM14_ENTSOE_Dynamics_IEC61970_Dynamics_DynamicsBlockConnection_DynamicsBlockConnection, []);
  (* CIM14/ENTSOE/Dynamics/IEC61970/Dynamics/DynamicsBlockConnectivity.py:44 *) (n_CIM14_ENTSOE_Dynamics_IEC61970_Dynamics_DynamicsBlockConnectivity_DynamicsBlockConnectivity, []);
  (* CIM14/ENTSOE/Dynamics/IEC61970/Dynamics/DynamicsBlockParameter.py:48 *) (n_CIM14_ENTSOE_Dynamics_IEC61970_Dynamics_DynamicsBlockParameter_DynamicsBlockParameter, [(n_value, TyFloat)]);
  (* CIM14/ENTSOE/Dynamics/IEC61970/Dynamics/DynamicsMetaBlock.py:68 *) (n_CIM14_ENTSOE_Dynamics_IEC61970_Dynamics_DynamicsMetaBlock_DynamicsMetaBlock, [(n_blockKind, TyStr); (n_proprietary, TyBool)]);
  (* CIM14/ENTSOE/Dynamics/IEC61970/Dynamics/DynamicsMetaBlockConInput.py:40 *) (n_CIM14_ENTSOE_Dynamics_IEC61970_Dynamics_DynamicsMetaBlockConInput_DynamicsMetaBlockConInput, []);
  (* CIM14/ENTSOE/Dynamics/IEC61970/Dynamics/DynamicsMetaBlockConOutput.py:40 *) (n_CIM14_ENTSOE_Dynamics_IEC61970_Dynamics_DynamicsMetaBlockConOutput_DynamicsMetaBlockConOutput, []);
  (* CIM14/ENTSOE/Dynamics/IEC61970/Dynamics/DynamicsMetaBlockConSignal.py:40 *) (n_CIM14_ENTSOE_Dynamics_IEC61970_Dynamics_DynamicsMetaBlockConSignal_DynamicsMetaBlockConSignal, []);
  (* CIM14/ENTSOE/Dynamics/IEC61970/Dynamics/DynamicsMetaBlockConnectable.py:64 *) (n_CIM14_ENTSOE_Dynamics_IEC61970_Dynamics_DynamicsMetaBlockConnectable_DynamicsMetaBlockConnectable, []);
  (* CIM14/ENTSOE/Dynamics/IEC61970/Dynamics/DynamicsMetaBlockConnection.py:48 *) (n_CIM14_ENTSOE_Dynamics_IEC61970_Dynamics_DynamicsMetaBlockConnection_DynamicsMetaBlockConnection, []);
  (* CIM14/ENTSOE/Dynamics/IEC61970/Dynamics/DynamicsMetaBlockConnectivity.py:40 *) (n_CIM14_ENTSOE_Dynamics_IEC61970_Dynamics_DynamicsMetaBlockConnectivity_DynamicsMetaBlockConnectivity, []);
  (* CIM14/ENTSOE/Dynamics/IEC61970/Dynamics/DynamicsMetaBlockInput.py:36 *) (n_CIM14_ENTSOE_Dynamics_IEC61970_Dynamics_DynamicsMetaBlockInput_DynamicsMetaBlockInput, []);
  (* CIM14/ENTSOE/Dynamics/IEC61970/Dynamics/DynamicsMetaBlockInputReference.py:48 *) (n_CIM14_ENTSOE_Dynamics_IEC61970_Dynamics_DynamicsMetaBlockInputReference_DynamicsMetaBlockInputReference, []);
  (* CIM14/ENTSOE/Dynamics/IEC61970/Dynamics/DynamicsMetaBlockOutput.py:36 *) (n_CIM14_ENTSOE_Dynamics_IEC61970_Dynamics_DynamicsMetaBlockOutput_DynamicsMetaBlockOutput, []);
  (* CIM14/ENTSOE/Dynamics/IEC61970/Dynamics/DynamicsMetaBlockOutputReference.py:48 *) (n_CIM14_ENTSOE_Dynamics_IEC61970_Dynamics_DynamicsMetaBlockOutputReference_DynamicsMetaBlockOutputReference, []);
  (* CIM14/ENTSOE/Dynamics/IEC61970/Dynamics/DynamicsMetaBlockParameter.py:40 *) (n_CIM14_ENTSOE_Dynamics_IEC61970_Dynamics_DynamicsMetaBlockParameter_DynamicsMetaBlockParameter, []);
  (* CIM14/ENTSOE/Dynamics/IEC61970/Dynamics/DynamicsMetaBlockParameterReference.py:44 *) (n_CIM14_ENTSOE_Dynamics_IEC61970_Dynamics_DynamicsMetaBlockParameterReference_DynamicsMetaBlockParameterReference, []);
  (* CIM14/ENTSOE/Dynamics/IEC61970/Dynamics/DynamicsMetaBlockReference.py:63 *) (n_CIM14_ENTSOE_Dynamics_IEC61970_Dynamics_DynamicsMetaBlockReference_DynamicsMetaBlockReference, [(n_equationType, TyStr)]);
  (* CIM14/ENTSOE/Dynamics/IEC61970/Dynamics/DynamicsMetaBlockSignal.py:44 *) (n_CIM14_ENTSOE_Dynamics_IEC61970_Dynamics_DynamicsMetaBlockSignal_DynamicsMetaBlockSignal, []);
  (* CIM14/ENTSOE/Dynamics/IEC61970/Dynamics/DynamicsMetaBlockState.py:36 *) (n_CIM14_ENTSOE_Dynamics_IEC61970_Dynamics_DynamicsMetaBlockState_DynamicsMetaBlockState, []);
  (* CIM14/ENTSOE/Dynamics/IEC61970/Dynamics/DynamicsMetaBlockStateReference.py:48 *) (n_CIM14_ENTSOE_Dynamics_IEC61970_Dynamics_DynamicsMetaBlockStateReference_DynamicsMetaBlockStateReference, [(n_positiveFlowIn, TyBool)]);
  (* CIM14/ENTSOE/Dynamics/IEC61970/Dynamics/DynamicsRotatingMachine.py:64 *) (n_CIM14_ENTSOE_Dynamics_IEC61970_Dynamics_DynamicsRotatingMachine_DynamicsRotatingMachine, [(n_ratedS, TyFloat); (n_s1, TyFloat); (n_s12, TyFloat); (n_h, TyFloat); (n_parametersFormType, TyStr); (n_d, TyFloat); (n_rs, TyFloat); (n_xls, TyFloat)]);
  (* CIM14/ENTSOE/Dynamics/IEC61970/Dynamics/ExcitationSystems/ExcitationSystemsExcAC1A.py:108 *) (n_CIM14_ENTSOE_Dynamics_IEC61970_Dynamics_ExcitationSystems_ExcitationSystemsExcAC1A_ExcitationSystemsExcAC1A, [(n_se1, TyFloat); (n_se2, TyFloat); (n_e2, TyFloat); (n_e1, TyFloat); (n_tr, TyFloat); (n_vamin, TyFloat); (n_vamax, TyFloat); (n_vrmax, TyFloat); (n_tb, TyFloat); (n_kd, TyFloat); (n_tc, TyFloat); (n_kc, TyFloat); (n_kf, TyFloat); (n_ta, TyFloat); (n_vrmin, TyFloat); (n_ke, TyFloat); (n_te, TyFloat); (n_tf, TyFloat); (n_ka, TyFloat)]);
  (* CIM14/ENTSOE/Dynamics/IEC61970/Dynamics/ExcitationSystems/ExcitationSystemsExcAC2A.py:120 *) (n_CIM14_ENTSOE_Dynamics_IEC61970_Dynamics_ExcitationSystems_ExcitationSystemsExcAC2A_ExcitationSystemsExcAC2A, [(n_tb, TyFloat); (n_e1, TyFloat); (n_ta, TyFloat); (n_vrmin, TyFloat); (n_e2, TyFloat); (n_vfemax, TyFloat); (n_vrmax, TyFloat); (n_ka, TyFloat); (n_se1, TyFloat); (n_se2, TyFloat); (n_kf, TyFloat); (n_kh, TyFloat); (n_kc, TyFloat); (n_vamin, TyFloat); (n_kb, TyFloat); (n_ke, TyFloat); (n_tr, TyFloat); (n_kd, TyFloat); (n_te, TyFloat); (n_tc, TyFloat); (n_vamax, TyFloat); (n_tf, TyFloat)]);
  (* CIM14/ENTSOE/Dynamics/IEC61970/Dynamics/ExcitationSystems/ExcitationSystemsExcAC3A.py:120 *) (n_CIM14_ENTSOE_Dynamics_IEC61970_Dynamics_ExcitationSystems_ExcitationSystemsExcAC3A_ExcitationSystemsExcAC3A, [(n_ta, TyFloat); (n_ka, TyFloat); (n_kd, TyFloat); (n_se1, TyFloat); (n_kc, TyFloat); (n_se2, TyFloat); (n_te, TyFloat); (n_tf, TyFloat); (n_tb, TyFloat); (n_tc, TyFloat); (n_vamax, TyFloat); (n_kf, TyFloat); (n_vemin, TyFloat); (n_ke, TyFloat); (n_vfemax, TyFloat); (n_tr, TyFloat); (n_e2, TyFloat); (n_e1, TyFloat); (n_kn, TyFloat); (n_vamin, TyFloat); (n_kr, TyFloat); (n_efdn, TyFloat)]);
  (* CIM14/ENTSOE/Dynamics/IEC61970/Dynamics/ExcitationSystems/ExcitationSystemsExcAC4A.py:72 *) (n_CIM14_ENTSOE_Dynamics_IEC61970_Dynamics_ExcitationSystems_ExcitationSystemsExcAC4A_ExcitationSystemsExcAC4A, [(n_tb, TyFloat); (n_ta, TyFloat); (n_tc, TyFloat); (n_vrmin, TyFloat); (n_vimax, TyFloat); (n_vrmax, TyFloat); (n_tr, TyFloat); (n_kc, TyFloat); (n_vimin, TyFloat); (n_ka, TyFloat)]);
  (* CIM14/ENTSOE/Dynamics/IEC61970/Dynamics/ExcitationSystems/ExcitationSystemsExcAC5A.py:92 *) (n_CIM14_ENTSOE_Dynamics_IEC61970_Dynamics_ExcitationSystems_ExcitationSystemsExcAC5A_ExcitationSystemsExcAC5A, [(n_ta, TyFloat); (n_vrmax, TyFloat); (n_ka, TyFloat); (n_vrmin, TyFloat); (n_tr, TyFloat); (n_tf1, TyFloat); (n_ke, TyFloat); (n_tf2, TyFloat); (n_te, TyFloat); (n_kf, TyFloat); (n_e1, TyFloat); (n_tf3, TyFloat); (n_e2, TyFloat); (n_se1, TyFloat); (n_se2, TyFloat)]);
  (* CIM14/ENTSOE/Dynamics/IEC61970/Dynamics/ExcitationSystems/ExcitationSystemsExcAC6A.py:124 *) (n_CIM14_ENTSOE_Dynamics_IEC61970_Dynamics_ExcitationSystems_ExcitationSystemsExcAC6A_ExcitationSystemsExcAC6A, [(n_vamax, TyFloat); (n_vfelim, TyFloat); (n_tr, TyFloat); (n_e2, TyFloat); (n_e1, TyFloat); (n_vamin, TyFloat); (n_vhmax, TyFloat); (n_vrmax, TyFloat); (n_se1, TyFloat); (n_se2, TyFloat); (n_vrmin, TyFloat); (n_te, TyFloat); (n_kh, TyFloat); (n_tb, TyFloat); (n_tc, TyFloat); (n_ta, TyFloat); (n_ka, TyFloat); (n_kc, TyFloat); (n_tj, TyFloat); (n_tk, TyFloat); (n_ke, TyFloat); (n_th, TyFloat); (n_kd, TyFloat)]);
  (* CIM14/ENTSOE/Dynamics/IEC61970/Dynamics/ExcitationSystems/ExcitationSystemsExcAC7B.py:140 *) (n_CIM14_ENTSOE_Dynamics_IEC61970_Dynamics_ExcitationSystems_ExcitationSystemsExcAC7B_ExcitationSystemsExcAC7B, [(n_kd, TyFloat); (n_kc, TyFloat); (n_vrmin, TyFloat); (n_kdr, TyFloat); (n_vrmax, TyFloat); (n_kpr, TyFloat); (n_vemin, TyFloat); (n_kl, TyFloat); (n_kf1, TyFloat); (n_kia, TyFloat); (n_kf3, TyFloat); (n_se1, TyFloat); (n_vfemax, TyFloat); (n_kf2, TyFloat); (n_te, TyFloat); (n_tf, TyFloat); (n_ke, TyFloat); (n_kpa, TyFloat); (n_e2, TyFloat); (n_se2, TyFloat); (n_kp, TyFloat); (n_e1, TyFloat); (n_kir, TyFloat); (n_tr, TyFloat); (n_tdr, TyFloat); (n_vamin, TyFloat); (n_vamax, TyFloat)]);
  (* CIM14/ENTSOE/Dynamics/IEC61970/Dynamics/ExcitationSystems/ExcitationSystemsExcAC8B.py:112 *) (n_CIM14_ENTSOE_Dynamics_IEC61970_Dynamics_ExcitationSystems_ExcitationSystemsExcAC8B_ExcitationSystemsExcAC8B, [(n_kdr, TyFloat); (n_tr, TyFloat); (n_e1, TyFloat); (n_e2, TyFloat); (n_kir, TyFloat); (n_kc, TyFloat); (n_vrmax, TyFloat); (n_ka, TyFloat); (n_se2, TyFloat); (n_tdr, TyFloat); (n_kpr, TyFloat); (n_vemin, TyFloat); (n_kd, TyFloat); (n_te, TyFloat); (n_se1, TyFloat); (n_ke, TyFloat); (n_vfemax, TyFloat); (n_ta, TyFloat); (n_vrmin, TyFloat); (n_vtmult, TyFloat)]);
  (* CIM14/ENTSOE/Dynamics/IEC61970/Dynamics/ExcitationSystems/ExcitationSystemsExcDC1A.py:100 *) (n_CIM14_ENTSOE_Dynamics_IEC61970_Dynamics_ExcitationSystems_ExcitationSystemsExcDC1A_ExcitationSystemsExcDC1A, [(n_exclim, TyFloat); (n_vrmin, TyFloat); (n_tc, TyFloat); (n_ta, TyFloat); (n_tb, TyFloat); (n_ka, TyFloat); (n_ke, TyFloat); (n_se2, TyFloat); (n_te, TyFloat); (n_se1, TyFloat); (n_tf, TyFloat); (n_kf, TyFloat); (n_uelin, TyFloat); (n_tr, TyFloat); (n_e1, TyFloat); (n_vrmax, TyFloat); (n_e2, TyFloat)]);
  (* CIM14/ENTSOE/Dynamics/IEC61970/Dynamics/ExcitationSystems/ExcitationSystemsExcDC2A.py:100 *) (n_CIM14_ENTSOE_Dynamics_IEC61970_Dynamics_ExcitationSystems_ExcitationSystemsExcDC2A_ExcitationSystemsExcDC2A, [(n_te, TyFloat); (n_tf, TyFloat); (n_ka, TyFloat); (n_tc, TyFloat); (n_vrmin, TyFloat); (n_ta, TyFloat); (n_tb, TyFloat); (n_vrmax, TyFloat); (n_kf, TyFloat); (n_ke, TyFloat); (n_uelin, TyFloat); (n_se1, TyFloat); (n_tr, TyFloat); (n_se2, TyFloat); (n_exclim, TyFloat); (n_e2, TyFloat); (n_e1, TyFloat)]);
  (* CIM14/ENTSOE/Dynamics/IEC61970/Dynamics/ExcitationSystems/ExcitationSystemsExcDC3A.py:80 *) (n_CIM14_ENTSOE_Dynamics_IEC61970_Dynamics_ExcitationSystems_ExcitationSystemsExcDC3A_ExcitationSystemsExcDC3A, [(n_vrmax, TyFloat); (n_ke, TyFloat); (n_te, TyFloat); (n_exclim, TyFloat); (n_se1, TyFloat); (n_se2, TyFloat); (n_trh, TyFloat); (n_kv, TyFloat); (n_e1, TyFloat); (n_e2, TyFloat); (n_vrmin, TyFloat); (n_tr, TyFloat)]);
  (* CIM14/ENTSOE/Dynamics/IEC61970/Dynamics/ExcitationSystems/ExcitationSystemsExcDC4B.py:112 *) (n_CIM14_ENTSOE_Dynamics_IEC61970_Dynamics_ExcitationSystems_ExcitationSystemsExcDC4B_ExcitationSystemsExcDC4B, [(n_vrmin, TyFloat); (n_uelin, TyFloat); (n_ki, TyFloat); (n_kp, TyFloat); (n_e2, TyFloat); (n_oelin, TyFloat); (n_vrmax, TyFloat); (n_kf, TyFloat); (n_te, TyFloat); (n_ke, TyFloat); (n_vemin, TyFloat); (n_tf, TyFloat); (n_kd, TyFloat); (n_se2, TyFloat); (n_ta, TyFloat); (n_tr, TyFloat); (n_ka, TyFloat); (n_se1, TyFloat); (n_td, TyFloat); (n_e1, TyFloat)]);
  (* CIM14/ENTSOE/Dynamics/IEC61970/Dynamics/ExcitationSystems/ExcitationSystemsExcSCRX.py:64 *) (n_CIM14_ENTSOE_Dynamics_IEC61970_Dynamics_ExcitationSystems_ExcitationSystemsExcSCRX_ExcitationSystemsExcSCRX, [(n_te, TyFloat); (n_tb, TyFloat); (n_emax, TyFloat); (n_cswitch, TyBool); (n_rcrfd, TyFloat); (n_tatb, TyFloat); (n_k, TyFloat); (n_emin, TyFloat)]);
  (* CIM14/ENTSOE/Dynamics/IEC61970/Dynamics/ExcitationSystems/ExcitationSystemsExcSEXS.py:72 *) (n_CIM14_ENTSOE_Dynamics_IEC61970_Dynamics_ExcitationSystems_ExcitationSystemsExcSEXS_ExcitationSystemsExcSEXS, [(n_k, TyFloat); (n_tatb, TyFloat); (n_efdmin, TyFloat); (n_te, TyFloat); (n_tc, TyFloat); (n_kc, TyFloat); (n_tb, TyFloat); (n_emin, TyFloat); (n_emax, TyFloat); (n_efdmax, TyFloat)]);
  (* CIM14/ENTSOE/Dynamics/IEC61970/Dynamics/ExcitationSystems/ExcitationSystemsExcST1A.py:112 *) (n_CIM14_ENTSOE_Dynamics_IEC61970_Dynamics_ExcitationSystems_ExcitationSystemsExcST1A_ExcitationSystemsExcST1A, [(n_vrmin, TyFloat); (n_kc, TyFloat); (n_vimin, TyFloat); (n_uelin, TyFloat); (n_tf, TyFloat); (n_kf, TyFloat); (n_tc1, TyFloat); (n_pssin, TyFloat); (n_tc, TyFloat); (n_tb, TyFloat); (n_ka, TyFloat); (n_ta, TyFloat); (n_tr, TyFloat); (n_ilr, TyFloat); (n_vamin, TyFloat); (n_klr, TyFloat); (n_tb1, TyFloat); (n_vamax, TyFloat); (n_vrmax, TyFloat); (n_vimax, TyFloat)]);
  (* CIM14/ENTSOE/Dynamics/IEC61970/Dynamics/ExcitationSystems/ExcitationSystemsExcST2A.py:96 *) (n_CIM14_ENTSOE_Dynamics_IEC61970_Dynamics_ExcitationSystems_ExcitationSystemsExcST2A_ExcitationSystemsExcST2A, [(n_vrmin, TyFloat); (n_tc, TyFloat); (n_tb, TyFloat); (n_ta, TyFloat); (n_ka, TyFloat); (n_ke, TyFloat); (n_uelin, TyFloat); (n_kc, TyFloat); (n_te, TyFloat); (n_ki, TyFloat); (n_kf, TyFloat); (n_tf, TyFloat); (n_vrmax, TyFloat); (n_efdmax, TyFloat); (n_tr, TyFloat); (n_kp, TyFloat)]);
  (* CIM14/ENTSOE/Dynamics/IEC61970/Dynamics/ExcitationSystems/ExcitationSystemsExcST3A.py:116 *) (n_CIM14_ENTSOE_Dynamics_IEC61970_Dynamics_ExcitationSystems_ExcitationSystemsExcST3A_ExcitationSystemsExcST3A, [(n_vrmin, TyFloat); (n_kc, TyFloat); (n_ka, TyFloat); (n_vbmax, TyFloat); (n_vimin, TyFloat); (n_xl, TyFloat); (n_vgmax, TyFloat); (n_angp, TyFloat); (n_vmmin, TyFloat); (n_vrmax, TyFloat); (n_kp, TyFloat); (n_km, TyFloat); (n_vimax, TyFloat); (n_tr, TyFloat); (n_vmmax, TyFloat); (n_ki, TyFloat); (n_tm, TyFloat); (n_ta, TyFloat); (n_tb, TyFloat); (n_kg, TyFloat); (n_tc, TyFloat)]);
  (* CIM14/ENTSOE/Dynamics/IEC61970/Dynamics/ExcitationSystems/ExcitationSystemsExcST4B.py:104 *) (n_CIM14_ENTSOE_Dynamics_IEC61970_Dynamics_ExcitationSystems_ExcitationSystemsExcST4B_ExcitationSystemsExcST4B, [(n_kp, TyFloat); (n_xl, TyFloat); (n_vbmax, TyFloat); (n_ki, TyFloat); (n_kir, TyFloat); (n_vrmin, TyFloat); (n_vmmin, TyFloat); (n_kim, TyFloat); (n_ta, TyFloat); (n_kg, TyFloat); (n_tr, TyFloat); (n_kc, TyFloat); (n_vrmax, TyFloat); (n_angp, TyFloat); (n_kpr, TyFloat); (n_vgmax, TyFloat); (n_kpm, TyFloat); (n_vmmax, TyFloat)]);
  (* CIM14/ENTSOE/Dynamics/IEC61970/Dynamics/ExcitationSystems/ExcitationSystemsExcST5B.py:104 *) (n_CIM14_ENTSOE_Dynamics_IEC61970_Dynamics_ExcitationSystems_ExcitationSystemsExcST5B_ExcitationSystemsExcST5B, [(n_toc2, TyFloat); (n_toc1, TyFloat); (n_tc1, TyFloat); (n_vrmin, TyFloat); (n_tc2, TyFloat); (n_kc, TyFloat); (n_tb2, TyFloat); (n_tob1, TyFloat); (n_vrmax, TyFloat); (n_tob2, TyFloat); (n_tb1, TyFloat); (n_tub1, TyFloat); (n_tub2, TyFloat); (n_tuc1, TyFloat); (n_tuc2, TyFloat); (n_kr, TyFloat); (n_tr, TyFloat); (n_t1, TyFloat)]);
  (* CIM14/ENTSOE/Dynamics/IEC61970/Dynamics/ExcitationSystems/ExcitationSystemsExcST6B.py:100 *) (n_CIM14_ENTSOE_Dynamics_IEC61970_Dynamics_ExcitationSystems_ExcitationSystemsExcST6B_ExcitationSystemsExcST6B, [(n_vamin, TyFloat); (n_vrmin, TyFloat); (n_km, TyFloat); (n_ts, TyFloat); (n_kg, TyFloat); (n_tr, TyFloat); (n_kcl, TyFloat); (n_klr, TyFloat); (n_vrmax, TyFloat); (n_ilr, TyFloat); (n_kpa, TyFloat); (n_tg, TyFloat); (n_vamax, TyFloat); (n_oelin, TyFloat); (n_kff, TyFloat); (n_vmult, TyFloat); (n_kia, TyFloat)]);
  (* CIM14/ENTSOE/Dynamics/IEC61970/Dynamics/ExcitationSystems/ExcitationSystemsExcST7B.py:100 *) (n_CIM14_ENTSOE_Dynamics_IEC61970_Dynamics_ExcitationSystems_ExcitationSystemsExcST7B_ExcitationSystemsExcST7B, [(n_tg, TyFloat); (n_kpa, TyFloat); (n_vmin, TyFloat); (n_vrmax, TyFloat); (n_kl, TyFloat); (n_tr, TyFloat); (n_kh, TyFloat); (n_ts, TyFloat); (n_vrmin, TyFloat); (n_oelin, TyFloat); (n_uelin, TyFloat); (n_tia, TyFloat); (n_tb, TyFloat); (n_tc, TyFloat); (n_tf, TyFloat); (n_kia, TyFloat); (n_vmax, TyFloat)]);
  (* CIM14/ENTSOE/Dynamics/IEC61970/Dynamics/Generators/GeneratorsGenEquiv.py:36 *) (n_CIM14_ENTSOE_Dynamics_IEC61970_Dynamics_Generators_GeneratorsGenEquiv_GeneratorsGenEquiv, [(n_xp, TyFloat)]);
  (* CIM14/ENTSOE/Dynamics/IEC61970/Dynamics/Loads/LoadsLoadMotor.py:84 *) (n_CIM14_ENTSOE_Dynamics_IEC61970_Dynamics_Loads_LoadsLoadMotor_LoadsLoadMotor, [(n_lfac, TyFloat); (n_ra, TyFloat); (n_d, TyFloat); (n_ls, TyFloat); (n_tppo, TyFloat); (n_tbkr, TyFloat); (n_lpp, TyFloat); (n_tpo, TyFloat); (n_lp, TyFloat); (n_h, TyFloat); (n_vt, TyFloat); (n_pfrac, TyFloat); (n_tv, TyFloat)]);
  (* CIM14/ENTSOE/Dynamics/IEC61970/Dynamics/Loads/LoadsLoadStatic.py:100 *) (n_CIM14_ENTSOE_Dynamics_IEC61970_Dynamics_Loads_LoadsLoadStatic_LoadsLoadStatic, [(n_ep2, TyFloat); (n_ep1, TyFloat); (n_kp2, TyFloat); (n_ep3, TyFloat); (n_kp1, TyFloat); (n_kq4, TyFloat); (n_kq3, TyFloat); (n_kq2, TyFloat); (n_kq1, TyFloat); (n_eq1, TyFloat); (n_eq2, TyFloat); (n_kp4, TyFloat); (n_kp3, TyFloat); (n_eq3, TyFloat); (n_staticLoadType, TyStr); (n_kqf, TyFloat); (n_kpf, TyFloat)]);
  (* CIM14/ENTSOE/Dynamics/IEC61970/Dynamics/Motors/MotorsMechLoad1.py:48 *) (n_CIM14_ENTSOE_Dynamics_IEC61970_Dynamics_Motors_MotorsMechLoad1_MotorsMechLoad1, [(n_b, TyFloat); (n_a, TyFloat); (n_d, TyFloat); (n_e, TyFloat)]);
  (* CIM14/ENTSOE/Dynamics/IEC61970/Dynamics/PowerSystemStabilizers/PowerSystemStabilizersPssIEEE2B.py:156 *) (n_CIM14_ENTSOE_Dynamics_IEC61970_Dynamics_PowerSystemStabilizers_PowerSystemStabilizersPssIEEE2B_PowerSystemStabilizersPssIEEE2B, [(n_t10, TyFloat); (n_a, TyFloat); (n_ks1, TyFloat); (n_ks3, TyFloat); (n_t11, TyFloat); (n_ks2, TyFloat); (n_vstmin, TyFloat); (n_vsi1max, TyFloat); (n_vsi2max, TyFloat); (n_tb, TyFloat); (n_t2, TyFloat); (n_ta, TyFloat); (n_t1, TyFloat); (n_t4, TyFloat); (n_n, TyInt); (n_t3, TyFloat); (n_m, TyInt); (n_j1, TyInt); (n_t6, TyFloat); (n_j2, TyInt); (n_t8, TyFloat); (n_vsi1min, TyFloat); (n_t7, TyFloat); (n_t9, TyFloat); (n_ks4, TyFloat); (n_tw2, TyFloat); (n_tw1, TyFloat); (n_tw4, TyFloat); (n_vsi2min, TyFloat); (n_tw3, TyFloat); (n_vstmax, TyFloat)]);
  (* CIM14/ENTSOE/Dynamics/IEC61970/Dynamics/TurbineGovernors/TurbineGovernorsGovCT1.py:176 *) (n_CIM14_ENTSOE_Dynamics_IEC61970_Dynamics_TurbineGovernors_TurbineGovernorsGovCT1_TurbineGovernorsGovCT1, [(n_rdown, TyFloat); (n_vmax, TyFloat); (n_wfnl, TyFloat); (n_tdgov, TyFloat); (n_aset, TyFloat); (n_r, TyFloat); (n_wfspd, TyBool); (n_kpgov, TyFloat); (n_minerr, TyFloat); (n_tsa, TyFloat); (n_tact, TyFloat); (n_tsb, TyFloat); (n_ldref, TyFloat); (n_kimw, TyFloat); (n_maxerr, TyFloat); (n_vmin, TyFloat); (n_mwbase, TyFloat); (n_rclose, TyFloat); (n_tpelec, TyFloat); (n_rup, TyFloat); (n_tb, TyFloat); (n_ka, TyFloat); (n_ta, TyFloat); (n_kdgov, TyFloat); (n_kturb, TyFloat); (n_db, TyFloat); (n_teng, TyFloat); (n_tc, TyFloat); (n_ropen, TyFloat); (n_dm, TyFloat); (n_kiload, TyFloat); (n_pmwset, TyFloat); (n_rselect, TyBool); (n_kigov, TyFloat); (n_kpload, TyFloat); (n_tfload, TyFloat)]);
  (* CIM14/ENTSOE/Dynamics/IEC61970/Dynamics/TurbineGovernors/TurbineGovernorsGovHydro1.py:84 *) (n_CIM14_ENTSOE_Dynamics_IEC61970_Dynamics_TurbineGovernors_TurbineGovernorsGovHydro1_TurbineGovernorsGovHydro1, [(n_rperm, TyFloat); (n_tg, TyFloat); (n_tf, TyFloat); (n_mwbase, TyFloat); (n_gmax, TyFloat); (n_at, TyFloat); (n_gmin, TyFloat); (n_qnl, TyFloat); (n_velm, TyFloat); (n_tw, TyFloat); (n_dturb, TyFloat); (n_rtemp, TyFloat); (n_tr, TyFloat)]);
  (* CIM14/ENTSOE/Dynamics/IEC61970/Dynamics/TurbineGovernors/TurbineGovernorsGovHydro2.py:148 *) (n_CIM14_ENTSOE_Dynamics_IEC61970_Dynamics_TurbineGovernors_TurbineGovernorsGovHydro2_TurbineGovernorsGovHydro2, [(n_bturb, TyFloat); (n_rtemp, TyFloat); (n_tw, TyFloat); (n_rperm, TyFloat); (n_gv1, TyFloat); (n_gv2, TyFloat); (n_tr, TyFloat); (n_aturb, TyFloat); (n_tp, TyFloat); (n_uo, TyFloat); (n_gv6, TyFloat); (n_gv5, TyFloat); (n_pgv5, TyFloat); (n_gv4, TyFloat); (n_pgv6, TyFloat); (n_gv3, TyFloat); (n_pgv2, TyFloat); (n_pgv1, TyFloat); (n_db1, TyFloat); (n_pgv4, TyFloat); (n_kturb, TyFloat); (n_db2, TyFloat); (n_tg, TyFloat); (n_pmax, TyFloat); (n_pgv3, TyFloat); (n_mwbase, TyFloat); (n_uc, TyFloat); (n_pmin, TyFloat); (n_eps, TyFloat)]);
  (* CIM14/ENTSOE/Dynamics/IEC61970/Dynamics/TurbineGovernors/TurbineGovernorsGovSteam0.py:64 *) (n_CIM14_ENTSOE_Dynamics_IEC61970_Dynamics_TurbineGovernors_TurbineGovernorsGovSteam0_TurbineGovernorsGovSteam0, [(n_t2, TyFloat); (n_t3, TyFloat); (n_t1, TyFloat); (n_vmax, TyFloat); (n_dt, TyFloat); (n_r, TyFloat); (n_vmin, TyFloat); (n_mwbase, TyFloat)]);
  (* CIM14/ENTSOE/Dynamics/IEC61970/Dynamics/TurbineGovernors/TurbineGovernorsGovSteam1.py:176 *) (n_CIM14_ENTSOE_Dynamics_IEC61970_Dynamics_TurbineGovernors_TurbineGovernorsGovSteam1_TurbineGovernorsGovSteam1, [(n_eps, TyFloat); (n_uc, TyFloat); (n_mwbase, TyFloat); (n_pmin, TyFloat); (n_k3, TyFloat); (n_k, TyFloat); (n_k2, TyFloat); (n_k1, TyFloat); (n_pgv1, TyFloat); (n_k7, TyFloat); (n_k6, TyFloat); (n_pmax, TyFloat); (n_k5, TyFloat); (n_k4, TyFloat); (n_gv6, TyFloat); (n_t6, TyFloat); (n_pgv6, TyFloat); (n_t7, TyFloat); (n_gv5, TyFloat); (n_k8, TyFloat); (n_gv1, TyFloat); (n_t1, TyFloat); (n_t2, TyFloat); (n_pgv3, TyFloat); (n_db1, TyFloat); (n_t3, TyFloat); (n_uo, TyFloat); (n_pgv2, TyFloat); (n_gv4, TyFloat); (n_pgv5, TyFloat); (n_t4, TyFloat); (n_gv2, TyFloat); (n_gv3, TyFloat); (n_t5, TyFloat); (n_pgv4, TyFloat); (n_db2, TyFloat)]);
  (* CIM14/ENTSOE/Dynamics/IEC61970/Dynamics/VoltageCompensator/VoltageCompensatorVcompCross.py:40 *) (n_CIM14_ENTSOE_Dynamics_IEC61970_Dynamics_VoltageCompensator_VoltageCompensatorVcompCross_VoltageCompensatorVcompCross, [(n_xcomp2, TyFloat); (n_rcomp2, TyFloat)]);
  (* CIM14/ENTSOE/Dynamics/IEC61970/Dynamics/VoltageCompensator/VoltageCompensatorVcompIEEE.py:40 *) (n_CIM14_ENTSOE_Dynamics_IEC61970_Dynamics_VoltageCompensator_VoltageCompensatorVcompIEEE_VoltageCompensatorVcompIEEE, [(n_xcomp, TyFloat); (n_rcomp, TyFloat)]);
  (* CIM14/ENTSOE/Dynamics/IEC61970/Informative/InfCore/InfCoreModelingAuthoritySet.py:36 *) (n_CIM14_ENTSOE_Dynamics_IEC61970_Informative_InfCore_InfCoreModelingAuthoritySet_InfCoreModelingAuthoritySet, []);
  (* CIM14/ENTSOE/Dynamics/IEC61970/Meas/MeasControl.py:36 *) (n_CIM14_ENTSOE_Dynamics_IEC61970_Meas_MeasControl_MeasControl, []);
  (* CIM14/ENTSOE/Dynamics/IEC61970/Meas/MeasMeasurement.py:36 *) (n_CIM14_ENTSOE_Dynamics_IEC61970_Meas_MeasMeasurement_MeasMeasurement, []);
  (* CIM14/ENTSOE/Dynamics/IEC61970/OperationalLimits/OperationalLimitsOperationalLimitSet.py:36 *) (n_CIM14_ENTSOE_Dynamics_IEC61970_OperationalLimits_OperationalLimitsOperationalLimitSet_OperationalLimitsOperationalLimitSet, []);
  (* CIM14/ENTSOE/Dynamics/IEC61970/Outage/OutageClearanceTag.py:36 *) (n_CIM14_ENTSOE_Dynamics_IEC61970_Outage_OutageClearanceTag_OutageClearanceTag, []);
  (* CIM14/ENTSOE/Dynamics/IEC61970/Outage/OutageOutageSchedule.py:36 *) (n_CIM14_ENTSOE_Dynamics_IEC61970_Outage_OutageOutageSchedule_OutageOutageSchedule, []);
  (* CIM14/ENTSOE/Dynamics/IEC61970/Protection/ProtectionProtectionEquipment.py:36 *) (n_CIM14_ENTSOE_Dynamics_IEC61970_Protection_ProtectionProtectionEquipment_ProtectionProtectionEquipment, []);
  (* CIM14/ENTSOE/Dynamics/IEC61970/StateVariables/StateVariablesSvStatus.py:36 *) (n_CIM14_ENTSOE_Dynamics_IEC61970_StateVariables_StateVariablesSvStatus_StateVariablesSvStatus, []);
  (* CIM14/ENTSOE/Dynamics/IEC61970/Wires/WiresRegulatingCondEq.py:40 *) (n_CIM14_ENTSOE_Dynamics_IEC61970_Wires_WiresRegulatingCondEq_WiresRegulatingCondEq, []);
  (* CIM14/ENTSOE/Dynamics/IEC61970/Wires/WiresRegulatingControl.py:36 *) (n_CIM14_ENTSOE_Dynamics_IEC61970_Wires_WiresRegulatingControl_WiresRegulatingControl, []);
  (* CIM14/ENTSOE/Dynamics/IEC61970/Wires/WiresSynchronousMachine.py:56 *) (n_CIM14_ENTSOE_Dynamics_IEC61970_Wires_WiresSynchronousMachine_WiresSynchronousMachine, [(n_xDirectSync, TyFloat); (n_xDirectTrans, TyFloat); (n_xQuadTrans, TyFloat); (n_xQuadSync, TyFloat); (n_xQuadSubtrans, TyFloat); (n_xDirectSubtrans, TyFloat)]);
  (* CIM14/ENTSOE/Dynamics/Thing.py:81 *) (n_CIM14_ENTSOE_Dynamics_Thing_Thing, [])
].

(** _attr_types of the classes of CIM14.ENTSOE.Equipment. *)
Definition cim14_entsoe_equipment_types : types := [
  (* CIM14/ENTSOE/Equipment/ControlArea/ControlArea.py:58 *) (n_CIM14_ENTSOE_Equipment_ControlArea_ControlArea_ControlArea, [(n_netInterchange, TyFloat); (n_type, TyStr); (n_pTolerance, TyFloat)]);
  (* CIM14/ENTSOE/Equipment/ControlArea/ControlAreaGeneratingUnit.py:42 *) (n_CIM14_ENTSOE_Equipment_ControlArea_ControlAreaGeneratingUnit_ControlAreaGeneratingUnit, []);
  (* CIM14/ENTSOE/Equipment/ControlArea/TieFlow.py:46 *) (n_CIM14_ENTSOE_Equipment_ControlArea_TieFlow_TieFlow, [(n_positiveFlowIn, TyBool)]);
  (* CIM14/ENTSOE/Equipment/Core/BaseVoltage.py:46 *) (n_CIM14_ENTSOE_Equipment_Core_BaseVoltage_BaseVoltage, [(n_nominalVoltage, TyFloat)]);
  (* CIM14/ENTSOE/Equipment/Core/BasicIntervalSchedule.py:46 *) (n_CIM14_ENTSOE_Equipment_Core_BasicIntervalSchedule_BasicIntervalSchedule, [(n_startTime, TyStr); (n_value1Unit, TyStr); (n_value2Unit, TyStr)]);
  (* CIM14/ENTSOE/Equipment/Core/ConductingEquipment.py:42 *) (n_CIM14_ENTSOE_Equipment_Core_ConductingEquipment_ConductingEquipment, []);
  (* CIM14/ENTSOE/Equipment/Core/ConnectivityNode.py:38 *) (n_CIM14_ENTSOE_Equipment_Core_ConnectivityNode_ConnectivityNode, []);
  (* CIM14/ENTSOE/Equipment/Core/ConnectivityNodeContainer.py:34 *) (n_CIM14_ENTSOE_Equipment_Core_ConnectivityNodeContainer_ConnectivityNodeContainer, []);
  (* CIM14/ENTSOE/Equipment/Core/Curve.py:50 *) (n_CIM14_ENTSOE_Equipment_Core_Curve_Curve, [(n_y1Unit, TyStr); (n_curveStyle, TyStr); (n_xUnit, TyStr)]);
  (* CIM14/ENTSOE/Equipment/Core/CurveData.py:50 *) (n_CIM14_ENTSOE_Equipment_Core_CurveData_CurveData, [(n_y1value, TyFloat); (n_xvalue, TyFloat); (n_y2value, TyFloat)]);
  (* CIM14/ENTSOE/Equipment/Core/Equipment.py:46 *) (n_CIM14_ENTSOE_Equipment_Core_Equipment_Equipment, [(n_aggregate, TyBool)]);
  (* CIM14/ENTSOE/Equipment/Core/EquipmentContainer.py:38 *) (n_CIM14_ENTSOE_Equipment_Core_EquipmentContainer_EquipmentContainer, []);
  (* CIM14/ENTSOE/Equipment/Core/GeographicalRegion.py:38 *) (n_CIM14_ENTSOE_Equipment_Core_GeographicalRegion_GeographicalRegion, []);
  (* CIM14/ENTSOE/Equipment/Core/IdentifiedObject.py:50 *) (n_CIM14_ENTSOE_Equipment_Core_IdentifiedObject_IdentifiedObject, [(n_description, TyStr); (n_name, TyStr); (n_aliasName, TyStr); (n_pathName, TyStr)]);
  (* CIM14/ENTSOE/Equipment/Core/PowerSystemResource.py:38 *) (n_CIM14_ENTSOE_Equipment_Core_PowerSystemResource_PowerSystemResource, []);
  (* CIM14/ENTSOE/Equipment/Core/RegularIntervalSchedule.py:42 *) (n_CIM14_ENTSOE_Equipment_Core_RegularIntervalSchedule_RegularIntervalSchedule, [(n_timeStep, TyFloat); (n_endTime, TyStr)]);
  (* CIM14/ENTSOE/Equipment/Core/SubGeographicalRegion.py:46 *) (n_CIM14_ENTSOE_Equipment_Core_SubGeographicalRegion_SubGeographicalRegion, []);
  (* CIM14/ENTSOE/Equipment/Core/Substation.py:42 *) (n_CIM14_ENTSOE_Equipment_Core_Substation_Substation, []);
  (* CIM14/ENTSOE/Equipment/Core/Terminal.py:70 *) (n_CIM14_ENTSOE_Equipment_Core_Terminal_Terminal, [(n_sequenceNumber, TyInt)]);
  (* CIM14/ENTSOE/Equipment/Core/Unit.py:38 *) (n_CIM14_ENTSOE_Equipment_Core_Unit_Unit, []);
  (* CIM14/ENTSOE/Equipment/Core/VoltageLevel.py:50 *) (n_CIM14_ENTSOE_Equipment_Core_VoltageLevel_VoltageLevel, [(n_lowVoltageLimit, TyFloat); (n_highVoltageLimit, TyFloat)]);
  (* CIM14/ENTSOE/Equipment/Element.py:34 *) (n_CIM14_ENTSOE_Equipment_Element_Element, [(n_UUID, TyStr)]);
  (* CIM14/ENTSOE/Equipment/Equivalents/EquivalentEquipment.py:38 *) (n_CIM14_ENTSOE_Equipment_Equivalents_EquivalentEquipment_EquivalentEquipment, []);
  (* CIM14/ENTSOE/Equipment/Equivalents/EquivalentNetwork.py:38 *) (n_CIM14_ENTSOE_Equipment_Equivalents_EquivalentNetwork_EquivalentNetwork, []);
  (* CIM14/ENTSOE/Equipment/Generation/Production/FossilFuel.py:42 *) (n_CIM14_ENTSOE_Equipment_Generation_Production_FossilFuel_FossilFuel, [(n_fossilFuelType, TyStr)]);
  (* CIM14/ENTSOE/Equipment/Generation/Production/GeneratingUnit.py:102 *) (n_CIM14_ENTSOE_Equipment_Generation_Production_GeneratingUnit_GeneratingUnit, [(n_maxOperatingP, TyFloat); (n_ratedGrossMaxP, TyFloat); (n_variableCost, TyFloat); (n_minOperatingP, TyFloat); (n_ratedGrossMinP, TyFloat); (n_shortPF, TyFloat); (n_ratedNetMaxP, TyFloat); (n_longPF, TyFloat); (n_startupCost, TyFloat); (n_genControlSource, TyStr); (n_nominalP, TyFloat); (n_governorSCD, TyFloat); (n_maximumAllowableSpinningReserve, TyFloat); (n_initialP, TyFloat); (n_normalPF, TyFloat)]);
  (* CIM14/ENTSOE/Equipment/Generation/Production/HydroGeneratingUnit.py:34 *) (n_CIM14_ENTSOE_Equipment_Generation_Production_HydroGeneratingUnit_HydroGeneratingUnit, []);
  (* CIM14/ENTSOE/Equipment/Generation/Production/HydroPump.py:38 *) (n_CIM14_ENTSOE_Equipment_Generation_Production_HydroPump_HydroPump, []);
  (* CIM14/ENTSOE/Equipment/Generation/Production/NuclearGeneratingUnit.py:34 *) (n_CIM14_ENTSOE_Equipment_Generation_Production_NuclearGeneratingUnit_NuclearGeneratingUnit, []);
  (* CIM14/ENTSOE/Equipment/Generation/Production/ThermalGeneratingUnit.py:38 *) (n_CIM14_ENTSOE_Equipment_Generation_Production_ThermalGeneratingUnit_ThermalGeneratingUnit, []);
  (* CIM14/ENTSOE/Equipment/Generation/Production/WindGeneratingUnit.py:34 *) (n_CIM14_ENTSOE_Equipment_Generation_Production_WindGeneratingUnit_WindGeneratingUnit, []);
  (* CIM14/ENTSOE/Equipment/IEC61970CIMVersion.py:42 *) (n_CIM14_ENTSOE_Equipment_IEC61970CIMVersion_IEC61970CIMVersion, [(n_date, TyStr); (n_version, TyStr)]);
  (* CIM14/ENTSOE/Equipment/LoadModel/ConformLoad.py:38 *) (n_CIM14_ENTSOE_Equipment_LoadModel_ConformLoad_ConformLoad, []);
  (* CIM14/ENTSOE/Equipment/LoadModel/ConformLoadGroup.py:38 *) (n_CIM14_ENTSOE_Equipment_LoadModel_ConformLoadGroup_ConformLoadGroup, []);
  (* CIM14/ENTSOE/Equipment/LoadModel/DayType.py:38 *) (n_CIM14_ENTSOE_Equipment_LoadModel_DayType_DayType, []);
  (* CIM14/ENTSOE/Equipment/LoadModel/EnergyArea.py:38 *) (n_CIM14_ENTSOE_Equipment_LoadModel_EnergyArea_EnergyArea, []);
  (* CIM14/ENTSOE/Equipment/LoadModel/LoadGroup.py:38 *) (n_CIM14_ENTSOE_Equipment_LoadModel_LoadGroup_LoadGroup, []);
  (* CIM14/ENTSOE/Equipment/LoadModel/LoadResponseCharacteristic.py:82 *) (n_CIM14_ENTSOE_Equipment_LoadModel_LoadResponseCharacteristic_LoadResponseCharacteristic, [(n_pVoltageExponent, TyFloat); (n_qConstantCurrent, TyFloat); (n_pFrequencyExponent, TyFloat); (n_exponentModel, TyBool); (n_qConstantImpedance, TyFloat); (n_pConstantCurrent, TyFloat); (n_qFrequencyExponent, TyFloat); (n_pConstantPower, TyFloat); (n_qVoltageExponent, TyFloat); (n_qConstantPower, TyFloat); (n_pConstantImpedance, TyFloat)]);
  (* CIM14/ENTSOE/Equipment/LoadModel/NonConformLoad.py:38 *) (n_CIM14_ENTSOE_Equipment_LoadModel_NonConformLoad_NonConformLoad, []);
  (* CIM14/ENTSOE/Equipment/LoadModel/NonConformLoadGroup.py:38 *) (n_CIM14_ENTSOE_Equipment_LoadModel_NonConformLoadGroup_NonConformLoadGroup, []);
  (* CIM14/ENTSOE/Equipment/LoadModel/Season.py:38 *) (n_CIM14_ENTSOE_Equipment_LoadModel_Season_Season, []);
  (* CIM14/ENTSOE/Equipment/LoadModel/SeasonDayTypeSchedule.py:42 *) (n_CIM14_ENTSOE_Equipment_LoadModel_SeasonDayTypeSchedule_SeasonDayTypeSchedule, []);
  (* CIM14/ENTSOE/Equipment/LoadModel/SubLoadArea.py:38 *) (n_CIM14_ENTSOE_Equipment_LoadModel_SubLoadArea_SubLoadArea, []);
  (* CIM14/ENTSOE/Equipment/Meas/Measurement.py:50 *) (n_CIM14_ENTSOE_Equipment_Meas_Measurement_Measurement, [(n_measurementType, TyStr)]);
  (* CIM14/ENTSOE/Equipment/Meas/MeasurementValue.py:38 *) (n_CIM14_ENTSOE_Equipment_Meas_MeasurementValue_MeasurementValue, []);
  (* CIM14/ENTSOE/Equipment/Meas/MeasurementValueSource.py:38 *) (n_CIM14_ENTSOE_Equipment_Meas_MeasurementValueSource_MeasurementValueSource, []);
  (* CIM14/ENTSOE/Equipment/OperationalLimit.py:32 *) (n_CIM14_ENTSOE_Equipment_OperationalLimit_OperationalLimit, []);
  (* CIM14/ENTSOE/Equipment/OperationalLimits/CurrentLimit.py:38 *) (n_CIM14_ENTSOE_Equipment_OperationalLimits_CurrentLimit_CurrentLimit, [(n_value, TyFloat)]);
  (* CIM14/ENTSOE/Equipment/OperationalLimits/OperationalLimit.py:46 *) (n_CIM14_ENTSOE_Equipment_OperationalLimits_OperationalLimit_OperationalLimit, [(n_type, TyStr)]);
  (* CIM14/ENTSOE/Equipment/OperationalLimits/OperationalLimitSet.py:46 *) (n_CIM14_ENTSOE_Equipment_OperationalLimits_OperationalLimitSet_OperationalLimitSet, []);
  (* CIM14/ENTSOE/Equipment/OperationalLimits/OperationalLimitType.py:46 *) (n_CIM14_ENTSOE_Equipment_OperationalLimits_OperationalLimitType_OperationalLimitType, [(n_direction, TyStr); (n_acceptableDuration, TyFloat)]);
  (* CIM14/ENTSOE/Equipment/OperationalLimits/VoltageLimit.py:38 *) (n_CIM14_ENTSOE_Equipment_OperationalLimits_VoltageLimit_VoltageLimit, [(n_value, TyFloat)]);
  (* CIM14/ENTSOE/Equipment/Wires/ACLineSegment.py:66 *) (n_CIM14_ENTSOE_Equipment_Wires_ACLineSegment_ACLineSegment, [(n_g0ch, TyFloat); (n_r, TyFloat); (n_x0, TyFloat); (n_bch, TyFloat); (n_x, TyFloat); (n_b0ch, TyFloat); (n_gch, TyFloat); (n_r0, TyFloat)]);
  (* CIM14/ENTSOE/Equipment/Wires/Breaker.py:38 *) (n_CIM14_ENTSOE_Equipment_Wires_Breaker_Breaker, [(n_ratedCurrent, TyFloat)]);
  (* CIM14/ENTSOE/Equipment/Wires/BusbarSection.py:34 *) (n_CIM14_ENTSOE_Equipment_Wires_BusbarSection_BusbarSection, []);
  (* CIM14/ENTSOE/Equipment/Wires/Conductor.py:38 *) (n_CIM14_ENTSOE_Equipment_Wires_Conductor_Conductor, [(n_length, TyFloat)]);
  (* CIM14/ENTSOE/Equipment/Wires/Disconnector.py:34 *) (n_CIM14_ENTSOE_Equipment_Wires_Disconnector_Disconnector, []);
  (* CIM14/ENTSOE/Equipment/Wires/EnergyConsumer.py:54 *) (n_CIM14_ENTSOE_Equipment_Wires_EnergyConsumer_EnergyConsumer, [(n_pfixed, TyFloat); (n_pfixedPct, TyFloat); (n_qfixedPct, TyFloat); (n_qfixed, TyFloat)]);
  (* CIM14/ENTSOE/Equipment/Wires/Line.py:38 *) (n_CIM14_ENTSOE_Equipment_Wires_Line_Line, []);
  (* CIM14/ENTSOE/Equipment/Wires/LoadBreakSwitch.py:38 *) (n_CIM14_ENTSOE_Equipment_Wires_LoadBreakSwitch_LoadBreakSwitch, [(n_ratedCurrent, TyFloat)]);
  (* CIM14/ENTSOE/Equipment/Wires/MutualCoupling.py:74 *) (n_CIM14_ENTSOE_Equipment_Wires_MutualCoupling_MutualCoupling, [(n_g0ch, TyFloat); (n_r0, TyFloat); (n_x0, TyFloat); (n_distance11, TyFloat); (n_distance12, TyFloat); (n_distance22, TyFloat); (n_distance21, TyFloat); (n_b0ch, TyFloat)]);
  (* CIM14/ENTSOE/Equipment/Wires/PhaseTapChanger.py:66 *) (n_CIM14_ENTSOE_Equipment_Wires_PhaseTapChanger_PhaseTapChanger, [(n_nominalVoltageOutOfPhase, TyFloat); (n_windingConnectionAngle, TyFloat); (n_phaseTapChangerType, TyStr); (n_xStepMin, TyFloat); (n_xStepMax, TyFloat); (n_stepPhaseShiftIncrement, TyFloat); (n_voltageStepIncrementOutOfPhase, TyFloat)]);
  (* CIM14/ENTSOE/Equipment/Wires/PowerTransformer.py:38 *) (n_CIM14_ENTSOE_Equipment_Wires_PowerTransformer_PowerTransformer, []);
  (* CIM14/ENTSOE/Equipment/Wires/RatioTapChanger.py:42 *) (n_CIM14_ENTSOE_Equipment_Wires_RatioTapChanger_RatioTapChanger, [(n_tculControlMode, TyStr)]);
  (* CIM14/ENTSOE/Equipment/Wires/ReactiveCapabilityCurve.py:42 *) (n_CIM14_ENTSOE_Equipment_Wires_ReactiveCapabilityCurve_ReactiveCapabilityCurve, [(n_y2Unit, TyStr)]);
  (* CIM14/ENTSOE/Equipment/Wires/RegulatingCondEq.py:38 *) (n_CIM14_ENTSOE_Equipment_Wires_RegulatingCondEq_RegulatingCondEq, []);
  (* CIM14/ENTSOE/Equipment/Wires/RegulatingControl.py:62 *) (n_CIM14_ENTSOE_Equipment_Wires_RegulatingControl_RegulatingControl, [(n_targetRange, TyFloat); (n_mode, TyStr); (n_discrete, TyBool); (n_targetValue, TyFloat)]);
  (* CIM14/ENTSOE/Equipment/Wires/SeriesCompensator.py:42 *) (n_CIM14_ENTSOE_Equipment_Wires_SeriesCompensator_SeriesCompensator, [(n_r, TyFloat); (n_x, TyFloat)]);
  (* CIM14/ENTSOE/Equipment/Wires/ShuntCompensator.py:62 *) (n_CIM14_ENTSOE_Equipment_Wires_ShuntCompensator_ShuntCompensator, [(n_g0PerSection, TyFloat); (n_bPerSection, TyFloat); (n_nomU, TyFloat); (n_gPerSection, TyFloat); (n_normalSections, TyInt); (n_b0PerSection, TyFloat); (n_maximumSections, TyInt)]);
  (* CIM14/ENTSOE/Equipment/Wires/StaticVarCompensator.py:54 *) (n_CIM14_ENTSOE_Equipment_Wires_StaticVarCompensator_StaticVarCompensator, [(n_voltageSetPoint, TyFloat); (n_capacitiveRating, TyFloat); (n_slope, TyFloat); (n_inductiveRating, TyFloat); (n_sVCControlMode, TyStr)]);
  (* CIM14/ENTSOE/Equipment/Wires/Switch.py:38 *) (n_CIM14_ENTSOE_Equipment_Wires_Switch_Switch, [(n_normalOpen, TyBool)]);
  (* CIM14/ENTSOE/Equipment/Wires/SynchronousMachine.py:98 *) (n_CIM14_ENTSOE_Equipment_Wires_SynchronousMachine_SynchronousMachine, [(n_x0, TyFloat); (n_qPercent, TyFloat); (n_x2, TyFloat); (n_r, TyFloat); (n_referencePriority, TyInt); (n_operatingMode, TyStr); (n_r0, TyFloat); (n_type, TyStr); (n_r2, TyFloat); (n_maxQ, TyFloat); (n_x, TyFloat); (n_ratedS, TyFloat); (n_minQ, TyFloat)]);
  (* CIM14/ENTSOE/Equipment/Wires/TapChanger.py:70 *) (n_CIM14_ENTSOE_Equipment_Wires_TapChanger_TapChanger, [(n_stepVoltageIncrement, TyFloat); (n_neutralStep, TyInt); (n_normalStep, TyInt); (n_ltcFlag, TyBool); (n_neutralU, TyFloat); (n_lowStep, TyInt); (n_regulationStatus, TyBool); (n_highStep, TyInt)]);
  (* CIM14/ENTSOE/Equipment/Wires/TransformerWinding.py:98 *) (n_CIM14_ENTSOE_Equipment_Wires_TransformerWinding_TransformerWinding, [(n_x, TyFloat); (n_x0, TyFloat); (n_b0, TyFloat); (n_g0, TyFloat); (n_rground, TyFloat); (n_b, TyFloat); (n_connectionType, TyStr); (n_ratedS, TyFloat); (n_r, TyFloat); (n_r0, TyFloat); (n_ratedU, TyFloat); (n_xground, TyFloat); (n_windingType, TyStr)])
].

(** _attr_types of the classes of CIM14.ENTSOE.StateVariables. *)
Definition cim14_entsoe_statevariables_types : types := [
  (* CIM14/ENTSOE/StateVariables/Core/Terminal.py:38 *) (n_CIM14_ENTSOE_StateVariables_Core_Terminal_Terminal, []);
  (* CIM14/ENTSOE/StateVariables/Element.py:34 *) (n_CIM14_ENTSOE_StateVariables_Element_Element, [(n_UUID, TyStr)]);
  (* CIM14/ENTSOE/StateVariables/StateVariables/SvInjection.py:46 *) (n_CIM14_ENTSOE_StateVariables_StateVariables_SvInjection_SvInjection, [(n_qNetInjection, TyFloat); (n_pNetInjection, TyFloat)]);
  (* CIM14/ENTSOE/StateVariables/StateVariables/SvPowerFlow.py:46 *) (n_CIM14_ENTSOE_StateVariables_StateVariables_SvPowerFlow_SvPowerFlow, [(n_p, TyFloat); (n_q, TyFloat)]);
  (* CIM14/ENTSOE/StateVariables/StateVariables/SvShortCircuit.py:54 *) (n_CIM14_ENTSOE_StateVariables_StateVariables_SvShortCircuit_SvShortCircuit, [(n_sShortCircuit, TyFloat); (n_x0PerX, TyFloat); (n_r0PerR, TyFloat); (n_xPerR, TyFloat)]);
  (* CIM14/ENTSOE/StateVariables/StateVariables/SvShuntCompensatorSections.py:46 *) (n_CIM14_ENTSOE_StateVariables_StateVariables_SvShuntCompensatorSections_SvShuntCompensatorSections, [(n_sections, TyInt); (n_continuousSections, TyFloat)]);
  (* CIM14/ENTSOE/StateVariables/StateVariables/SvTapStep.py:46 *) (n_CIM14_ENTSOE_StateVariables_StateVariables_SvTapStep_SvTapStep, [(n_position, TyInt); (n_continuousPosition, TyFloat)]);
  (* CIM14/ENTSOE/StateVariables/StateVariables/SvVoltage.py:46 *) (n_CIM14_ENTSOE_StateVariables_StateVariables_SvVoltage_SvVoltage, [(n_angle, TyFloat); (n_v, TyFloat)]);
  (* CIM14/ENTSOE/StateVariables/Topology/TopologicalNode.py:46 *) (n_CIM14_ENTSOE_StateVariables_Topology_TopologicalNode_TopologicalNode, []);
  (* CIM14/ENTSOE/StateVariables/Wires/ShuntCompensator.py:38 *) (n_CIM14_ENTSOE_StateVariables_Wires_ShuntCompensator_ShuntCompensator, []);
  (* CIM14/ENTSOE/StateVariables/Wires/TapChanger.py:38 *) (n_CIM14_ENTSOE_StateVariables_Wires_TapChanger_TapChanger, [])
].

(** _attr_types of the classes of CIM14.ENTSOE.Topology. *)
Definition cim14_entsoe_topology_types : types := [
  (* CIM14/ENTSOE/Topology/Core/BaseVoltage.py:38 *) (n_CIM14_ENTSOE_Topology_Core_BaseVoltage_BaseVoltage, []);
  (* CIM14/ENTSOE/Topology/Core/ConnectivityNodeContainer.py:38 *) (n_CIM14_ENTSOE_Topology_Core_ConnectivityNodeContainer_ConnectivityNodeContainer, []);
  (* CIM14/ENTSOE/Topology/Core/IdentifiedObject.py:42 *) (n_CIM14_ENTSOE_Topology_Core_IdentifiedObject_IdentifiedObject, [(n_name, TyStr); (n_description, TyStr)]);
  (* CIM14/ENTSOE/Topology/Core/Terminal.py:42 *) (n_CIM14_ENTSOE_Topology_Core_Terminal_Terminal, [(n_connected, TyBool)]);
  (* CIM14/ENTSOE/Topology/Element.py:34 *) (n_CIM14_ENTSOE_Topology_Element_Element, [(n_UUID, TyStr)]);
  (* CIM14/ENTSOE/Topology/Topology/TopologicalNode.py:46 *) (n_CIM14_ENTSOE_Topology_Topology_TopologicalNode_TopologicalNode, [])
].

(** _attr_types of the classes of CIM15.CDPSM.Asset. *)
Definition cim15_cdpsm_asset_types : types := [
  (* CIM15/CDPSM/Asset/Element.py:34 *) (n_CIM15_CDPSM_Asset_Element_Element, [(n_UUID, TyStr)]);
  (* CIM15/CDPSM/Asset/IEC61968/AssetModels/CableInfo.py:74 *) (n_CIM15_CDPSM_Asset_IEC61968_AssetModels_CableInfo_CableInfo, [(n_diameterOverJacket, TyFloat); (n_constructionKind, TyStr); (n_shieldMaterial, TyStr); (n_outerJacketKind, TyStr); (n_isStrandFill, TyBool); (n_diameterOverInsulation, TyFloat); (n_diameterOverScreen, TyFloat); (n_sheathAsNeutral, TyBool); (n_nominalTemperature, TyFloat); (n_diameterOverCore, TyFloat)]);
  (* CIM15/CDPSM/Asset/IEC61968/AssetModels/ConcentricNeutralCableInfo.py:42 *) (n_CIM15_CDPSM_Asset_IEC61968_AssetModels_ConcentricNeutralCableInfo_ConcentricNeutralCableInfo, [(n_diameterOverNeutral, TyFloat); (n_neutralStrandCount, TyInt)]);
  (* CIM15/CDPSM/Asset/IEC61968/AssetModels/ConductorInfo.py:62 *) (n_CIM15_CDPSM_Asset_IEC61968_AssetModels_ConductorInfo_ConductorInfo, [(n_usage, TyStr); (n_insulationThickness, TyFloat); (n_insulated, TyBool); (n_insulationMaterial, TyStr); (n_phaseCount, TyInt)]);
  (* CIM15/CDPSM/Asset/IEC61968/AssetModels/EndDeviceInfo.py:46 *) (n_CIM15_CDPSM_Asset_IEC61968_AssetModels_EndDeviceInfo_EndDeviceInfo, [(n_ratedCurrent, TyFloat); (n_ratedVoltage, TyFloat); (n_phaseCount, TyInt)]);
  (* CIM15/CDPSM/Asset/IEC61968/AssetModels/OverheadConductorInfo.py:46 *) (n_CIM15_CDPSM_Asset_IEC61968_AssetModels_OverheadConductorInfo_OverheadConductorInfo, [(n_neutralInsulationThickness, TyFloat); (n_phaseConductorSpacing, TyFloat); (n_phaseConductorCount, TyInt)]);
  (* CIM15/CDPSM/Asset/IEC61968/AssetModels/PowerTransformerInfo.py:38 *) (n_CIM15_CDPSM_Asset_IEC61968_AssetModels_PowerTransformerInfo_PowerTransformerInfo, []);
  (* CIM15/CDPSM/Asset/IEC61968/AssetModels/TapChangerInfo.py:90 *) (n_CIM15_CDPSM_Asset_IEC61968_AssetModels_TapChangerInfo_TapChangerInfo, [(n_lowStep, TyInt); (n_frequency, TyFloat); (n_ptRatio, TyFloat); (n_ratedApparentPower, TyFloat); (n_stepVoltageIncrement, TyFloat); (n_ctRatio, TyFloat); (n_ratedVoltage, TyFloat); (n_neutralStep, TyInt); (n_ratedCurrent, TyFloat); (n_ctRating, TyFloat); (n_highStep, TyInt); (n_stepPhaseIncrement, TyFloat); (n_neutralU, TyFloat); (n_isTcul, TyBool)]);
  (* CIM15/CDPSM/Asset/IEC61968/AssetModels/TapeShieldCableInfo.py:42 *) (n_CIM15_CDPSM_Asset_IEC61968_AssetModels_TapeShieldCableInfo_TapeShieldCableInfo, [(n_tapeLap, TyFloat); (n_tapeThickness, TyFloat)]);
  (* CIM15/CDPSM/Asset/IEC61968/AssetModels/TransformerEndInfo.py:78 *) (n_CIM15_CDPSM_Asset_IEC61968_AssetModels_TransformerEndInfo_TransformerEndInfo, [(n_ratedU, TyFloat); (n_endNumber, TyInt); (n_phaseAngleClock, TyInt); (n_emergencyS, TyFloat); (n_ratedS, TyFloat); (n_shortTermS, TyFloat); (n_r, TyFloat); (n_insulationU, TyFloat); (n_connectionKind, TyStr)]);
  (* CIM15/CDPSM/Asset/IEC61968/AssetModels/TransformerTankInfo.py:46 *) (n_CIM15_CDPSM_Asset_IEC61968_AssetModels_TransformerTankInfo_TransformerTankInfo, []);
  (* CIM15/CDPSM/Asset/IEC61968/AssetModels/WireArrangement.py:54 *) (n_CIM15_CDPSM_Asset_IEC61968_AssetModels_WireArrangement_WireArrangement, [(n_mountingPointY, TyFloat); (n_position, TyInt); (n_mountingPointX, TyFloat)]);
  (* CIM15/CDPSM/Asset/IEC61968/AssetModels/WireType.py:86 *) (n_CIM15_CDPSM_Asset_IEC61968_AssetModels_WireType_WireType, [(n_rDC20, TyFloat); (n_coreRadius, TyFloat); (n_rAC75, TyFloat); (n_material, TyStr); (n_ratedCurrent, TyFloat); (n_strandCount, TyInt); (n_rAC25, TyFloat); (n_rAC50, TyFloat); (n_radius, TyFloat); (n_gmr, TyFloat); (n_coreStrandCount, TyInt); (n_sizeDescription, TyStr)]);
  (* CIM15/CDPSM/Asset/IEC61968/Assets/AssetInfo.py:34 *) (n_CIM15_CDPSM_Asset_IEC61968_Assets_AssetInfo_AssetInfo, []);
  (* CIM15/CDPSM/Asset/IEC61970/Core/IdentifiedObject.py:46 *) (n_CIM15_CDPSM_Asset_IEC61970_Core_IdentifiedObject_IdentifiedObject, [(n_name, TyStr); (n_aliasName, TyStr)]);
  (* CIM15/CDPSM/Asset/IEC61970/Core/Name.py:46 *) (n_CIM15_CDPSM_Asset_IEC61970_Core_Name_Name, [(n_name, TyStr)]);
  (* CIM15/CDPSM/Asset/IEC61970/Core/NameType.py:38 *) (n_CIM15_CDPSM_Asset_IEC61970_Core_NameType_NameType, []);
  (* CIM15/CDPSM/Asset/IEC61970/Wires/ACLineSegment.py:46 *) (n_CIM15_CDPSM_Asset_IEC61970_Wires_ACLineSegment_ACLineSegment, []);
  (* CIM15/CDPSM/Asset/IEC61970/Wires/PerLengthPhaseImpedance.py:38 *) (n_CIM15_CDPSM_Asset_IEC61970_Wires_PerLengthPhaseImpedance_PerLengthPhaseImpedance, []);
  (* CIM15/CDPSM/Asset/IEC61970/Wires/PerLengthSequenceImpedance.py:38 *) (n_CIM15_CDPSM_Asset_IEC61970_Wires_PerLengthSequenceImpedance_PerLengthSequenceImpedance, []);
  (* CIM15/CDPSM/Asset/IEC61970/Wires/TransformerCoreAdmittance.py:36 *) (n_CIM15_CDPSM_Asset_IEC61970_Wires_TransformerCoreAdmittance_TransformerCoreAdmittance, []);
  (* CIM15/CDPSM/Asset/IEC61970/Wires/TransformerEnd.py:46 *) (n_CIM15_CDPSM_Asset_IEC61970_Wires_TransformerEnd_TransformerEnd, []);
  (* CIM15/CDPSM/Asset/IEC61970/Wires/TransformerStarImpedance.py:38 *) (n_CIM15_CDPSM_Asset_IEC61970_Wires_TransformerStarImpedance_TransformerStarImpedance, []);
  (* CIM15/CDPSM/Asset/IEC61970/Wires/TransformerTank.py:38 *) (n_CIM15_CDPSM_Asset_IEC61970_Wires_TransformerTank_TransformerTank, []);
  (* CIM15/CDPSM/Asset/IEC61970/Wires/TransformerTankEnd.py:34 *) (n_CIM15_CDPSM_Asset_IEC61970_Wires_TransformerTankEnd_TransformerTankEnd, [])
].

(** _attr_types of the classes of CIM15.CDPSM.Balanced. *)
Definition cim15_cdpsm_balanced_types : types := [
  (* CIM15/CDPSM/Balanced/Element.py:34 *) (n_CIM15_CDPSM_Balanced_Element_Element, [(n_UUID, TyStr)]);
  (* CIM15/CDPSM/Balanced/IEC61970/Core/IdentifiedObject.py:46 *) (n_CIM15_CDPSM_Balanced_IEC61970_Core_IdentifiedObject_IdentifiedObject, [(n_name, TyStr); (n_aliasName, TyStr)]);
  (* CIM15/CDPSM/Balanced/IEC61970/Core/Name.py:46 *) (n_CIM15_CDPSM_Balanced_IEC61970_Core_Name_Name, [(n_name, TyStr)]);
  (* CIM15/CDPSM/Balanced/IEC61970/Core/NameType.py:38 *) (n_CIM15_CDPSM_Balanced_IEC61970_Core_NameType_NameType, []);
  (* CIM15/CDPSM/Balanced/IEC61970/Generation/Production/GeneratingUnit.py:54 *) (n_CIM15_CDPSM_Balanced_IEC61970_Generation_Production_GeneratingUnit_GeneratingUnit, [(n_baseP, TyFloat); (n_genControlSource, TyStr); (n_ratedNetMaxP, TyFloat); (n_initialP, TyFloat)]);
  (* CIM15/CDPSM/Balanced/IEC61970/LoadModel/LoadResponseCharacteristic.py:82 *) (n_CIM15_CDPSM_Balanced_IEC61970_LoadModel_LoadResponseCharacteristic_LoadResponseCharacteristic, [(n_pFrequencyExponent, TyFloat); (n_pConstantPower, TyFloat); (n_pVoltageExponent, TyFloat); (n_exponentModel, TyBool); (n_qFrequencyExponent, TyFloat); (n_qConstantImpedance, TyFloat); (n_qConstantPower, TyFloat); (n_pConstantCurrent, TyFloat); (n_qVoltageExponent, TyFloat); (n_pConstantImpedance, TyFloat); (n_qConstantCurrent, TyFloat)]);
  (* CIM15/CDPSM/Balanced/IEC61970/Wires/ACLineSegment.py:58 *) (n_CIM15_CDPSM_Balanced_IEC61970_Wires_ACLineSegment_ACLineSegment, [(n_x0, TyFloat); (n_bch, TyFloat); (n_b0ch, TyFloat); (n_r, TyFloat); (n_r0, TyFloat); (n_x, TyFloat)]);
  (* CIM15/CDPSM/Balanced/IEC61970/Wires/DCLineSegment.py:34 *) (n_CIM15_CDPSM_Balanced_IEC61970_Wires_DCLineSegment_DCLineSegment, []);
  (* CIM15/CDPSM/Balanced/IEC61970/Wires/EnergyConsumer.py:58 *) (n_CIM15_CDPSM_Balanced_IEC61970_Wires_EnergyConsumer_EnergyConsumer, [(n_customerCount, TyInt); (n_pfixedPct, TyFloat); (n_qfixedPct, TyFloat); (n_qfixed, TyFloat); (n_pfixed, TyFloat)]);
  (* CIM15/CDPSM/Balanced/IEC61970/Wires/EnergySource.py:54 *) (n_CIM15_CDPSM_Balanced_IEC61970_Wires_EnergySource_EnergySource, [(n_voltageMagnitude, TyFloat); (n_x, TyFloat); (n_r, TyFloat); (n_nominalVoltage, TyFloat); (n_voltageAngle, TyFloat)]);
  (* CIM15/CDPSM/Balanced/IEC61970/Wires/PhaseTapChanger.py:34 *) (n_CIM15_CDPSM_Balanced_IEC61970_Wires_PhaseTapChanger_PhaseTapChanger, []);
  (* CIM15/CDPSM/Balanced/IEC61970/Wires/PhaseTapChangerAsymetrical.py:38 *) (n_CIM15_CDPSM_Balanced_IEC61970_Wires_PhaseTapChangerAsymetrical_PhaseTapChangerAsymetrical, [(n_windingConnectionAngle, TyFloat)]);
  (* CIM15/CDPSM/Balanced/IEC61970/Wires/PhaseTapChangerLinear.py:38 *) (n_CIM15_CDPSM_Balanced_IEC61970_Wires_PhaseTapChangerLinear_PhaseTapChangerLinear, [(n_stepPhaseShiftIncrement, TyFloat)]);
  (* CIM15/CDPSM/Balanced/IEC61970/Wires/PhaseTapChangerNonLinear.py:38 *) (n_CIM15_CDPSM_Balanced_IEC61970_Wires_PhaseTapChangerNonLinear_PhaseTapChangerNonLinear, [(n_voltageStepIncrement, TyFloat)]);
  (* CIM15/CDPSM/Balanced/IEC61970/Wires/PhaseTapChangerSymetrical.py:34 *) (n_CIM15_CDPSM_Balanced_IEC61970_Wires_PhaseTapChangerSymetrical_PhaseTapChangerSymetrical, []);
  (* CIM15/CDPSM/Balanced/IEC61970/Wires/PowerTransformer.py:34 *) (n_CIM15_CDPSM_Balanced_IEC61970_Wires_PowerTransformer_PowerTransformer, []);
  (* CIM15/CDPSM/Balanced/IEC61970/Wires/PowerTransformerEnd.py:78 *) (n_CIM15_CDPSM_Balanced_IEC61970_Wires_PowerTransformerEnd_PowerTransformerEnd, [(n_g0, TyFloat); (n_ratedS, TyFloat); (n_b0, TyFloat); (n_r0, TyFloat); (n_connectionKind, TyStr); (n_b, TyFloat); (n_r, TyFloat); (n_ratedU, TyFloat); (n_x0, TyFloat); (n_x, TyFloat); (n_g, TyFloat)]);
  (* CIM15/CDPSM/Balanced/IEC61970/Wires/ProtectedSwitch.py:38 *) (n_CIM15_CDPSM_Balanced_IEC61970_Wires_ProtectedSwitch_ProtectedSwitch, [(n_breakingCapacity, TyFloat)]);
  (* CIM15/CDPSM/Balanced/IEC61970/Wires/RatioTapChanger.py:42 *) (n_CIM15_CDPSM_Balanced_IEC61970_Wires_RatioTapChanger_RatioTapChanger, [(n_stepVoltageIncrement, TyFloat); (n_tculControlMode, TyStr)]);
  (* CIM15/CDPSM/Balanced/IEC61970/Wires/SeriesCompensator.py:42 *) (n_CIM15_CDPSM_Balanced_IEC61970_Wires_SeriesCompensator_SeriesCompensator, [(n_x, TyFloat); (n_r, TyFloat)]);
  (* CIM15/CDPSM/Balanced/IEC61970/Wires/ShuntCompensator.py:82 *) (n_CIM15_CDPSM_Balanced_IEC61970_Wires_ShuntCompensator_ShuntCompensator, [(n_nomQ, TyFloat); (n_maxU, TyFloat); (n_g0PerSection, TyFloat); (n_gPerSection, TyFloat); (n_minU, TyFloat); (n_bPerSection, TyFloat); (n_reactivePerSection, TyFloat); (n_voltageSensitivity, TyFloat); (n_nomU, TyFloat); (n_normalSections, TyInt); (n_b0PerSection, TyFloat); (n_maximumSections, TyInt)]);
  (* CIM15/CDPSM/Balanced/IEC61970/Wires/SynchronousMachine.py:58 *) (n_CIM15_CDPSM_Balanced_IEC61970_Wires_SynchronousMachine_SynchronousMachine, [(n_operatingMode, TyStr); (n_maxQ, TyFloat); (n_baseQ, TyFloat); (n_minQ, TyFloat); (n_type, TyStr)]);
  (* CIM15/CDPSM/Balanced/IEC61970/Wires/TapChanger.py:54 *) (n_CIM15_CDPSM_Balanced_IEC61970_Wires_TapChanger_TapChanger, [(n_neutralU, TyFloat); (n_lowStep, TyInt); (n_normalStep, TyInt); (n_neutralStep, TyInt); (n_highStep, TyInt)]);
  (* CIM15/CDPSM/Balanced/IEC61970/Wires/TransformerCoreAdmittance.py:52 *) (n_CIM15_CDPSM_Balanced_IEC61970_Wires_TransformerCoreAdmittance_TransformerCoreAdmittance, [(n_g0, TyFloat); (n_g, TyFloat); (n_b, TyFloat); (n_b0, TyFloat)]);
  (* CIM15/CDPSM/Balanced/IEC61970/Wires/TransformerEnd.py:50 *) (n_CIM15_CDPSM_Balanced_IEC61970_Wires_TransformerEnd_TransformerEnd, []);
  (* CIM15/CDPSM/Balanced/IEC61970/Wires/TransformerMeshImpedance.py:58 *) (n_CIM15_CDPSM_Balanced_IEC61970_Wires_TransformerMeshImpedance_TransformerMeshImpedance, [(n_r, TyFloat); (n_x, TyFloat); (n_x0, TyFloat); (n_r0, TyFloat)]);
  (* CIM15/CDPSM/Balanced/IEC61970/Wires/TransformerStarImpedance.py:54 *) (n_CIM15_CDPSM_Balanced_IEC61970_Wires_TransformerStarImpedance_TransformerStarImpedance, [(n_x0, TyFloat); (n_x, TyFloat); (n_r0, TyFloat); (n_r, TyFloat)]);
  (* CIM15/CDPSM/Balanced/IEC61970/Wires/TransformerTankEnd.py:34 *) (n_CIM15_CDPSM_Balanced_IEC61970_Wires_TransformerTankEnd_TransformerTankEnd, [])
].

(** _attr_types of the classes of CIM15.CDPSM.Connectivity. *)
Definition cim15_cdpsm_connectivity_types : types := [
  (* CIM15/CDPSM/Connectivity/Element.py:34 *) (n_CIM15_CDPSM_Connectivity_Element_Element, [(n_UUID, TyStr)]);
  (* CIM15/CDPSM/Connectivity/IEC61970/Core/BaseVoltage.py:46 *) (n_CIM15_CDPSM_Connectivity_IEC61970_Core_BaseVoltage_BaseVoltage, [(n_nominalVoltage, TyFloat)]);
  (* CIM15/CDPSM/Connectivity/IEC61970/Core/Bay.py:42 *) (n_CIM15_CDPSM_Connectivity_IEC61970_Core_Bay_Bay, []);
  (* CIM15/CDPSM/Connectivity/IEC61970/Core/ConductingEquipment.py:38 *) (n_CIM15_CDPSM_Connectivity_IEC61970_Core_ConductingEquipment_ConductingEquipment, []);
  (* CIM15/CDPSM/Connectivity/IEC61970/Core/ConnectivityNode.py:42 *) (n_CIM15_CDPSM_Connectivity_IEC61970_Core_ConnectivityNode_ConnectivityNode, []);
  (* CIM15/CDPSM/Connectivity/IEC61970/Core/ConnectivityNodeContainer.py:38 *) (n_CIM15_CDPSM_Connectivity_IEC61970_Core_ConnectivityNodeContainer_ConnectivityNodeContainer, []);
  (* CIM15/CDPSM/Connectivity/IEC61970/Core/Equipment.py:38 *) (n_CIM15_CDPSM_Connectivity_IEC61970_Core_Equipment_Equipment, []);
  (* CIM15/CDPSM/Connectivity/IEC61970/Core/EquipmentContainer.py:38 *) (n_CIM15_CDPSM_Connectivity_IEC61970_Core_EquipmentContainer_EquipmentContainer, []);
  (* CIM15/CDPSM/Connectivity/IEC61970/Core/GeographicalRegion.py:38 *) (n_CIM15_CDPSM_Connectivity_IEC61970_Core_GeographicalRegion_GeographicalRegion, []);
  (* CIM15/CDPSM/Connectivity/IEC61970/Core/IdentifiedObject.py:46 *) (n_CIM15_CDPSM_Connectivity_IEC61970_Core_IdentifiedObject_IdentifiedObject, [(n_name, TyStr); (n_aliasName, TyStr)]);
  (* CIM15/CDPSM/Connectivity/IEC61970/Core/Name.py:46 *) (n_CIM15_CDPSM_Connectivity_IEC61970_Core_Name_Name, [(n_name, TyStr)]);
  (* CIM15/CDPSM/Connectivity/IEC61970/Core/NameType.py:50 *) (n_CIM15_CDPSM_Connectivity_IEC61970_Core_NameType_NameType, [(n_name, TyStr); (n_description, TyStr)]);
  (* CIM15/CDPSM/Connectivity/IEC61970/Core/NameTypeAuthority.py:46 *) (n_CIM15_CDPSM_Connectivity_IEC61970_Core_NameTypeAuthority_NameTypeAuthority, [(n_name, TyStr); (n_description, TyStr)]);
  (* CIM15/CDPSM/Connectivity/IEC61970/Core/PSRType.py:34 *) (n_CIM15_CDPSM_Connectivity_IEC61970_Core_PSRType_PSRType, []);
  (* CIM15/CDPSM/Connectivity/IEC61970/Core/PowerSystemResource.py:34 *) (n_CIM15_CDPSM_Connectivity_IEC61970_Core_PowerSystemResource_PowerSystemResource, []);
  (* CIM15/CDPSM/Connectivity/IEC61970/Core/SubGeographicalRegion.py:46 *) (n_CIM15_CDPSM_Connectivity_IEC61970_Core_SubGeographicalRegion_SubGeographicalRegion, []);
  (* CIM15/CDPSM/Connectivity/IEC61970/Core/Substation.py:46 *) (n_CIM15_CDPSM_Connectivity_IEC61970_Core_Substation_Substation, []);
  (* CIM15/CDPSM/Connectivity/IEC61970/Core/Terminal.py:50 *) (n_CIM15_CDPSM_Connectivity_IEC61970_Core_Terminal_Terminal, [(n_phases, TyStr)]);
  (* CIM15/CDPSM/Connectivity/IEC61970/Core/VoltageLevel.py:54 *) (n_CIM15_CDPSM_Connectivity_IEC61970_Core_VoltageLevel_VoltageLevel, [(n_lowVoltageLimit, TyFloat); (n_highVoltageLimit, TyFloat)]);
  (* CIM15/CDPSM/Connectivity/IEC61970/Wires/ACLineSegment.py:38 *) (n_CIM15_CDPSM_Connectivity_IEC61970_Wires_ACLineSegment_ACLineSegment, []);
  (* CIM15/CDPSM/Connectivity/IEC61970/Wires/Breaker.py:34 *) (n_CIM15_CDPSM_Connectivity_IEC61970_Wires_Breaker_Breaker, []);
  (* CIM15/CDPSM/Connectivity/IEC61970/Wires/BusbarSection.py:34 *) (n_CIM15_CDPSM_Connectivity_IEC61970_Wires_BusbarSection_BusbarSection, []);
  (* CIM15/CDPSM/Connectivity/IEC61970/Wires/Conductor.py:38 *) (n_CIM15_CDPSM_Connectivity_IEC61970_Wires_Conductor_Conductor, [(n_length, TyFloat)]);
  (* CIM15/CDPSM/Connectivity/IEC61970/Wires/DCLineSegment.py:34 *) (n_CIM15_CDPSM_Connectivity_IEC61970_Wires_DCLineSegment_DCLineSegment, []);
  (* CIM15/CDPSM/Connectivity/IEC61970/Wires/Disconnector.py:34 *) (n_CIM15_CDPSM_Connectivity_IEC61970_Wires_Disconnector_Disconnector, []);
  (* CIM15/CDPSM/Connectivity/IEC61970/Wires/EnergyConsumer.py:34 *) (n_CIM15_CDPSM_Connectivity_IEC61970_Wires_EnergyConsumer_EnergyConsumer, []);
  (* CIM15/CDPSM/Connectivity/IEC61970/Wires/EnergySource.py:34 *) (n_CIM15_CDPSM_Connectivity_IEC61970_Wires_EnergySource_EnergySource, []);
  (* CIM15/CDPSM/Connectivity/IEC61970/Wires/Fuse.py:34 *) (n_CIM15_CDPSM_Connectivity_IEC61970_Wires_Fuse_Fuse, []);
  (* CIM15/CDPSM/Connectivity/IEC61970/Wires/Ground.py:34 *) (n_CIM15_CDPSM_Connectivity_IEC61970_Wires_Ground_Ground, []);
  (* CIM15/CDPSM/Connectivity/IEC61970/Wires/GroundDisconnector.py:34 *) (n_CIM15_CDPSM_Connectivity_IEC61970_Wires_GroundDisconnector_GroundDisconnector, []);
  (* CIM15/CDPSM/Connectivity/IEC61970/Wires/Jumper.py:34 *) (n_CIM15_CDPSM_Connectivity_IEC61970_Wires_Jumper_Jumper, []);
  (* CIM15/CDPSM/Connectivity/IEC61970/Wires/Junction.py:34 *) (n_CIM15_CDPSM_Connectivity_IEC61970_Wires_Junction_Junction, []);
  (* CIM15/CDPSM/Connectivity/IEC61970/Wires/Line.py:38 *) (n_CIM15_CDPSM_Connectivity_IEC61970_Wires_Line_Line, []);
  (* CIM15/CDPSM/Connectivity/IEC61970/Wires/LoadBreakSwitch.py:34 *) (n_CIM15_CDPSM_Connectivity_IEC61970_Wires_LoadBreakSwitch_LoadBreakSwitch, []);
  (* CIM15/CDPSM/Connectivity/IEC61970/Wires/PowerTransformer.py:42 *) (n_CIM15_CDPSM_Connectivity_IEC61970_Wires_PowerTransformer_PowerTransformer, []);
  (* CIM15/CDPSM/Connectivity/IEC61970/Wires/PowerTransformerEnd.py:38 *) (n_CIM15_CDPSM_Connectivity_IEC61970_Wires_PowerTransformerEnd_PowerTransformerEnd, []);
  (* CIM15/CDPSM/Connectivity/IEC61970/Wires/Sectionaliser.py:34 *) (n_CIM15_CDPSM_Connectivity_IEC61970_Wires_Sectionaliser_Sectionaliser, []);
  (* CIM15/CDPSM/Connectivity/IEC61970/Wires/SeriesCompensator.py:34 *) (n_CIM15_CDPSM_Connectivity_IEC61970_Wires_SeriesCompensator_SeriesCompensator, []);
  (* CIM15/CDPSM/Connectivity/IEC61970/Wires/ShuntCompensator.py:34 *) (n_CIM15_CDPSM_Connectivity_IEC61970_Wires_ShuntCompensator_ShuntCompensator, []);
  (* CIM15/CDPSM/Connectivity/IEC61970/Wires/Switch.py:38 *) (n_CIM15_CDPSM_Connectivity_IEC61970_Wires_Switch_Switch, [(n_normalOpen, TyBool)]);
  (* CIM15/CDPSM/Connectivity/IEC61970/Wires/SynchronousMachine.py:34 *) (n_CIM15_CDPSM_Connectivity_IEC61970_Wires_SynchronousMachine_SynchronousMachine, []);
  (* CIM15/CDPSM/Connectivity/IEC61970/Wires/TransformerEnd.py:38 *) (n_CIM15_CDPSM_Connectivity_IEC61970_Wires_TransformerEnd_TransformerEnd, []);
  (* CIM15/CDPSM/Connectivity/IEC61970/Wires/TransformerTank.py:42 *) (n_CIM15_CDPSM_Connectivity_IEC61970_Wires_TransformerTank_TransformerTank, []);
  (* CIM15/CDPSM/Connectivity/IEC61970/Wires/TransformerTankEnd.py:42 *) (n_CIM15_CDPSM_Connectivity_IEC61970_Wires_TransformerTankEnd_TransformerTankEnd, [(n_phases, TyStr)]);
  (* CIM15/CDPSM/Connectivity/IEC61970/WiresPhaseModel/ShuntCompensatorPhase.py:34 *) (n_CIM15_CDPSM_Connectivity_IEC61970_WiresPhaseModel_ShuntCompensatorPhase_ShuntCompensatorPhase, []);
  (* CIM15/CDPSM/Connectivity/IEC61970/WiresPhaseModel/SwitchPhase.py:34 *) (n_CIM15_CDPSM_Connectivity_IEC61970_WiresPhaseModel_SwitchPhase_SwitchPhase, [])
].

(** _attr_types of the classes of CIM15.CDPSM.Geographical. *)
Definition cim15_cdpsm_geographical_types : types := [
  (* CIM15/CDPSM/Geographical/Element.py:34 *) (n_CIM15_CDPSM_Geographical_Element_Element, [(n_UUID, TyStr)]);
  (* CIM15/CDPSM/Geographical/IEC61968/Common/CoordinateSystem.py:42 *) (n_CIM15_CDPSM_Geographical_IEC61968_Common_CoordinateSystem_CoordinateSystem, [(n_crsUrn, TyStr)]);
  (* CIM15/CDPSM/Geographical/IEC61968/Common/Location.py:46 *) (n_CIM15_CDPSM_Geographical_IEC61968_Common_Location_Location, []);
  (* CIM15/CDPSM/Geographical/IEC61968/Common/PositionPoint.py:54 *) (n_CIM15_CDPSM_Geographical_IEC61968_Common_PositionPoint_PositionPoint, [(n_xPosition, TyStr); (n_zPosition, TyStr); (n_sequenceNumber, TyInt); (n_yPosition, TyStr)]);
  (* CIM15/CDPSM/Geographical/IEC61970/Core/ConductingEquipment.py:34 *) (n_CIM15_CDPSM_Geographical_IEC61970_Core_ConductingEquipment_ConductingEquipment, []);
  (* CIM15/CDPSM/Geographical/IEC61970/Core/Equipment.py:34 *) (n_CIM15_CDPSM_Geographical_IEC61970_Core_Equipment_Equipment, []);
  (* CIM15/CDPSM/Geographical/IEC61970/Core/IdentifiedObject.py:46 *) (n_CIM15_CDPSM_Geographical_IEC61970_Core_IdentifiedObject_IdentifiedObject, [(n_aliasName, TyStr); (n_name, TyStr)]);
  (* CIM15/CDPSM/Geographical/IEC61970/Core/Name.py:46 *) (n_CIM15_CDPSM_Geographical_IEC61970_Core_Name_Name, [(n_name, TyStr)]);
  (* CIM15/CDPSM/Geographical/IEC61970/Core/NameType.py:38 *) (n_CIM15_CDPSM_Geographical_IEC61970_Core_NameType_NameType, []);
  (* CIM15/CDPSM/Geographical/IEC61970/Core/PowerSystemResource.py:38 *) (n_CIM15_CDPSM_Geographical_IEC61970_Core_PowerSystemResource_PowerSystemResource, []);
  (* CIM15/CDPSM/Geographical/IEC61970/Wires/ACLineSegment.py:34 *) (n_CIM15_CDPSM_Geographical_IEC61970_Wires_ACLineSegment_ACLineSegment, []);
  (* CIM15/CDPSM/Geographical/IEC61970/Wires/Breaker.py:34 *) (n_CIM15_CDPSM_Geographical_IEC61970_Wires_Breaker_Breaker, []);
  (* CIM15/CDPSM/Geographical/IEC61970/Wires/BusbarSection.py:34 *) (n_CIM15_CDPSM_Geographical_IEC61970_Wires_BusbarSection_BusbarSection, []);
  (* CIM15/CDPSM/Geographical/IEC61970/Wires/DCLineSegment.py:34 *) (n_CIM15_CDPSM_Geographical_IEC61970_Wires_DCLineSegment_DCLineSegment, []);
  (* CIM15/CDPSM/Geographical/IEC61970/Wires/Disconnector.py:34 *) (n_CIM15_CDPSM_Geographical_IEC61970_Wires_Disconnector_Disconnector, []);
  (* CIM15/CDPSM/Geographical/IEC61970/Wires/EnergyConsumer.py:34 *) (n_CIM15_CDPSM_Geographical_IEC61970_Wires_EnergyConsumer_EnergyConsumer, []);
  (* CIM15/CDPSM/Geographical/IEC61970/Wires/EnergySource.py:34 *) (n_CIM15_CDPSM_Geographical_IEC61970_Wires_EnergySource_EnergySource, []);
  (* CIM15/CDPSM/Geographical/IEC61970/Wires/Fuse.py:34 *) (n_CIM15_CDPSM_Geographical_IEC61970_Wires_Fuse_Fuse, []);
  (* CIM15/CDPSM/Geographical/IEC61970/Wires/GroundDisconnector.py:34 *) (n_CIM15_CDPSM_Geographical_IEC61970_Wires_GroundDisconnector_GroundDisconnector, []);
  (* CIM15/CDPSM/Geographical/IEC61970/Wires/Jumper.py:34 *) (n_CIM15_CDPSM_Geographical_IEC61970_Wires_Jumper_Jumper, []);
  (* CIM15/CDPSM/Geographical/IEC61970/Wires/Junction.py:34 *) (n_CIM15_CDPSM_Geographical_IEC61970_Wires_Junction_Junction, []);
  (* CIM15/CDPSM/Geographical/IEC61970/Wires/Line.py:34 *) (n_CIM15_CDPSM_Geographical_IEC61970_Wires_Line_Line, []);
  (* CIM15/CDPSM/Geographical/IEC61970/Wires/LoadBreakSwitch.py:34 *) (n_CIM15_CDPSM_Geographical_IEC61970_Wires_LoadBreakSwitch_LoadBreakSwitch, []);
  (* CIM15/CDPSM/Geographical/IEC61970/Wires/PowerTransformer.py:34 *) (n_CIM15_CDPSM_Geographical_IEC61970_Wires_PowerTransformer_PowerTransformer, []);
  (* CIM15/CDPSM/Geographical/IEC61970/Wires/SeriesCompensator.py:34 *) (n_CIM15_CDPSM_Geographical_IEC61970_Wires_SeriesCompensator_SeriesCompensator, []);
  (* CIM15/CDPSM/Geographical/IEC61970/Wires/ShuntCompensator.py:34 *) (n_CIM15_CDPSM_Geographical_IEC61970_Wires_ShuntCompensator_ShuntCompensator, []);
  (* CIM15/CDPSM/Geographical/IEC61970/Wires/SynchronousMachine.py:34 *) (n_CIM15_CDPSM_Geographical_IEC61970_Wires_SynchronousMachine_SynchronousMachine, [])
].

(** In the order of [tables]. *)
Definition all_types : list types := [
  cim14_types;
  cim15_types;
  cim14_cdpsm_balanced_types;
  cim14_cdpsm_gis_connectivity_types;
  cim14_cdpsm_unbalanced_types;
  cim14_cpsm_equipment_types;
  cim14_cpsm_statevariables_types;
  cim14_cpsm_topology_types;
  cim14_entsoe_dynamics_types;
  cim14_entsoe_equipment_types;
  cim14_entsoe_statevariables_types;
  cim14_entsoe_topology_types;
  cim15_cdpsm_asset_types;
  cim15_cdpsm_balanced_types;
  cim15_cdpsm_connectivity_types;
  cim15_cdpsm_geographical_types
].
