(** Generated by tools/gen_ecore.py from Model: do not edit. *)
From Coq Require Import String.
From stdpp Require Import prelude.
From Verif Require Import PyStr PyHeap Schema Names Ecore.

(* Model *)
Definition x_AB : name := Eval vm_compute in u "AB".
(* Model *)
Definition x_ABCN : name := Eval vm_compute in u "ABCN".
(* Model *)
Definition x_ABN : name := Eval vm_compute in u "ABN".
(* Model *)
Definition x_AC : name := Eval vm_compute in u "AC".
(* Model *)
Definition x_ACN : name := Eval vm_compute in u "ACN".
(* Model *)
Definition x_AGC : name := Eval vm_compute in u "AGC".
(* Model *)
Definition x_AN : name := Eval vm_compute in u "AN".
(* Model *)
Definition x_AUD : name := Eval vm_compute in u "AUD".
(* Model *)
Definition x_B : name := Eval vm_compute in u "B".
(* Model *)
Definition x_BC : name := Eval vm_compute in u "BC".
(* Model *)
Definition x_BCN : name := Eval vm_compute in u "BCN".
(* Model *)
Definition x_BN : name := Eval vm_compute in u "BN".
(* Model *)
Definition x_CHF : name := Eval vm_compute in u "CHF".
(* Model *)
Definition x_CN : name := Eval vm_compute in u "CN".
(* Model *)
Definition x_ControlCenter : name := Eval vm_compute in u "ControlCenter".
(* Model *)
Definition x_D : name := Eval vm_compute in u "D".
(* Model *)
Definition x_DEFAULTED : name := Eval vm_compute in u "DEFAULTED".
(* Model *)
Definition x_DKK : name := Eval vm_compute in u "DKK".
(* Model *)
Definition x_EDC : name := Eval vm_compute in u "EDC".
(* Model *)
Definition x_EUR : name := Eval vm_compute in u "EUR".
(* Model *)
Definition x_F : name := Eval vm_compute in u "F".
(* Model *)
Definition x_G : name := Eval vm_compute in u "G".
(* Model *)
Definition x_GBP : name := Eval vm_compute in u "GBP".
(* Model *)
Definition x_GOOD : name := Eval vm_compute in u "GOOD".
(* Model *)
Definition x_H : name := Eval vm_compute in u "H".
(* Model *)
Definition x_Hz : name := Eval vm_compute in u "Hz".
(* Model *)
Definition x_Hz_1 : name := Eval vm_compute in u "Hz_1".
(* Model *)
Definition x_Hz_1_1 : name := Eval vm_compute in u "Hz-1".
(* Model *)
Definition x_INR : name := Eval vm_compute in u "INR".
(* Model *)
Definition x_INVALID : name := Eval vm_compute in u "INVALID".
(* Model *)
Definition x_J : name := Eval vm_compute in u "J".
(* Model *)
Definition x_JPY : name := Eval vm_compute in u "JPY".
(* Model *)
Definition x_J_s : name := Eval vm_compute in u "J_s".
(* Model *)
Definition x_J_s_1 : name := Eval vm_compute in u "J/s".
(* Model *)
Definition x_LFC : name := Eval vm_compute in u "LFC".
(* Model *)
Definition x_M0 : name := Eval vm_compute in u "M0".
(* Model *)
Definition x_NOK : name := Eval vm_compute in u "NOK".
(* Model *)
Definition x_PROCESS : name := Eval vm_compute in u "PROCESS".
(* Model *)
Definition x_Pa : name := Eval vm_compute in u "Pa".
(* Model *)
Definition x_REG : name := Eval vm_compute in u "REG".
(* Model *)
Definition x_RTU : name := Eval vm_compute in u "RTU".
(* Model *)
Definition x_RUR : name := Eval vm_compute in u "RUR".
(* Model *)
Definition x_S : name := Eval vm_compute in u "S".
(* Model *)
Definition x_SEK : name := Eval vm_compute in u "SEK".
(* Model *)
Definition x_T : name := Eval vm_compute in u "T".
(* Model *)
Definition x_USD : name := Eval vm_compute in u "USD".
(* Model *)
Definition x_V : name := Eval vm_compute in u "V".
(* Model *)
Definition x_VA : name := Eval vm_compute in u "VA".
(* Model *)
Definition x_VAh : name := Eval vm_compute in u "VAh".
(* Model *)
Definition x_VAr : name := Eval vm_compute in u "VAr".
(* Model *)
Definition x_VArh : name := Eval vm_compute in u "VArh".
(* Model *)
Definition x_V_VAr : name := Eval vm_compute in u "V_VAr".
(* Model *)
Definition x_V_VAr_1 : name := Eval vm_compute in u "V/VAr".
(* Model *)
Definition x_W : name := Eval vm_compute in u "W".
(* Model *)
Definition x_W_Hz : name := Eval vm_compute in u "W_Hz".
(* Model *)
Definition x_W_Hz_1 : name := Eval vm_compute in u "W/Hz".
(* Model *)
Definition x_W_s : name := Eval vm_compute in u "W_s".
(* Model *)
Definition x_W_s_1 : name := Eval vm_compute in u "W/s".
(* Model *)
Definition x_Wh : name := Eval vm_compute in u "Wh".
(* Model *)
Definition x_Y : name := Eval vm_compute in u "Y".
(* Model *)
Definition x_ZIP2 : name := Eval vm_compute in u "ZIP2".
(* Model *)
Definition x_Zn : name := Eval vm_compute in u "Zn".
(* Model *)
Definition x__C : name := Eval vm_compute in u "_C".
(* Model *)
Definition x_abandon : name := Eval vm_compute in u "abandon".
(* Model *)
Definition x_aborted : name := Eval vm_compute in u "aborted".
(* Model *)
Definition x_absoluteValue : name := Eval vm_compute in u "absoluteValue".
(* Model *)
Definition x_accountAllocation : name := Eval vm_compute in u "accountAllocation".
(* Model *)
Definition x_accountPayment : name := Eval vm_compute in u "accountPayment".
(* Model *)
Definition x_admittance : name := Eval vm_compute in u "admittance".
(* Model *)
Definition x_aerial : name := Eval vm_compute in u "aerial".
(* Model *)
Definition x_airNoFilling : name := Eval vm_compute in u "airNoFilling".
(* Model *)
Definition x_anchor : name := Eval vm_compute in u "anchor".
(* Model *)
Definition x_asbestosAndVarnishedCambric : name := Eval vm_compute in u "asbestosAndVarnishedCambric".
(* Model *)
Definition x_asphalt : name := Eval vm_compute in u "asphalt".
(* Model *)
Definition x_asphaltic : name := Eval vm_compute in u "asphaltic".
(* Model *)
Definition x_automaticVoltageControl : name := Eval vm_compute in u "automaticVoltageControl".
(* Model *)
Definition x_autonomousDst : name := Eval vm_compute in u "autonomousDst".
(* Model *)
Definition x_auxiliaryCharge : name := Eval vm_compute in u "auxiliaryCharge".
(* Model *)
Definition x_auxiliaryChargePayment : name := Eval vm_compute in u "auxiliaryChargePayment".
(* Model *)
Definition x_balancingAuthority : name := Eval vm_compute in u "balancingAuthority".
(* Model *)
Definition x_bankOrder : name := Eval vm_compute in u "bankOrder".
(* Model *)
Definition x_beltedPilc : name := Eval vm_compute in u "beltedPilc".
(* Model *)
Definition x_bluefill254 : name := Eval vm_compute in u "bluefill254".
(* Model *)
Definition x_breaker : name := Eval vm_compute in u "breaker".
(* Model *)
Definition x_breakerOperation : name := Eval vm_compute in u "breakerOperation".
(* Model *)
Definition x_broken : name := Eval vm_compute in u "broken".
(* Model *)
Definition x_building : name := Eval vm_compute in u "building".
(* Model *)
Definition x_burd : name := Eval vm_compute in u "burd".
(* Model *)
Definition x_burnedInTheClear : name := Eval vm_compute in u "burnedInTheClear".
(* Model *)
Definition x_butt : name := Eval vm_compute in u "butt".
(* Model *)
Definition x_butyl : name := Eval vm_compute in u "butyl".
(* Model *)
Definition x_c : name := Eval vm_compute in u "c".
(* Model *)
Definition x_c1 : name := Eval vm_compute in u "c1".
(* Model *)
Definition x_call : name := Eval vm_compute in u "call".
(* Model *)
Definition x_carbonDioxide : name := Eval vm_compute in u "carbonDioxide".
(* Model *)
Definition x_card : name := Eval vm_compute in u "card".
(* Model *)
Definition x_cellon : name := Eval vm_compute in u "cellon".
(* Model *)
Definition x_cement : name := Eval vm_compute in u "cement".
(* Model *)
Definition x_chemonite : name := Eval vm_compute in u "chemonite".
(* Model *)
Definition x_cheque : name := Eval vm_compute in u "cheque".
(* Model *)
Definition x_close : name := Eval vm_compute in u "close".
(* Model *)
Definition x_coal : name := Eval vm_compute in u "coal".
(* Model *)
Definition x_commercial : name := Eval vm_compute in u "commercial".
(* Model *)
Definition x_commercialIndustrial : name := Eval vm_compute in u "commercialIndustrial".
(* Model *)
Definition x_compacted : name := Eval vm_compute in u "compacted".
(* Model *)
Definition x_competitiveRetailer : name := Eval vm_compute in u "competitiveRetailer".
(* Model *)
Definition x_complianceMonitor : name := Eval vm_compute in u "complianceMonitor".
(* Model *)
Definition x_compound : name := Eval vm_compute in u "compound".
(* Model *)
Definition x_compressed : name := Eval vm_compute in u "compressed".
(* Model *)
Definition x_confirmed : name := Eval vm_compute in u "confirmed".
(* Model *)
Definition x_conservator : name := Eval vm_compute in u "conservator".
(* Model *)
Definition x_consolidatedEss : name := Eval vm_compute in u "consolidatedEss".
(* Model *)
Definition x_constantYValue : name := Eval vm_compute in u "constantYValue".
(* Model *)
Definition x_consumptionCharge : name := Eval vm_compute in u "consumptionCharge".
(* Model *)
Definition x_contractor : name := Eval vm_compute in u "contractor".
(* Model *)
Definition x_coordinated : name := Eval vm_compute in u "coordinated".
(* Model *)
Definition x_copper : name := Eval vm_compute in u "copper".
(* Model *)
Definition x_core : name := Eval vm_compute in u "core".
(* Model *)
Definition x_creosote : name := Eval vm_compute in u "creosote".
(* Model *)
Definition x_currentAngle : name := Eval vm_compute in u "currentAngle".
(* Model *)
Definition x_currentFlow : name := Eval vm_compute in u "currentFlow".
(* Model *)
Definition x_customerPremise : name := Eval vm_compute in u "customerPremise".
(* Model *)
Definition x_deg : name := Eval vm_compute in u "deg".
(* Model *)
Definition x_delete : name := Eval vm_compute in u "delete".
(* Model *)
Definition x_demand : name := Eval vm_compute in u "demand".
(* Model *)
Definition x_depot : name := Eval vm_compute in u "depot".
(* Model *)
Definition x_designSketch : name := Eval vm_compute in u "designSketch".
(* Model *)
Definition x_diagnosis : name := Eval vm_compute in u "diagnosis".
(* Model *)
Definition x_distributionOverhead : name := Eval vm_compute in u "distributionOverhead".
(* Model *)
Definition x_distributionProvider : name := Eval vm_compute in u "distributionProvider".
(* Model *)
Definition x_distributionUnderground : name := Eval vm_compute in u "distributionUnderground".
(* Model *)
Definition x_dotDotDot : name := Eval vm_compute in u "dotDotDot".
(* Model *)
Definition x_doubleBreaker : name := Eval vm_compute in u "doubleBreaker".
(* Model *)
Definition x_electricalNetwork : name := Eval vm_compute in u "electricalNetwork".
(* Model *)
Definition x_electricity : name := Eval vm_compute in u "electricity".
(* Model *)
Definition x_electronic : name := Eval vm_compute in u "electronic".
(* Model *)
Definition x_enclosure : name := Eval vm_compute in u "enclosure".
(* Model *)
Definition x_energy : name := Eval vm_compute in u "energy".
(* Model *)
Definition x_energyServiceConsumer : name := Eval vm_compute in u "energyServiceConsumer".
(* Model *)
Definition x_energyServiceScheduler : name := Eval vm_compute in u "energyServiceScheduler".
(* Model *)
Definition x_energyServiceSupplier : name := Eval vm_compute in u "energyServiceSupplier".
(* Model *)
Definition x_energySource : name := Eval vm_compute in u "energySource".
(* Model *)
Definition x_escoThrowOver : name := Eval vm_compute in u "escoThrowOver".
(* Model *)
Definition x_estimate : name := Eval vm_compute in u "estimate".
(* Model *)
Definition x_estimated : name := Eval vm_compute in u "estimated".
(* Model *)
Definition x_ethylenePropyleneRubber : name := Eval vm_compute in u "ethylenePropyleneRubber".
(* Model *)
Definition x_exciter : name := Eval vm_compute in u "exciter".
(* Model *)
Definition x_experimental : name := Eval vm_compute in u "experimental".
(* Model *)
Definition x_exponential : name := Eval vm_compute in u "exponential".
(* Model *)
Definition x_external : name := Eval vm_compute in u "external".
(* Model *)
Definition x_flexible : name := Eval vm_compute in u "flexible".
(* Model *)
Definition x_forced : name := Eval vm_compute in u "forced".
(* Model *)
Definition x_forcedOilAndAir : name := Eval vm_compute in u "forcedOilAndAir".
(* Model *)
Definition x_freeBreathing : name := Eval vm_compute in u "freeBreathing".
(* Model *)
Definition x_full : name := Eval vm_compute in u "full".
(* Model *)
Definition x_fullLoad : name := Eval vm_compute in u "fullLoad".
(* Model *)
Definition x_generation : name := Eval vm_compute in u "generation".
(* Model *)
Definition x_generatorOperator : name := Eval vm_compute in u "generatorOperator".
(* Model *)
Definition x_generatorOwner : name := Eval vm_compute in u "generatorOwner".
(* Model *)
Definition x_geographic : name := Eval vm_compute in u "geographic".
(* Model *)
Definition x_govenor : name := Eval vm_compute in u "govenor".
(* Model *)
Definition x_gral : name := Eval vm_compute in u "gral".
(* Model *)
Definition x_grayStain : name := Eval vm_compute in u "grayStain".
(* Model *)
Definition x_greenStain : name := Eval vm_compute in u "greenStain".
(* Model *)
Definition x_gridSupplyPoint : name := Eval vm_compute in u "gridSupplyPoint".
(* Model *)
Definition x_h0 : name := Eval vm_compute in u "h0".
(* Model *)
Definition x_handhole : name := Eval vm_compute in u "handhole".
(* Model *)
Definition x_heat : name := Eval vm_compute in u "heat".
(* Model *)
Definition x_helix : name := Eval vm_compute in u "helix".
(* Model *)
Definition x_highMolecularWeightPolyethylene : name := Eval vm_compute in u "highMolecularWeightPolyethylene".
(* Model *)
Definition x_highPressureFluidFilled : name := Eval vm_compute in u "highPressureFluidFilled".
(* Model *)
Definition x_highPressureSodium : name := Eval vm_compute in u "highPressureSodium".
(* Model *)
Definition x_hydrogenGas : name := Eval vm_compute in u "hydrogenGas".
(* Model *)
Definition x_hydrogenSulfide : name := Eval vm_compute in u "hydrogenSulfide".
(* Model *)
Definition x_initial : name := Eval vm_compute in u "initial".
(* Model *)
Definition x_insoluseal : name := Eval vm_compute in u "insoluseal".
(* Model *)
Definition x_inspection : name := Eval vm_compute in u "inspection".
(* Model *)
Definition x_interchangeAuthority : name := Eval vm_compute in u "interchangeAuthority".
(* Model *)
Definition x_internalUse : name := Eval vm_compute in u "internalUse".
(* Model *)
Definition x_internalView : name := Eval vm_compute in u "internalView".
(* Model *)
Definition x_internet : name := Eval vm_compute in u "internet".
(* Model *)
Definition x_kaplan : name := Eval vm_compute in u "kaplan".
(* Model *)
Definition x_kg_J : name := Eval vm_compute in u "kg_J".
(* Model *)
Definition x_kg_J_1 : name := Eval vm_compute in u "kg/J".
(* Model *)
Definition x_labor : name := Eval vm_compute in u "labor".
(* Model *)
Definition x_letter : name := Eval vm_compute in u "letter".
(* Model *)
Definition x_linearLowDensityPolyethylene : name := Eval vm_compute in u "linearLowDensityPolyethylene".
(* Model *)
Definition x_liquid : name := Eval vm_compute in u "liquid".
(* Model *)
Definition x_loadServingEntity : name := Eval vm_compute in u "loadServingEntity".
(* Model *)
Definition x_localOnly : name := Eval vm_compute in u "localOnly".
(* Model *)
Definition x_lock : name := Eval vm_compute in u "lock".
(* Model *)
Definition x_locked : name := Eval vm_compute in u "locked".
(* Model *)
Definition x_lowCapacitanceRubber : name := Eval vm_compute in u "lowCapacitanceRubber".
(* Model *)
Definition x_m2 : name := Eval vm_compute in u "m2".
(* Model *)
Definition x_m3 : name := Eval vm_compute in u "m3".
(* Model *)
Definition x_maintenance : name := Eval vm_compute in u "maintenance".
(* Model *)
Definition x_majorStorage : name := Eval vm_compute in u "majorStorage".
(* Model *)
Definition x_manhole : name := Eval vm_compute in u "manhole".
(* Model *)
Definition x_manual : name := Eval vm_compute in u "manual".
(* Model *)
Definition x_manualControl : name := Eval vm_compute in u "manualControl".
(* Model *)
Definition x_manuallyIsolated : name := Eval vm_compute in u "manuallyIsolated".
(* Model *)
Definition x_master : name := Eval vm_compute in u "master".
(* Model *)
Definition x_mercuryVapor : name := Eval vm_compute in u "mercuryVapor".
(* Model *)
Definition x_meter : name := Eval vm_compute in u "meter".
(* Model *)
Definition x_meterConfigurationToken : name := Eval vm_compute in u "meterConfigurationToken".
(* Model *)
Definition x_micro : name := Eval vm_compute in u "micro".
(* Model *)
Definition x_min : name := Eval vm_compute in u "min".
(* Model *)
Definition x_minorStorage : name := Eval vm_compute in u "minorStorage".
(* Model *)
Definition x_missing : name := Eval vm_compute in u "missing".
(* Model *)
Definition x_modify : name := Eval vm_compute in u "modify".
(* Model *)
Definition x_multiHelix : name := Eval vm_compute in u "multiHelix".
(* Model *)
Definition x_naphthena : name := Eval vm_compute in u "naphthena".
(* Model *)
Definition x_natural : name := Eval vm_compute in u "natural".
(* Model *)
Definition x_network : name := Eval vm_compute in u "network".
(* Model *)
Definition x_nitrogenBlanket : name := Eval vm_compute in u "nitrogenBlanket".
(* Model *)
Definition x_nitrogenOxide : name := Eval vm_compute in u "nitrogenOxide".
(* Model *)
Definition x_noBreaker : name := Eval vm_compute in u "noBreaker".
(* Model *)
Definition x_noFillPrefab : name := Eval vm_compute in u "noFillPrefab".
(* Model *)
Definition x_noLoad : name := Eval vm_compute in u "noLoad".
(* Model *)
Definition x_noVoid : name := Eval vm_compute in u "noVoid".
(* Model *)
Definition x_nomex : name := Eval vm_compute in u "nomex".
(* Model *)
Definition x_nominallyConnected : name := Eval vm_compute in u "nominallyConnected".
(* Model *)
Definition x_nonResidential : name := Eval vm_compute in u "nonResidential".
(* Model *)
Definition x_offAGC : name := Eval vm_compute in u "offAGC".
(* Model *)
Definition x_ohm : name := Eval vm_compute in u "ohm".
(* Model *)
Definition x_oilPaper : name := Eval vm_compute in u "oilPaper".
(* Model *)
Definition x_onePhase : name := Eval vm_compute in u "onePhase".
(* Model *)
Definition x_outageHistory : name := Eval vm_compute in u "outageHistory".
(* Model *)
Definition x_overhead : name := Eval vm_compute in u "overhead".
(* Model *)
Definition x_ozoneResistantRubber : name := Eval vm_compute in u "ozoneResistantRubber".
(* Model *)
Definition x_pad : name := Eval vm_compute in u "pad".
(* Model *)
Definition x_padmountDeadFront : name := Eval vm_compute in u "padmountDeadFront".
(* Model *)
Definition x_padmountFeedThrough : name := Eval vm_compute in u "padmountFeedThrough".
(* Model *)
Definition x_padmountLiveFront : name := Eval vm_compute in u "padmountLiveFront".
(* Model *)
Definition x_padmountLoopThrough : name := Eval vm_compute in u "padmountLoopThrough".
(* Model *)
Definition x_padmounted : name := Eval vm_compute in u "padmounted".
(* Model *)
Definition x_paper : name := Eval vm_compute in u "paper".
(* Model *)
Definition x_paperoil : name := Eval vm_compute in u "paperoil".
(* Model *)
Definition x_pendingAdd : name := Eval vm_compute in u "pendingAdd".
(* Model *)
Definition x_pendingReplace : name := Eval vm_compute in u "pendingReplace".
(* Model *)
Definition x_petrolatum : name := Eval vm_compute in u "petrolatum".
(* Model *)
Definition x_planningAuthority : name := Eval vm_compute in u "planningAuthority".
(* Model *)
Definition x_positive : name := Eval vm_compute in u "positive".
(* Model *)
Definition x_postalOrder : name := Eval vm_compute in u "postalOrder".
(* Model *)
Definition x_power : name := Eval vm_compute in u "power".
(* Model *)
Definition x_powerFactor : name := Eval vm_compute in u "powerFactor".
(* Model *)
Definition x_powerTransformer : name := Eval vm_compute in u "powerTransformer".
(* Model *)
Definition x_pressure : name := Eval vm_compute in u "pressure".
(* Model *)
Definition x_proposed : name := Eval vm_compute in u "proposed".
(* Model *)
Definition x_pullbox : name := Eval vm_compute in u "pullbox".
(* Model *)
Definition x_pulse : name := Eval vm_compute in u "pulse".
(* Model *)
Definition x_pumpAndGenerator : name := Eval vm_compute in u "pumpAndGenerator".
(* Model *)
Definition x_pumpingLoad : name := Eval vm_compute in u "pumpingLoad".
(* Model *)
Definition x_purchase : name := Eval vm_compute in u "purchase".
(* Model *)
Definition x_purchasingSellingEntity : name := Eval vm_compute in u "purchasingSellingEntity".
(* Model *)
Definition x_quaternary : name := Eval vm_compute in u "quaternary".
(* Model *)
Definition x_rad : name := Eval vm_compute in u "rad".
(* Model *)
Definition x_ral : name := Eval vm_compute in u "ral".
(* Model *)
Definition x_rates : name := Eval vm_compute in u "rates".
(* Model *)
Definition x_recalculation : name := Eval vm_compute in u "recalculation".
(* Model *)
Definition x_reconnect : name := Eval vm_compute in u "reconnect".
(* Model *)
Definition x_refuse : name := Eval vm_compute in u "refuse".
(* Model *)
Definition x_regulatorBypass : name := Eval vm_compute in u "regulatorBypass".
(* Model *)
Definition x_relaysProgramming : name := Eval vm_compute in u "relaysProgramming".
(* Model *)
Definition x_reliabilityAuthority : name := Eval vm_compute in u "reliabilityAuthority".
(* Model *)
Definition x_remoteWithLocalOverride : name := Eval vm_compute in u "remoteWithLocalOverride".
(* Model *)
Definition x_remove : name := Eval vm_compute in u "remove".
(* Model *)
Definition x_residential : name := Eval vm_compute in u "residential".
(* Model *)
Definition x_residentialAndStreetlight : name := Eval vm_compute in u "residentialAndStreetlight".
(* Model *)
Definition x_residentialFarmService : name := Eval vm_compute in u "residentialFarmService".
(* Model *)
Definition x_residentialStreetlightOthers : name := Eval vm_compute in u "residentialStreetlightOthers".
(* Model *)
Definition x_resourcePlanner : name := Eval vm_compute in u "resourcePlanner".
(* Model *)
Definition x_reversal : name := Eval vm_compute in u "reversal".
(* Model *)
Definition x_reverseFlow : name := Eval vm_compute in u "reverseFlow".
(* Model *)
Definition x_ringBus : name := Eval vm_compute in u "ringBus".
(* Model *)
Definition x_rod : name := Eval vm_compute in u "rod".
(* Model *)
Definition x_rollingBlock : name := Eval vm_compute in u "rollingBlock".
(* Model *)
Definition x_roundRotor : name := Eval vm_compute in u "roundRotor".
(* Model *)
Definition x_rubber : name := Eval vm_compute in u "rubber".
(* Model *)
Definition x_rural : name := Eval vm_compute in u "rural".
(* Model *)
Definition x_s : name := Eval vm_compute in u "s".
(* Model *)
Definition x_s0 : name := Eval vm_compute in u "s0".
(* Model *)
Definition x_s1N : name := Eval vm_compute in u "s1N".
(* Model *)
Definition x_s2 : name := Eval vm_compute in u "s2".
(* Model *)
Definition x_s2N : name := Eval vm_compute in u "s2N".
(* Model *)
Definition x_s_1 : name := Eval vm_compute in u "s_1".
(* Model *)
Definition x_s_1_1 : name := Eval vm_compute in u "s-1".
(* Model *)
Definition x_schematic : name := Eval vm_compute in u "schematic".
(* Model *)
Definition x_screw : name := Eval vm_compute in u "screw".
(* Model *)
Definition x_secondaryTransformer : name := Eval vm_compute in u "secondaryTransformer".
(* Model *)
Definition x_sectionner : name := Eval vm_compute in u "sectionner".
(* Model *)
Definition x_segmental : name := Eval vm_compute in u "segmental".
(* Model *)
Definition x_selfCooling : name := Eval vm_compute in u "selfCooling".
(* Model *)
Definition x_semiconducting : name := Eval vm_compute in u "semiconducting".
(* Model *)
Definition x_separateEssUdc : name := Eval vm_compute in u "separateEssUdc".
(* Model *)
Definition x_service : name := Eval vm_compute in u "service".
(* Model *)
Definition x_serviceChargePayment : name := Eval vm_compute in u "serviceChargePayment".
(* Model *)
Definition x_sewerage : name := Eval vm_compute in u "sewerage".
(* Model *)
Definition x_siliconRubber : name := Eval vm_compute in u "siliconRubber".
(* Model *)
Definition x_singleBreaker : name := Eval vm_compute in u "singleBreaker".
(* Model *)
Definition x_singleBus : name := Eval vm_compute in u "singleBus".
(* Model *)
Definition x_skipped : name := Eval vm_compute in u "skipped".
(* Model *)
Definition x_specialRestrictionLand : name := Eval vm_compute in u "specialRestrictionLand".
(* Model *)
Definition x_splitSecondary12N : name := Eval vm_compute in u "splitSecondary12N".
(* Model *)
Definition x_splitSecondary1N : name := Eval vm_compute in u "splitSecondary1N".
(* Model *)
Definition x_splitSecondary2N : name := Eval vm_compute in u "splitSecondary2N".
(* Model *)
Definition x_spring : name := Eval vm_compute in u "spring".
(* Model *)
Definition x_standardsDeveloper : name := Eval vm_compute in u "standardsDeveloper".
(* Model *)
Definition x_statcom : name := Eval vm_compute in u "statcom".
(* Model *)
Definition x_statistical : name := Eval vm_compute in u "statistical".
(* Model *)
Definition x_stranded : name := Eval vm_compute in u "stranded".
(* Model *)
Definition x_streetLight : name := Eval vm_compute in u "streetLight".
(* Model *)
Definition x_subTransmission : name := Eval vm_compute in u "subTransmission".
(* Model *)
Definition x_substation : name := Eval vm_compute in u "substation".
(* Model *)
Definition x_subsurfaceEnclosure : name := Eval vm_compute in u "subsurfaceEnclosure".
(* Model *)
Definition x_subway : name := Eval vm_compute in u "subway".
(* Model *)
Definition x_sulfurDioxide : name := Eval vm_compute in u "sulfurDioxide".
(* Model *)
Definition x_summer : name := Eval vm_compute in u "summer".
(* Model *)
Definition x_svc : name := Eval vm_compute in u "svc".
(* Model *)
Definition x_switch : name := Eval vm_compute in u "switch".
(* Model *)
Definition x_symmetrical : name := Eval vm_compute in u "symmetrical".
(* Model *)
Definition x_tariffBased : name := Eval vm_compute in u "tariffBased".
(* Model *)
Definition x_taxCharge : name := Eval vm_compute in u "taxCharge".
(* Model *)
Definition x_taxChargePayment : name := Eval vm_compute in u "taxChargePayment".
(* Model *)
Definition x_tcsc : name := Eval vm_compute in u "tcsc".
(* Model *)
Definition x_tcvl : name := Eval vm_compute in u "tcvl".
(* Model *)
Definition x_tension : name := Eval vm_compute in u "tension".
(* Model *)
Definition x_threePhase : name := Eval vm_compute in u "threePhase".
(* Model *)
Definition x_timeBased : name := Eval vm_compute in u "timeBased".
(* Model *)
Definition x_timeScheduled : name := Eval vm_compute in u "timeScheduled".
(* Model *)
Definition x_tokenCancellation : name := Eval vm_compute in u "tokenCancellation".
(* Model *)
Definition x_tokenExchange : name := Eval vm_compute in u "tokenExchange".
(* Model *)
Definition x_tokenFreeIssue : name := Eval vm_compute in u "tokenFreeIssue".
(* Model *)
Definition x_tokenGrant : name := Eval vm_compute in u "tokenGrant".
(* Model *)
Definition x_tokenSalePayment : name := Eval vm_compute in u "tokenSalePayment".
(* Model *)
Definition x_transactionReversal : name := Eval vm_compute in u "transactionReversal".
(* Model *)
Definition x_transfer : name := Eval vm_compute in u "transfer".
(* Model *)
Definition x_transformer : name := Eval vm_compute in u "transformer".
(* Model *)
Definition x_transmissionOwner : name := Eval vm_compute in u "transmissionOwner".
(* Model *)
Definition x_transmissionPlanner : name := Eval vm_compute in u "transmissionPlanner".
(* Model *)
Definition x_transmissionServiceProvider : name := Eval vm_compute in u "transmissionServiceProvider".
(* Model *)
Definition x_travel : name := Eval vm_compute in u "travel".
(* Model *)
Definition x_treeResistantHighMolecularWeightPolyethylene : name := Eval vm_compute in u "treeResistantHighMolecularWeightPolyethylene".
(* Model *)
Definition x_tsbr : name := Eval vm_compute in u "tsbr".
(* Model *)
Definition x_tssc : name := Eval vm_compute in u "tssc".
(* Model *)
Definition x_tunnel : name := Eval vm_compute in u "tunnel".
(* Model *)
Definition x_turbine : name := Eval vm_compute in u "turbine".
(* Model *)
Definition x_tvLicence : name := Eval vm_compute in u "tvLicence".
(* Model *)
Definition x_ugMultiSwitch : name := Eval vm_compute in u "ugMultiSwitch".
(* Model *)
Definition x_unbeltedPilc : name := Eval vm_compute in u "unbeltedPilc".
(* Model *)
Definition x_underEvaluation : name := Eval vm_compute in u "underEvaluation".
(* Model *)
Definition x_underground : name := Eval vm_compute in u "underground".
(* Model *)
Definition x_upfc : name := Eval vm_compute in u "upfc".
(* Model *)
Definition x_urban : name := Eval vm_compute in u "urban".
(* Model *)
Definition x_user : name := Eval vm_compute in u "user".
(* Model *)
Definition x_utility : name := Eval vm_compute in u "utility".
(* Model *)
Definition x_varnishedCambricCloth : name := Eval vm_compute in u "varnishedCambricCloth".
(* Model *)
Definition x_varnishedDacronGlass : name := Eval vm_compute in u "varnishedDacronGlass".
(* Model *)
Definition x_vault : name := Eval vm_compute in u "vault".
(* Model *)
Definition x_vaultThreePhase : name := Eval vm_compute in u "vaultThreePhase".
(* Model *)
Definition x_voltageRegulator : name := Eval vm_compute in u "voltageRegulator".
(* Model *)
Definition x_volume : name := Eval vm_compute in u "volume".
(* Model *)
Definition x_wires1to1 : name := Eval vm_compute in u "wires1to1".
(* Model *)
Definition x_wires2to1 : name := Eval vm_compute in u "wires2to1".
(* Model *)
Definition x_wires3to1 : name := Eval vm_compute in u "wires3to1".
(* Model *)
Definition x_xpath : name := Eval vm_compute in u "xpath".
(* Model *)
Definition x_xquery : name := Eval vm_compute in u "xquery".
(* Model *)
Definition x_ºC : name := Eval vm_compute in u "ºC".

(* Model/CIM14/CIM14.ecore:13649-13661 *)
Definition enum_cim14_IEC61968_AssetModels_AssetModelUsageKind : etype := TEnum n_AssetModelUsageKind [n_streetlight; n_other; n_unknown; x_substation; x_distributionOverhead; n_customerSubstation; n_transmission; x_distributionUnderground].
(* Model/CIM14/CIM14.ecore:13365-13373 *)
Definition enum_cim14_IEC61968_AssetModels_CorporateStandardKind : etype := TEnum n_CorporateStandardKind [n_other; n_standard; x_experimental; x_underEvaluation].
(* Model/CIM14/CIM14.ecore:13948-13959 *)
Definition enum_cim14_IEC61968_AssetModels_CableConstructionKind : etype := TEnum n_CableConstructionKind [n_sector; x_compressed; x_segmental; n_solid; x_stranded; x_compacted; n_other].
(* Model/CIM14/CIM14.ecore:14028-14037 *)
Definition enum_cim14_IEC61968_AssetModels_CableShieldMaterialKind : etype := TEnum n_CableShieldMaterialKind [n_steel; n_lead; n_aluminum; n_other; x_copper].
(* Model/CIM14/CIM14.ecore:14016-14027 *)
Definition enum_cim14_IEC61968_AssetModels_CableOuterJacketKind : etype := TEnum n_CableOuterJacketKind [n_polyethylene; n_pvc; n_none; x_linearLowDensityPolyethylene; n_other; n_insulating; x_semiconducting].
(* Model/CIM14/CIM14.ecore:13960-13968 *)
Definition enum_cim14_IEC61968_AssetModels_ConductorUsageKind : etype := TEnum n_ConductorUsageKind [n_distribution; n_secondary; n_transmission; n_other].
(* Model/CIM14/CIM14.ecore:13992-14015 *)
Definition enum_cim14_IEC61968_AssetModels_ConductorInsulationKind : etype := TEnum n_ConductorInsulationKind [n_crosslinkedPolyethylene; x_ozoneResistantRubber; x_highMolecularWeightPolyethylene; x_unbeltedPilc; n_treeRetardantCrosslinkedPolyethylene; x_butyl; x_rubber; x_asbestosAndVarnishedCambric; x_beltedPilc; x_varnishedDacronGlass; n_other; x_treeResistantHighMolecularWeightPolyethylene; x_lowCapacitanceRubber; x_varnishedCambricCloth; x_highPressureFluidFilled; x_ethylenePropyleneRubber; x_siliconRubber; x_oilPaper].
(* Model/CIM14/CIM14.ecore:2441-2452 *)
Definition enum_cim14_IEC61970_Wires_WindingConnection : etype := TEnum n_WindingConnection [n_Yn; x_Y; x_D; n_I; n_Z; n_A; x_Zn].
(* Model/CIM14/CIM14.ecore:13732-13741 *)
Definition enum_cim14_IEC61968_AssetModels_ConductorMaterialKind : etype := TEnum n_ConductorMaterialKind [n_acsr; n_steel; n_aluminum; x_copper; n_other].
(* Model/CIM14/CIM14.ecore:12333-12341 *)
Definition enum_cim14_IEC61968_Assets_SealKind : etype := TEnum n_SealKind [n_other; n_lead; n_steel; x_lock].
(* Model/CIM14/CIM14.ecore:12347-12356 *)
Definition enum_cim14_IEC61968_Assets_SealConditionKind : etype := TEnum n_SealConditionKind [n_open; x_broken; x_missing; n_other; x_locked].
(* Model/CIM14/CIM14.ecore:16459-16475 *)
Definition enum_cim14_IEC61968_Customers_CustomerKind : etype := TEnum n_CustomerKind [n_residentialAndCommercial; x_residentialStreetlightOthers; x_residentialAndStreetlight; x_pumpingLoad; x_energyServiceSupplier; n_windMachine; x_residential; x_internalUse; x_residentialFarmService; n_other; x_energyServiceScheduler; x_commercialIndustrial].
(* Model/CIM14/CIM14.ecore:16447-16458 *)
Definition enum_cim14_IEC61968_Customers_RevenueKind : etype := TEnum n_RevenueKind [n_industrial; x_streetLight; n_other; x_nonResidential; n_irrigation; x_residential; x_commercial].
(* Model/CIM14/CIM14.ecore:16476-16491 *)
Definition enum_cim14_IEC61968_Customers_ServiceKind : etype := TEnum n_ServiceKind [n_water; n_time; x_electricity; x_heat; x_rates; n_gas; x_internet; x_refuse; n_other; x_tvLicence; x_sewerage].
(* Model/CIM14/CIM14.ecore:13056-13063 *)
Definition enum_cim14_IEC61968_Metering_DemandKind : etype := TEnum n_DemandKind [n_logarithmic; n_fixedBlock; x_rollingBlock].
(* Model/CIM14/CIM14.ecore:6601-6616 *)
Definition enum_cim14_IEC61970_Domain_UnitMultiplier : etype := TEnum n_UnitMultiplier [n_k; n_d; n_n; x_M0; n_none; x_G; x_micro; x_T; x_c; n_m; n_p].
(* Model/CIM14/CIM14.ecore:12535-12554 *)
Definition enum_cim14_IEC61968_Metering_ReadingKind : etype := TEnum n_ReadingKind [n_voltageAngle; n_current; n_time; x_powerFactor; n_voltage; n_frequency; x_power; n_other; x_energy; x_demand; x_volume; n_date; n_phaseAngle; x_pressure; x_currentAngle].
(* Model/CIM14/CIM14.ecore:6631-6669 *)
Definition enum_cim14_IEC61970_Domain_UnitSymbol : etype := TEnum n_UnitSymbol [n_N; x_VArh; x_VA; n_none; x_m3; x_kg_J; x_deg; x_W_Hz; n_g; x_Wh; x_W_s; x_Pa; x_V_VAr; x_ohm; x_h0; x_F; x_H; x_m2; x_VAr; n_A; x_rad; x_s0; x_S; x_VAh; x_Hz; x__C; x_s_1; x_min; x_J; x_Hz_1; x_J_s; n_m; x_W; x_V].
(* Model/CIM14/CIM14.ecore:242-264 *)
Definition enum_cim14_IEC61970_Core_PhaseCode : etype := TEnum n_PhaseCode [n_A; x_AC; x_AN; x_ABCN; x_B; n_C; x_BN; x_CN; x_splitSecondary12N; n_ABC; x_splitSecondary2N; n_N; x_ABN; x_BC; x_BCN; x_AB; x_splitSecondary1N; x_ACN].
(* Model/CIM14/CIM14.ecore:6670-6688 *)
Definition enum_cim14_IEC61970_Domain_Currency : etype := TEnum n_Currency [n_CNY; x_EUR; x_INR; x_AUD; x_CHF; x_DKK; n_other; x_RUR; x_SEK; x_GBP; x_JPY; x_NOK; n_CAD; x_USD].
(* Model/CIM14/CIM14.ecore:14918-14927 *)
Definition enum_cim14_IEC61968_PaymentMetering_ChargeKind : etype := TEnum n_ChargeKind [n_demandCharge; n_other; x_auxiliaryCharge; x_taxCharge; x_consumptionCharge].
(* Model/CIM14/CIM14.ecore:14892-14899 *)
Definition enum_cim14_IEC61968_PaymentMetering_ChequeKind : etype := TEnum n_ChequeKind [n_other; x_postalOrder; x_bankOrder].
(* Model/CIM14/CIM14.ecore:15003-15010 *)
Definition enum_cim14_IEC61968_PaymentMetering_SupplierKind : etype := TEnum n_SupplierKind [n_retailer; x_utility; n_other].
(* Model/CIM14/CIM14.ecore:15730-15739 *)
Definition enum_cim14_IEC61968_PaymentMetering_TenderKind : etype := TEnum n_TenderKind [n_cash; n_unspecified; x_card; n_other; x_cheque].
(* Model/CIM14/CIM14.ecore:14900-14917 *)
Definition enum_cim14_IEC61968_PaymentMetering_TransactionKind : etype := TEnum n_TransactionKind [n_diversePayment; x_tokenSalePayment; x_serviceChargePayment; n_other; x_transactionReversal; x_taxChargePayment; x_meterConfigurationToken; x_accountPayment; x_tokenFreeIssue; x_tokenExchange; x_tokenCancellation; x_tokenGrant; x_auxiliaryChargePayment].
(* Model/CIM14/CIM14.ecore:16527-16539 *)
Definition enum_cim14_IEC61968_Work_WorkKind : etype := TEnum n_WorkKind [n_construction; x_maintenance; x_reconnect; x_meter; x_service; n_disconnect; x_inspection; n_other].
(* Model/CIM14/CIM14.ecore:7093-7099 *)
Definition enum_cim14_IEC61970_Contingency_ContingencyEquipmentStatusKind : etype := TEnum n_ContingencyEquipmentStatusKind [n_outOfService; n_inService].
(* Model/CIM14/CIM14.ecore:7331-7338 *)
Definition enum_cim14_IEC61970_ControlArea_ControlAreaTypeKind : etype := TEnum n_ControlAreaTypeKind [n_Interchange; n_Forecast; x_AGC].
(* Model/CIM14/CIM14.ecore:827-835 *)
Definition enum_cim14_IEC61970_Core_BusbarConfiguration : etype := TEnum n_BusbarConfiguration [n_mainWithTransfer; x_ringBus; x_singleBus; n_doubleBus].
(* Model/CIM14/CIM14.ecore:526-534 *)
Definition enum_cim14_IEC61970_Core_BreakerConfiguration : etype := TEnum n_BreakerConfiguration [n_breakerAndAHalf; x_singleBreaker; x_noBreaker; x_doubleBreaker].
(* Model/CIM14/CIM14.ecore:747-755 *)
Definition enum_cim14_IEC61970_Core_CurveStyle : etype := TEnum n_CurveStyle [n_rampYValue; n_straightLineYValues; n_formula; x_constantYValue].
(* Model/CIM14/CIM14.ecore:11913-11920 *)
Definition enum_cim14_IEC61970_Dynamics_Loads_StaticLoadType : etype := TEnum n_StaticLoadType [n_ZIP1; x_exponential; x_ZIP2].
(* Model/CIM14/CIM14.ecore:7909-7917 *)
Definition enum_cim14_IEC61970_Dynamics_BlockKind : etype := TEnum n_BlockKind [n_powerSystemStabilizer; x_automaticVoltageControl; x_turbine; x_govenor; x_dotDotDot; x_energySource; x_exciter].
(* Model/CIM14/CIM14.ecore:8309-8315 *)
Definition enum_cim14_IEC61970_Dynamics_Motors_SynchronousMotorType : etype := TEnum n_SynchronousMotorType [n_salientPole; x_roundRotor].
(* Model/CIM14/CIM14.ecore:11576-11579 *)
Definition enum_cim14_IEC61970_Dynamics_Generators_ParametersFormType : etype := TEnum n_ParametersFormType [n_timeConstantReactance; n_equivalentCircuit].
(* Model/CIM14/CIM14.ecore:3352-3358 *)
Definition enum_cim14_IEC61970_Generation_GenerationDynamics_BoilerControlMode : etype := TEnum n_BoilerControlMode [n_following; x_coordinated].
(* Model/CIM14/CIM14.ecore:3629-3636 *)
Definition enum_cim14_IEC61970_Generation_GenerationDynamics_TurbineType : etype := TEnum n_TurbineType [n_francis; n_pelton; x_kaplan].
(* Model/CIM14/CIM14.ecore:4677-4687 *)
Definition enum_cim14_IEC61970_Generation_Production_EmissionType : etype := TEnum n_EmissionType [n_chlorine; x_carbonDioxide; x_hydrogenSulfide; x_nitrogenOxide; x_sulfurDioxide; n_carbonDisulfide].
(* Model/CIM14/CIM14.ecore:3888-3894 *)
Definition enum_cim14_IEC61970_Generation_Production_EmissionValueSource : etype := TEnum n_EmissionValueSource [n_measured; n_calculated].
(* Model/CIM14/CIM14.ecore:3942-3950 *)
Definition enum_cim14_IEC61970_Generation_Production_FuelType : etype := TEnum n_FuelType [n_lignite; x_coal; n_oil; n_gas].
(* Model/CIM14/CIM14.ecore:3935-3941 *)
Definition enum_cim14_IEC61970_Generation_Production_GeneratorControlMode : etype := TEnum n_GeneratorControlMode [n_setpoint; x_pulse].
(* Model/CIM14/CIM14.ecore:4849-4861 *)
Definition enum_cim14_IEC61970_Generation_Production_GeneratorOperatingMode : etype := TEnum n_GeneratorOperatingMode [n_fixed; x_EDC; x_manual; n_off; n_MRN; x_LFC; x_AGC; x_REG].
(* Model/CIM14/CIM14.ecore:3998-4006 *)
Definition enum_cim14_IEC61970_Generation_Production_GeneratorControlSource : etype := TEnum n_GeneratorControlSource [n_unavailable; n_onAGC; n_plantControl; x_offAGC].
(* Model/CIM14/CIM14.ecore:4007-4013 *)
Definition enum_cim14_IEC61970_Generation_Production_HydroEnergyConversionKind : etype := TEnum n_HydroEnergyConversionKind [n_generator; x_pumpAndGenerator].
(* Model/CIM14/CIM14.ecore:3800-3808 *)
Definition enum_cim14_IEC61970_Generation_Production_HydroPlantType : etype := TEnum n_HydroPlantType [n_runOfRiver; x_minorStorage; x_majorStorage; n_pumpedStorage].
(* Model/CIM14/CIM14.ecore:5131-5135 *)
Definition enum_cim14_IEC61970_Generation_Production_PenstockType : etype := TEnum n_PenstockType [].
(* Model/CIM14/CIM14.ecore:4672-4676 *)
Definition enum_cim14_IEC61970_Generation_Production_SurgeTankCode : etype := TEnum n_SurgeTankCode [].
(* Model/CIM14/CIM14.ecore:4633-4637 *)
Definition enum_cim14_IEC61970_Generation_Production_SpillwayGateType : etype := TEnum n_SpillwayGateType [].
(* Model/CIM14/CIM14.ecore:5515-5523 *)
Definition enum_cim14_IEC61970_LoadModel_SeasonName : etype := TEnum n_SeasonName [n_fall; n_winter; x_summer; x_spring].
(* Model/CIM14/CIM14.ecore:6302-6309 *)
Definition enum_cim14_IEC61970_Meas_Validity : etype := TEnum n_Validity [n_QUESTIONABLE; x_INVALID; x_GOOD].
(* Model/CIM14/CIM14.ecore:6541-6548 *)
Definition enum_cim14_IEC61970_SCADA_Source : etype := TEnum n_Source [n_SUBSTITUTED; x_DEFAULTED; x_PROCESS].
(* Model/CIM14/CIM14.ecore:5687-5694 *)
Definition enum_cim14_IEC61970_OperationalLimits_OperationalLimitDirectionKind : etype := TEnum n_OperationalLimitDirectionKind [n_low; x_absoluteValue; n_high].
(* Model/CIM14/CIM14.ecore:3005-3011 *)
Definition enum_cim14_IEC61970_Outage_SwitchState : etype := TEnum n_SwitchState [n_open; x_close].
(* Model/CIM14/CIM14.ecore:6509-6517 *)
Definition enum_cim14_IEC61970_SCADA_RemoteUnitType : etype := TEnum n_RemoteUnitType [n_IED; x_ControlCenter; x_RTU; n_SubstationControlSystem].
(* Model/CIM14/CIM14.ecore:1273-1280 *)
Definition enum_cim14_IEC61970_Wires_PhaseTapChangerKind : etype := TEnum n_PhaseTapChangerKind [n_asymmetrical; n_unknown; x_symmetrical].
(* Model/CIM14/CIM14.ecore:2483-2489 *)
Definition enum_cim14_IEC61970_Wires_TransformerControlMode : etype := TEnum n_TransformerControlMode [n_volt; n_reactive].
(* Model/CIM14/CIM14.ecore:1302-1315 *)
Definition enum_cim14_IEC61970_Wires_RegulatingControlModeKind : etype := TEnum n_RegulatingControlModeKind [n_fixed; n_voltage; x_timeScheduled; x_currentFlow; x_admittance; x_powerFactor; n_activePower; n_reactivePower; n_temperature].
(* Model/CIM14/CIM14.ecore:2223-2230 *)
Definition enum_cim14_IEC61970_Wires_SVCControlMode : etype := TEnum n_SVCControlMode [n_reactivePower; n_off; n_voltage].
(* Model/CIM14/CIM14.ecore:2588-2594 *)
Definition enum_cim14_IEC61970_Wires_SynchronousMachineOperatingMode : etype := TEnum n_SynchronousMachineOperatingMode [n_condenser; n_generator].
(* Model/CIM14/CIM14.ecore:2038-2045 *)
Definition enum_cim14_IEC61970_Wires_SynchronousMachineType : etype := TEnum n_SynchronousMachineType [n_generator_or_condenser; n_generator; n_condenser].
(* Model/CIM14/CIM14.ecore:1936-1943 *)
Definition enum_cim14_IEC61970_Wires_CoolantType : etype := TEnum n_CoolantType [n_air; x_hydrogenGas; n_water].
(* Model/CIM14/CIM14.ecore:2214-2222 *)
Definition enum_cim14_IEC61970_Wires_WindingType : etype := TEnum n_WindingType [n_primary; x_quaternary; n_secondary; n_tertiary].
(* Model/CIM15/CIM15.ecore:25449-25457 *)
Definition enum_cim15_IEC61968_AssetModels_CableOuterJacketKind : etype := TEnum n_CableOuterJacketKind [n_pvc; x_linearLowDensityPolyethylene; n_none; n_insulating; n_other; n_polyethylene; x_semiconducting].
(* Model/CIM15/CIM15.ecore:25576-25584 *)
Definition enum_cim15_IEC61968_AssetModels_CableConstructionKind : etype := TEnum n_CableConstructionKind [n_sector; n_other; n_solid; x_compacted; x_stranded; x_segmental; x_compressed].
(* Model/CIM15/CIM15.ecore:25872-25878 *)
Definition enum_cim15_IEC61968_AssetModels_CableShieldMaterialKind : etype := TEnum n_CableShieldMaterialKind [n_lead; n_aluminum; n_other; x_copper; n_steel].
(* Model/CIM15/CIM15.ecore:25570-25575 *)
Definition enum_cim15_IEC61968_AssetModels_ConductorUsageKind : etype := TEnum n_ConductorUsageKind [n_secondary; n_other; n_distribution; n_transmission].
(* Model/CIM15/CIM15.ecore:25986-26005 *)
Definition enum_cim15_IEC61968_AssetModels_ConductorInsulationKind : etype := TEnum n_ConductorInsulationKind [n_treeRetardantCrosslinkedPolyethylene; x_butyl; x_highPressureFluidFilled; n_other; x_varnishedCambricCloth; x_siliconRubber; x_beltedPilc; n_crosslinkedPolyethylene; x_oilPaper; x_lowCapacitanceRubber; x_asbestosAndVarnishedCambric; x_treeResistantHighMolecularWeightPolyethylene; x_unbeltedPilc; x_ozoneResistantRubber; x_ethylenePropyleneRubber; x_highMolecularWeightPolyethylene; x_varnishedDacronGlass; x_rubber].
(* Model/CIM15/CIM15.ecore:17773-17781 *)
Definition enum_cim15_IEC61970_Wires_WindingConnection : etype := TEnum n_WindingConnection [n_Z; n_A; n_Yn; x_Y; x_Zn; x_D; n_I].
(* Model/CIM15/CIM15.ecore:25458-25464 *)
Definition enum_cim15_IEC61968_AssetModels_ConductorMaterialKind : etype := TEnum n_ConductorMaterialKind [n_aluminum; x_copper; n_other; n_steel; n_acsr].
(* Model/CIM15/CIM15.ecore:29709-29718 *)
Definition enum_cim15_IEC61968_Assets_AssetModelUsageKind : etype := TEnum n_AssetModelUsageKind [n_customerSubstation; n_transmission; n_other; x_substation; n_unknown; x_distributionOverhead; x_distributionUnderground; n_streetlight].
(* Model/CIM15/CIM15.ecore:29299-29304 *)
Definition enum_cim15_IEC61968_Assets_CorporateStandardKind : etype := TEnum n_CorporateStandardKind [n_standard; x_underEvaluation; n_other; x_experimental].
(* Model/CIM15/CIM15.ecore:29587-29592 *)
Definition enum_cim15_IEC61968_Assets_SealKind : etype := TEnum n_SealKind [n_lead; n_other; n_steel; x_lock].
(* Model/CIM15/CIM15.ecore:29555-29561 *)
Definition enum_cim15_IEC61968_Assets_SealConditionKind : etype := TEnum n_SealConditionKind [n_open; x_broken; n_other; x_missing; x_locked].
(* Model/CIM15/CIM15.ecore:29970-29983 *)
Definition enum_cim15_IEC61968_Customers_CustomerKind : etype := TEnum n_CustomerKind [n_windMachine; n_residentialAndCommercial; x_internalUse; x_energyServiceScheduler; x_residentialAndStreetlight; x_residential; x_pumpingLoad; n_other; x_commercialIndustrial; x_energyServiceSupplier; x_residentialStreetlightOthers; x_residentialFarmService].
(* Model/CIM15/CIM15.ecore:29984-29992 *)
Definition enum_cim15_IEC61968_Customers_RevenueKind : etype := TEnum n_RevenueKind [n_irrigation; x_residential; x_nonResidential; n_industrial; n_other; x_commercial; x_streetLight].
(* Model/CIM15/CIM15.ecore:30439-30451 *)
Definition enum_cim15_IEC61968_Customers_ServiceKind : etype := TEnum n_ServiceKind [n_other; x_refuse; x_sewerage; x_electricity; x_heat; x_internet; x_rates; n_time; n_water; n_gas; x_tvLicence].
(* Model/CIM15/CIM15.ecore:27483-27487 *)
Definition enum_cim15_IEC61968_Metering_DemandKind : etype := TEnum n_DemandKind [n_fixedBlock; x_rollingBlock; n_logarithmic].
(* Model/CIM15/CIM15.ecore:20044-20056 *)
Definition enum_cim15_IEC61970_Domain_UnitMultiplier : etype := TEnum n_UnitMultiplier [n_M; x_G; n_d; x_micro; x_c; n_p; n_n; x_T; n_k; n_m; n_none].
(* Model/CIM15/CIM15.ecore:19968-19996 *)
Definition enum_cim15_IEC61970_Domain_UnitSymbol : etype := TEnum n_UnitSymbol [n_N; n_A; x_rad; x_VAh; x_Pa; x_J; n_h; x_Hz; x_VArh; x_ohm; x_H; x_m3; n_; x_V; n_C; x_F; x_Wh; x_s; n_g; x_min; x_S; n_none; x_W; x_VAr; x_m2; n_m; x_VA].
(* Model/CIM15/CIM15.ecore:27284-27300 *)
Definition enum_cim15_IEC61968_Metering_ReadingKind : etype := TEnum n_ReadingKind [n_phaseAngle; x_volume; n_frequency; x_energy; x_currentAngle; x_powerFactor; n_date; n_other; x_demand; x_power; x_pressure; n_voltage; n_voltageAngle; n_time; n_current].
(* Model/CIM15/CIM15.ecore:21840-21859 *)
Definition enum_cim15_IEC61970_Core_PhaseCode : etype := TEnum n_PhaseCode [n_s12N; x_BN; x_BC; x_ABN; x_s2N; n_N; x_ACN; x_BCN; x_ABCN; x_AC; x_s1N; x_AN; x_B; x_AB; n_C; n_A; x_CN; n_ABC].
(* Model/CIM15/CIM15.ecore:26884-26892 *)
Definition enum_cim15_IEC61968_Metering_EndDeviceFunctionKind : etype := TEnum n_EndDeviceFunctionKind [n_onRequestRead; x_relaysProgramming; n_demandResponse; n_metrology; x_outageHistory; x_autonomousDst; x_reverseFlow].
(* Model/CIM15/CIM15.ecore:19997-20012 *)
Definition enum_cim15_IEC61970_Domain_Currency : etype := TEnum n_Currency [n_CAD; x_EUR; x_CHF; x_INR; x_AUD; x_USD; x_RUR; x_GBP; n_CNY; x_SEK; x_JPY; n_other; x_NOK; x_DKK].
(* Model/CIM15/CIM15.ecore:27862-27868 *)
Definition enum_cim15_IEC61968_PaymentMetering_ChargeKind : etype := TEnum n_ChargeKind [n_other; n_demandCharge; x_consumptionCharge; x_auxiliaryCharge; x_taxCharge].
(* Model/CIM15/CIM15.ecore:27857-27861 *)
Definition enum_cim15_IEC61968_PaymentMetering_ChequeKind : etype := TEnum n_ChequeKind [n_other; x_postalOrder; x_bankOrder].
(* Model/CIM15/CIM15.ecore:28644-28648 *)
Definition enum_cim15_IEC61968_PaymentMetering_SupplierKind : etype := TEnum n_SupplierKind [n_other; n_retailer; x_utility].
(* Model/CIM15/CIM15.ecore:27801-27807 *)
Definition enum_cim15_IEC61968_PaymentMetering_TenderKind : etype := TEnum n_TenderKind [n_unspecified; x_cheque; n_other; n_cash; x_card].
(* Model/CIM15/CIM15.ecore:28629-28643 *)
Definition enum_cim15_IEC61968_PaymentMetering_TransactionKind : etype := TEnum n_TransactionKind [n_other; x_serviceChargePayment; x_accountPayment; x_tokenSalePayment; x_tokenCancellation; x_taxChargePayment; x_tokenExchange; x_tokenGrant; n_diversePayment; x_auxiliaryChargePayment; x_meterConfigurationToken; x_tokenFreeIssue; x_transactionReversal].
(* Model/CIM15/CIM15.ecore:29866-29875 *)
Definition enum_cim15_IEC61968_Work_WorkKind : etype := TEnum n_WorkKind [n_disconnect; n_other; x_reconnect; n_construction; x_service; x_meter; x_inspection; x_maintenance].
(* Model/CIM15/CIM15.ecore:23430-23433 *)
Definition enum_cim15_IEC61970_Contingency_ContingencyEquipmentStatusKind : etype := TEnum n_ContingencyEquipmentStatusKind [n_outOfService; n_inService].
(* Model/CIM15/CIM15.ecore:19713-19717 *)
Definition enum_cim15_IEC61970_ControlArea_ControlAreaTypeKind : etype := TEnum n_ControlAreaTypeKind [n_Forecast; x_AGC; n_Interchange].
(* Model/CIM15/CIM15.ecore:21965-21970 *)
Definition enum_cim15_IEC61970_Core_BusbarConfiguration : etype := TEnum n_BusbarConfiguration [n_doubleBus; x_ringBus; x_singleBus; n_mainWithTransfer].
(* Model/CIM15/CIM15.ecore:21549-21554 *)
Definition enum_cim15_IEC61970_Core_BreakerConfiguration : etype := TEnum n_BreakerConfiguration [n_breakerAndAHalf; x_noBreaker; x_singleBreaker; x_doubleBreaker].
(* Model/CIM15/CIM15.ecore:21899-21904 *)
Definition enum_cim15_IEC61970_Core_CurveStyle : etype := TEnum n_CurveStyle [n_formula; x_constantYValue; n_straightLineYValues; n_rampYValue].
(* Model/CIM15/CIM15.ecore:3565-3568 *)
Definition enum_cim15_IEC61970_Generation_GenerationDynamics_BoilerControlMode : etype := TEnum n_BoilerControlMode [n_following; x_coordinated].
(* Model/CIM15/CIM15.ecore:3560-3564 *)
Definition enum_cim15_IEC61970_Generation_GenerationDynamics_TurbineType : etype := TEnum n_TurbineType [n_pelton; x_kaplan; n_francis].
(* Model/CIM15/CIM15.ecore:2232-2239 *)
Definition enum_cim15_IEC61970_Generation_Production_EmissionType : etype := TEnum n_EmissionType [n_carbonDisulfide; x_sulfurDioxide; x_hydrogenSulfide; n_chlorine; x_carbonDioxide; x_nitrogenOxide].
(* Model/CIM15/CIM15.ecore:1048-1051 *)
Definition enum_cim15_IEC61970_Generation_Production_EmissionValueSource : etype := TEnum n_EmissionValueSource [n_calculated; n_measured].
(* Model/CIM15/CIM15.ecore:383-388 *)
Definition enum_cim15_IEC61970_Generation_Production_FuelType : etype := TEnum n_FuelType [n_oil; x_coal; n_lignite; n_gas].
(* Model/CIM15/CIM15.ecore:1222-1227 *)
Definition enum_cim15_IEC61970_Generation_Production_GeneratorControlSource : etype := TEnum n_GeneratorControlSource [n_plantControl; x_offAGC; n_unavailable; n_onAGC].
(* Model/CIM15/CIM15.ecore:389-398 *)
Definition enum_cim15_IEC61970_Generation_Production_GeneratorOperatingMode : etype := TEnum n_GeneratorOperatingMode [n_MRN; x_EDC; x_LFC; n_fixed; x_REG; x_AGC; x_manual; n_off].
(* Model/CIM15/CIM15.ecore:399-402 *)
Definition enum_cim15_IEC61970_Generation_Production_GeneratorControlMode : etype := TEnum n_GeneratorControlMode [n_setpoint; x_pulse].
(* Model/CIM15/CIM15.ecore:671-674 *)
Definition enum_cim15_IEC61970_Generation_Production_HydroEnergyConversionKind : etype := TEnum n_HydroEnergyConversionKind [n_generator; x_pumpAndGenerator].
(* Model/CIM15/CIM15.ecore:986-986 *)
Definition enum_cim15_IEC61970_Generation_Production_PenstockType : etype := TEnum n_PenstockType [].
(* Model/CIM15/CIM15.ecore:403-408 *)
Definition enum_cim15_IEC61970_Generation_Production_HydroPlantType : etype := TEnum n_HydroPlantType [n_pumpedStorage; n_runOfRiver; x_minorStorage; x_majorStorage].
(* Model/CIM15/CIM15.ecore:1640-1640 *)
Definition enum_cim15_IEC61970_Generation_Production_SurgeTankCode : etype := TEnum n_SurgeTankCode [].
(* Model/CIM15/CIM15.ecore:1457-1457 *)
Definition enum_cim15_IEC61970_Generation_Production_SpillwayGateType : etype := TEnum n_SpillwayGateType [].
(* Model/CIM15/CIM15.ecore:14089-14106 *)
Definition enum_cim15_IEC61970_Informative_InfAssetModels_TransformerConstructionKind : etype := TEnum n_TransformerConstructionKind [n_dryType; x_vaultThreePhase; x_network; x_padmounted; x_padmountLoopThrough; x_vault; x_onePhase; x_padmountFeedThrough; x_aerial; x_threePhase; n_unknown; x_overhead; x_padmountDeadFront; x_underground; x_padmountLiveFront; x_subway].
(* Model/CIM15/CIM15.ecore:14107-14112 *)
Definition enum_cim15_IEC61970_Informative_InfAssetModels_WindingInsulationKind : etype := TEnum n_WindingInsulationKind [n_thermallyUpgradedPaper; n_other; x_nomex; x_paper].
(* Model/CIM15/CIM15.ecore:14117-14123 *)
Definition enum_cim15_IEC61970_Informative_InfAssetModels_TransformerFunctionKind : etype := TEnum n_TransformerFunctionKind [n_autotransformer; x_secondaryTransformer; n_other; x_powerTransformer; x_voltageRegulator].
(* Model/CIM15/CIM15.ecore:13919-13924 *)
Definition enum_cim15_IEC61970_Informative_InfAssetModels_OilPreservationKind : etype := TEnum n_OilPreservationKind [n_other; x_conservator; x_freeBreathing; x_nitrogenBlanket].
(* Model/CIM15/CIM15.ecore:14113-14116 *)
Definition enum_cim15_IEC61970_Informative_InfAssetModels_TransformerCoreKind : etype := TEnum n_TransformerCoreKind [n_shell; x_core].
(* Model/CIM15/CIM15.ecore:10188-10193 *)
Definition enum_cim15_IEC61970_Informative_InfAssets_BushingInsulationKind : etype := TEnum n_BushingInsulationKind [n_solidPorcelain; x_compound; n_other; x_paperoil].
(* Model/CIM15/CIM15.ecore:9554-9557 *)
Definition enum_cim15_IEC61970_Informative_InfAssets_BushingInsulationPfTestKind : etype := TEnum n_BushingInsulationPfTestKind [n_c2; x_c1].
(* Model/CIM15/CIM15.ecore:10385-10393 *)
Definition enum_cim15_IEC61970_Informative_InfAssets_CompositeSwitchKind : etype := TEnum n_CompositeSwitchKind [n_throwOver; x_regulatorBypass; x_escoThrowOver; x_ral; n_other; x_gral; x_ugMultiSwitch].
(* Model/CIM15/CIM15.ecore:10174-10183 *)
Definition enum_cim15_IEC61970_Informative_InfAssets_FACTSDeviceKind : etype := TEnum n_FACTSDeviceKind [n_tcpar; x_tssc; x_tsbr; x_svc; x_tcsc; x_tcvl; x_statcom; x_upfc].
(* Model/CIM15/CIM15.ecore:10394-10400 *)
Definition enum_cim15_IEC61970_Informative_InfAssets_FailureIsolationMethodKind : etype := TEnum n_FailureIsolationMethodKind [n_fuse; x_manuallyIsolated; x_breakerOperation; n_other; x_burnedInTheClear].
(* Model/CIM15/CIM15.ecore:9876-9881 *)
Definition enum_cim15_IEC61970_Informative_InfAssets_FaultIndicatorResetKind : etype := TEnum n_FaultIndicatorResetKind [n_automatic; n_other; n_remote; x_manual].
(* Model/CIM15/CIM15.ecore:9542-9553 *)
Definition enum_cim15_IEC61970_Informative_InfAssets_JointFillKind : etype := TEnum n_JointFillKind [n_epoxy; x_noFillPrefab; x_airNoFilling; n_other; x_asphaltic; x_insoluseal; n_oil; x_noVoid; x_petrolatum; x_bluefill254].
(* Model/CIM15/CIM15.ecore:10098-10103 *)
Definition enum_cim15_IEC61970_Informative_InfAssets_JointConfigurationKind : etype := TEnum n_JointConfigurationKind [n_other; x_wires2to1; x_wires3to1; x_wires1to1].
(* Model/CIM15/CIM15.ecore:9079-9083 *)
Definition enum_cim15_IEC61970_Informative_InfAssets_MediumKind : etype := TEnum n_MediumKind [n_gas; x_liquid; n_solid].
(* Model/CIM15/CIM15.ecore:10167-10173 *)
Definition enum_cim15_IEC61970_Informative_InfAssets_PoleBaseKind : etype := TEnum n_PoleBaseKind [n_dirt; x_asphalt; n_unknown; x_cement; n_other].
(* Model/CIM15/CIM15.ecore:9866-9875 *)
Definition enum_cim15_IEC61970_Informative_InfAssets_PoleTreatmentKind : etype := TEnum n_PoleTreatmentKind [n_unknown; x_natural; x_grayStain; x_greenStain; n_penta; x_butt; n_other; x_full].
(* Model/CIM15/CIM15.ecore:9328-9336 *)
Definition enum_cim15_IEC61970_Informative_InfAssets_PolePreservativeKind : etype := TEnum n_PolePreservativeKind [n_penta; n_unknown; x_chemonite; n_other; x_naphthena; x_creosote; x_cellon].
(* Model/CIM15/CIM15.ecore:9412-9417 *)
Definition enum_cim15_IEC61970_Informative_InfAssets_CoolingKind : etype := TEnum n_CoolingKind [n_forcedAir; x_selfCooling; x_forcedOilAndAir; n_other].
(* Model/CIM15/CIM15.ecore:8719-8725 *)
Definition enum_cim15_IEC61970_Informative_InfAssets_ProcedureKind : etype := TEnum n_ProcedureKind [n_test; x_maintenance; n_other; x_inspection; x_diagnosis].
(* Model/CIM15/CIM15.ecore:9353-9361 *)
Definition enum_cim15_IEC61970_Informative_InfAssets_ShuntImpedanceLocalControlKind : etype := TEnum n_ShuntImpedanceLocalControlKind [n_none; n_temperature; x_powerFactor; n_voltage; n_reactivePower; n_time; n_current].
(* Model/CIM15/CIM15.ecore:9502-9511 *)
Definition enum_cim15_IEC61970_Informative_InfAssets_RegulationBranchKind : etype := TEnum n_RegulationBranchKind [n_recloser; x_transformer; x_breaker; n_fuse; x_switch; x_sectionner; n_other; n_line].
(* Model/CIM15/CIM15.ecore:10092-10097 *)
Definition enum_cim15_IEC61970_Informative_InfAssets_ShuntImpedanceControlKind : etype := TEnum n_ShuntImpedanceControlKind [n_remoteOnly; x_remoteWithLocalOverride; x_localOnly; n_fixed].
(* Model/CIM15/CIM15.ecore:10200-10205 *)
Definition enum_cim15_IEC61970_Informative_InfAssets_StreetlightLampKind : etype := TEnum n_StreetlightLampKind [n_metalHalide; x_highPressureSodium; n_other; x_mercuryVapor].
(* Model/CIM15/CIM15.ecore:10194-10199 *)
Definition enum_cim15_IEC61970_Informative_InfAssets_StructureMaterialKind : etype := TEnum n_StructureMaterialKind [n_wood; n_concrete; n_steel; n_other].
(* Model/CIM15/CIM15.ecore:7848-7856 *)
Definition enum_cim15_IEC61970_Informative_InfAssets_AnchorKind : etype := TEnum n_AnchorKind [n_concrete; x_helix; n_unknown; x_multiHelix; x_screw; x_rod; n_other].
(* Model/CIM15/CIM15.ecore:10184-10187 *)
Definition enum_cim15_IEC61970_Informative_InfAssets_StructureSupportKind : etype := TEnum n_StructureSupportKind [n_guy; x_anchor].
(* Model/CIM15/CIM15.ecore:9534-9541 *)
Definition enum_cim15_IEC61970_Informative_InfAssets_SubstationFunctionKind : etype := TEnum n_SubstationFunctionKind [n_transmission; n_distribution; n_other; x_generation; x_subTransmission; n_industrial].
(* Model/CIM15/CIM15.ecore:8317-8320 *)
Definition enum_cim15_IEC61970_Informative_InfAssets_TowerConstructionKind : etype := TEnum n_TowerConstructionKind [n_suspension; x_tension].
(* Model/CIM15/CIM15.ecore:9084-9095 *)
Definition enum_cim15_IEC61970_Informative_InfAssets_UndergroundStructureKind : etype := TEnum n_UndergroundStructureKind [n_trench; x_pullbox; x_vault; x_burd; x_subsurfaceEnclosure; x_handhole; x_enclosure; x_tunnel; x_manhole; x_pad].
(* Model/CIM15/CIM15.ecore:9528-9533 *)
Definition enum_cim15_IEC61970_Informative_InfAssets_VehicleUsageKind : etype := TEnum n_VehicleUsageKind [n_crew; x_contractor; x_user; n_other].
(* Model/CIM15/CIM15.ecore:7434-7439 *)
Definition enum_cim15_IEC61970_Informative_InfCommon_SkillLevelKind : etype := TEnum n_SkillLevelKind [n_apprentice; n_other; x_master; n_standard].
(* Model/CIM15/CIM15.ecore:10667-10672 *)
Definition enum_cim15_IEC61970_Informative_InfCustomers_CustomerBillingKind : etype := TEnum n_CustomerBillingKind [n_consolidatedUdc; n_other; x_separateEssUdc; x_consolidatedEss].
(* Model/CIM15/CIM15.ecore:7297-7301 *)
Definition enum_cim15_IEC61970_Informative_InfERPSupport_BillMediaKind : etype := TEnum n_BillMediaKind [n_other; x_paper; x_electronic].
(* Model/CIM15/CIM15.ecore:6145-6148 *)
Definition enum_cim15_IEC61970_Informative_InfERPSupport_ErpInvoiceKind : etype := TEnum n_ErpInvoiceKind [n_sales; x_purchase].
(* Model/CIM15/CIM15.ecore:6140-6144 *)
Definition enum_cim15_IEC61970_Informative_InfERPSupport_ErpInvoiceLineItemKind : etype := TEnum n_ErpInvoiceLineItemKind [n_other; x_recalculation; x_initial].
(* Model/CIM15/CIM15.ecore:6453-6458 *)
Definition enum_cim15_IEC61970_Informative_InfERPSupport_ErpAccountKind : etype := TEnum n_ErpAccountKind [n_normal; x_estimate; x_statistical; x_reversal].
(* Model/CIM15/CIM15.ecore:13562-13568 *)
Definition enum_cim15_IEC61970_Informative_InfGMLSupport_DiagramKind : etype := TEnum n_DiagramKind [n_other; x_geographic; x_internalView; x_designSketch; x_schematic].
(* Model/CIM15/CIM15.ecore:22331-22334 *)
Definition enum_cim15_IEC61970_Graphics_OrientationKind : etype := TEnum n_OrientationKind [n_negative; x_positive].
(* Model/CIM15/CIM15.ecore:12796-12800 *)
Definition enum_cim15_IEC61970_Informative_InfGMLSupport_QueryGrammarKind : etype := TEnum n_QueryGrammarKind [n_other; x_xpath; x_xquery].
(* Model/CIM15/CIM15.ecore:13715-13720 *)
Definition enum_cim15_IEC61970_Informative_InfLoadControl_LoadMgmtKind : etype := TEnum n_LoadMgmtKind [n_remoteControl; x_timeBased; x_tariffBased; x_manualControl].
(* Model/CIM15/CIM15.ecore:13884-13888 *)
Definition enum_cim15_IEC61970_Informative_InfLoadControl_LoadStateKind : etype := TEnum n_LoadStateKind [n_limitedLoad; x_noLoad; x_fullLoad].
(* Model/CIM15/CIM15.ecore:12129-12137 *)
Definition enum_cim15_IEC61970_Informative_InfLocations_LandPropertyKind : etype := TEnum n_LandPropertyKind [n_store; x_customerPremise; x_building; x_external; x_gridSupplyPoint; x_substation; x_depot].
(* Model/CIM15/CIM15.ecore:12175-12179 *)
Definition enum_cim15_IEC61970_Informative_InfLocations_DemographicKind : etype := TEnum n_DemographicKind [n_other; x_urban; x_rural].
(* Model/CIM15/CIM15.ecore:12180-12185 *)
Definition enum_cim15_IEC61970_Informative_InfLocations_ZoneKind : etype := TEnum n_ZoneKind [n_weatherZone; n_other; x_specialRestrictionLand; x_electricalNetwork].
(* Model/CIM15/CIM15.ecore:11715-11719 *)
Definition enum_cim15_IEC61970_Informative_InfOperations_ChangeItemKind : etype := TEnum n_ChangeItemKind [n_add; x_modify; x_delete].
(* Model/CIM15/CIM15.ecore:11385-11390 *)
Definition enum_cim15_IEC61970_Informative_InfOperations_CircuitConnectionKind : etype := TEnum n_CircuitConnectionKind [n_electricallyConnected; x_nominallyConnected; n_asBuilt; n_other].
(* Model/CIM15/CIM15.ecore:11434-11442 *)
Definition enum_cim15_IEC61970_Informative_InfOperations_PSREventKind : etype := TEnum n_PSREventKind [n_pendingRemove; x_pendingReplace; n_outOfService; x_pendingAdd; n_unknown; n_inService; n_other].
(* Model/CIM15/CIM15.ecore:11720-11724 *)
Definition enum_cim15_IEC61970_Informative_InfOperations_OutageKind : etype := TEnum n_OutageKind [n_fixed; x_flexible; x_forced].
(* Model/CIM15/CIM15.ecore:11292-11298 *)
Definition enum_cim15_IEC61970_Informative_InfOperations_SwitchingStepStatusKind : etype := TEnum n_SwitchingStepStatusKind [n_instructed; x_confirmed; x_proposed; x_aborted; x_skipped].
(* Model/CIM15/CIM15.ecore:11632-11637 *)
Definition enum_cim15_IEC61970_Informative_InfOperations_TroubleReportingKind : etype := TEnum n_TroubleReportingKind [n_email; x_call; x_letter; n_other].
(* Model/CIM15/CIM15.ecore:4798-4804 *)
Definition enum_cim15_IEC61970_Informative_InfWork_ConditionFactorKind : etype := TEnum n_ConditionFactorKind [n_material; x_travel; x_accountAllocation; x_labor; n_other].
(* Model/CIM15/CIM15.ecore:5785-5789 *)
Definition enum_cim15_IEC61970_Informative_InfWork_DesignKind : etype := TEnum n_DesignKind [n_asBuilt; n_other; x_estimated].
(* Model/CIM15/CIM15.ecore:4838-4843 *)
Definition enum_cim15_IEC61970_Informative_InfWork_WorkActionKind : etype := TEnum n_WorkActionKind [n_install; x_remove; x_transfer; x_abandon].
(* Model/CIM15/CIM15.ecore:19435-19440 *)
Definition enum_cim15_IEC61970_LoadModel_SeasonName : etype := TEnum n_SeasonName [n_winter; x_summer; n_fall; x_spring].
(* Model/CIM15/CIM15.ecore:18658-18662 *)
Definition enum_cim15_IEC61970_Meas_Validity : etype := TEnum n_Validity [n_QUESTIONABLE; x_INVALID; x_GOOD].
(* Model/CIM15/CIM15.ecore:361-365 *)
Definition enum_cim15_IEC61970_SCADA_Source : etype := TEnum n_Source [n_SUBSTITUTED; x_DEFAULTED; x_PROCESS].
(* Model/CIM15/CIM15.ecore:22374-22378 *)
Definition enum_cim15_IEC61970_OperationalLimits_OperationalLimitDirectionKind : etype := TEnum n_OperationalLimitDirectionKind [n_low; n_high; x_absoluteValue].
(* Model/CIM15/CIM15.ecore:22816-22819 *)
Definition enum_cim15_IEC61970_Outage_SwitchState : etype := TEnum n_SwitchState [n_open; x_close].
(* Model/CIM15/CIM15.ecore:355-360 *)
Definition enum_cim15_IEC61970_SCADA_RemoteUnitType : etype := TEnum n_RemoteUnitType [n_SubstationControlSystem; n_IED; x_ControlCenter; x_RTU].
(* Model/CIM15/CIM15.ecore:15444-15447 *)
Definition enum_cim15_IEC61970_Wires_TransformerControlMode : etype := TEnum n_TransformerControlMode [n_reactive; n_volt].
(* Model/CIM15/CIM15.ecore:16800-16810 *)
Definition enum_cim15_IEC61970_Wires_RegulatingControlModeKind : etype := TEnum n_RegulatingControlModeKind [n_fixed; x_timeScheduled; n_voltage; x_admittance; n_reactivePower; x_powerFactor; x_currentFlow; n_activePower; n_temperature].
(* Model/CIM15/CIM15.ecore:16219-16223 *)
Definition enum_cim15_IEC61970_Wires_SVCControlMode : etype := TEnum n_SVCControlMode [n_off; n_voltage; n_reactivePower].
(* Model/CIM15/CIM15.ecore:14872-14875 *)
Definition enum_cim15_IEC61970_Wires_SynchronousMachineOperatingMode : etype := TEnum n_SynchronousMachineOperatingMode [n_condenser; n_generator].
(* Model/CIM15/CIM15.ecore:15460-15464 *)
Definition enum_cim15_IEC61970_Wires_CoolantType : etype := TEnum n_CoolantType [n_air; x_hydrogenGas; n_water].
(* Model/CIM15/CIM15.ecore:16147-16151 *)
Definition enum_cim15_IEC61970_Wires_SynchronousMachineType : etype := TEnum n_SynchronousMachineType [n_condenser; n_generator_or_condenser; n_generator].
(* Model/CIM15/CIM15.ecore:19499-19506 *)
Definition enum_cim15_IEC61970_WiresPhaseModel_SinglePhaseKind : etype := TEnum n_SinglePhaseKind [n_C; n_N; n_s1; x_B; x_s2; n_A].
(* Model/CIM15/CIM15.ecore:30751-30771 *)
Definition enum_cim15_IEC62325_MarketRoleKind : etype := TEnum n_MarketRoleKind [n_transmissionOperator; x_complianceMonitor; x_standardsDeveloper; x_interchangeAuthority; x_energyServiceConsumer; x_planningAuthority; n_other; x_purchasingSellingEntity; x_competitiveRetailer; x_transmissionOwner; x_transmissionServiceProvider; x_generatorOperator; x_balancingAuthority; x_loadServingEntity; x_transmissionPlanner; x_distributionProvider; x_reliabilityAuthority; x_resourcePlanner; x_generatorOwner].
(* Model/CIM14/CDPSM/Balanced.ecore:1686-1694 *)
Definition enum_cim14_cdpsm_balanced_CDPSM_Balanced_IEC61968_AssetModels_CableConstructionKind : etype := TEnum n_CableConstructionKind [n_solid; x_stranded; n_other; x_segmental; x_compacted; n_sector; x_compressed].
(* Model/CIM14/CDPSM/Balanced.ecore:894-902 *)
Definition enum_cim14_cdpsm_balanced_CDPSM_Balanced_IEC61968_AssetModels_CableOuterJacketKind : etype := TEnum n_CableOuterJacketKind [n_insulating; n_other; x_semiconducting; n_polyethylene; n_none; x_linearLowDensityPolyethylene; n_pvc].
(* Model/CIM14/CDPSM/Balanced.ecore:968-974 *)
Definition enum_cim14_cdpsm_balanced_CDPSM_Balanced_IEC61968_AssetModels_CableShieldMaterialKind : etype := TEnum n_CableShieldMaterialKind [n_other; n_lead; n_steel; n_aluminum; x_copper].
(* Model/CIM14/CDPSM/Balanced.ecore:1131-1150 *)
Definition enum_cim14_cdpsm_balanced_CDPSM_Balanced_IEC61968_AssetModels_ConductorInsulationKind : etype := TEnum n_ConductorInsulationKind [n_crosslinkedPolyethylene; x_butyl; n_treeRetardantCrosslinkedPolyethylene; x_asbestosAndVarnishedCambric; x_highPressureFluidFilled; x_ethylenePropyleneRubber; x_ozoneResistantRubber; x_oilPaper; x_varnishedDacronGlass; x_highMolecularWeightPolyethylene; n_other; x_varnishedCambricCloth; x_treeResistantHighMolecularWeightPolyethylene; x_unbeltedPilc; x_beltedPilc; x_rubber; x_lowCapacitanceRubber; x_siliconRubber].
(* Model/CIM14/CDPSM/Balanced.ecore:1618-1623 *)
Definition enum_cim14_cdpsm_balanced_CDPSM_Balanced_IEC61968_AssetModels_ConductorUsageKind : etype := TEnum n_ConductorUsageKind [n_secondary; n_other; n_distribution; n_transmission].
(* Model/CIM14/CDPSM/Balanced.ecore:2056-2064 *)
Definition enum_cim14_cdpsm_balanced_CDPSM_Balanced_IEC61970_Wires_WindingConnection : etype := TEnum n_WindingConnection [n_I; n_Z; n_Yn; x_Y; n_A; x_D; x_Zn].
(* Model/CIM14/CDPSM/Balanced.ecore:1316-1322 *)
Definition enum_cim14_cdpsm_balanced_CDPSM_Balanced_IEC61968_AssetModels_ConductorMaterialKind : etype := TEnum n_ConductorMaterialKind [n_steel; n_other; n_aluminum; x_copper; n_acsr].
(* Model/CIM14/CDPSM/Balanced.ecore:2778-2797 *)
Definition enum_cim14_cdpsm_balanced_CDPSM_Balanced_IEC61970_Core_PhaseCode : etype := TEnum n_PhaseCode [n_ABC; x_splitSecondary2N; x_ABN; x_CN; x_ACN; x_BC; x_AN; x_BN; x_AB; x_splitSecondary1N; n_N; n_C; x_AC; x_ABCN; x_splitSecondary12N; n_A; x_B; x_BCN].
(* Model/CIM14/CDPSM/Balanced.ecore:3035-3040 *)
Definition enum_cim14_cdpsm_balanced_CDPSM_Balanced_IEC61970_Generation_Production_GeneratorControlSource : etype := TEnum n_GeneratorControlSource [n_onAGC; n_unavailable; n_plantControl; x_offAGC].
(* Model/CIM14/CDPSM/Balanced.ecore:2052-2055 *)
Definition enum_cim14_cdpsm_balanced_CDPSM_Balanced_IEC61970_Wires_TransformerControlMode : etype := TEnum n_TransformerControlMode [n_reactive; n_volt].
(* Model/CIM14/CDPSM/Balanced.ecore:2344-2347 *)
Definition enum_cim14_cdpsm_balanced_CDPSM_Balanced_IEC61970_Wires_SynchronousMachineOperatingMode : etype := TEnum n_SynchronousMachineOperatingMode [n_condenser; n_generator].
(* Model/CIM14/CDPSM/Balanced.ecore:2247-2251 *)
Definition enum_cim14_cdpsm_balanced_CDPSM_Balanced_IEC61970_Wires_SynchronousMachineType : etype := TEnum n_SynchronousMachineType [n_condenser; n_generator_or_condenser; n_generator].
(* Model/CIM14/CDPSM/GIS_Connectivity.ecore:1508-1516 *)
Definition enum_cim14_cdpsm_gis_connectivity_CDPSM_GIS_Connectivity_IEC61968_AssetModels_CableConstructionKind : etype := TEnum n_CableConstructionKind [n_solid; x_stranded; n_other; x_segmental; x_compacted; n_sector; x_compressed].
(* Model/CIM14/CDPSM/GIS_Connectivity.ecore:734-742 *)
Definition enum_cim14_cdpsm_gis_connectivity_CDPSM_GIS_Connectivity_IEC61968_AssetModels_CableOuterJacketKind : etype := TEnum n_CableOuterJacketKind [n_insulating; n_other; x_semiconducting; n_polyethylene; n_none; x_linearLowDensityPolyethylene; n_pvc].
(* Model/CIM14/CDPSM/GIS_Connectivity.ecore:817-823 *)
Definition enum_cim14_cdpsm_gis_connectivity_CDPSM_GIS_Connectivity_IEC61968_AssetModels_CableShieldMaterialKind : etype := TEnum n_CableShieldMaterialKind [n_other; n_lead; n_steel; n_aluminum; x_copper].
(* Model/CIM14/CDPSM/GIS_Connectivity.ecore:982-1001 *)
Definition enum_cim14_cdpsm_gis_connectivity_CDPSM_GIS_Connectivity_IEC61968_AssetModels_ConductorInsulationKind : etype := TEnum n_ConductorInsulationKind [n_crosslinkedPolyethylene; x_butyl; n_treeRetardantCrosslinkedPolyethylene; x_asbestosAndVarnishedCambric; x_highPressureFluidFilled; x_ethylenePropyleneRubber; x_ozoneResistantRubber; x_oilPaper; x_varnishedDacronGlass; x_highMolecularWeightPolyethylene; n_other; x_varnishedCambricCloth; x_treeResistantHighMolecularWeightPolyethylene; x_unbeltedPilc; x_beltedPilc; x_rubber; x_lowCapacitanceRubber; x_siliconRubber].
(* Model/CIM14/CDPSM/GIS_Connectivity.ecore:1440-1445 *)
Definition enum_cim14_cdpsm_gis_connectivity_CDPSM_GIS_Connectivity_IEC61968_AssetModels_ConductorUsageKind : etype := TEnum n_ConductorUsageKind [n_secondary; n_other; n_distribution; n_transmission].
(* Model/CIM14/CDPSM/GIS_Connectivity.ecore:1879-1887 *)
Definition enum_cim14_cdpsm_gis_connectivity_CDPSM_GIS_Connectivity_IEC61970_Wires_WindingConnection : etype := TEnum n_WindingConnection [n_I; n_Z; n_Yn; x_Y; n_A; x_D; x_Zn].
(* Model/CIM14/CDPSM/GIS_Connectivity.ecore:1178-1184 *)
Definition enum_cim14_cdpsm_gis_connectivity_CDPSM_GIS_Connectivity_IEC61968_AssetModels_ConductorMaterialKind : etype := TEnum n_ConductorMaterialKind [n_steel; n_other; n_aluminum; x_copper; n_acsr].
(* Model/CIM14/CDPSM/GIS_Connectivity.ecore:2551-2570 *)
Definition enum_cim14_cdpsm_gis_connectivity_CDPSM_GIS_Connectivity_IEC61970_Core_PhaseCode : etype := TEnum n_PhaseCode [n_ABC; x_splitSecondary2N; x_ABN; x_CN; x_ACN; x_BC; x_AN; x_BN; x_AB; x_splitSecondary1N; n_N; n_C; x_AC; x_ABCN; x_splitSecondary12N; n_A; x_B; x_BCN].
(* Model/CIM14/CDPSM/GIS_Connectivity.ecore:2827-2832 *)
Definition enum_cim14_cdpsm_gis_connectivity_CDPSM_GIS_Connectivity_IEC61970_Generation_Production_GeneratorControlSource : etype := TEnum n_GeneratorControlSource [n_onAGC; n_unavailable; n_plantControl; x_offAGC].
(* Model/CIM14/CDPSM/GIS_Connectivity.ecore:1875-1878 *)
Definition enum_cim14_cdpsm_gis_connectivity_CDPSM_GIS_Connectivity_IEC61970_Wires_TransformerControlMode : etype := TEnum n_TransformerControlMode [n_reactive; n_volt].
(* Model/CIM14/CDPSM/GIS_Connectivity.ecore:2141-2144 *)
Definition enum_cim14_cdpsm_gis_connectivity_CDPSM_GIS_Connectivity_IEC61970_Wires_SynchronousMachineOperatingMode : etype := TEnum n_SynchronousMachineOperatingMode [n_condenser; n_generator].
(* Model/CIM14/CDPSM/GIS_Connectivity.ecore:2071-2075 *)
Definition enum_cim14_cdpsm_gis_connectivity_CDPSM_GIS_Connectivity_IEC61970_Wires_SynchronousMachineType : etype := TEnum n_SynchronousMachineType [n_condenser; n_generator_or_condenser; n_generator].
(* Model/CIM14/CDPSM/Unbalanced.ecore:1755-1763 *)
Definition enum_cim14_cdpsm_unbalanced_CDPSM_Unbalanced_IEC61968_AssetModels_CableConstructionKind : etype := TEnum n_CableConstructionKind [n_solid; x_stranded; n_other; x_segmental; x_compacted; n_sector; x_compressed].
(* Model/CIM14/CDPSM/Unbalanced.ecore:909-917 *)
Definition enum_cim14_cdpsm_unbalanced_CDPSM_Unbalanced_IEC61968_AssetModels_CableOuterJacketKind : etype := TEnum n_CableOuterJacketKind [n_insulating; n_other; x_semiconducting; n_polyethylene; n_none; x_linearLowDensityPolyethylene; n_pvc].
(* Model/CIM14/CDPSM/Unbalanced.ecore:991-997 *)
Definition enum_cim14_cdpsm_unbalanced_CDPSM_Unbalanced_IEC61968_AssetModels_CableShieldMaterialKind : etype := TEnum n_CableShieldMaterialKind [n_other; n_lead; n_steel; n_aluminum; x_copper].
(* Model/CIM14/CDPSM/Unbalanced.ecore:1156-1175 *)
Definition enum_cim14_cdpsm_unbalanced_CDPSM_Unbalanced_IEC61968_AssetModels_ConductorInsulationKind : etype := TEnum n_ConductorInsulationKind [n_crosslinkedPolyethylene; x_butyl; n_treeRetardantCrosslinkedPolyethylene; x_asbestosAndVarnishedCambric; x_highPressureFluidFilled; x_ethylenePropyleneRubber; x_ozoneResistantRubber; x_oilPaper; x_varnishedDacronGlass; x_highMolecularWeightPolyethylene; n_other; x_varnishedCambricCloth; x_treeResistantHighMolecularWeightPolyethylene; x_unbeltedPilc; x_beltedPilc; x_rubber; x_lowCapacitanceRubber; x_siliconRubber].
(* Model/CIM14/CDPSM/Unbalanced.ecore:1543-1548 *)
Definition enum_cim14_cdpsm_unbalanced_CDPSM_Unbalanced_IEC61968_AssetModels_ConductorUsageKind : etype := TEnum n_ConductorUsageKind [n_secondary; n_other; n_distribution; n_transmission].
(* Model/CIM14/CDPSM/Unbalanced.ecore:2125-2133 *)
Definition enum_cim14_cdpsm_unbalanced_CDPSM_Unbalanced_IEC61970_Wires_WindingConnection : etype := TEnum n_WindingConnection [n_I; n_Z; n_Yn; x_Y; n_A; x_D; x_Zn].
(* Model/CIM14/CDPSM/Unbalanced.ecore:1388-1394 *)
Definition enum_cim14_cdpsm_unbalanced_CDPSM_Unbalanced_IEC61968_AssetModels_ConductorMaterialKind : etype := TEnum n_ConductorMaterialKind [n_steel; n_other; n_aluminum; x_copper; n_acsr].
(* Model/CIM14/CDPSM/Unbalanced.ecore:2853-2872 *)
Definition enum_cim14_cdpsm_unbalanced_CDPSM_Unbalanced_IEC61970_Core_PhaseCode : etype := TEnum n_PhaseCode [n_ABC; x_splitSecondary2N; x_ABN; x_CN; x_ACN; x_BC; x_AN; x_BN; x_AB; x_splitSecondary1N; n_N; n_C; x_AC; x_ABCN; x_splitSecondary12N; n_A; x_B; x_BCN].
(* Model/CIM14/CDPSM/Unbalanced.ecore:3123-3128 *)
Definition enum_cim14_cdpsm_unbalanced_CDPSM_Unbalanced_IEC61970_Generation_Production_GeneratorControlSource : etype := TEnum n_GeneratorControlSource [n_onAGC; n_unavailable; n_plantControl; x_offAGC].
(* Model/CIM14/CDPSM/Unbalanced.ecore:2113-2116 *)
Definition enum_cim14_cdpsm_unbalanced_CDPSM_Unbalanced_IEC61970_Wires_TransformerControlMode : etype := TEnum n_TransformerControlMode [n_reactive; n_volt].
(* Model/CIM14/CDPSM/Unbalanced.ecore:2415-2418 *)
Definition enum_cim14_cdpsm_unbalanced_CDPSM_Unbalanced_IEC61970_Wires_SynchronousMachineOperatingMode : etype := TEnum n_SynchronousMachineOperatingMode [n_condenser; n_generator].
(* Model/CIM14/CDPSM/Unbalanced.ecore:2317-2321 *)
Definition enum_cim14_cdpsm_unbalanced_CDPSM_Unbalanced_IEC61970_Wires_SynchronousMachineType : etype := TEnum n_SynchronousMachineType [n_condenser; n_generator_or_condenser; n_generator].
(* Model/CIM14/CPSM/Equipment.ecore:1656-1660 *)
Definition enum_cim14_cpsm_equipment_CPSM_Equipment_ControlArea_ControlAreaTypeKind : etype := TEnum n_ControlAreaTypeKind [n_Interchange; n_Forecast; x_AGC].
(* Model/CIM14/CPSM/Equipment.ecore:129-164 *)
Definition enum_cim14_cpsm_equipment_CPSM_Equipment_Domain_UnitSymbol : etype := TEnum n_UnitSymbol [n_A; x_rad; n_none; n_g; x_W_Hz_1; x_V; x_m2; x_VA; x_VArh; n_N; x_Pa; x_VAh; x_F; x_H; x_Hz_1_1; x_W_s_1; x_J; n_m; x_S; x_min; x_deg; x_J_s_1; x_s; x_Wh; x_m3; x_ºC; x_V_VAr_1; x_s_1_1; n_h; x_W; x_ohm; x_Hz; x_VAr; x_kg_J_1].
(* Model/CIM14/CPSM/Equipment.ecore:3379-3384 *)
Definition enum_cim14_cpsm_equipment_CPSM_Equipment_Core_CurveStyle : etype := TEnum n_CurveStyle [n_straightLineYValues; n_rampYValue; x_constantYValue; n_formula].
(* Model/CIM14/CPSM/Equipment.ecore:347-352 *)
Definition enum_cim14_cpsm_equipment_CPSM_Equipment_Generation_Production_FuelType : etype := TEnum n_FuelType [n_oil; x_coal; n_lignite; n_gas].
(* Model/CIM14/CPSM/Equipment.ecore:385-390 *)
Definition enum_cim14_cpsm_equipment_CPSM_Equipment_Generation_Production_GeneratorControlSource : etype := TEnum n_GeneratorControlSource [n_onAGC; n_unavailable; n_plantControl; x_offAGC].
(* Model/CIM14/CPSM/Equipment.ecore:1491-1496 *)
Definition enum_cim14_cpsm_equipment_CPSM_Equipment_LoadModel_SeasonName : etype := TEnum n_SeasonName [n_fall; n_winter; x_spring; x_summer].
(* Model/CIM14/CPSM/Equipment.ecore:918-922 *)
Definition enum_cim14_cpsm_equipment_CPSM_Equipment_OperationalLimits_OperationalLimitDirectionKind : etype := TEnum n_OperationalLimitDirectionKind [n_high; x_absoluteValue; n_low].
(* Model/CIM14/CPSM/Equipment.ecore:3322-3326 *)
Definition enum_cim14_cpsm_equipment_CPSM_Equipment_Wires_PhaseTapChangerKind : etype := TEnum n_PhaseTapChangerKind [n_asymmetrical; x_symmetrical; n_unknown].
(* Model/CIM14/CPSM/Equipment.ecore:2805-2808 *)
Definition enum_cim14_cpsm_equipment_CPSM_Equipment_Wires_TransformerControlMode : etype := TEnum n_TransformerControlMode [n_reactive; n_volt].
(* Model/CIM14/CPSM/Equipment.ecore:2863-2873 *)
Definition enum_cim14_cpsm_equipment_CPSM_Equipment_Wires_RegulatingControlModeKind : etype := TEnum n_RegulatingControlModeKind [n_reactivePower; x_timeScheduled; n_voltage; n_activePower; x_currentFlow; n_fixed; n_temperature; x_powerFactor; x_admittance].
(* Model/CIM14/CPSM/Equipment.ecore:2895-2899 *)
Definition enum_cim14_cpsm_equipment_CPSM_Equipment_Wires_SVCControlMode : etype := TEnum n_SVCControlMode [n_voltage; n_reactivePower; n_off].
(* Model/CIM14/CPSM/Equipment.ecore:3218-3221 *)
Definition enum_cim14_cpsm_equipment_CPSM_Equipment_Wires_SynchronousMachineOperatingMode : etype := TEnum n_SynchronousMachineOperatingMode [n_condenser; n_generator].
(* Model/CIM14/CPSM/Equipment.ecore:3015-3019 *)
Definition enum_cim14_cpsm_equipment_CPSM_Equipment_Wires_SynchronousMachineType : etype := TEnum n_SynchronousMachineType [n_condenser; n_generator_or_condenser; n_generator].
(* Model/CIM14/CPSM/Equipment.ecore:2131-2139 *)
Definition enum_cim14_cpsm_equipment_CPSM_Equipment_Wires_WindingConnection : etype := TEnum n_WindingConnection [n_I; n_Yn; n_Z; x_Y; n_A; x_D; x_Zn].
(* Model/CIM14/CPSM/Equipment.ecore:1899-1903 *)
Definition enum_cim14_cpsm_equipment_CPSM_Equipment_Wires_WindingType : etype := TEnum n_WindingType [n_tertiary; n_primary; n_secondary].
(* Model/CIM14/ENTSOE/Dynamics.ecore:316-335 *)
Definition enum_cim14_entsoe_dynamics_ENTSOE_Dynamics_IEC61970_Core_CorePhaseCode : etype := TEnum n_CorePhaseCode [n_ABC; x_splitSecondary2N; x_ABN; x_CN; x_ACN; x_BC; x_AN; x_BN; x_AB; x_splitSecondary1N; n_N; n_C; x_AC; x_ABCN; x_splitSecondary12N; n_A; x_B; x_BCN].
(* Model/CIM14/ENTSOE/Dynamics.ecore:585-585 *)
Definition enum_cim14_entsoe_dynamics_ENTSOE_Dynamics_IEC61970_Dynamics_DynamicsBlockKind : etype := TEnum n_DynamicsBlockKind [].
(* Model/CIM14/ENTSOE/Dynamics.ecore:2339-2342 *)
Definition enum_cim14_entsoe_dynamics_ENTSOE_Dynamics_IEC61970_Dynamics_Generators_GeneratorsParametersFormType : etype := TEnum n_GeneratorsParametersFormType [n_equivalentCircuit; n_timeConstantReactance].
(* Model/CIM14/ENTSOE/Dynamics.ecore:2865-2865 *)
Definition enum_cim14_entsoe_dynamics_ENTSOE_Dynamics_IEC61970_Dynamics_Loads_LoadsStaticLoadType : etype := TEnum n_LoadsStaticLoadType [].
(* Model/CIM14/ENTSOE/Equipment.ecore:227-231 *)
Definition enum_cim14_entsoe_equipment_ENTSOE_Equipment_ControlArea_ControlAreaTypeKind : etype := TEnum n_ControlAreaTypeKind [n_Interchange; n_Forecast; x_AGC].
(* Model/CIM14/ENTSOE/Equipment.ecore:2549-2584 *)
Definition enum_cim14_entsoe_equipment_ENTSOE_Equipment_Domain_UnitSymbol : etype := TEnum n_UnitSymbol [n_A; x_rad; n_none; n_g; x_W_Hz_1; x_V; x_m2; x_VA; x_VArh; n_N; x_Pa; x_VAh; x_F; x_H; x_Hz_1_1; x_W_s_1; x_J; n_m; x_S; x_min; x_deg; x_J_s_1; x_s; x_Wh; x_m3; x_ºC; x_V_VAr_1; x_s_1_1; n_h; x_W; x_ohm; x_Hz; x_VAr; x_kg_J_1].
(* Model/CIM14/ENTSOE/Equipment.ecore:1716-1721 *)
Definition enum_cim14_entsoe_equipment_ENTSOE_Equipment_Core_CurveStyle : etype := TEnum n_CurveStyle [n_straightLineYValues; n_rampYValue; x_constantYValue; n_formula].
(* Model/CIM14/ENTSOE/Equipment.ecore:3006-3011 *)
Definition enum_cim14_entsoe_equipment_ENTSOE_Equipment_Generation_Production_FuelType : etype := TEnum n_FuelType [n_oil; x_coal; n_lignite; n_gas].
(* Model/CIM14/ENTSOE/Equipment.ecore:3044-3049 *)
Definition enum_cim14_entsoe_equipment_ENTSOE_Equipment_Generation_Production_GeneratorControlSource : etype := TEnum n_GeneratorControlSource [n_onAGC; n_unavailable; n_plantControl; x_offAGC].
(* Model/CIM14/ENTSOE/Equipment.ecore:2450-2454 *)
Definition enum_cim14_entsoe_equipment_ENTSOE_Equipment_OperationalLimits_OperationalLimitDirectionKind : etype := TEnum n_OperationalLimitDirectionKind [n_high; x_absoluteValue; n_low].
(* Model/CIM14/ENTSOE/Equipment.ecore:1377-1381 *)
Definition enum_cim14_entsoe_equipment_ENTSOE_Equipment_Wires_PhaseTapChangerKind : etype := TEnum n_PhaseTapChangerKind [n_asymmetrical; x_symmetrical; n_unknown].
(* Model/CIM14/ENTSOE/Equipment.ecore:570-573 *)
Definition enum_cim14_entsoe_equipment_ENTSOE_Equipment_Wires_TransformerControlMode : etype := TEnum n_TransformerControlMode [n_reactive; n_volt].
(* Model/CIM14/ENTSOE/Equipment.ecore:879-889 *)
Definition enum_cim14_entsoe_equipment_ENTSOE_Equipment_Wires_RegulatingControlModeKind : etype := TEnum n_RegulatingControlModeKind [n_reactivePower; x_timeScheduled; n_voltage; n_activePower; x_currentFlow; n_fixed; n_temperature; x_powerFactor; x_admittance].
(* Model/CIM14/ENTSOE/Equipment.ecore:920-924 *)
Definition enum_cim14_entsoe_equipment_ENTSOE_Equipment_Wires_SVCControlMode : etype := TEnum n_SVCControlMode [n_voltage; n_reactivePower; n_off].
(* Model/CIM14/ENTSOE/Equipment.ecore:1308-1311 *)
Definition enum_cim14_entsoe_equipment_ENTSOE_Equipment_Wires_SynchronousMachineOperatingMode : etype := TEnum n_SynchronousMachineOperatingMode [n_condenser; n_generator].
(* Model/CIM14/ENTSOE/Equipment.ecore:1023-1027 *)
Definition enum_cim14_entsoe_equipment_ENTSOE_Equipment_Wires_SynchronousMachineType : etype := TEnum n_SynchronousMachineType [n_condenser; n_generator_or_condenser; n_generator].
(* Model/CIM14/ENTSOE/Equipment.ecore:574-582 *)
Definition enum_cim14_entsoe_equipment_ENTSOE_Equipment_Wires_WindingConnection : etype := TEnum n_WindingConnection [n_I; n_Yn; n_Z; x_Y; n_A; x_D; x_Zn].
(* Model/CIM14/ENTSOE/Equipment.ecore:285-289 *)
Definition enum_cim14_entsoe_equipment_ENTSOE_Equipment_Wires_WindingType : etype := TEnum n_WindingType [n_tertiary; n_primary; n_secondary].
(* Model/CIM15/CDPSM/Asset.ecore:842-850 *)
Definition enum_cim15_cdpsm_asset_CDPSM_Asset_IEC61968_AssetModels_CableConstructionKind : etype := TEnum n_CableConstructionKind [n_sector; n_other; n_solid; x_compacted; x_stranded; x_segmental; x_compressed].
(* Model/CIM15/CDPSM/Asset.ecore:1395-1401 *)
Definition enum_cim15_cdpsm_asset_CDPSM_Asset_IEC61968_AssetModels_CableShieldMaterialKind : etype := TEnum n_CableShieldMaterialKind [n_lead; n_aluminum; n_other; x_copper; n_steel].
(* Model/CIM15/CDPSM/Asset.ecore:640-648 *)
Definition enum_cim15_cdpsm_asset_CDPSM_Asset_IEC61968_AssetModels_CableOuterJacketKind : etype := TEnum n_CableOuterJacketKind [n_pvc; x_linearLowDensityPolyethylene; n_none; n_insulating; n_other; n_polyethylene; x_semiconducting].
(* Model/CIM15/CDPSM/Asset.ecore:704-709 *)
Definition enum_cim15_cdpsm_asset_CDPSM_Asset_IEC61968_AssetModels_ConductorUsageKind : etype := TEnum n_ConductorUsageKind [n_secondary; n_other; n_distribution; n_transmission].
(* Model/CIM15/CDPSM/Asset.ecore:1206-1225 *)
Definition enum_cim15_cdpsm_asset_CDPSM_Asset_IEC61968_AssetModels_ConductorInsulationKind : etype := TEnum n_ConductorInsulationKind [n_treeRetardantCrosslinkedPolyethylene; x_butyl; x_highPressureFluidFilled; n_other; x_varnishedCambricCloth; x_siliconRubber; x_beltedPilc; n_crosslinkedPolyethylene; x_oilPaper; x_lowCapacitanceRubber; x_asbestosAndVarnishedCambric; x_treeResistantHighMolecularWeightPolyethylene; x_unbeltedPilc; x_ozoneResistantRubber; x_ethylenePropyleneRubber; x_highMolecularWeightPolyethylene; x_varnishedDacronGlass; x_rubber].
(* Model/CIM15/CDPSM/Asset.ecore:323-331 *)
Definition enum_cim15_cdpsm_asset_CDPSM_Asset_IEC61970_Wires_WindingConnection : etype := TEnum n_WindingConnection [n_Z; n_A; n_Yn; x_Y; x_Zn; x_D; n_I].
(* Model/CIM15/CDPSM/Asset.ecore:633-639 *)
Definition enum_cim15_cdpsm_asset_CDPSM_Asset_IEC61968_AssetModels_ConductorMaterialKind : etype := TEnum n_ConductorMaterialKind [n_aluminum; x_copper; n_other; n_steel; n_acsr].
(* Model/CIM15/CDPSM/Balanced.ecore:1427-1432 *)
Definition enum_cim15_cdpsm_balanced_CDPSM_Balanced_IEC61970_Generation_Production_GeneratorControlSource : etype := TEnum n_GeneratorControlSource [n_plantControl; x_offAGC; n_unavailable; n_onAGC].
(* Model/CIM15/CDPSM/Balanced.ecore:830-838 *)
Definition enum_cim15_cdpsm_balanced_CDPSM_Balanced_IEC61970_Wires_WindingConnection : etype := TEnum n_WindingConnection [n_Z; n_A; n_Yn; x_Y; x_Zn; x_D; n_I].
(* Model/CIM15/CDPSM/Balanced.ecore:817-820 *)
Definition enum_cim15_cdpsm_balanced_CDPSM_Balanced_IEC61970_Wires_TransformerControlMode : etype := TEnum n_TransformerControlMode [n_reactive; n_volt].
(* Model/CIM15/CDPSM/Balanced.ecore:528-531 *)
Definition enum_cim15_cdpsm_balanced_CDPSM_Balanced_IEC61970_Wires_SynchronousMachineOperatingMode : etype := TEnum n_SynchronousMachineOperatingMode [n_condenser; n_generator].
(* Model/CIM15/CDPSM/Balanced.ecore:340-344 *)
Definition enum_cim15_cdpsm_balanced_CDPSM_Balanced_IEC61970_Wires_SynchronousMachineType : etype := TEnum n_SynchronousMachineType [n_condenser; n_generator_or_condenser; n_generator].
(* Model/CIM15/CDPSM/Connectivity.ecore:956-975 *)
Definition enum_cim15_cdpsm_connectivity_CDPSM_Connectivity_IEC61970_Core_PhaseCode : etype := TEnum n_PhaseCode [n_s12N; x_BN; x_BC; x_ABN; x_s2N; n_N; x_ACN; x_BCN; x_ABCN; x_AC; x_s1N; x_AN; x_B; x_AB; n_C; n_A; x_CN; n_ABC].

(** Classes of Model/CIM14/CIM14.ecore: 471. *)
Definition ecore_cim14 : list eclass := [
(* Model/CIM14/CIM14.ecore:12-28 *)
  EClass n_CIM14_CombinedVersion_CombinedVersion n_CombinedVersion (Some n_CIM14_Element_Element)
    [(n_version, TText); (n_date, TDate)]
    [];
(* Model/CIM14/CIM14.ecore:29-32 *)
  EClass n_CIM14_Element_Element n_Element None
    [(n_UUID, TText)]
    [];
(* Model/CIM14/CIM14.ecore:13374-13408 *)
  EClass n_CIM14_IEC61968_AssetModels_AssetModel_AssetModel n_AssetModel (Some n_CIM14_IEC61970_Core_IdentifiedObject_IdentifiedObject)
    [(n_usageKind, enum_cim14_IEC61968_AssetModels_AssetModelUsageKind); (n_corporateStandardKind, enum_cim14_IEC61968_AssetModels_CorporateStandardKind); (n_modelNumber, TText); (n_weightTotal, TFloat); (n_modelVersion, TText)]
    [];
(* Model/CIM14/CIM14.ecore:13742-13806 *)
  EClass n_CIM14_IEC61968_AssetModels_CableInfo_CableInfo n_CableInfo (Some n_CIM14_IEC61968_AssetModels_ConductorInfo_ConductorInfo)
    [(n_constructionKind, enum_cim14_IEC61968_AssetModels_CableConstructionKind); (n_shieldMaterial, enum_cim14_IEC61968_AssetModels_CableShieldMaterialKind); (n_outerJacketKind, enum_cim14_IEC61968_AssetModels_CableOuterJacketKind); (n_isStrandFill, TBool); (n_diameterOverScreen, TFloat); (n_diameterOverInsulation, TFloat); (n_diameterOverJacket, TFloat); (n_nominalTemperature, TFloat); (n_diameterOverCore, TFloat); (n_sheathAsNeutral, TBool)]
    [];
(* Model/CIM14/CIM14.ecore:13969-13991 *)
  EClass n_CIM14_IEC61968_AssetModels_ConcentricNeutralCableInfo_ConcentricNeutralCableInfo n_ConcentricNeutralCableInfo (Some n_CIM14_IEC61968_AssetModels_CableInfo_CableInfo)
    [(n_diameterOverNeutral, TFloat); (n_neutralStrandCount, TInt)]
    [ERef n_WireType n_CIM14_IEC61968_AssetModels_WireType_WireType false (Some n_ConcentricNeutralCableInfos)];
(* Model/CIM14/CIM14.ecore:13662-13708 *)
  EClass n_CIM14_IEC61968_AssetModels_ConductorInfo_ConductorInfo n_ConductorInfo (Some n_CIM14_IEC61970_Core_IdentifiedObject_IdentifiedObject)
    [(n_usage, enum_cim14_IEC61968_AssetModels_ConductorUsageKind); (n_insulationMaterial, enum_cim14_IEC61968_AssetModels_ConductorInsulationKind); (n_insulated, TBool); (n_insulationThickness, TFloat); (n_phaseCount, TInt)]
    [ERef n_ConductorSegments n_CIM14_IEC61968_WiresExt_DistributionLineSegment_DistributionLineSegment true (Some n_ConductorInfo); ERef n_WireArrangements n_CIM14_IEC61968_AssetModels_WireArrangement_WireArrangement true (Some n_ConductorInfo)];
(* Model/CIM14/CIM14.ecore:13455-13471 *)
  EClass n_CIM14_IEC61968_AssetModels_DistributionWindingTest_DistributionWindingTest n_DistributionWindingTest (Some n_CIM14_IEC61970_Core_IdentifiedObject_IdentifiedObject)
    [(n_fromTapStep, TInt)]
    [ERef n_FromWinding n_CIM14_IEC61968_AssetModels_WindingInfo_WindingInfo false (Some n_WindingTests)];
(* Model/CIM14/CIM14.ecore:13409-13419 *)
  EClass n_CIM14_IEC61968_AssetModels_EndDeviceModel_EndDeviceModel n_EndDeviceModel (Some n_CIM14_IEC61968_AssetModels_AssetModel_AssetModel)
    []
    [ERef n_EndDeviceAssets n_CIM14_IEC61968_Metering_EndDeviceAsset_EndDeviceAsset true (Some n_EndDeviceModel)];
(* Model/CIM14/CIM14.ecore:13614-13648 *)
  EClass n_CIM14_IEC61968_AssetModels_OpenCircuitTest_OpenCircuitTest n_OpenCircuitTest (Some n_CIM14_IEC61968_AssetModels_DistributionWindingTest_DistributionWindingTest)
    [(n_excitingCurrentZero, TFloat); (n_noLoadLossZero, TFloat); (n_noLoadLoss, TFloat); (n_excitingCurrent, TFloat)]
    [ERef n_MeasuredWindingSpecs n_CIM14_IEC61968_AssetModels_ToWindingSpec_ToWindingSpec true (Some n_OpenCircuitTests)];
(* Model/CIM14/CIM14.ecore:13709-13731 *)
  EClass n_CIM14_IEC61968_AssetModels_OverheadConductorInfo_OverheadConductorInfo n_OverheadConductorInfo (Some n_CIM14_IEC61968_AssetModels_ConductorInfo_ConductorInfo)
    [(n_neutralInsulationThickness, TFloat); (n_phaseConductorSpacing, TFloat); (n_phaseConductorCount, TInt)]
    [];
(* Model/CIM14/CIM14.ecore:13472-13506 *)
  EClass n_CIM14_IEC61968_AssetModels_ShortCircuitTest_ShortCircuitTest n_ShortCircuitTest (Some n_CIM14_IEC61968_AssetModels_DistributionWindingTest_DistributionWindingTest)
    [(n_loadLossZero, TFloat); (n_leakageImpedanceZero, TFloat); (n_leakageImpedance, TFloat); (n_loadLoss, TFloat)]
    [ERef n_ShortedWindingSpecs n_CIM14_IEC61968_AssetModels_ToWindingSpec_ToWindingSpec true (Some n_ShortCircuitTests)];
(* Model/CIM14/CIM14.ecore:13807-13823 *)
  EClass n_CIM14_IEC61968_AssetModels_TapeShieldCableInfo_TapeShieldCableInfo n_TapeShieldCableInfo (Some n_CIM14_IEC61968_AssetModels_CableInfo_CableInfo)
    [(n_tapeThickness, TFloat); (n_tapeLap, TFloat)]
    [];
(* Model/CIM14/CIM14.ecore:13907-13947 *)
  EClass n_CIM14_IEC61968_AssetModels_ToWindingSpec_ToWindingSpec n_ToWindingSpec (Some n_CIM14_IEC61970_Core_IdentifiedObject_IdentifiedObject)
    [(n_voltage, TFloat); (n_phaseShift, TFloat); (n_toTapStep, TInt)]
    [ERef n_ToWinding n_CIM14_IEC61968_AssetModels_WindingInfo_WindingInfo false (Some n_ToWindingSpecs); ERef n_OpenCircuitTests n_CIM14_IEC61968_AssetModels_OpenCircuitTest_OpenCircuitTest true (Some n_MeasuredWindingSpecs); ERef n_ShortCircuitTests n_CIM14_IEC61968_AssetModels_ShortCircuitTest_ShortCircuitTest true (Some n_ShortedWindingSpecs)];
(* Model/CIM14/CIM14.ecore:13507-13523 *)
  EClass n_CIM14_IEC61968_AssetModels_TransformerInfo_TransformerInfo n_TransformerInfo (Some n_CIM14_IEC61970_Core_IdentifiedObject_IdentifiedObject)
    []
    [ERef n_WindingInfos n_CIM14_IEC61968_AssetModels_WindingInfo_WindingInfo true (Some n_TransformerInfo); ERef n_Transformers n_CIM14_IEC61968_WiresExt_DistributionTransformer_DistributionTransformer true (Some n_TransformerInfo)];
(* Model/CIM14/CIM14.ecore:13824-13906 *)
  EClass n_CIM14_IEC61968_AssetModels_WindingInfo_WindingInfo n_WindingInfo (Some n_CIM14_IEC61970_Core_IdentifiedObject_IdentifiedObject)
    [(n_connectionKind, enum_cim14_IEC61970_Wires_WindingConnection); (n_r, TFloat); (n_phaseAngle, TInt); (n_emergencyS, TFloat); (n_ratedU, TFloat); (n_insulationU, TFloat); (n_ratedS, TFloat); (n_sequenceNumber, TInt); (n_shortTermS, TFloat)]
    [ERef n_Windings n_CIM14_IEC61968_WiresExt_DistributionTransformerWinding_DistributionTransformerWinding true (Some n_WindingInfo); ERef n_WindingTests n_CIM14_IEC61968_AssetModels_DistributionWindingTest_DistributionWindingTest true (Some n_FromWinding); ERef n_TransformerInfo n_CIM14_IEC61968_AssetModels_TransformerInfo_TransformerInfo false (Some n_WindingInfos); ERef n_ToWindingSpecs n_CIM14_IEC61968_AssetModels_ToWindingSpec_ToWindingSpec true (Some n_ToWinding)];
(* Model/CIM14/CIM14.ecore:13420-13454 *)
  EClass n_CIM14_IEC61968_AssetModels_WireArrangement_WireArrangement n_WireArrangement (Some n_CIM14_IEC61970_Core_IdentifiedObject_IdentifiedObject)
    [(n_position, TInt); (n_mountingPointX, TFloat); (n_mountingPointY, TFloat)]
    [ERef n_WireType n_CIM14_IEC61968_AssetModels_WireType_WireType false (Some n_WireArrangements); ERef n_ConductorInfo n_CIM14_IEC61968_AssetModels_ConductorInfo_ConductorInfo false (Some n_WireArrangements)];
(* Model/CIM14/CIM14.ecore:13524-13613 *)
  EClass n_CIM14_IEC61968_AssetModels_WireType_WireType n_WireType (Some n_CIM14_IEC61970_Core_IdentifiedObject_IdentifiedObject)
    [(n_material, enum_cim14_IEC61968_AssetModels_ConductorMaterialKind); (n_rAC25, TFloat); (n_sizeDescription, TText); (n_rAC75, TFloat); (n_radius, TFloat); (n_coreRadius, TFloat); (n_rAC50, TFloat); (n_gmr, TFloat); (n_rDC20, TFloat); (n_ratedCurrent, TFloat); (n_coreStrandCount, TInt); (n_strandCount, TInt)]
    [ERef n_WireArrangements n_CIM14_IEC61968_AssetModels_WireArrangement_WireArrangement true (Some n_WireType); ERef n_ConcentricNeutralCableInfos n_CIM14_IEC61968_AssetModels_ConcentricNeutralCableInfo_ConcentricNeutralCableInfo true (Some n_WireType)];
(* Model/CIM14/CIM14.ecore:12275-12297 *)
  EClass n_CIM14_IEC61968_Assets_AcceptanceTest_AcceptanceTest n_AcceptanceTest (Some n_CIM14_Element_Element)
    [(n_success, TBool); (n_type, TText); (n_dateTime, TDate)]
    [];
(* Model/CIM14/CIM14.ecore:12133-12261 *)
  EClass n_CIM14_IEC61968_Assets_Asset_Asset n_Asset (Some n_CIM14_IEC61970_Core_IdentifiedObject_IdentifiedObject)
    [(n_category, TText); (n_serialNumber, TText); (n_manufacturedDate, TText); (n_lotNumber, TText); (n_critical, TBool); (n_application, TText); (n_initialLossOfLife, TFloat); (n_corporateCode, TText); (n_purchasePrice, TFloat); (n_utcNumber, TText); (n_installationDate, TText); (n_initialCondition, TText)]
    [ERef n_PowerSystemResources n_CIM14_IEC61970_Core_PowerSystemResource_PowerSystemResource true (Some n_Assets); ERef n_Properties n_CIM14_IEC61968_Common_UserAttribute_UserAttribute true (Some n_PropertyAssets); ERef n_acceptanceTest n_CIM14_IEC61968_Assets_AcceptanceTest_AcceptanceTest false None; ERef n_ActivityRecords n_CIM14_IEC61968_Common_ActivityRecord_ActivityRecord true (Some n_Assets); ERef n_Location n_CIM14_IEC61968_Common_Location_Location false (Some n_Assets); ERef n_AssetFunctions n_CIM14_IEC61968_Assets_AssetFunction_AssetFunction true (Some n_Asset); ERef n_Measurements n_CIM14_IEC61970_Meas_Measurement_Measurement true (Some n_Asset); ERef n_AssetContainer n_CIM14_IEC61968_Assets_AssetContainer_AssetContainer false (Some n_Assets); ERef n_status n_CIM14_IEC61968_Common_Status_Status false None; ERef n_Ratings n_CIM14_IEC61968_Common_UserAttribute_UserAttribute true (Some n_RatingAssets); ERef n_electronicAddress n_CIM14_IEC61968_Common_ElectronicAddress_ElectronicAddress false None];
(* Model/CIM14/CIM14.ecore:12262-12274 *)
  EClass n_CIM14_IEC61968_Assets_AssetContainer_AssetContainer n_AssetContainer (Some n_CIM14_IEC61968_Assets_Asset_Asset)
    []
    [ERef n_Seals n_CIM14_IEC61968_Assets_Seal_Seal true (Some n_AssetContainer); ERef n_Assets n_CIM14_IEC61968_Assets_Asset_Asset true (Some n_AssetContainer)];
(* Model/CIM14/CIM14.ecore:12096-12132 *)
  EClass n_CIM14_IEC61968_Assets_AssetFunction_AssetFunction n_AssetFunction (Some n_CIM14_IEC61970_Core_IdentifiedObject_IdentifiedObject)
    [(n_configID, TText); (n_programID, TText); (n_firmwareID, TText); (n_password, TText); (n_hardwareID, TText)]
    [ERef n_Asset n_CIM14_IEC61968_Assets_Asset_Asset false (Some n_AssetFunctions)];
(* Model/CIM14/CIM14.ecore:12342-12346 *)
  EClass n_CIM14_IEC61968_Assets_ComMediaAsset_ComMediaAsset n_ComMediaAsset (Some n_CIM14_IEC61968_Assets_Asset_Asset)
    []
    [];
(* Model/CIM14/CIM14.ecore:12298-12332 *)
  EClass n_CIM14_IEC61968_Assets_Seal_Seal n_Seal (Some n_CIM14_IEC61970_Core_IdentifiedObject_IdentifiedObject)
    [(n_kind, enum_cim14_IEC61968_Assets_SealKind); (n_condition, enum_cim14_IEC61968_Assets_SealConditionKind); (n_sealNumber, TText); (n_appliedDateTime, TDate)]
    [ERef n_AssetContainer n_CIM14_IEC61968_Assets_AssetContainer_AssetContainer false (Some n_Seals)];
(* Model/CIM14/CIM14.ecore:14404-14449 *)
  EClass n_CIM14_IEC61968_Common_ActivityRecord_ActivityRecord n_ActivityRecord (Some n_CIM14_IEC61970_Core_IdentifiedObject_IdentifiedObject)
    [(n_reason, TText); (n_createdDateTime, TDate); (n_severity, TText); (n_category, TText)]
    [ERef n_Documents n_CIM14_IEC61968_Common_Document_Document true (Some n_ActivityRecords); ERef n_Assets n_CIM14_IEC61968_Assets_Asset_Asset true (Some n_ActivityRecords); ERef n_status n_CIM14_IEC61968_Common_Status_Status false None];
(* Model/CIM14/CIM14.ecore:14509-14524 *)
  EClass n_CIM14_IEC61968_Common_Agreement_Agreement n_Agreement (Some n_CIM14_IEC61968_Common_Document_Document)
    [(n_signDate, TText)]
    [ERef n_validityInterval n_CIM14_IEC61968_Common_DateTimeInterval_DateTimeInterval false None];
(* Model/CIM14/CIM14.ecore:14721-14743 *)
  EClass n_CIM14_IEC61968_Common_CoordinateSystem_CoordinateSystem n_CoordinateSystem (Some n_CIM14_Element_Element)
    [(n_name, TText)]
    [ERef n_Location n_CIM14_IEC61968_Common_Location_Location false (Some n_CoordinateSystems); ERef n_PositionPoints n_CIM14_IEC61968_Common_PositionPoint_PositionPoint true (Some n_CoordinateSystem)];
(* Model/CIM14/CIM14.ecore:14525-14541 *)
  EClass n_CIM14_IEC61968_Common_DateTimeInterval_DateTimeInterval n_DateTimeInterval (Some n_CIM14_Element_Element)
    [(n_end, TDate); (n_start, TDate)]
    [];
(* Model/CIM14/CIM14.ecore:14104-14173 *)
  EClass n_CIM14_IEC61968_Common_Document_Document n_Document (Some n_CIM14_IEC61970_Core_IdentifiedObject_IdentifiedObject)
    [(n_revisionNumber, TText); (n_subject, TText); (n_createdDateTime, TDate); (n_title, TText); (n_category, TText); (n_lastModifiedDateTime, TDate)]
    [ERef n_electronicAddress n_CIM14_IEC61968_Common_ElectronicAddress_ElectronicAddress false None; ERef n_status n_CIM14_IEC61968_Common_Status_Status false None; ERef n_ActivityRecords n_CIM14_IEC61968_Common_ActivityRecord_ActivityRecord true (Some n_Documents); ERef n_docStatus n_CIM14_IEC61968_Common_Status_Status false None; ERef n_Measurements n_CIM14_IEC61970_Meas_Measurement_Measurement true (Some n_Documents)];
(* Model/CIM14/CIM14.ecore:14607-14652 *)
  EClass n_CIM14_IEC61968_Common_ElectronicAddress_ElectronicAddress n_ElectronicAddress (Some n_CIM14_Element_Element)
    [(n_password, TText); (n_email, TText); (n_radio, TText); (n_userID, TText); (n_lan, TText); (n_web, TText)]
    [ERef n_status n_CIM14_IEC61968_Common_Status_Status false None];
(* Model/CIM14/CIM14.ecore:14250-14335 *)
  EClass n_CIM14_IEC61968_Common_Location_Location n_Location (Some n_CIM14_IEC61970_Core_IdentifiedObject_IdentifiedObject)
    [(n_geoInfoReference, TText); (n_corporateCode, TText); (n_direction, TText); (n_category, TText)]
    [ERef n_PositionPoints n_CIM14_IEC61968_Common_PositionPoint_PositionPoint true (Some n_Location); ERef n_PowerSystemResources n_CIM14_IEC61970_Core_PowerSystemResource_PowerSystemResource true (Some n_Location); ERef n_CoordinateSystems n_CIM14_IEC61968_Common_CoordinateSystem_CoordinateSystem true (Some n_Location); ERef n_Measurements n_CIM14_IEC61970_Meas_Measurement_Measurement true (Some n_Locations); ERef n_secondaryAddress n_CIM14_IEC61968_Common_StreetAddress_StreetAddress false None; ERef n_Assets n_CIM14_IEC61968_Assets_Asset_Asset true (Some n_Location); ERef n_phone2 n_CIM14_IEC61968_Common_TelephoneNumber_TelephoneNumber false None; ERef n_electronicAddress n_CIM14_IEC61968_Common_ElectronicAddress_ElectronicAddress false None; ERef n_phone1 n_CIM14_IEC61968_Common_TelephoneNumber_TelephoneNumber false None; ERef n_mainAddress n_CIM14_IEC61968_Common_StreetAddress_StreetAddress false None; ERef n_status n_CIM14_IEC61968_Common_Status_Status false None];
(* Model/CIM14/CIM14.ecore:14044-14074 *)
  EClass n_CIM14_IEC61968_Common_Organisation_Organisation n_Organisation (Some n_CIM14_IEC61970_Core_IdentifiedObject_IdentifiedObject)
    []
    [ERef n_electronicAddress n_CIM14_IEC61968_Common_ElectronicAddress_ElectronicAddress false None; ERef n_streetAddress n_CIM14_IEC61968_Common_StreetAddress_StreetAddress false None; ERef n_phone2 n_CIM14_IEC61968_Common_TelephoneNumber_TelephoneNumber false None; ERef n_phone1 n_CIM14_IEC61968_Common_TelephoneNumber_TelephoneNumber false None; ERef n_postalAddress n_CIM14_IEC61968_Common_PostalAddress_PostalAddress false None];
(* Model/CIM14/CIM14.ecore:14363-14403 *)
  EClass n_CIM14_IEC61968_Common_PositionPoint_PositionPoint n_PositionPoint (Some n_CIM14_Element_Element)
    [(n_xPosition, TText); (n_zPosition, TText); (n_sequenceNumber, TInt); (n_yPosition, TText)]
    [ERef n_Location n_CIM14_IEC61968_Common_Location_Location false (Some n_PositionPoints); ERef n_CoordinateSystem n_CIM14_IEC61968_Common_CoordinateSystem_CoordinateSystem false (Some n_PositionPoints)];
(* Model/CIM14/CIM14.ecore:14336-14362 *)
  EClass n_CIM14_IEC61968_Common_PostalAddress_PostalAddress n_PostalAddress (Some n_CIM14_Element_Element)
    [(n_poBox, TText); (n_postalCode, TText)]
    [ERef n_streetDetail n_CIM14_IEC61968_Common_StreetDetail_StreetDetail false None; ERef n_townDetail n_CIM14_IEC61968_Common_TownDetail_TownDetail false None];
(* Model/CIM14/CIM14.ecore:14075-14103 *)
  EClass n_CIM14_IEC61968_Common_Status_Status n_Status (Some n_CIM14_Element_Element)
    [(n_reason, TText); (n_remark, TText); (n_value, TText); (n_dateTime, TDate)]
    [];
(* Model/CIM14/CIM14.ecore:14450-14469 *)
  EClass n_CIM14_IEC61968_Common_StreetAddress_StreetAddress n_StreetAddress (Some n_CIM14_Element_Element)
    []
    [ERef n_status n_CIM14_IEC61968_Common_Status_Status false None; ERef n_townDetail n_CIM14_IEC61968_Common_TownDetail_TownDetail false None; ERef n_streetDetail n_CIM14_IEC61968_Common_StreetDetail_StreetDetail false None];
(* Model/CIM14/CIM14.ecore:14542-14606 *)
  EClass n_CIM14_IEC61968_Common_StreetDetail_StreetDetail n_StreetDetail (Some n_CIM14_Element_Element)
    [(n_number, TText); (n_type, TText); (n_suiteNumber, TText); (n_addressGeneral, TText); (n_buildingName, TText); (n_name, TText); (n_withinTownLimits, TBool); (n_suffix, TText); (n_code, TText); (n_prefix, TText)]
    [];
(* Model/CIM14/CIM14.ecore:14653-14687 *)
  EClass n_CIM14_IEC61968_Common_TelephoneNumber_TelephoneNumber n_TelephoneNumber (Some n_CIM14_Element_Element)
    [(n_countryCode, TText); (n_cityCode, TText); (n_areaCode, TText); (n_localNumber, TText); (n_extension, TText)]
    [];
(* Model/CIM14/CIM14.ecore:14470-14508 *)
  EClass n_CIM14_IEC61968_Common_TimePoint_TimePoint n_TimePoint (Some n_CIM14_IEC61970_Core_IdentifiedObject_IdentifiedObject)
    [(n_relativeTimeInterval, TFloat); (n_sequenceNumber, TInt); (n_dateTime, TDate)]
    [ERef n_TimeSchedule n_CIM14_IEC61968_Common_TimeSchedule_TimeSchedule false (Some n_TimePoints); ERef n_status n_CIM14_IEC61968_Common_Status_Status false None; ERef n_window n_CIM14_IEC61968_Common_DateTimeInterval_DateTimeInterval false None];
(* Model/CIM14/CIM14.ecore:14174-14214 *)
  EClass n_CIM14_IEC61968_Common_TimeSchedule_TimeSchedule n_TimeSchedule (Some n_CIM14_IEC61968_Common_Document_Document)
    [(n_recurrencePeriod, TFloat); (n_disabled, TBool); (n_offset, TFloat); (n_recurrencePattern, TText)]
    [ERef n_TimePoints n_CIM14_IEC61968_Common_TimePoint_TimePoint true (Some n_TimeSchedule); ERef n_scheduleInterval n_CIM14_IEC61968_Common_DateTimeInterval_DateTimeInterval false None];
(* Model/CIM14/CIM14.ecore:14215-14249 *)
  EClass n_CIM14_IEC61968_Common_TownDetail_TownDetail n_TownDetail (Some n_CIM14_Element_Element)
    [(n_code, TText); (n_country, TText); (n_stateOrProvince, TText); (n_name, TText); (n_section, TText)]
    [];
(* Model/CIM14/CIM14.ecore:14688-14720 *)
  EClass n_CIM14_IEC61968_Common_UserAttribute_UserAttribute n_UserAttribute (Some n_CIM14_Element_Element)
    [(n_value, TText); (n_sequenceNumber, TInt); (n_name, TText)]
    [ERef n_PropertyAssets n_CIM14_IEC61968_Assets_Asset_Asset true (Some n_Properties); ERef n_Transaction n_CIM14_IEC61968_PaymentMetering_Transaction_Transaction false (Some n_UserAttributes); ERef n_RatingAssets n_CIM14_IEC61968_Assets_Asset_Asset true (Some n_Ratings)];
(* Model/CIM14/CIM14.ecore:16152-16203 *)
  EClass n_CIM14_IEC61968_Customers_Customer_Customer n_Customer (Some n_CIM14_IEC61968_Common_Organisation_Organisation)
    [(n_kind, enum_cim14_IEC61968_Customers_CustomerKind); (n_pucNumber, TText); (n_specialNeed, TText); (n_vip, TBool)]
    [ERef n_status n_CIM14_IEC61968_Common_Status_Status false None; ERef n_Works n_CIM14_IEC61968_Work_Work_Work true (Some n_Customers); ERef n_CustomerAgreements n_CIM14_IEC61968_Customers_CustomerAgreement_CustomerAgreement true (Some n_Customer); ERef n_EndDeviceAssets n_CIM14_IEC61968_Metering_EndDeviceAsset_EndDeviceAsset true (Some n_Customer)];
(* Model/CIM14/CIM14.ecore:16204-16220 *)
  EClass n_CIM14_IEC61968_Customers_CustomerAccount_CustomerAccount n_CustomerAccount (Some n_CIM14_IEC61968_Common_Document_Document)
    []
    [ERef n_PaymentTransactions n_CIM14_IEC61968_PaymentMetering_Transaction_Transaction true (Some n_CustomerAccount); ERef n_CustomerAgreements n_CIM14_IEC61968_Customers_CustomerAgreement_CustomerAgreement true (Some n_CustomerAccount)];
(* Model/CIM14/CIM14.ecore:16359-16446 *)
  EClass n_CIM14_IEC61968_Customers_CustomerAgreement_CustomerAgreement n_CustomerAgreement (Some n_CIM14_IEC61968_Common_Agreement_Agreement)
    [(n_loadMgmt, TText); (n_budgetBill, TText); (n_billingCycle, TText)]
    [ERef n_DemandResponseProgram n_CIM14_IEC61968_Metering_DemandResponseProgram_DemandResponseProgram false (Some n_CustomerAgreements); ERef n_ServiceSupplier n_CIM14_IEC61968_PaymentMetering_ServiceSupplier_ServiceSupplier false (Some n_CustomerAgreements); ERef n_PricingStructures n_CIM14_IEC61968_Customers_PricingStructure_PricingStructure true (Some n_CustomerAgreements); ERef n_ServiceLocations n_CIM14_IEC61968_Customers_ServiceLocation_ServiceLocation true (Some n_CustomerAgreements); ERef n_ServiceCategory n_CIM14_IEC61968_Customers_ServiceCategory_ServiceCategory false (Some n_CustomerAgreements); ERef n_MeterReadings n_CIM14_IEC61968_Metering_MeterReading_MeterReading true (Some n_CustomerAgreement); ERef n_CustomerAccount n_CIM14_IEC61968_Customers_CustomerAccount_CustomerAccount false (Some n_CustomerAgreements); ERef n_AuxiliaryAgreements n_CIM14_IEC61968_PaymentMetering_AuxiliaryAgreement_AuxiliaryAgreement true (Some n_CustomerAgreement); ERef n_EndDeviceControls n_CIM14_IEC61968_Metering_EndDeviceControl_EndDeviceControl true (Some n_CustomerAgreement); ERef n_Customer n_CIM14_IEC61968_Customers_Customer_Customer false (Some n_CustomerAgreements); ERef n_ServiceDeliveryPoints n_CIM14_IEC61968_Metering_ServiceDeliveryPoint_ServiceDeliveryPoint true (Some n_CustomerAgreement); ERef n_Equipments n_CIM14_IEC61970_Core_Equipment_Equipment true (Some n_CustomerAgreements)];
(* Model/CIM14/CIM14.ecore:16246-16316 *)
  EClass n_CIM14_IEC61968_Customers_PricingStructure_PricingStructure n_PricingStructure (Some n_CIM14_IEC61968_Common_Document_Document)
    [(n_revenueKind, enum_cim14_IEC61968_Customers_RevenueKind); (n_code, TText); (n_dailyFloorUsage, TInt); (n_taxExemption, TBool); (n_dailyEstimatedUsage, TInt); (n_dailyCeilingUsage, TInt)]
    [ERef n_Transactions n_CIM14_IEC61968_PaymentMetering_Transaction_Transaction true (Some n_PricingStructure); ERef n_ServiceDeliveryPoints n_CIM14_IEC61968_Metering_ServiceDeliveryPoint_ServiceDeliveryPoint true (Some n_PricingStructures); ERef n_CustomerAgreements n_CIM14_IEC61968_Customers_CustomerAgreement_CustomerAgreement true (Some n_PricingStructures); ERef n_ServiceCategory n_CIM14_IEC61968_Customers_ServiceCategory_ServiceCategory false (Some n_PricingStructures); ERef n_Tariffs n_CIM14_IEC61968_Customers_Tariff_Tariff true (Some n_PricingStructures)];
(* Model/CIM14/CIM14.ecore:16221-16245 *)
  EClass n_CIM14_IEC61968_Customers_ServiceCategory_ServiceCategory n_ServiceCategory (Some n_CIM14_IEC61970_Core_IdentifiedObject_IdentifiedObject)
    [(n_kind, enum_cim14_IEC61968_Customers_ServiceKind)]
    [ERef n_CustomerAgreements n_CIM14_IEC61968_Customers_CustomerAgreement_CustomerAgreement true (Some n_ServiceCategory); ERef n_PricingStructures n_CIM14_IEC61968_Customers_PricingStructure_PricingStructure true (Some n_ServiceCategory); ERef n_ServiceDeliveryPoints n_CIM14_IEC61968_Metering_ServiceDeliveryPoint_ServiceDeliveryPoint true (Some n_ServiceCategory)];
(* Model/CIM14/CIM14.ecore:16317-16358 *)
  EClass n_CIM14_IEC61968_Customers_ServiceLocation_ServiceLocation n_ServiceLocation (Some n_CIM14_IEC61968_Common_Location_Location)
    [(n_siteAccessProblem, TText); (n_accessMethod, TText); (n_needsInspection, TBool)]
    [ERef n_EndDeviceAssets n_CIM14_IEC61968_Metering_EndDeviceAsset_EndDeviceAsset true (Some n_ServiceLocation); ERef n_CustomerAgreements n_CIM14_IEC61968_Customers_CustomerAgreement_CustomerAgreement true (Some n_ServiceLocations); ERef n_ServiceDeliveryPoints n_CIM14_IEC61968_Metering_ServiceDeliveryPoint_ServiceDeliveryPoint true (Some n_ServiceLocation)];
(* Model/CIM14/CIM14.ecore:16492-16520 *)
  EClass n_CIM14_IEC61968_Customers_Tariff_Tariff n_Tariff (Some n_CIM14_IEC61968_Common_Document_Document)
    [(n_startDate, TText); (n_endDate, TText)]
    [ERef n_TariffProfiles n_CIM14_IEC61968_PaymentMetering_TariffProfile_TariffProfile true (Some n_Tariffs); ERef n_PricingStructures n_CIM14_IEC61968_Customers_PricingStructure_PricingStructure true (Some n_Tariffs)];
(* Model/CIM14/CIM14.ecore:12074-12090 *)
  EClass n_CIM14_IEC61968_IEC61968CIMVersion_IEC61968CIMVersion n_IEC61968CIMVersion (Some n_CIM14_Element_Element)
    [(n_date, TDate); (n_version, TText)]
    [];
(* Model/CIM14/CIM14.ecore:16655-16712 *)
  EClass n_CIM14_IEC61968_LoadControl_ConnectDisconnectFunction_ConnectDisconnectFunction n_ConnectDisconnectFunction (Some n_CIM14_IEC61968_Metering_DeviceFunction_DeviceFunction)
    [(n_isLocalAutoReconOp, TBool); (n_isLocalAutoDisconOp, TBool); (n_isRemoteAutoReconOp, TBool); (n_isRemoteAutoDisconOp, TBool); (n_isConnected, TBool); (n_eventCount, TInt); (n_isDelayedDiscon, TBool)]
    [ERef n_rcdInfo n_CIM14_IEC61968_LoadControl_RemoteConnectDisconnectInfo_RemoteConnectDisconnectInfo false None; ERef n_Switches n_CIM14_IEC61970_Wires_Switch_Switch true (Some n_ConnectDisconnectFunctions)];
(* Model/CIM14/CIM14.ecore:16575-16654 *)
  EClass n_CIM14_IEC61968_LoadControl_RemoteConnectDisconnectInfo_RemoteConnectDisconnectInfo n_RemoteConnectDisconnectInfo (Some n_CIM14_Element_Element)
    [(n_needsPowerLimitCheck, TBool); (n_isEnergyLimiting, TBool); (n_isArmConnect, TBool); (n_energyUsageWarning, TFloat); (n_armedTimeout, TFloat); (n_energyUsageStartDateTime, TDate); (n_isArmDisconnect, TBool); (n_needsVoltageLimitCheck, TBool); (n_powerLimit, TFloat); (n_usePushbutton, TBool); (n_customerVoltageLimit, TFloat); (n_energyLimit, TFloat)]
    [];
(* Model/CIM14/CIM14.ecore:12392-12414 *)
  EClass n_CIM14_IEC61968_Metering_ComFunction_ComFunction n_ComFunction (Some n_CIM14_IEC61968_Metering_DeviceFunction_DeviceFunction)
    [(n_amrRouter, TText); (n_twoWay, TBool); (n_amrAddress, TText)]
    [];
(* Model/CIM14/CIM14.ecore:12959-12992 *)
  EClass n_CIM14_IEC61968_Metering_DemandResponseProgram_DemandResponseProgram n_DemandResponseProgram (Some n_CIM14_IEC61970_Core_IdentifiedObject_IdentifiedObject)
    [(n_type, TText)]
    [ERef n_CustomerAgreements n_CIM14_IEC61968_Customers_CustomerAgreement_CustomerAgreement true (Some n_DemandResponseProgram); ERef n_EndDeviceControls n_CIM14_IEC61968_Metering_EndDeviceControl_EndDeviceControl true (Some n_DemandResponseProgram); ERef n_validityInterval n_CIM14_IEC61968_Common_DateTimeInterval_DateTimeInterval false None; ERef n_EndDeviceGroups n_CIM14_IEC61968_Metering_EndDeviceGroup_EndDeviceGroup true (Some n_DemandResponseProgram)];
(* Model/CIM14/CIM14.ecore:12363-12391 *)
  EClass n_CIM14_IEC61968_Metering_DeviceFunction_DeviceFunction n_DeviceFunction (Some n_CIM14_IEC61968_Assets_AssetFunction_AssetFunction)
    [(n_disabled, TBool)]
    [ERef n_EndDeviceAsset n_CIM14_IEC61968_Metering_EndDeviceAsset_EndDeviceAsset false (Some n_DeviceFunctions); ERef n_Registers n_CIM14_IEC61968_Metering_Register_Register true (Some n_DeviceFunction); ERef n_EndDeviceEvents n_CIM14_IEC61968_Metering_EndDeviceEvent_EndDeviceEvent true (Some n_DeviceFunction)];
(* Model/CIM14/CIM14.ecore:13016-13038 *)
  EClass n_CIM14_IEC61968_Metering_DynamicDemand_DynamicDemand n_DynamicDemand (Some n_CIM14_Element_Element)
    [(n_kind, enum_cim14_IEC61968_Metering_DemandKind); (n_interval, TFloat); (n_subInterval, TFloat)]
    [];
(* Model/CIM14/CIM14.ecore:12736-12812 *)
  EClass n_CIM14_IEC61968_Metering_ElectricMeteringFunction_ElectricMeteringFunction n_ElectricMeteringFunction (Some n_CIM14_IEC61968_Metering_DeviceFunction_DeviceFunction)
    [(n_billingMultiplierApplied, TBool); (n_kWMultiplier, TInt); (n_demandMultiplier, TFloat); (n_demandMultiplierApplied, TBool); (n_transformerRatiosApplied, TBool); (n_voltageRating, TFloat); (n_billingMultiplier, TFloat); (n_transformerVTRatio, TFloat); (n_kWhMultiplier, TInt); (n_transformerCTRatio, TFloat); (n_currentRating, TFloat)]
    [];
(* Model/CIM14/CIM14.ecore:12555-12688 *)
  EClass n_CIM14_IEC61968_Metering_EndDeviceAsset_EndDeviceAsset n_EndDeviceAsset (Some n_CIM14_IEC61968_Assets_AssetContainer_AssetContainer)
    [(n_readRequest, TBool); (n_demandResponse, TBool); (n_relayCapable, TBool); (n_amrSystem, TText); (n_ratedCurrent, TFloat); (n_phaseCount, TInt); (n_reverseFlowHandling, TBool); (n_metrology, TBool); (n_timeZoneOffset, TFloat); (n_outageReport, TBool); (n_dstEnabled, TBool); (n_disconnect, TBool); (n_ratedVoltage, TFloat); (n_loadControl, TBool)]
    [ERef n_EndDeviceGroups n_CIM14_IEC61968_Metering_EndDeviceGroup_EndDeviceGroup true (Some n_EndDeviceAssets); ERef n_ServiceLocation n_CIM14_IEC61968_Customers_ServiceLocation_ServiceLocation false (Some n_EndDeviceAssets); ERef n_EndDeviceModel n_CIM14_IEC61968_AssetModels_EndDeviceModel_EndDeviceModel false (Some n_EndDeviceAssets); ERef n_DeviceFunctions n_CIM14_IEC61968_Metering_DeviceFunction_DeviceFunction true (Some n_EndDeviceAsset); ERef n_ServiceDeliveryPoint n_CIM14_IEC61968_Metering_ServiceDeliveryPoint_ServiceDeliveryPoint false (Some n_EndDeviceAssets); ERef n_Readings n_CIM14_IEC61968_Metering_Reading_Reading true (Some n_EndDeviceAsset); ERef n_EndDeviceControls n_CIM14_IEC61968_Metering_EndDeviceControl_EndDeviceControl true (Some n_EndDeviceAsset); ERef n_Customer n_CIM14_IEC61968_Customers_Customer_Customer false (Some n_EndDeviceAssets)];
(* Model/CIM14/CIM14.ecore:12444-12503 *)
  EClass n_CIM14_IEC61968_Metering_EndDeviceControl_EndDeviceControl n_EndDeviceControl (Some n_CIM14_IEC61970_Core_IdentifiedObject_IdentifiedObject)
    [(n_type, TText); (n_drProgramMandatory, TBool); (n_priceSignal, TFloat); (n_drProgramLevel, TInt)]
    [ERef n_EndDeviceGroup n_CIM14_IEC61968_Metering_EndDeviceGroup_EndDeviceGroup false (Some n_EndDeviceControls); ERef n_DemandResponseProgram n_CIM14_IEC61968_Metering_DemandResponseProgram_DemandResponseProgram false (Some n_EndDeviceControls); ERef n_CustomerAgreement n_CIM14_IEC61968_Customers_CustomerAgreement_CustomerAgreement false (Some n_EndDeviceControls); ERef n_EndDeviceAsset n_CIM14_IEC61968_Metering_EndDeviceAsset_EndDeviceAsset false (Some n_EndDeviceControls); ERef n_scheduledInterval n_CIM14_IEC61968_Common_DateTimeInterval_DateTimeInterval false None];
(* Model/CIM14/CIM14.ecore:12993-13015 *)
  EClass n_CIM14_IEC61968_Metering_EndDeviceEvent_EndDeviceEvent n_EndDeviceEvent (Some n_CIM14_IEC61968_Common_ActivityRecord_ActivityRecord)
    [(n_userID, TText)]
    [ERef n_MeterReading n_CIM14_IEC61968_Metering_MeterReading_MeterReading false (Some n_EndDeviceEvents); ERef n_DeviceFunction n_CIM14_IEC61968_Metering_DeviceFunction_DeviceFunction false (Some n_EndDeviceEvents)];
(* Model/CIM14/CIM14.ecore:12813-12841 *)
  EClass n_CIM14_IEC61968_Metering_EndDeviceGroup_EndDeviceGroup n_EndDeviceGroup (Some n_CIM14_IEC61970_Core_IdentifiedObject_IdentifiedObject)
    [(n_groupAddress, TInt)]
    [ERef n_EndDeviceAssets n_CIM14_IEC61968_Metering_EndDeviceAsset_EndDeviceAsset true (Some n_EndDeviceGroups); ERef n_EndDeviceControls n_CIM14_IEC61968_Metering_EndDeviceControl_EndDeviceControl true (Some n_EndDeviceGroup); ERef n_DemandResponseProgram n_CIM14_IEC61968_Metering_DemandResponseProgram_DemandResponseProgram false (Some n_EndDeviceGroups)];
(* Model/CIM14/CIM14.ecore:13330-13358 *)
  EClass n_CIM14_IEC61968_Metering_IntervalBlock_IntervalBlock n_IntervalBlock (Some n_CIM14_Element_Element)
    []
    [ERef n_MeterReading n_CIM14_IEC61968_Metering_MeterReading_MeterReading false (Some n_IntervalBlocks); ERef n_Pending n_CIM14_IEC61968_Metering_Pending_Pending false (Some n_IntervalBlocks); ERef n_ReadingType n_CIM14_IEC61968_Metering_ReadingType_ReadingType false (Some n_IntervalBlocks); ERef n_IntervalReadings n_CIM14_IEC61968_Metering_IntervalReading_IntervalReading true (Some n_IntervalBlocks)];
(* Model/CIM14/CIM14.ecore:12890-12912 *)
  EClass n_CIM14_IEC61968_Metering_IntervalReading_IntervalReading n_IntervalReading (Some n_CIM14_IEC61970_Meas_MeasurementValue_MeasurementValue)
    [(n_value, TFloat)]
    [ERef n_ReadingQualities n_CIM14_IEC61968_Metering_ReadingQuality_ReadingQuality true (Some n_IntervalReading); ERef n_IntervalBlocks n_CIM14_IEC61968_Metering_IntervalBlock_IntervalBlock true (Some n_IntervalReadings)];
(* Model/CIM14/CIM14.ecore:12689-12735 *)
  EClass n_CIM14_IEC61968_Metering_MeterAsset_MeterAsset n_MeterAsset (Some n_CIM14_IEC61968_Metering_EndDeviceAsset_EndDeviceAsset)
    [(n_kH, TFloat); (n_kR, TFloat); (n_formNumber, TText)]
    [ERef n_MeterReplacementWorks n_CIM14_IEC61968_Metering_MeterServiceWork_MeterServiceWork true (Some n_OldMeterAsset); ERef n_MeterServiceWorks n_CIM14_IEC61968_Metering_MeterServiceWork_MeterServiceWork true (Some n_MeterAsset); ERef n_MeterReadings n_CIM14_IEC61968_Metering_MeterReading_MeterReading true (Some n_MeterAsset); ERef n_VendingTransactions n_CIM14_IEC61968_PaymentMetering_Transaction_Transaction true (Some n_MeterAsset)];
(* Model/CIM14/CIM14.ecore:12913-12958 *)
  EClass n_CIM14_IEC61968_Metering_MeterReading_MeterReading n_MeterReading (Some n_CIM14_IEC61970_Core_IdentifiedObject_IdentifiedObject)
    []
    [ERef n_IntervalBlocks n_CIM14_IEC61968_Metering_IntervalBlock_IntervalBlock true (Some n_MeterReading); ERef n_CustomerAgreement n_CIM14_IEC61968_Customers_CustomerAgreement_CustomerAgreement false (Some n_MeterReadings); ERef n_MeterAsset n_CIM14_IEC61968_Metering_MeterAsset_MeterAsset false (Some n_MeterReadings); ERef n_EndDeviceEvents n_CIM14_IEC61968_Metering_EndDeviceEvent_EndDeviceEvent true (Some n_MeterReading); ERef n_Readings n_CIM14_IEC61968_Metering_Reading_Reading true (Some n_MeterReadings); ERef n_ServiceDeliveryPoint n_CIM14_IEC61968_Metering_ServiceDeliveryPoint_ServiceDeliveryPoint false (Some n_MeterReadings); ERef n_valuesInterval n_CIM14_IEC61968_Common_DateTimeInterval_DateTimeInterval false None];
(* Model/CIM14/CIM14.ecore:13039-13055 *)
  EClass n_CIM14_IEC61968_Metering_MeterServiceWork_MeterServiceWork n_MeterServiceWork (Some n_CIM14_IEC61968_Work_Work_Work)
    []
    [ERef n_OldMeterAsset n_CIM14_IEC61968_Metering_MeterAsset_MeterAsset false (Some n_MeterReplacementWorks); ERef n_MeterAsset n_CIM14_IEC61968_Metering_MeterAsset_MeterAsset false (Some n_MeterServiceWorks)];
(* Model/CIM14/CIM14.ecore:12842-12889 *)
  EClass n_CIM14_IEC61968_Metering_Pending_Pending n_Pending (Some n_CIM14_Element_Element)
    [(n_scalarDenominator, TInt); (n_scalarFloat, TFloat); (n_scalarNumerator, TInt); (n_multiplyBeforeAdd, TBool); (n_offset, TInt)]
    [ERef n_IntervalBlocks n_CIM14_IEC61968_Metering_IntervalBlock_IntervalBlock true (Some n_Pending); ERef n_ReadingType n_CIM14_IEC61968_Metering_ReadingType_ReadingType false (Some n_Pending)];
(* Model/CIM14/CIM14.ecore:12504-12534 *)
  EClass n_CIM14_IEC61968_Metering_Reading_Reading n_Reading (Some n_CIM14_IEC61970_Meas_MeasurementValue_MeasurementValue)
    [(n_value, TFloat)]
    [ERef n_ReadingType n_CIM14_IEC61968_Metering_ReadingType_ReadingType false (Some n_Readings); ERef n_ReadingQualities n_CIM14_IEC61968_Metering_ReadingQuality_ReadingQuality true (Some n_Reading); ERef n_EndDeviceAsset n_CIM14_IEC61968_Metering_EndDeviceAsset_EndDeviceAsset false (Some n_Readings); ERef n_MeterReadings n_CIM14_IEC61968_Metering_MeterReading_MeterReading true (Some n_Readings)];
(* Model/CIM14/CIM14.ecore:13307-13329 *)
  EClass n_CIM14_IEC61968_Metering_ReadingQuality_ReadingQuality n_ReadingQuality (Some n_CIM14_Element_Element)
    [(n_quality, TText)]
    [ERef n_IntervalReading n_CIM14_IEC61968_Metering_IntervalReading_IntervalReading false (Some n_ReadingQualities); ERef n_Reading n_CIM14_IEC61968_Metering_Reading_Reading false (Some n_ReadingQualities)];
(* Model/CIM14/CIM14.ecore:13186-13270 *)
  EClass n_CIM14_IEC61968_Metering_ReadingType_ReadingType n_ReadingType (Some n_CIM14_IEC61970_Core_IdentifiedObject_IdentifiedObject)
    [(n_multiplier, enum_cim14_IEC61970_Domain_UnitMultiplier); (n_kind, enum_cim14_IEC61968_Metering_ReadingKind); (n_unit, enum_cim14_IEC61970_Domain_UnitSymbol); (n_reverseChronology, TBool); (n_defaultQuality, TText); (n_defaultValueDataType, TText); (n_channelNumber, TInt); (n_intervalLength, TFloat)]
    [ERef n_Readings n_CIM14_IEC61968_Metering_Reading_Reading true (Some n_ReadingType); ERef n_dynamicConfiguration n_CIM14_IEC61968_Metering_DynamicDemand_DynamicDemand false None; ERef n_IntervalBlocks n_CIM14_IEC61968_Metering_IntervalBlock_IntervalBlock true (Some n_ReadingType); ERef n_Pending n_CIM14_IEC61968_Metering_Pending_Pending false (Some n_ReadingType); ERef n_Register n_CIM14_IEC61968_Metering_Register_Register false (Some n_ReadingType)];
(* Model/CIM14/CIM14.ecore:12415-12443 *)
  EClass n_CIM14_IEC61968_Metering_Register_Register n_Register (Some n_CIM14_IEC61970_Core_IdentifiedObject_IdentifiedObject)
    [(n_leftDigitCount, TInt); (n_rightDigitCount, TInt)]
    [ERef n_ReadingType n_CIM14_IEC61968_Metering_ReadingType_ReadingType false (Some n_Register); ERef n_DeviceFunction n_CIM14_IEC61968_Metering_DeviceFunction_DeviceFunction false (Some n_Registers)];
(* Model/CIM14/CIM14.ecore:13271-13306 *)
  EClass n_CIM14_IEC61968_Metering_SDPLocation_SDPLocation n_SDPLocation (Some n_CIM14_IEC61968_Common_Location_Location)
    [(n_remark, TText); (n_siteAccessProblem, TText); (n_occupancyDate, TText); (n_accessMethod, TText)]
    [ERef n_ServiceDeliveryPoints n_CIM14_IEC61968_Metering_ServiceDeliveryPoint_ServiceDeliveryPoint true (Some n_SDPLocations)];
(* Model/CIM14/CIM14.ecore:13064-13185 *)
  EClass n_CIM14_IEC61968_Metering_ServiceDeliveryPoint_ServiceDeliveryPoint n_ServiceDeliveryPoint (Some n_CIM14_IEC61970_Core_IdentifiedObject_IdentifiedObject)
    [(n_phaseCode, enum_cim14_IEC61970_Core_PhaseCode); (n_ratedPower, TFloat); (n_servicePriority, TText); (n_checkBilling, TBool); (n_grounded, TBool); (n_serviceDeliveryRemark, TText); (n_ratedCurrent, TFloat); (n_estimatedLoad, TFloat); (n_nominalServiceVoltage, TInt); (n_ctptReference, TInt)]
    [ERef n_PricingStructures n_CIM14_IEC61968_Customers_PricingStructure_PricingStructure true (Some n_ServiceDeliveryPoints); ERef n_Transformer n_CIM14_IEC61968_WiresExt_DistributionTransformer_DistributionTransformer false (Some n_ServiceDeliveryPoints); ERef n_SDPLocations n_CIM14_IEC61968_Metering_SDPLocation_SDPLocation true (Some n_ServiceDeliveryPoints); ERef n_EndDeviceAssets n_CIM14_IEC61968_Metering_EndDeviceAsset_EndDeviceAsset true (Some n_ServiceDeliveryPoint); ERef n_EnergyConsumer n_CIM14_IEC61970_Wires_EnergyConsumer_EnergyConsumer false (Some n_ServiceDeliveryPoints); ERef n_ServiceLocation n_CIM14_IEC61968_Customers_ServiceLocation_ServiceLocation false (Some n_ServiceDeliveryPoints); ERef n_CustomerAgreement n_CIM14_IEC61968_Customers_CustomerAgreement_CustomerAgreement false (Some n_ServiceDeliveryPoints); ERef n_MeterReadings n_CIM14_IEC61968_Metering_MeterReading_MeterReading true (Some n_ServiceDeliveryPoint); ERef n_ServiceSupplier n_CIM14_IEC61968_PaymentMetering_ServiceSupplier_ServiceSupplier false (Some n_ServiceDeliveryPoints); ERef n_ServiceCategory n_CIM14_IEC61968_Customers_ServiceCategory_ServiceCategory false (Some n_ServiceDeliveryPoints)];
(* Model/CIM14/CIM14.ecore:15740-15762 *)
  EClass n_CIM14_IEC61968_PaymentMetering_AccountMovement_AccountMovement n_AccountMovement (Some n_CIM14_Element_Element)
    [(n_dateTime, TDate); (n_amount, TFloat); (n_reason, TText)]
    [];
(* Model/CIM14/CIM14.ecore:15118-15146 *)
  EClass n_CIM14_IEC61968_PaymentMetering_AccountingUnit_AccountingUnit n_AccountingUnit (Some n_CIM14_Element_Element)
    [(n_multiplier, enum_cim14_IEC61970_Domain_UnitMultiplier); (n_monetaryUnit, enum_cim14_IEC61970_Domain_Currency); (n_energyUnit, TFloat); (n_value, TFloat)]
    [];
(* Model/CIM14/CIM14.ecore:15183-15232 *)
  EClass n_CIM14_IEC61968_PaymentMetering_AuxiliaryAccount_AuxiliaryAccount n_AuxiliaryAccount (Some n_CIM14_IEC61968_Common_Document_Document)
    [(n_balance, TFloat); (n_principleAmount, TFloat)]
    [ERef n_Charges n_CIM14_IEC61968_PaymentMetering_Charge_Charge true (Some n_AuxiliaryAccounts); ERef n_AuxiliaryAgreement n_CIM14_IEC61968_PaymentMetering_AuxiliaryAgreement_AuxiliaryAgreement false (Some n_AuxiliaryAccounts); ERef n_PaymentTransactions n_CIM14_IEC61968_PaymentMetering_Transaction_Transaction true (Some n_AuxiliaryAccount); ERef n_lastDebit n_CIM14_IEC61968_PaymentMetering_AccountMovement_AccountMovement false None; ERef n_lastCredit n_CIM14_IEC61968_PaymentMetering_AccountMovement_AccountMovement false None; ERef n_due n_CIM14_IEC61968_PaymentMetering_Due_Due false None];
(* Model/CIM14/CIM14.ecore:15653-15729 *)
  EClass n_CIM14_IEC61968_PaymentMetering_AuxiliaryAgreement_AuxiliaryAgreement n_AuxiliaryAgreement (Some n_CIM14_IEC61968_Common_Agreement_Agreement)
    [(n_arrearsInterest, TFloat); (n_vendPortion, TFloat); (n_minAmount, TFloat); (n_auxPriorityCode, TText); (n_subCategory, TText); (n_auxRef, TText); (n_auxCycle, TText); (n_vendPortionArrear, TFloat); (n_payCycle, TText); (n_fixedAmount, TFloat)]
    [ERef n_AuxiliaryAccounts n_CIM14_IEC61968_PaymentMetering_AuxiliaryAccount_AuxiliaryAccount true (Some n_AuxiliaryAgreement); ERef n_CustomerAgreement n_CIM14_IEC61968_Customers_CustomerAgreement_CustomerAgreement false (Some n_AuxiliaryAgreements)];
(* Model/CIM14/CIM14.ecore:14968-15002 *)
  EClass n_CIM14_IEC61968_PaymentMetering_BankAccountDetail_BankAccountDetail n_BankAccountDetail (Some n_CIM14_Element_Element)
    [(n_holderName, TText); (n_accountNumber, TText); (n_bankName, TText); (n_branchCode, TText); (n_holderID, TText)]
    [];
(* Model/CIM14/CIM14.ecore:15147-15182 *)
  EClass n_CIM14_IEC61968_PaymentMetering_Card_Card n_Card (Some n_CIM14_Element_Element)
    [(n_pan, TText); (n_expiryDate, TText); (n_cvNumber, TText); (n_accountHolderName, TText)]
    [ERef n_Tender n_CIM14_IEC61968_PaymentMetering_Tender_Tender false (Some n_Card)];
(* Model/CIM14/CIM14.ecore:15567-15589 *)
  EClass n_CIM14_IEC61968_PaymentMetering_Cashier_Cashier n_Cashier (Some n_CIM14_IEC61970_Core_IdentifiedObject_IdentifiedObject)
    []
    [ERef n_CashierShifts n_CIM14_IEC61968_PaymentMetering_CashierShift_CashierShift true (Some n_Cashier); ERef n_electronicAddress n_CIM14_IEC61968_Common_ElectronicAddress_ElectronicAddress false None; ERef n_Vendor n_CIM14_IEC61968_PaymentMetering_Vendor_Vendor false (Some n_Cashiers)];
(* Model/CIM14/CIM14.ecore:15052-15082 *)
  EClass n_CIM14_IEC61968_PaymentMetering_CashierShift_CashierShift n_CashierShift (Some n_CIM14_IEC61968_PaymentMetering_Shift_Shift)
    [(n_cashFloat, TFloat)]
    [ERef n_Receipts n_CIM14_IEC61968_PaymentMetering_Receipt_Receipt true (Some n_CashierShift); ERef n_Transactions n_CIM14_IEC61968_PaymentMetering_Transaction_Transaction true (Some n_CashierShift); ERef n_Cashier n_CIM14_IEC61968_PaymentMetering_Cashier_Cashier false (Some n_CashierShifts); ERef n_PointOfSale n_CIM14_IEC61968_PaymentMetering_PointOfSale_PointOfSale false (Some n_CashierShifts)];
(* Model/CIM14/CIM14.ecore:15455-15504 *)
  EClass n_CIM14_IEC61968_PaymentMetering_Charge_Charge n_Charge (Some n_CIM14_IEC61970_Core_IdentifiedObject_IdentifiedObject)
    [(n_kind, enum_cim14_IEC61968_PaymentMetering_ChargeKind); (n_variablePortion, TFloat)]
    [ERef n_AuxiliaryAccounts n_CIM14_IEC61968_PaymentMetering_AuxiliaryAccount_AuxiliaryAccount true (Some n_Charges); ERef n_ParentCharge n_CIM14_IEC61968_PaymentMetering_Charge_Charge false (Some n_ChildCharges); ERef n_ChildCharges n_CIM14_IEC61968_PaymentMetering_Charge_Charge true (Some n_ParentCharge); ERef n_fixedPortion n_CIM14_IEC61968_PaymentMetering_AccountingUnit_AccountingUnit false None; ERef n_ConsumptionTariffIntervals n_CIM14_IEC61968_PaymentMetering_ConsumptionTariffInterval_ConsumptionTariffInterval true (Some n_Charges); ERef n_TimeTariffIntervals n_CIM14_IEC61968_PaymentMetering_TimeTariffInterval_TimeTariffInterval true (Some n_Charges)];
(* Model/CIM14/CIM14.ecore:15011-15051 *)
  EClass n_CIM14_IEC61968_PaymentMetering_Cheque_Cheque n_Cheque (Some n_CIM14_Element_Element)
    [(n_kind, enum_cim14_IEC61968_PaymentMetering_ChequeKind); (n_micrNumber, TText); (n_date, TText); (n_chequeNumber, TText)]
    [ERef n_Tender n_CIM14_IEC61968_PaymentMetering_Tender_Tender false (Some n_Cheque); ERef n_bankAccountDetail n_CIM14_IEC61968_PaymentMetering_BankAccountDetail_BankAccountDetail false None];
(* Model/CIM14/CIM14.ecore:14939-14967 *)
  EClass n_CIM14_IEC61968_PaymentMetering_ConsumptionTariffInterval_ConsumptionTariffInterval n_ConsumptionTariffInterval (Some n_CIM14_Element_Element)
    [(n_sequenceNumber, TInt); (n_startValue, TFloat)]
    [ERef n_TariffProfiles n_CIM14_IEC61968_PaymentMetering_TariffProfile_TariffProfile true (Some n_ConsumptionTariffIntervals); ERef n_Charges n_CIM14_IEC61968_PaymentMetering_Charge_Charge true (Some n_ConsumptionTariffIntervals)];
(* Model/CIM14/CIM14.ecore:15083-15117 *)
  EClass n_CIM14_IEC61968_PaymentMetering_Due_Due n_Due (Some n_CIM14_Element_Element)
    [(n_interest, TFloat); (n_principle, TFloat); (n_arrears, TFloat); (n_current, TFloat); (n_charges, TFloat)]
    [];
(* Model/CIM14/CIM14.ecore:15244-15272 *)
  EClass n_CIM14_IEC61968_PaymentMetering_LineDetail_LineDetail n_LineDetail (Some n_CIM14_Element_Element)
    [(n_dateTime, TDate); (n_rounding, TFloat); (n_note, TText); (n_amount, TFloat)]
    [];
(* Model/CIM14/CIM14.ecore:15284-15324 *)
  EClass n_CIM14_IEC61968_PaymentMetering_MerchantAccount_MerchantAccount n_MerchantAccount (Some n_CIM14_IEC61968_Common_Document_Document)
    [(n_provisionalBalance, TFloat); (n_currentBalance, TFloat)]
    [ERef n_VendorShifts n_CIM14_IEC61968_PaymentMetering_VendorShift_VendorShift true (Some n_MerchantAccount); ERef n_MerchantAgreement n_CIM14_IEC61968_PaymentMetering_MerchantAgreement_MerchantAgreement false (Some n_MerchantAccounts); ERef n_Vendors n_CIM14_IEC61968_PaymentMetering_Vendor_Vendor true (Some n_MerchantAccount); ERef n_Transactors n_CIM14_IEC61968_PaymentMetering_Transactor_Transactor true (Some n_MerchantAccounts)];
(* Model/CIM14/CIM14.ecore:15233-15243 *)
  EClass n_CIM14_IEC61968_PaymentMetering_MerchantAgreement_MerchantAgreement n_MerchantAgreement (Some n_CIM14_IEC61968_Common_Agreement_Agreement)
    []
    [ERef n_MerchantAccounts n_CIM14_IEC61968_PaymentMetering_MerchantAccount_MerchantAccount true (Some n_MerchantAgreement)];
(* Model/CIM14/CIM14.ecore:15590-15612 *)
  EClass n_CIM14_IEC61968_PaymentMetering_PointOfSale_PointOfSale n_PointOfSale (Some n_CIM14_IEC61970_Core_IdentifiedObject_IdentifiedObject)
    [(n_location, TText)]
    [ERef n_Vendor n_CIM14_IEC61968_PaymentMetering_Vendor_Vendor false (Some n_PointOfSales); ERef n_CashierShifts n_CIM14_IEC61968_PaymentMetering_CashierShift_CashierShift true (Some n_PointOfSale)];
(* Model/CIM14/CIM14.ecore:15613-15652 *)
  EClass n_CIM14_IEC61968_PaymentMetering_Receipt_Receipt n_Receipt (Some n_CIM14_IEC61970_Core_IdentifiedObject_IdentifiedObject)
    [(n_isBankable, TBool)]
    [ERef n_CashierShift n_CIM14_IEC61968_PaymentMetering_CashierShift_CashierShift false (Some n_Receipts); ERef n_Tenders n_CIM14_IEC61968_PaymentMetering_Tender_Tender true (Some n_Receipt); ERef n_VendorShift n_CIM14_IEC61968_PaymentMetering_VendorShift_VendorShift false (Some n_Receipts); ERef n_Transactions n_CIM14_IEC61968_PaymentMetering_Transaction_Transaction true (Some n_Receipt); ERef n_line n_CIM14_IEC61968_PaymentMetering_LineDetail_LineDetail false None];
(* Model/CIM14/CIM14.ecore:14750-14779 *)
  EClass n_CIM14_IEC61968_PaymentMetering_ServiceSupplier_ServiceSupplier n_ServiceSupplier (Some n_CIM14_IEC61968_Common_Organisation_Organisation)
    [(n_kind, enum_cim14_IEC61968_PaymentMetering_SupplierKind); (n_issuerIdentificationNumber, TText)]
    [ERef n_CustomerAgreements n_CIM14_IEC61968_Customers_CustomerAgreement_CustomerAgreement true (Some n_ServiceSupplier); ERef n_ServiceDeliveryPoints n_CIM14_IEC61968_Metering_ServiceDeliveryPoint_ServiceDeliveryPoint true (Some n_ServiceSupplier)];
(* Model/CIM14/CIM14.ecore:14780-14819 *)
  EClass n_CIM14_IEC61968_PaymentMetering_Shift_Shift n_Shift (Some n_CIM14_IEC61970_Core_IdentifiedObject_IdentifiedObject)
    [(n_receiptsGrandTotalNonBankable, TFloat); (n_receiptsGrandTotalBankable, TFloat); (n_receiptsGrandTotalRounding, TFloat); (n_transactionsGrandTotal, TFloat); (n_transactionsGrandTotalRounding, TFloat)]
    [ERef n_activityInterval n_CIM14_IEC61968_Common_DateTimeInterval_DateTimeInterval false None];
(* Model/CIM14/CIM14.ecore:14861-14891 *)
  EClass n_CIM14_IEC61968_PaymentMetering_TariffProfile_TariffProfile n_TariffProfile (Some n_CIM14_IEC61968_Common_Document_Document)
    [(n_tariffCycle, TText)]
    [ERef n_ConsumptionTariffIntervals n_CIM14_IEC61968_PaymentMetering_ConsumptionTariffInterval_ConsumptionTariffInterval true (Some n_TariffProfiles); ERef n_TimeTariffIntervals n_CIM14_IEC61968_PaymentMetering_TimeTariffInterval_TimeTariffInterval true (Some n_TariffProfiles); ERef n_Tariffs n_CIM14_IEC61968_Customers_Tariff_Tariff true (Some n_TariffProfiles)];
(* Model/CIM14/CIM14.ecore:14820-14860 *)
  EClass n_CIM14_IEC61968_PaymentMetering_Tender_Tender n_Tender (Some n_CIM14_IEC61970_Core_IdentifiedObject_IdentifiedObject)
    [(n_kind, enum_cim14_IEC61968_PaymentMetering_TenderKind); (n_amount, TFloat); (n_change, TFloat)]
    [ERef n_Cheque n_CIM14_IEC61968_PaymentMetering_Cheque_Cheque false (Some n_Tender); ERef n_Receipt n_CIM14_IEC61968_PaymentMetering_Receipt_Receipt false (Some n_Tenders); ERef n_Card n_CIM14_IEC61968_PaymentMetering_Card_Card false (Some n_Tender)];
(* Model/CIM14/CIM14.ecore:15538-15566 *)
  EClass n_CIM14_IEC61968_PaymentMetering_TimeTariffInterval_TimeTariffInterval n_TimeTariffInterval (Some n_CIM14_Element_Element)
    [(n_sequenceNumber, TInt); (n_startDateTime, TDate)]
    [ERef n_TariffProfiles n_CIM14_IEC61968_PaymentMetering_TariffProfile_TariffProfile true (Some n_TimeTariffIntervals); ERef n_Charges n_CIM14_IEC61968_PaymentMetering_Charge_Charge true (Some n_TimeTariffIntervals)];
(* Model/CIM14/CIM14.ecore:15354-15454 *)
  EClass n_CIM14_IEC61968_PaymentMetering_Transaction_Transaction n_Transaction (Some n_CIM14_IEC61970_Core_IdentifiedObject_IdentifiedObject)
    [(n_kind, enum_cim14_IEC61968_PaymentMetering_TransactionKind); (n_serviceUnitsEnergy, TFloat); (n_diverseReference, TText); (n_receiverReference, TText); (n_donorReference, TText); (n_serviceUnitsError, TFloat); (n_reversedId, TText)]
    [ERef n_PricingStructure n_CIM14_IEC61968_Customers_PricingStructure_PricingStructure false (Some n_Transactions); ERef n_UserAttributes n_CIM14_IEC61968_Common_UserAttribute_UserAttribute true (Some n_Transaction); ERef n_CustomerAccount n_CIM14_IEC61968_Customers_CustomerAccount_CustomerAccount false (Some n_PaymentTransactions); ERef n_CashierShift n_CIM14_IEC61968_PaymentMetering_CashierShift_CashierShift false (Some n_Transactions); ERef n_VendorShift n_CIM14_IEC61968_PaymentMetering_VendorShift_VendorShift false (Some n_Transactions); ERef n_MeterAsset n_CIM14_IEC61968_Metering_MeterAsset_MeterAsset false (Some n_VendingTransactions); ERef n_AuxiliaryAccount n_CIM14_IEC61968_PaymentMetering_AuxiliaryAccount_AuxiliaryAccount false (Some n_PaymentTransactions); ERef n_line n_CIM14_IEC61968_PaymentMetering_LineDetail_LineDetail false None; ERef n_Receipt n_CIM14_IEC61968_PaymentMetering_Receipt_Receipt false (Some n_Transactions)];
(* Model/CIM14/CIM14.ecore:15273-15283 *)
  EClass n_CIM14_IEC61968_PaymentMetering_Transactor_Transactor n_Transactor (Some n_CIM14_IEC61970_Core_IdentifiedObject_IdentifiedObject)
    []
    [ERef n_MerchantAccounts n_CIM14_IEC61968_PaymentMetering_MerchantAccount_MerchantAccount true (Some n_Transactors)];
(* Model/CIM14/CIM14.ecore:15325-15353 *)
  EClass n_CIM14_IEC61968_PaymentMetering_Vendor_Vendor n_Vendor (Some n_CIM14_IEC61970_Core_IdentifiedObject_IdentifiedObject)
    []
    [ERef n_PointOfSales n_CIM14_IEC61968_PaymentMetering_PointOfSale_PointOfSale true (Some n_Vendor); ERef n_MerchantAccount n_CIM14_IEC61968_PaymentMetering_MerchantAccount_MerchantAccount false (Some n_Vendors); ERef n_Cashiers n_CIM14_IEC61968_PaymentMetering_Cashier_Cashier true (Some n_Vendor); ERef n_VendorShifts n_CIM14_IEC61968_PaymentMetering_VendorShift_VendorShift true (Some n_Vendor)];
(* Model/CIM14/CIM14.ecore:15505-15537 *)
  EClass n_CIM14_IEC61968_PaymentMetering_VendorShift_VendorShift n_VendorShift (Some n_CIM14_IEC61968_PaymentMetering_Shift_Shift)
    [(n_merchantDebitAmount, TFloat); (n_posted, TBool)]
    [ERef n_MerchantAccount n_CIM14_IEC61968_PaymentMetering_MerchantAccount_MerchantAccount false (Some n_VendorShifts); ERef n_Transactions n_CIM14_IEC61968_PaymentMetering_Transaction_Transaction true (Some n_VendorShift); ERef n_Receipts n_CIM14_IEC61968_PaymentMetering_Receipt_Receipt true (Some n_VendorShift); ERef n_Vendor n_CIM14_IEC61968_PaymentMetering_Vendor_Vendor false (Some n_VendorShifts)];
(* Model/CIM14/CIM14.ecore:16040-16062 *)
  EClass n_CIM14_IEC61968_WiresExt_DistributionLineSegment_DistributionLineSegment n_DistributionLineSegment (Some n_CIM14_IEC61970_Wires_ACLineSegment_ACLineSegment)
    []
    [ERef n_ConductorInfo n_CIM14_IEC61968_AssetModels_ConductorInfo_ConductorInfo false (Some n_ConductorSegments); ERef n_PhaseImpedance n_CIM14_IEC61968_WiresExt_PerLengthPhaseImpedance_PerLengthPhaseImpedance false (Some n_ConductorSegments); ERef n_SequenceImpedance n_CIM14_IEC61968_WiresExt_PerLengthSequenceImpedance_PerLengthSequenceImpedance false (Some n_ConductorSegments)];
(* Model/CIM14/CIM14.ecore:15821-15898 *)
  EClass n_CIM14_IEC61968_WiresExt_DistributionTapChanger_DistributionTapChanger n_DistributionTapChanger (Some n_CIM14_IEC61970_Wires_RatioTapChanger_RatioTapChanger)
    [(n_monitoredPhase, enum_cim14_IEC61970_Core_PhaseCode); (n_ptRatio, TFloat); (n_reverseLineDropX, TFloat); (n_ctRating, TFloat); (n_reverseLineDropR, TFloat); (n_lineDropCompensation, TBool); (n_ctRatio, TFloat); (n_targetVoltage, TFloat); (n_limitVoltage, TFloat); (n_lineDropR, TFloat); (n_lineDropX, TFloat); (n_bandVoltage, TFloat)]
    [];
(* Model/CIM14/CIM14.ecore:16063-16091 *)
  EClass n_CIM14_IEC61968_WiresExt_DistributionTransformer_DistributionTransformer n_DistributionTransformer (Some n_CIM14_IEC61970_Core_Equipment_Equipment)
    []
    [ERef n_Windings n_CIM14_IEC61968_WiresExt_DistributionTransformerWinding_DistributionTransformerWinding true (Some n_Transformer); ERef n_ServiceDeliveryPoints n_CIM14_IEC61968_Metering_ServiceDeliveryPoint_ServiceDeliveryPoint true (Some n_Transformer); ERef n_TransformerBank n_CIM14_IEC61968_WiresExt_TransformerBank_TransformerBank false (Some n_Transformers); ERef n_TransformerInfo n_CIM14_IEC61968_AssetModels_TransformerInfo_TransformerInfo false (Some n_Transformers)];
(* Model/CIM14/CIM14.ecore:16092-16145 *)
  EClass n_CIM14_IEC61968_WiresExt_DistributionTransformerWinding_DistributionTransformerWinding n_DistributionTransformerWinding (Some n_CIM14_IEC61970_Core_ConductingEquipment_ConductingEquipment)
    [(n_grounded, TBool); (n_xground, TFloat); (n_rground, TFloat)]
    [ERef n_Transformer n_CIM14_IEC61968_WiresExt_DistributionTransformer_DistributionTransformer false (Some n_Windings); ERef n_WindingInfo n_CIM14_IEC61968_AssetModels_WindingInfo_WindingInfo false (Some n_Windings); ERef n_RatioTapChanger n_CIM14_IEC61970_Wires_RatioTapChanger_RatioTapChanger false (Some n_Winding); ERef n_PiImpedance n_CIM14_IEC61968_WiresExt_WindingPiImpedance_WindingPiImpedance false (Some n_Windings); ERef n_PhaseTapChanger n_CIM14_IEC61970_Wires_PhaseTapChanger_PhaseTapChanger false (Some n_Winding)];
(* Model/CIM14/CIM14.ecore:15899-15921 *)
  EClass n_CIM14_IEC61968_WiresExt_PerLengthPhaseImpedance_PerLengthPhaseImpedance n_PerLengthPhaseImpedance (Some n_CIM14_IEC61970_Core_IdentifiedObject_IdentifiedObject)
    [(n_conductorCount, TInt)]
    [ERef n_ConductorSegments n_CIM14_IEC61968_WiresExt_DistributionLineSegment_DistributionLineSegment true (Some n_PhaseImpedance); ERef n_PhaseImpedanceData n_CIM14_IEC61968_WiresExt_PhaseImpedanceData_PhaseImpedanceData true (Some n_PhaseImpedance)];
(* Model/CIM14/CIM14.ecore:15922-15980 *)
  EClass n_CIM14_IEC61968_WiresExt_PerLengthSequenceImpedance_PerLengthSequenceImpedance n_PerLengthSequenceImpedance (Some n_CIM14_IEC61970_Core_IdentifiedObject_IdentifiedObject)
    [(n_r0, TFloat); (n_r, TFloat); (n_b0ch, TFloat); (n_x0, TFloat); (n_gch, TFloat); (n_g0ch, TFloat); (n_bch, TFloat); (n_x, TFloat)]
    [ERef n_ConductorSegments n_CIM14_IEC61968_WiresExt_DistributionLineSegment_DistributionLineSegment true (Some n_SequenceImpedance)];
(* Model/CIM14/CIM14.ecore:15786-15820 *)
  EClass n_CIM14_IEC61968_WiresExt_PhaseImpedanceData_PhaseImpedanceData n_PhaseImpedanceData (Some n_CIM14_Element_Element)
    [(n_r, TFloat); (n_x, TFloat); (n_sequenceNumber, TInt); (n_b, TFloat)]
    [ERef n_PhaseImpedance n_CIM14_IEC61968_WiresExt_PerLengthPhaseImpedance_PerLengthPhaseImpedance false (Some n_PhaseImpedanceData)];
(* Model/CIM14/CIM14.ecore:15769-15785 *)
  EClass n_CIM14_IEC61968_WiresExt_TransformerBank_TransformerBank n_TransformerBank (Some n_CIM14_IEC61970_Core_Equipment_Equipment)
    [(n_vectorGroup, TText)]
    [ERef n_Transformers n_CIM14_IEC61968_WiresExt_DistributionTransformer_DistributionTransformer true (Some n_TransformerBank)];
(* Model/CIM14/CIM14.ecore:15981-16039 *)
  EClass n_CIM14_IEC61968_WiresExt_WindingPiImpedance_WindingPiImpedance n_WindingPiImpedance (Some n_CIM14_IEC61970_Core_IdentifiedObject_IdentifiedObject)
    [(n_g, TFloat); (n_b, TFloat); (n_r, TFloat); (n_x0, TFloat); (n_x, TFloat); (n_r0, TFloat); (n_b0, TFloat); (n_g0, TFloat)]
    [ERef n_Windings n_CIM14_IEC61968_WiresExt_DistributionTransformerWinding_DistributionTransformerWinding true (Some n_PiImpedance)];
(* Model/CIM14/CIM14.ecore:16540-16568 *)
  EClass n_CIM14_IEC61968_Work_Work_Work n_Work (Some n_CIM14_IEC61968_Common_Document_Document)
    [(n_kind, enum_cim14_IEC61968_Work_WorkKind); (n_priority, TText); (n_requestDateTime, TDate)]
    [ERef n_Customers n_CIM14_IEC61968_Customers_Customer_Customer true (Some n_Works)];
(* Model/CIM14/CIM14.ecore:7128-7144 *)
  EClass n_CIM14_IEC61970_Contingency_Contingency_Contingency n_Contingency (Some n_CIM14_IEC61970_Core_IdentifiedObject_IdentifiedObject)
    [(n_mustStudy, TBool)]
    [ERef n_ContingencyElement n_CIM14_IEC61970_Contingency_ContingencyElement_ContingencyElement true (Some n_Contingency)];
(* Model/CIM14/CIM14.ecore:7100-7110 *)
  EClass n_CIM14_IEC61970_Contingency_ContingencyElement_ContingencyElement n_ContingencyElement (Some n_CIM14_IEC61970_Core_IdentifiedObject_IdentifiedObject)
    []
    [ERef n_Contingency n_CIM14_IEC61970_Contingency_Contingency_Contingency false (Some n_ContingencyElement)];
(* Model/CIM14/CIM14.ecore:7111-7127 *)
  EClass n_CIM14_IEC61970_Contingency_ContingencyEquipment_ContingencyEquipment n_ContingencyEquipment (Some n_CIM14_IEC61970_Contingency_ContingencyElement_ContingencyElement)
    [(n_contingentStatus, enum_cim14_IEC61970_Contingency_ContingencyEquipmentStatusKind)]
    [ERef n_Equipment n_CIM14_IEC61970_Core_Equipment_Equipment false (Some n_ContingencyEquipment)];
(* Model/CIM14/CIM14.ecore:7339-7361 *)
  EClass n_CIM14_IEC61970_ControlArea_AltGeneratingUnitMeas_AltGeneratingUnitMeas n_AltGeneratingUnitMeas (Some n_CIM14_Element_Element)
    [(n_priority, TInt)]
    [ERef n_ControlAreaGeneratingUnit n_CIM14_IEC61970_ControlArea_ControlAreaGeneratingUnit_ControlAreaGeneratingUnit false (Some n_AltGeneratingUnitMeas); ERef n_AnalogValue n_CIM14_IEC61970_Meas_AnalogValue_AnalogValue false (Some n_AltGeneratingUnit)];
(* Model/CIM14/CIM14.ecore:7308-7330 *)
  EClass n_CIM14_IEC61970_ControlArea_AltTieMeas_AltTieMeas n_AltTieMeas (Some n_CIM14_Element_Element)
    [(n_priority, TInt)]
    [ERef n_AnalogValue n_CIM14_IEC61970_Meas_AnalogValue_AnalogValue false (Some n_AltTieMeas); ERef n_TieFlow n_CIM14_IEC61970_ControlArea_TieFlow_TieFlow false (Some n_AltTieMeas)];
(* Model/CIM14/CIM14.ecore:7362-7403 *)
  EClass n_CIM14_IEC61970_ControlArea_ControlArea_ControlArea n_ControlArea (Some n_CIM14_IEC61970_Core_PowerSystemResource_PowerSystemResource)
    [(n_type, enum_cim14_IEC61970_ControlArea_ControlAreaTypeKind); (n_netInterchange, TFloat); (n_pTolerance, TFloat)]
    [ERef n_TieFlow n_CIM14_IEC61970_ControlArea_TieFlow_TieFlow true (Some n_ControlArea); ERef n_EnergyArea n_CIM14_IEC61970_LoadModel_EnergyArea_EnergyArea false (Some n_ControlArea); ERef n_ControlAreaGeneratingUnit n_CIM14_IEC61970_ControlArea_ControlAreaGeneratingUnit_ControlAreaGeneratingUnit true (Some n_ControlArea)];
(* Model/CIM14/CIM14.ecore:7433-7456 *)
  EClass n_CIM14_IEC61970_ControlArea_ControlAreaGeneratingUnit_ControlAreaGeneratingUnit n_ControlAreaGeneratingUnit (Some n_CIM14_Element_Element)
    []
    [ERef n_AltGeneratingUnitMeas n_CIM14_IEC61970_ControlArea_AltGeneratingUnitMeas_AltGeneratingUnitMeas true (Some n_ControlAreaGeneratingUnit); ERef n_ControlArea n_CIM14_IEC61970_ControlArea_ControlArea_ControlArea false (Some n_ControlAreaGeneratingUnit); ERef n_GeneratingUnit n_CIM14_IEC61970_Generation_Production_GeneratingUnit_GeneratingUnit false (Some n_ControlAreaGeneratingUnit)];
(* Model/CIM14/CIM14.ecore:7404-7432 *)
  EClass n_CIM14_IEC61970_ControlArea_TieFlow_TieFlow n_TieFlow (Some n_CIM14_Element_Element)
    [(n_positiveFlowIn, TBool)]
    [ERef n_ControlArea n_CIM14_IEC61970_ControlArea_ControlArea_ControlArea false (Some n_TieFlow); ERef n_AltTieMeas n_CIM14_IEC61970_ControlArea_AltTieMeas_AltTieMeas true (Some n_TieFlow); ERef n_Terminal n_CIM14_IEC61970_Core_Terminal_Terminal false (Some n_TieFlow)];
(* Model/CIM14/CIM14.ecore:709-719 *)
  EClass n_CIM14_IEC61970_Core_BasePower_BasePower n_BasePower (Some n_CIM14_IEC61970_Core_IdentifiedObject_IdentifiedObject)
    [(n_basePower, TFloat)]
    [];
(* Model/CIM14/CIM14.ecore:756-790 *)
  EClass n_CIM14_IEC61970_Core_BaseVoltage_BaseVoltage n_BaseVoltage (Some n_CIM14_IEC61970_Core_IdentifiedObject_IdentifiedObject)
    [(n_nominalVoltage, TFloat); (n_isDC, TBool)]
    [ERef n_ConductingEquipment n_CIM14_IEC61970_Core_ConductingEquipment_ConductingEquipment true (Some n_BaseVoltage); ERef n_VoltageLevel n_CIM14_IEC61970_Core_VoltageLevel_VoltageLevel true (Some n_BaseVoltage); ERef n_TopologicalNode n_CIM14_IEC61970_Topology_TopologicalNode_TopologicalNode true (Some n_BaseVoltage)];
(* Model/CIM14/CIM14.ecore:330-364 *)
  EClass n_CIM14_IEC61970_Core_BasicIntervalSchedule_BasicIntervalSchedule n_BasicIntervalSchedule (Some n_CIM14_IEC61970_Core_IdentifiedObject_IdentifiedObject)
    [(n_value2Multiplier, enum_cim14_IEC61970_Domain_UnitMultiplier); (n_value2Unit, enum_cim14_IEC61970_Domain_UnitSymbol); (n_value1Multiplier, enum_cim14_IEC61970_Domain_UnitMultiplier); (n_value1Unit, enum_cim14_IEC61970_Domain_UnitSymbol); (n_startTime, TDate)]
    [];
(* Model/CIM14/CIM14.ecore:462-503 *)
  EClass n_CIM14_IEC61970_Core_Bay_Bay n_Bay (Some n_CIM14_IEC61970_Core_EquipmentContainer_EquipmentContainer)
    [(n_busBarConfiguration, enum_cim14_IEC61970_Core_BusbarConfiguration); (n_breakerConfiguration, enum_cim14_IEC61970_Core_BreakerConfiguration); (n_bayPowerMeasFlag, TBool); (n_bayEnergyMeasFlag, TBool)]
    [ERef n_Substation n_CIM14_IEC61970_Core_Substation_Substation false (Some n_Bays); ERef n_VoltageLevel n_CIM14_IEC61970_Core_VoltageLevel_VoltageLevel false (Some n_Bays)];
(* Model/CIM14/CIM14.ecore:201-241 *)
  EClass n_CIM14_IEC61970_Core_ConductingEquipment_ConductingEquipment n_ConductingEquipment (Some n_CIM14_IEC61970_Core_Equipment_Equipment)
    [(n_phases, enum_cim14_IEC61970_Core_PhaseCode)]
    [ERef n_ClearanceTags n_CIM14_IEC61970_Outage_ClearanceTag_ClearanceTag true (Some n_ConductingEquipment); ERef n_SvStatus n_CIM14_IEC61970_StateVariables_SvStatus_SvStatus false (Some n_ConductingEquipment); ERef n_Terminals n_CIM14_IEC61970_Core_Terminal_Terminal true (Some n_ConductingEquipment); ERef n_BaseVoltage n_CIM14_IEC61970_Core_BaseVoltage_BaseVoltage false (Some n_ConductingEquipment); ERef n_ProtectionEquipments n_CIM14_IEC61970_Protection_ProtectionEquipment_ProtectionEquipment true (Some n_ConductingEquipments)];
(* Model/CIM14/CIM14.ecore:680-708 *)
  EClass n_CIM14_IEC61970_Core_ConnectivityNode_ConnectivityNode n_ConnectivityNode (Some n_CIM14_IEC61970_Core_IdentifiedObject_IdentifiedObject)
    []
    [ERef n_TopologicalNode n_CIM14_IEC61970_Topology_TopologicalNode_TopologicalNode false (Some n_ConnectivityNodes); ERef n_BusNameMarker n_CIM14_IEC61970_Topology_BusNameMarker_BusNameMarker false (Some n_ConnectivityNode); ERef n_ConnectivityNodeContainer n_CIM14_IEC61970_Core_ConnectivityNodeContainer_ConnectivityNodeContainer false (Some n_ConnectivityNodes); ERef n_Terminals n_CIM14_IEC61970_Core_Terminal_Terminal true (Some n_ConnectivityNode)];
(* Model/CIM14/CIM14.ecore:399-415 *)
  EClass n_CIM14_IEC61970_Core_ConnectivityNodeContainer_ConnectivityNodeContainer n_ConnectivityNodeContainer (Some n_CIM14_IEC61970_Core_PowerSystemResource_PowerSystemResource)
    []
    [ERef n_ConnectivityNodes n_CIM14_IEC61970_Core_ConnectivityNode_ConnectivityNode true (Some n_ConnectivityNodeContainer); ERef n_TopologicalNode n_CIM14_IEC61970_Topology_TopologicalNode_TopologicalNode true (Some n_ConnectivityNodeContainer)];
(* Model/CIM14/CIM14.ecore:265-329 *)
  EClass n_CIM14_IEC61970_Core_Curve_Curve n_Curve (Some n_CIM14_IEC61970_Core_IdentifiedObject_IdentifiedObject)
    [(n_y2Multiplier, enum_cim14_IEC61970_Domain_UnitMultiplier); (n_y3Multiplier, enum_cim14_IEC61970_Domain_UnitMultiplier); (n_y1Unit, enum_cim14_IEC61970_Domain_UnitSymbol); (n_xMultiplier, enum_cim14_IEC61970_Domain_UnitMultiplier); (n_y3Unit, enum_cim14_IEC61970_Domain_UnitSymbol); (n_xUnit, enum_cim14_IEC61970_Domain_UnitSymbol); (n_y1Multiplier, enum_cim14_IEC61970_Domain_UnitMultiplier); (n_curveStyle, enum_cim14_IEC61970_Core_CurveStyle); (n_y2Unit, enum_cim14_IEC61970_Domain_UnitSymbol)]
    [ERef n_CurveDatas n_CIM14_IEC61970_Core_CurveData_CurveData true (Some n_Curve)];
(* Model/CIM14/CIM14.ecore:427-461 *)
  EClass n_CIM14_IEC61970_Core_CurveData_CurveData n_CurveData (Some n_CIM14_Element_Element)
    [(n_y3value, TFloat); (n_xvalue, TFloat); (n_y2value, TFloat); (n_y1value, TFloat)]
    [ERef n_Curve n_CIM14_IEC61970_Core_Curve_Curve false (Some n_CurveDatas)];
(* Model/CIM14/CIM14.ecore:162-200 *)
  EClass n_CIM14_IEC61970_Core_Equipment_Equipment n_Equipment (Some n_CIM14_IEC61970_Core_PowerSystemResource_PowerSystemResource)
    [(n_normaIlyInService, TBool); (n_aggregate, TBool)]
    [ERef n_OperationalLimitSet n_CIM14_IEC61970_OperationalLimits_OperationalLimitSet_OperationalLimitSet true (Some n_Equipment); ERef n_ContingencyEquipment n_CIM14_IEC61970_Contingency_ContingencyEquipment_ContingencyEquipment true (Some n_Equipment); ERef n_EquipmentContainer n_CIM14_IEC61970_Core_EquipmentContainer_EquipmentContainer false (Some n_Equipments); ERef n_CustomerAgreements n_CIM14_IEC61968_Customers_CustomerAgreement_CustomerAgreement true (Some n_Equipments)];
(* Model/CIM14/CIM14.ecore:416-426 *)
  EClass n_CIM14_IEC61970_Core_EquipmentContainer_EquipmentContainer n_EquipmentContainer (Some n_CIM14_IEC61970_Core_ConnectivityNodeContainer_ConnectivityNodeContainer)
    []
    [ERef n_Equipments n_CIM14_IEC61970_Core_Equipment_Equipment true (Some n_EquipmentContainer)];
(* Model/CIM14/CIM14.ecore:515-525 *)
  EClass n_CIM14_IEC61970_Core_GeographicalRegion_GeographicalRegion n_GeographicalRegion (Some n_CIM14_IEC61970_Core_IdentifiedObject_IdentifiedObject)
    []
    [ERef n_Regions n_CIM14_IEC61970_Core_SubGeographicalRegion_SubGeographicalRegion true (Some n_Region)];
(* Model/CIM14/CIM14.ecore:60-106 *)
  EClass n_CIM14_IEC61970_Core_IdentifiedObject_IdentifiedObject n_IdentifiedObject (Some n_CIM14_Element_Element)
    [(n_pathName, TText); (n_aliasName, TText); (n_mRID, TText); (n_name, TText); (n_description, TText); (n_localName, TText)]
    [ERef n_ModelingAuthoritySet n_CIM14_IEC61970_Informative_InfCore_ModelingAuthoritySet_ModelingAuthoritySet false (Some n_IdentifiedObjects)];
(* Model/CIM14/CIM14.ecore:365-375 *)
  EClass n_CIM14_IEC61970_Core_IrregularIntervalSchedule_IrregularIntervalSchedule n_IrregularIntervalSchedule (Some n_CIM14_IEC61970_Core_BasicIntervalSchedule_BasicIntervalSchedule)
    []
    [ERef n_TimePoints n_CIM14_IEC61970_Core_IrregularTimePoint_IrregularTimePoint true (Some n_IntervalSchedule)];
(* Model/CIM14/CIM14.ecore:928-956 *)
  EClass n_CIM14_IEC61970_Core_IrregularTimePoint_IrregularTimePoint n_IrregularTimePoint (Some n_CIM14_Element_Element)
    [(n_time, TFloat); (n_value2, TFloat); (n_value1, TFloat)]
    [ERef n_IntervalSchedule n_CIM14_IEC61970_Core_IrregularIntervalSchedule_IrregularIntervalSchedule false (Some n_TimePoints)];
(* Model/CIM14/CIM14.ecore:626-636 *)
  EClass n_CIM14_IEC61970_Core_OperatingParticipant_OperatingParticipant n_OperatingParticipant (Some n_CIM14_IEC61970_Core_IdentifiedObject_IdentifiedObject)
    []
    [ERef n_OperatingShare n_CIM14_IEC61970_Core_OperatingShare_OperatingShare true (Some n_OperatingParticipant)];
(* Model/CIM14/CIM14.ecore:957-979 *)
  EClass n_CIM14_IEC61970_Core_OperatingShare_OperatingShare n_OperatingShare (Some n_CIM14_Element_Element)
    [(n_percentage, TFloat)]
    [ERef n_PowerSystemResource n_CIM14_IEC61970_Core_PowerSystemResource_PowerSystemResource false (Some n_OperatingShare); ERef n_OperatingParticipant n_CIM14_IEC61970_Core_OperatingParticipant_OperatingParticipant false (Some n_OperatingShare)];
(* Model/CIM14/CIM14.ecore:504-514 *)
  EClass n_CIM14_IEC61970_Core_PSRType_PSRType n_PSRType (Some n_CIM14_IEC61970_Core_IdentifiedObject_IdentifiedObject)
    []
    [ERef n_PowerSystemResources n_CIM14_IEC61970_Core_PowerSystemResource_PowerSystemResource true (Some n_PSRType)];
(* Model/CIM14/CIM14.ecore:107-161 *)
  EClass n_CIM14_IEC61970_Core_PowerSystemResource_PowerSystemResource n_PowerSystemResource (Some n_CIM14_IEC61970_Core_IdentifiedObject_IdentifiedObject)
    []
    [ERef n_Location n_CIM14_IEC61968_Common_Location_Location false (Some n_PowerSystemResources); ERef n_Assets n_CIM14_IEC61968_Assets_Asset_Asset true (Some n_PowerSystemResources); ERef n_PsrLists n_CIM14_IEC61970_Core_PsrList_PsrList true (Some n_PowerSystemResources); ERef n_Measurements n_CIM14_IEC61970_Meas_Measurement_Measurement true (Some n_PowerSystemResource); ERef n_OperatingShare n_CIM14_IEC61970_Core_OperatingShare_OperatingShare true (Some n_PowerSystemResource); ERef n_OutageSchedule n_CIM14_IEC61970_Outage_OutageSchedule_OutageSchedule false (Some n_PowerSystemResource); ERef n_ReportingGroup n_CIM14_IEC61970_Core_ReportingGroup_ReportingGroup true (Some n_PowerSystemResource); ERef n_Block n_CIM14_IEC61970_Dynamics_Block_Block true (Some n_PowerSystemResource); ERef n_PSRType n_CIM14_IEC61970_Core_PSRType_PSRType false (Some n_PowerSystemResources)];
(* Model/CIM14/CIM14.ecore:814-826 *)
  EClass n_CIM14_IEC61970_Core_PsrList_PsrList n_PsrList (Some n_CIM14_IEC61970_Core_IdentifiedObject_IdentifiedObject)
    [(n_typePSRList, TText)]
    [ERef n_PowerSystemResources n_CIM14_IEC61970_Core_PowerSystemResource_PowerSystemResource true (Some n_PsrLists)];
(* Model/CIM14/CIM14.ecore:376-398 *)
  EClass n_CIM14_IEC61970_Core_RegularIntervalSchedule_RegularIntervalSchedule n_RegularIntervalSchedule (Some n_CIM14_IEC61970_Core_BasicIntervalSchedule_BasicIntervalSchedule)
    [(n_endTime, TDate); (n_timeStep, TFloat)]
    [ERef n_TimePoints n_CIM14_IEC61970_Core_RegularTimePoint_RegularTimePoint true (Some n_IntervalSchedule)];
(* Model/CIM14/CIM14.ecore:899-927 *)
  EClass n_CIM14_IEC61970_Core_RegularTimePoint_RegularTimePoint n_RegularTimePoint (Some n_CIM14_Element_Element)
    [(n_value1, TFloat); (n_sequenceNumber, TInt); (n_value2, TFloat)]
    [ERef n_IntervalSchedule n_CIM14_IEC61970_Core_RegularIntervalSchedule_RegularIntervalSchedule false (Some n_TimePoints)];
(* Model/CIM14/CIM14.ecore:859-887 *)
  EClass n_CIM14_IEC61970_Core_ReportingGroup_ReportingGroup n_ReportingGroup (Some n_CIM14_IEC61970_Core_IdentifiedObject_IdentifiedObject)
    []
    [ERef n_ReportingSuperGroup n_CIM14_IEC61970_Core_ReportingSuperGroup_ReportingSuperGroup false (Some n_ReportingGroup); ERef n_TopologicalNode n_CIM14_IEC61970_Topology_TopologicalNode_TopologicalNode true (Some n_ReportingGroup); ERef n_BusNameMarker n_CIM14_IEC61970_Topology_BusNameMarker_BusNameMarker true (Some n_ReportingGroup); ERef n_PowerSystemResource n_CIM14_IEC61970_Core_PowerSystemResource_PowerSystemResource true (Some n_ReportingGroup)];
(* Model/CIM14/CIM14.ecore:888-898 *)
  EClass n_CIM14_IEC61970_Core_ReportingSuperGroup_ReportingSuperGroup n_ReportingSuperGroup (Some n_CIM14_IEC61970_Core_IdentifiedObject_IdentifiedObject)
    []
    [ERef n_ReportingGroup n_CIM14_IEC61970_Core_ReportingGroup_ReportingGroup true (Some n_ReportingSuperGroup)];
(* Model/CIM14/CIM14.ecore:791-813 *)
  EClass n_CIM14_IEC61970_Core_SubGeographicalRegion_SubGeographicalRegion n_SubGeographicalRegion (Some n_CIM14_IEC61970_Core_IdentifiedObject_IdentifiedObject)
    []
    [ERef n_Region n_CIM14_IEC61970_Core_GeographicalRegion_GeographicalRegion false (Some n_Regions); ERef n_Substations n_CIM14_IEC61970_Core_Substation_Substation true (Some n_Region); ERef n_Lines n_CIM14_IEC61970_Wires_Line_Line true (Some n_Region)];
(* Model/CIM14/CIM14.ecore:836-858 *)
  EClass n_CIM14_IEC61970_Core_Substation_Substation n_Substation (Some n_CIM14_IEC61970_Core_EquipmentContainer_EquipmentContainer)
    []
    [ERef n_VoltageLevels n_CIM14_IEC61970_Core_VoltageLevel_VoltageLevel true (Some n_Substation); ERef n_Bays n_CIM14_IEC61970_Core_Bay_Bay true (Some n_Substation); ERef n_Region n_CIM14_IEC61970_Core_SubGeographicalRegion_SubGeographicalRegion false (Some n_Substations)];
(* Model/CIM14/CIM14.ecore:535-625 *)
  EClass n_CIM14_IEC61970_Core_Terminal_Terminal n_Terminal (Some n_CIM14_IEC61970_Core_IdentifiedObject_IdentifiedObject)
    [(n_connected, TBool); (n_sequenceNumber, TInt)]
    [ERef n_TopologicalNode n_CIM14_IEC61970_Topology_TopologicalNode_TopologicalNode false (Some n_Terminal); ERef n_Block n_CIM14_IEC61970_Dynamics_Block_Block true (Some n_Terminal); ERef n_OperationalLimitSet n_CIM14_IEC61970_OperationalLimits_OperationalLimitSet_OperationalLimitSet true (Some n_Terminal); ERef n_HasSecond_MutualCoupling n_CIM14_IEC61970_Wires_MutualCoupling_MutualCoupling true (Some n_Second_Terminal); ERef n_RegulatingControl n_CIM14_IEC61970_Wires_RegulatingControl_RegulatingControl true (Some n_Terminal); ERef n_Measurements n_CIM14_IEC61970_Meas_Measurement_Measurement true (Some n_Terminal); ERef n_BranchGroupTerminal n_CIM14_IEC61970_OperationalLimits_BranchGroupTerminal_BranchGroupTerminal true (Some n_Terminal); ERef n_ConductingEquipment n_CIM14_IEC61970_Core_ConductingEquipment_ConductingEquipment false (Some n_Terminals); ERef n_HasFirst_MutualCoupling n_CIM14_IEC61970_Wires_MutualCoupling_MutualCoupling true (Some n_First_Terminal); ERef n_SvPowerFlow n_CIM14_IEC61970_StateVariables_SvPowerFlow_SvPowerFlow false (Some n_Terminal); ERef n_ConnectivityNode n_CIM14_IEC61970_Core_ConnectivityNode_ConnectivityNode false (Some n_Terminals); ERef n_TieFlow n_CIM14_IEC61970_ControlArea_TieFlow_TieFlow true (Some n_Terminal)];
(* Model/CIM14/CIM14.ecore:720-746 *)
  EClass n_CIM14_IEC61970_Core_Unit_Unit n_Unit (Some n_CIM14_IEC61970_Core_IdentifiedObject_IdentifiedObject)
    []
    [ERef n_Controls n_CIM14_IEC61970_Meas_Control_Control true (Some n_Unit); ERef n_Measurements n_CIM14_IEC61970_Meas_Measurement_Measurement true (Some n_Unit); ERef n_MetaBlockConOutput n_CIM14_IEC61970_Dynamics_MetaBlockConOutput_MetaBlockConOutput true (Some n_Unit); ERef n_MetaBlockConInput n_CIM14_IEC61970_Dynamics_MetaBlockConInput_MetaBlockConInput true (Some n_Unit); ERef n_ProtectionEquipments n_CIM14_IEC61970_Protection_ProtectionEquipment_ProtectionEquipment true (Some n_Unit)];
(* Model/CIM14/CIM14.ecore:645-679 *)
  EClass n_CIM14_IEC61970_Core_VoltageLevel_VoltageLevel n_VoltageLevel (Some n_CIM14_IEC61970_Core_EquipmentContainer_EquipmentContainer)
    [(n_highVoltageLimit, TFloat); (n_lowVoltageLimit, TFloat)]
    [ERef n_Substation n_CIM14_IEC61970_Core_Substation_Substation false (Some n_VoltageLevels); ERef n_Bays n_CIM14_IEC61970_Core_Bay_Bay true (Some n_VoltageLevel); ERef n_BaseVoltage n_CIM14_IEC61970_Core_BaseVoltage_BaseVoltage false (Some n_VoltageLevel)];
(* Model/CIM14/CIM14.ecore:7651-7715 *)
  EClass n_CIM14_IEC61970_Dynamics_AsynchronousMachine_AsynchronousMachine n_AsynchronousMachine (Some n_CIM14_IEC61970_Dynamics_RotatingMachine_RotatingMachine)
    [(n_xm, TFloat); (n_xs, TFloat); (n_xpp, TFloat); (n_xlr2, TFloat); (n_rr2, TFloat); (n_tpo, TFloat); (n_rr1, TFloat); (n_xp, TFloat); (n_tppo, TFloat); (n_xlr1, TFloat)]
    [];
(* Model/CIM14/CIM14.ecore:8083-8093 *)
  EClass n_CIM14_IEC61970_Dynamics_AttributeBlockParameter_AttributeBlockParameter n_AttributeBlockParameter (Some n_CIM14_IEC61970_Dynamics_MetaBlockParameter_MetaBlockParameter)
    [(n_attributeName, TText)]
    [];
(* Model/CIM14/CIM14.ecore:8022-8064 *)
  EClass n_CIM14_IEC61970_Dynamics_Block_Block n_Block (Some n_CIM14_IEC61970_Core_PowerSystemResource_PowerSystemResource)
    [(n_positiveFlowIn, TBool); (n_inService, TBool)]
    [ERef n_Terminal n_CIM14_IEC61970_Core_Terminal_Terminal false (Some n_Block); ERef n_MemberOf_BlockConnectivity n_CIM14_IEC61970_Dynamics_BlockConnectivity_BlockConnectivity false (Some n_Block); ERef n_blockUsageInputReference0 n_CIM14_IEC61970_Dynamics_BlockUsageInputReference_BlockUsageInputReference true (Some n_block0); ERef n_BlockUsageOutputReference n_CIM14_IEC61970_Dynamics_BlockUsageOutputReference_BlockUsageOutputReference true (Some n_block0); ERef n_PowerSystemResource n_CIM14_IEC61970_Core_PowerSystemResource_PowerSystemResource false (Some n_Block); ERef n_slotReference0 n_CIM14_IEC61970_Dynamics_SlotReference_SlotReference false (Some n_block0); ERef n_tieToMeasurement0 n_CIM14_IEC61970_Dynamics_TieToMeasurement_TieToMeasurement true (Some n_block0); ERef n_MetaBlock n_CIM14_IEC61970_Dynamics_MetaBlock_MetaBlock false (Some n_Block); ERef n_BlockConnection n_CIM14_IEC61970_Dynamics_BlockConnection_BlockConnection true (Some n_Block); ERef n_BlockParameter n_CIM14_IEC61970_Dynamics_BlockParameter_BlockParameter true (Some n_MemberOf_Block)];
(* Model/CIM14/CIM14.ecore:7589-7599 *)
  EClass n_CIM14_IEC61970_Dynamics_BlockConnection_BlockConnection n_BlockConnection (Some n_CIM14_IEC61970_Core_IdentifiedObject_IdentifiedObject)
    []
    [ERef n_MetaBlockConnection n_CIM14_IEC61970_Dynamics_MetaBlockConnection_MetaBlockConnection false (Some n_BlockConnection); ERef n_MemberOf_BlockConnectivity n_CIM14_IEC61970_Dynamics_BlockConnectivity_BlockConnectivity false (Some n_BlockConnection); ERef n_Block n_CIM14_IEC61970_Dynamics_Block_Block false (Some n_BlockConnection)];
(* Model/CIM14/CIM14.ecore:7952-7962 *)
  EClass n_CIM14_IEC61970_Dynamics_BlockConnectivity_BlockConnectivity n_BlockConnectivity (Some n_CIM14_IEC61970_Core_IdentifiedObject_IdentifiedObject)
    []
    [ERef n_MetaBlockConnectivity n_CIM14_IEC61970_Dynamics_MetaBlockConnectivity_MetaBlockConnectivity false (Some n_BlockConnectivity); ERef n_Block n_CIM14_IEC61970_Dynamics_Block_Block true (Some n_MemberOf_BlockConnectivity); ERef n_BlockConnection n_CIM14_IEC61970_Dynamics_BlockConnection_BlockConnection true (Some n_MemberOf_BlockConnectivity)];
(* Model/CIM14/CIM14.ecore:7997-8009 *)
  EClass n_CIM14_IEC61970_Dynamics_BlockConstant_BlockConstant n_BlockConstant (Some n_CIM14_IEC61970_Dynamics_MetaBlockConnectable_MetaBlockConnectable)
    [(n_value, TFloat)]
    [ERef n_metaBlock0 n_CIM14_IEC61970_Dynamics_MetaBlock_MetaBlock false (Some n_blockConstant0)];
(* Model/CIM14/CIM14.ecore:8161-8179 *)
  EClass n_CIM14_IEC61970_Dynamics_BlockInputReference_BlockInputReference n_BlockInputReference (Some n_CIM14_IEC61970_Core_IdentifiedObject_IdentifiedObject)
    []
    [ERef n_metaBlockReference0 n_CIM14_IEC61970_Dynamics_MetaBlockReference_MetaBlockReference false (Some n_blockInputReference0); ERef n_metaBlockInput0 n_CIM14_IEC61970_Dynamics_MetaBlockInput_MetaBlockInput false (Some n_blockInputReference0); ERef n_BlockConnectable n_CIM14_IEC61970_Dynamics_MetaBlockConnectable_MetaBlockConnectable false (Some n_BlockInputReference)];
(* Model/CIM14/CIM14.ecore:7946-7951 *)
  EClass n_CIM14_IEC61970_Dynamics_BlockInputType_BlockInputType n_BlockInputType (Some n_CIM14_IEC61970_Core_IdentifiedObject_IdentifiedObject)
    []
    [ERef n_slotInput0 n_CIM14_IEC61970_Dynamics_SlotInput_SlotInput true (Some n_blockInputType0); ERef n_metaBlockInput0 n_CIM14_IEC61970_Dynamics_MetaBlockInput_MetaBlockInput true (Some n_blockInputType0)];
(* Model/CIM14/CIM14.ecore:8209-8217 *)
  EClass n_CIM14_IEC61970_Dynamics_BlockOutputReference_BlockOutputReference n_BlockOutputReference (Some n_CIM14_IEC61970_Dynamics_MetaBlockConnectable_MetaBlockConnectable)
    []
    [ERef n_metaBlockOutput0 n_CIM14_IEC61970_Dynamics_MetaBlockOutput_MetaBlockOutput false (Some n_BlockOutputReference); ERef n_metaBlockReference0 n_CIM14_IEC61970_Dynamics_MetaBlockReference_MetaBlockReference true (Some n_blockOutputReference0)];
(* Model/CIM14/CIM14.ecore:8294-8299 *)
  EClass n_CIM14_IEC61970_Dynamics_BlockOutputType_BlockOutputType n_BlockOutputType (Some n_CIM14_IEC61970_Core_IdentifiedObject_IdentifiedObject)
    []
    [ERef n_metaBlockOutput0 n_CIM14_IEC61970_Dynamics_MetaBlockOutput_MetaBlockOutput true (Some n_blockOutputType0); ERef n_slotOutput0 n_CIM14_IEC61970_Dynamics_SlotOutput_SlotOutput true (Some n_blockOutputType0)];
(* Model/CIM14/CIM14.ecore:8180-8198 *)
  EClass n_CIM14_IEC61970_Dynamics_BlockParameter_BlockParameter n_BlockParameter (Some n_CIM14_IEC61970_Core_IdentifiedObject_IdentifiedObject)
    [(n_value, TFloat)]
    [ERef n_MetaBlockParameter n_CIM14_IEC61970_Dynamics_MetaBlockParameter_MetaBlockParameter false (Some n_BlockParameter); ERef n_MemberOf_MetaBlockReference n_CIM14_IEC61970_Dynamics_MetaBlockReference_MetaBlockReference false (Some n_BlockParameter); ERef n_UserBlockParameter n_CIM14_IEC61970_Dynamics_UserBlockParameter_UserBlockParameter false (Some n_BlockUsageParameter); ERef n_MemberOf_Block n_CIM14_IEC61970_Dynamics_Block_Block false (Some n_BlockParameter)];
(* Model/CIM14/CIM14.ecore:8219-8227 *)
  EClass n_CIM14_IEC61970_Dynamics_BlockType_BlockType n_BlockType (Some n_CIM14_IEC61970_Core_IdentifiedObject_IdentifiedObject)
    []
    [ERef n_slot0 n_CIM14_IEC61970_Dynamics_Slot_Slot true (Some n_blockType0); ERef n_metaBlock0 n_CIM14_IEC61970_Dynamics_MetaBlock_MetaBlock true (Some n_blockType0)];
(* Model/CIM14/CIM14.ecore:7716-7730 *)
  EClass n_CIM14_IEC61970_Dynamics_BlockUsageInputReference_BlockUsageInputReference n_BlockUsageInputReference (Some n_CIM14_IEC61970_Core_IdentifiedObject_IdentifiedObject)
    []
    [ERef n_block0 n_CIM14_IEC61970_Dynamics_Block_Block false (Some n_blockUsageInputReference0); ERef n_BlockUsageOutputReference n_CIM14_IEC61970_Dynamics_BlockUsageOutputReference_BlockUsageOutputReference false (Some n_BlockUsageInputReference); ERef n_metaBlockInput0 n_CIM14_IEC61970_Dynamics_MetaBlockInput_MetaBlockInput false (Some n_blockUsageInputReference0)];
(* Model/CIM14/CIM14.ecore:8241-8256 *)
  EClass n_CIM14_IEC61970_Dynamics_BlockUsageOutputReference_BlockUsageOutputReference n_BlockUsageOutputReference (Some n_CIM14_IEC61970_Core_IdentifiedObject_IdentifiedObject)
    []
    [ERef n_block0 n_CIM14_IEC61970_Dynamics_Block_Block false (Some n_BlockUsageOutputReference); ERef n_BlockUsageInputReference n_CIM14_IEC61970_Dynamics_BlockUsageInputReference_BlockUsageInputReference true (Some n_BlockUsageOutputReference); ERef n_metaBlockOutput0 n_CIM14_IEC61970_Dynamics_MetaBlockOutput_MetaBlockOutput false (Some n_blockUsageOutputReference0)];
(* Model/CIM14/CIM14.ecore:7942-7945 *)
  EClass n_CIM14_IEC61970_Dynamics_CompositeModel_CompositeModel n_CompositeModel (Some n_CIM14_Element_Element)
    []
    [ERef n_slotReference0 n_CIM14_IEC61970_Dynamics_SlotReference_SlotReference true (Some n_compositeModel0)];
(* Model/CIM14/CIM14.ecore:8065-8070 *)
  EClass n_CIM14_IEC61970_Dynamics_ConnectionFrame_ConnectionFrame n_ConnectionFrame (Some n_CIM14_IEC61970_Core_IdentifiedObject_IdentifiedObject)
    []
    [ERef n_slotConnection0 n_CIM14_IEC61970_Dynamics_SlotConnection_SlotConnection true (Some n_connectionFrame0); ERef n_slot0 n_CIM14_IEC61970_Dynamics_Slot_Slot true (Some n_connectionFrame0)];
(* Model/CIM14/CIM14.ecore:8218-8218 *)
  EClass n_CIM14_IEC61970_Dynamics_ExcitationSystemLimiter_ExcitationSystemLimiter n_ExcitationSystemLimiter (Some n_CIM14_Element_Element)
    []
    [];
(* Model/CIM14/CIM14.ecore:8494-8612 *)
  EClass n_CIM14_IEC61970_Dynamics_ExcitationSystems_ExcAC1A_ExcAC1A n_ExcAC1A (Some n_CIM14_IEC61970_Dynamics_ExcitationSystems_ExcitationSystem_ExcitationSystem)
    [(n_vrmin, TFloat); (n_tr, TFloat); (n_vrmax, TFloat); (n_ta, TFloat); (n_kf, TFloat); (n_te, TFloat); (n_ka, TFloat); (n_vamax, TFloat); (n_tb, TFloat); (n_e1, TFloat); (n_kd, TFloat); (n_se1, TFloat); (n_vamin, TFloat); (n_ke, TFloat); (n_kc, TFloat); (n_tf, TFloat); (n_tc, TFloat); (n_e2, TFloat); (n_se2, TFloat)]
    [];
(* Model/CIM14/CIM14.ecore:9861-9997 *)
  EClass n_CIM14_IEC61970_Dynamics_ExcitationSystems_ExcAC2A_ExcAC2A n_ExcAC2A (Some n_CIM14_IEC61970_Dynamics_ExcitationSystems_ExcitationSystem_ExcitationSystem)
    [(n_vrmin, TFloat); (n_vamin, TFloat); (n_kh, TFloat); (n_vrmax, TFloat); (n_tb, TFloat); (n_e1, TFloat); (n_se1, TFloat); (n_te, TFloat); (n_kf, TFloat); (n_tc, TFloat); (n_e2, TFloat); (n_ke, TFloat); (n_tr, TFloat); (n_tf, TFloat); (n_ta, TFloat); (n_kc, TFloat); (n_kd, TFloat); (n_se2, TFloat); (n_vfemax, TFloat); (n_vamax, TFloat); (n_kb, TFloat); (n_ka, TFloat)]
    [];
(* Model/CIM14/CIM14.ecore:9659-9795 *)
  EClass n_CIM14_IEC61970_Dynamics_ExcitationSystems_ExcAC3A_ExcAC3A n_ExcAC3A (Some n_CIM14_IEC61970_Dynamics_ExcitationSystems_ExcitationSystem_ExcitationSystem)
    [(n_kf, TFloat); (n_e2, TFloat); (n_te, TFloat); (n_ka, TFloat); (n_kr, TFloat); (n_tc, TFloat); (n_efdn, TFloat); (n_ke, TFloat); (n_e1, TFloat); (n_kd, TFloat); (n_se2, TFloat); (n_vamax, TFloat); (n_tr, TFloat); (n_vamin, TFloat); (n_tf, TFloat); (n_vemin, TFloat); (n_kn, TFloat); (n_vfemax, TFloat); (n_tb, TFloat); (n_se1, TFloat); (n_kc, TFloat); (n_ta, TFloat)]
    [];
(* Model/CIM14/CIM14.ecore:9796-9860 *)
  EClass n_CIM14_IEC61970_Dynamics_ExcitationSystems_ExcAC4A_ExcAC4A n_ExcAC4A (Some n_CIM14_IEC61970_Dynamics_ExcitationSystems_ExcitationSystem_ExcitationSystem)
    [(n_ka, TFloat); (n_vimin, TFloat); (n_tb, TFloat); (n_tr, TFloat); (n_tc, TFloat); (n_ta, TFloat); (n_kc, TFloat); (n_vrmin, TFloat); (n_vrmax, TFloat); (n_vimax, TFloat)]
    [];
(* Model/CIM14/CIM14.ecore:9063-9157 *)
  EClass n_CIM14_IEC61970_Dynamics_ExcitationSystems_ExcAC5A_ExcAC5A n_ExcAC5A (Some n_CIM14_IEC61970_Dynamics_ExcitationSystems_ExcitationSystem_ExcitationSystem)
    [(n_ka, TFloat); (n_e1, TFloat); (n_kf, TFloat); (n_te, TFloat); (n_vrmin, TFloat); (n_vrmax, TFloat); (n_se2, TFloat); (n_tf3, TFloat); (n_e2, TFloat); (n_ke, TFloat); (n_tr, TFloat); (n_se1, TFloat); (n_tf2, TFloat); (n_tf1, TFloat); (n_ta, TFloat)]
    [];
(* Model/CIM14/CIM14.ecore:8678-8820 *)
  EClass n_CIM14_IEC61970_Dynamics_ExcitationSystems_ExcAC6A_ExcAC6A n_ExcAC6A (Some n_CIM14_IEC61970_Dynamics_ExcitationSystems_ExcitationSystem_ExcitationSystem)
    [(n_te, TFloat); (n_ka, TFloat); (n_vhmax, TFloat); (n_kh, TFloat); (n_tk, TFloat); (n_ke, TFloat); (n_se1, TFloat); (n_tr, TFloat); (n_vrmin, TFloat); (n_vrmax, TFloat); (n_tc, TFloat); (n_e2, TFloat); (n_tj, TFloat); (n_kc, TFloat); (n_vfelim, TFloat); (n_ta, TFloat); (n_th, TFloat); (n_kd, TFloat); (n_vamax, TFloat); (n_tb, TFloat); (n_e1, TFloat); (n_vamin, TFloat); (n_se2, TFloat)]
    [];
(* Model/CIM14/CIM14.ecore:10581-10747 *)
  EClass n_CIM14_IEC61970_Dynamics_ExcitationSystems_ExcAC7B_ExcAC7B n_ExcAC7B (Some n_CIM14_IEC61970_Dynamics_ExcitationSystems_ExcitationSystem_ExcitationSystem)
    [(n_kir, TFloat); (n_kpr, TFloat); (n_vfemax, TFloat); (n_te, TFloat); (n_vemin, TFloat); (n_ke, TFloat); (n_kp, TFloat); (n_kd, TFloat); (n_kdr, TFloat); (n_kf3, TFloat); (n_e1, TFloat); (n_tdr, TFloat); (n_se2, TFloat); (n_kf1, TFloat); (n_e2, TFloat); (n_kc, TFloat); (n_vamin, TFloat); (n_se1, TFloat); (n_vrmin, TFloat); (n_tf, TFloat); (n_vrmax, TFloat); (n_kf2, TFloat); (n_kl, TFloat); (n_kpa, TFloat); (n_kia, TFloat); (n_tr, TFloat); (n_vamax, TFloat)]
    [];
(* Model/CIM14/CIM14.ecore:10110-10234 *)
  EClass n_CIM14_IEC61970_Dynamics_ExcitationSystems_ExcAC8B_ExcAC8B n_ExcAC8B (Some n_CIM14_IEC61970_Dynamics_ExcitationSystems_ExcitationSystem_ExcitationSystem)
    [(n_vfemax, TFloat); (n_vrmin, TFloat); (n_ta, TFloat); (n_tdr, TFloat); (n_vtmult, TFloat); (n_ka, TFloat); (n_kdr, TFloat); (n_se1, TFloat); (n_e1, TFloat); (n_vemin, TFloat); (n_te, TFloat); (n_ke, TFloat); (n_se2, TFloat); (n_tr, TFloat); (n_kir, TFloat); (n_kpr, TFloat); (n_vrmax, TFloat); (n_kd, TFloat); (n_e2, TFloat); (n_kc, TFloat)]
    [];
(* Model/CIM14/CIM14.ecore:10341-10345 *)
  EClass n_CIM14_IEC61970_Dynamics_ExcitationSystems_ExcBAS_ExcBAS n_ExcBAS (Some n_CIM14_IEC61970_Dynamics_ExcitationSystems_ExcitationSystem_ExcitationSystem)
    []
    [];
(* Model/CIM14/CIM14.ecore:8898-8902 *)
  EClass n_CIM14_IEC61970_Dynamics_ExcitationSystems_ExcBBC_ExcBBC n_ExcBBC (Some n_CIM14_IEC61970_Dynamics_ExcitationSystems_ExcitationSystem_ExcitationSystem)
    []
    [];
(* Model/CIM14/CIM14.ecore:9422-9426 *)
  EClass n_CIM14_IEC61970_Dynamics_ExcitationSystems_ExcCZ_ExcCZ n_ExcCZ (Some n_CIM14_IEC61970_Dynamics_ExcitationSystems_ExcitationSystem_ExcitationSystem)
    []
    [];
(* Model/CIM14/CIM14.ecore:9552-9658 *)
  EClass n_CIM14_IEC61970_Dynamics_ExcitationSystems_ExcDC1A_ExcDC1A n_ExcDC1A (Some n_CIM14_IEC61970_Dynamics_ExcitationSystems_ExcitationSystem_ExcitationSystem)
    [(n_ta, TFloat); (n_ka, TFloat); (n_e1, TFloat); (n_tb, TFloat); (n_se2, TFloat); (n_te, TFloat); (n_exclim, TFloat); (n_e2, TFloat); (n_tr, TFloat); (n_uelin, TFloat); (n_tf, TFloat); (n_vrmax, TFloat); (n_kf, TFloat); (n_ke, TFloat); (n_se1, TFloat); (n_vrmin, TFloat); (n_tc, TFloat)]
    [];
(* Model/CIM14/CIM14.ecore:10003-10109 *)
  EClass n_CIM14_IEC61970_Dynamics_ExcitationSystems_ExcDC2A_ExcDC2A n_ExcDC2A (Some n_CIM14_IEC61970_Dynamics_ExcitationSystems_ExcitationSystem_ExcitationSystem)
    [(n_te, TFloat); (n_ke, TFloat); (n_e1, TFloat); (n_tc, TFloat); (n_se2, TFloat); (n_tb, TFloat); (n_uelin, TFloat); (n_e2, TFloat); (n_tf, TFloat); (n_kf, TFloat); (n_vrmax, TFloat); (n_se1, TFloat); (n_ta, TFloat); (n_ka, TFloat); (n_tr, TFloat); (n_exclim, TFloat); (n_vrmin, TFloat)]
    [];
(* Model/CIM14/CIM14.ecore:8821-8897 *)
  EClass n_CIM14_IEC61970_Dynamics_ExcitationSystems_ExcDC3A_ExcDC3A n_ExcDC3A (Some n_CIM14_IEC61970_Dynamics_ExcitationSystems_ExcitationSystem_ExcitationSystem)
    [(n_e1, TFloat); (n_vrmax, TFloat); (n_te, TFloat); (n_ke, TFloat); (n_tr, TFloat); (n_se2, TFloat); (n_trh, TFloat); (n_vrmin, TFloat); (n_exclim, TFloat); (n_e2, TFloat); (n_kv, TFloat); (n_se1, TFloat)]
    [];
(* Model/CIM14/CIM14.ecore:8369-8493 *)
  EClass n_CIM14_IEC61970_Dynamics_ExcitationSystems_ExcDC4B_ExcDC4B n_ExcDC4B (Some n_CIM14_IEC61970_Dynamics_ExcitationSystems_ExcitationSystem_ExcitationSystem)
    [(n_e1, TFloat); (n_se2, TFloat); (n_tf, TFloat); (n_oelin, TFloat); (n_ki, TFloat); (n_ta, TFloat); (n_vrmax, TFloat); (n_tr, TFloat); (n_kf, TFloat); (n_vrmin, TFloat); (n_te, TFloat); (n_ka, TFloat); (n_kp, TFloat); (n_td, TFloat); (n_kd, TFloat); (n_vemin, TFloat); (n_ke, TFloat); (n_se1, TFloat); (n_e2, TFloat); (n_uelin, TFloat)]
    [];
(* Model/CIM14/CIM14.ecore:9163-9167 *)
  EClass n_CIM14_IEC61970_Dynamics_ExcitationSystems_ExcELIN1_ExcELIN1 n_ExcELIN1 (Some n_CIM14_IEC61970_Dynamics_ExcitationSystems_ExcitationSystem_ExcitationSystem)
    []
    [];
(* Model/CIM14/CIM14.ecore:10463-10467 *)
  EClass n_CIM14_IEC61970_Dynamics_ExcitationSystems_ExcELIN2_ExcELIN2 n_ExcELIN2 (Some n_CIM14_IEC61970_Dynamics_ExcitationSystems_ExcitationSystem_ExcitationSystem)
    []
    [];
(* Model/CIM14/CIM14.ecore:10336-10340 *)
  EClass n_CIM14_IEC61970_Dynamics_ExcitationSystems_ExcHU_ExcHU n_ExcHU (Some n_CIM14_IEC61970_Dynamics_ExcitationSystems_ExcitationSystem_ExcitationSystem)
    []
    [];
(* Model/CIM14/CIM14.ecore:9304-9308 *)
  EClass n_CIM14_IEC61970_Dynamics_ExcitationSystems_ExcPIC_ExcPIC n_ExcPIC (Some n_CIM14_IEC61970_Dynamics_ExcitationSystems_ExcitationSystem_ExcitationSystem)
    []
    [];
(* Model/CIM14/CIM14.ecore:9158-9162 *)
  EClass n_CIM14_IEC61970_Dynamics_ExcitationSystems_ExcREXS_ExcREXS n_ExcREXS (Some n_CIM14_IEC61970_Dynamics_ExcitationSystems_ExcitationSystem_ExcitationSystem)
    []
    [];
(* Model/CIM14/CIM14.ecore:9010-9062 *)
  EClass n_CIM14_IEC61970_Dynamics_ExcitationSystems_ExcSCRX_ExcSCRX n_ExcSCRX (Some n_CIM14_IEC61970_Dynamics_ExcitationSystems_ExcitationSystem_ExcitationSystem)
    [(n_tb, TFloat); (n_cswitch, TBool); (n_emin, TFloat); (n_k, TFloat); (n_te, TFloat); (n_emax, TFloat); (n_tatb, TFloat); (n_rcrfd, TFloat)]
    [];
(* Model/CIM14/CIM14.ecore:8613-8677 *)
  EClass n_CIM14_IEC61970_Dynamics_ExcitationSystems_ExcSEXS_ExcSEXS n_ExcSEXS (Some n_CIM14_IEC61970_Dynamics_ExcitationSystems_ExcitationSystem_ExcitationSystem)
    [(n_tb, TFloat); (n_kc, TFloat); (n_emax, TFloat); (n_tatb, TFloat); (n_tc, TFloat); (n_efdmin, TFloat); (n_efdmax, TFloat); (n_emin, TFloat); (n_k, TFloat); (n_te, TFloat)]
    [];
(* Model/CIM14/CIM14.ecore:10346-10350 *)
  EClass n_CIM14_IEC61970_Dynamics_ExcitationSystems_ExcSK_ExcSK n_ExcSK (Some n_CIM14_IEC61970_Dynamics_ExcitationSystems_ExcitationSystem_ExcitationSystem)
    []
    [];
(* Model/CIM14/CIM14.ecore:9299-9303 *)
  EClass n_CIM14_IEC61970_Dynamics_ExcitationSystems_ExcSK2_ExcSK2 n_ExcSK2 (Some n_CIM14_IEC61970_Dynamics_ExcitationSystems_ExcitationSystem_ExcitationSystem)
    []
    [];
(* Model/CIM14/CIM14.ecore:9427-9551 *)
  EClass n_CIM14_IEC61970_Dynamics_ExcitationSystems_ExcST1A_ExcST1A n_ExcST1A (Some n_CIM14_IEC61970_Dynamics_ExcitationSystems_ExcitationSystem_ExcitationSystem)
    [(n_ta, TFloat); (n_vimin, TFloat); (n_vamin, TFloat); (n_kf, TFloat); (n_vrmin, TFloat); (n_ka, TFloat); (n_tb, TFloat); (n_vamax, TFloat); (n_tb1, TFloat); (n_uelin, TFloat); (n_kc, TFloat); (n_tc1, TFloat); (n_tf, TFloat); (n_klr, TFloat); (n_vimax, TFloat); (n_tc, TFloat); (n_pssin, TFloat); (n_vrmax, TFloat); (n_tr, TFloat); (n_ilr, TFloat)]
    [];
(* Model/CIM14/CIM14.ecore:10235-10335 *)
  EClass n_CIM14_IEC61970_Dynamics_ExcitationSystems_ExcST2A_ExcST2A n_ExcST2A (Some n_CIM14_IEC61970_Dynamics_ExcitationSystems_ExcitationSystem_ExcitationSystem)
    [(n_te, TFloat); (n_ka, TFloat); (n_tb, TFloat); (n_tf, TFloat); (n_kf, TFloat); (n_ke, TFloat); (n_tr, TFloat); (n_tc, TFloat); (n_ta, TFloat); (n_kc, TFloat); (n_ki, TFloat); (n_kp, TFloat); (n_uelin, TFloat); (n_vrmax, TFloat); (n_efdmax, TFloat); (n_vrmin, TFloat)]
    [];
(* Model/CIM14/CIM14.ecore:9168-9298 *)
  EClass n_CIM14_IEC61970_Dynamics_ExcitationSystems_ExcST3A_ExcST3A n_ExcST3A (Some n_CIM14_IEC61970_Dynamics_ExcitationSystems_ExcitationSystem_ExcitationSystem)
    [(n_kp, TFloat); (n_angp, TFloat); (n_xl, TFloat); (n_tc, TFloat); (n_tb, TFloat); (n_ki, TFloat); (n_vbmax, TFloat); (n_kc, TFloat); (n_vrmax, TFloat); (n_vimax, TFloat); (n_vgmax, TFloat); (n_km, TFloat); (n_vmmax, TFloat); (n_ka, TFloat); (n_tr, TFloat); (n_vrmin, TFloat); (n_kg, TFloat); (n_vimin, TFloat); (n_vmmin, TFloat); (n_tm, TFloat); (n_ta, TFloat)]
    [];
(* Model/CIM14/CIM14.ecore:10468-10580 *)
  EClass n_CIM14_IEC61970_Dynamics_ExcitationSystems_ExcST4B_ExcST4B n_ExcST4B (Some n_CIM14_IEC61970_Dynamics_ExcitationSystems_ExcitationSystem_ExcitationSystem)
    [(n_kp, TFloat); (n_kim, TFloat); (n_vbmax, TFloat); (n_kc, TFloat); (n_kpr, TFloat); (n_xl, TFloat); (n_vgmax, TFloat); (n_vmmin, TFloat); (n_kg, TFloat); (n_vmmax, TFloat); (n_tr, TFloat); (n_ta, TFloat); (n_kpm, TFloat); (n_angp, TFloat); (n_vrmin, TFloat); (n_kir, TFloat); (n_vrmax, TFloat); (n_ki, TFloat)]
    [];
(* Model/CIM14/CIM14.ecore:9309-9421 *)
  EClass n_CIM14_IEC61970_Dynamics_ExcitationSystems_ExcST5B_ExcST5B n_ExcST5B (Some n_CIM14_IEC61970_Dynamics_ExcitationSystems_ExcitationSystem_ExcitationSystem)
    [(n_tb2, TFloat); (n_tb1, TFloat); (n_tub2, TFloat); (n_tuc1, TFloat); (n_kr, TFloat); (n_tob2, TFloat); (n_tob1, TFloat); (n_tc1, TFloat); (n_toc1, TFloat); (n_tub1, TFloat); (n_tc2, TFloat); (n_kc, TFloat); (n_vrmax, TFloat); (n_tuc2, TFloat); (n_toc2, TFloat); (n_t1, TFloat); (n_tr, TFloat); (n_vrmin, TFloat)]
    [];
(* Model/CIM14/CIM14.ecore:10356-10462 *)
  EClass n_CIM14_IEC61970_Dynamics_ExcitationSystems_ExcST6B_ExcST6B n_ExcST6B (Some n_CIM14_IEC61970_Dynamics_ExcitationSystems_ExcitationSystem_ExcitationSystem)
    [(n_tr, TFloat); (n_ilr, TFloat); (n_vrmin, TFloat); (n_vmult, TFloat); (n_vrmax, TFloat); (n_oelin, TFloat); (n_klr, TFloat); (n_kg, TFloat); (n_kpa, TFloat); (n_vamax, TFloat); (n_ts, TFloat); (n_kcl, TFloat); (n_tg, TFloat); (n_vamin, TFloat); (n_kia, TFloat); (n_kff, TFloat); (n_km, TFloat)]
    [];
(* Model/CIM14/CIM14.ecore:8903-9009 *)
  EClass n_CIM14_IEC61970_Dynamics_ExcitationSystems_ExcST7B_ExcST7B n_ExcST7B (Some n_CIM14_IEC61970_Dynamics_ExcitationSystems_ExcitationSystem_ExcitationSystem)
    [(n_oelin, TFloat); (n_vmax, TFloat); (n_tb, TFloat); (n_kia, TFloat); (n_kpa, TFloat); (n_kh, TFloat); (n_vrmin, TFloat); (n_ts, TFloat); (n_tia, TFloat); (n_tg, TFloat); (n_tr, TFloat); (n_tf, TFloat); (n_vrmax, TFloat); (n_uelin, TFloat); (n_kl, TFloat); (n_vmin, TFloat); (n_tc, TFloat)]
    [];
(* Model/CIM14/CIM14.ecore:9998-10002 *)
  EClass n_CIM14_IEC61970_Dynamics_ExcitationSystems_ExcWT2E_ExcWT2E n_ExcWT2E (Some n_CIM14_IEC61970_Dynamics_ExcitationSystems_ExcitationSystem_ExcitationSystem)
    []
    [];
(* Model/CIM14/CIM14.ecore:10351-10355 *)
  EClass n_CIM14_IEC61970_Dynamics_ExcitationSystems_ExcWT3E_ExcWT3E n_ExcWT3E (Some n_CIM14_IEC61970_Dynamics_ExcitationSystems_ExcitationSystem_ExcitationSystem)
    []
    [];
(* Model/CIM14/CIM14.ecore:10748-10752 *)
  EClass n_CIM14_IEC61970_Dynamics_ExcitationSystems_ExcWT4E_ExcWT4E n_ExcWT4E (Some n_CIM14_IEC61970_Dynamics_ExcitationSystems_ExcitationSystem_ExcitationSystem)
    []
    [];
(* Model/CIM14/CIM14.ecore:8364-8368 *)
  EClass n_CIM14_IEC61970_Dynamics_ExcitationSystems_ExcitationSystem_ExcitationSystem n_ExcitationSystem (Some n_CIM14_IEC61970_Core_PowerSystemResource_PowerSystemResource)
    []
    [];
(* Model/CIM14/CIM14.ecore:11593-11597 *)
  EClass n_CIM14_IEC61970_Dynamics_Generators_GenAsync_GenAsync n_GenAsync (Some n_CIM14_IEC61970_Dynamics_AsynchronousMachine_AsynchronousMachine)
    []
    [];
(* Model/CIM14/CIM14.ecore:11580-11592 *)
  EClass n_CIM14_IEC61970_Dynamics_Generators_GenEquiv_GenEquiv n_GenEquiv (Some n_CIM14_IEC61970_Dynamics_RotatingMachine_RotatingMachine)
    [(n_xp, TFloat)]
    [ERef n_synchronousMachine0 n_CIM14_IEC61970_Wires_SynchronousMachine_SynchronousMachine true (Some n_genEquiv0)];
(* Model/CIM14/CIM14.ecore:11553-11559 *)
  EClass n_CIM14_IEC61970_Dynamics_Generators_GenLoad_GenLoad n_GenLoad (Some n_CIM14_IEC61970_Wires_RegulatingCondEq_RegulatingCondEq)
    []
    [ERef n_synchronousMachine0 n_CIM14_IEC61970_Wires_SynchronousMachine_SynchronousMachine true (Some n_genLoad0)];
(* Model/CIM14/CIM14.ecore:11858-11864 *)
  EClass n_CIM14_IEC61970_Dynamics_Loads_AggregateLoad_AggregateLoad n_AggregateLoad (Some n_CIM14_IEC61970_Core_PowerSystemResource_PowerSystemResource)
    []
    [ERef n_energyConsumer0 n_CIM14_IEC61970_Wires_EnergyConsumer_EnergyConsumer true (Some n_aggregateLoad0)];
(* Model/CIM14/CIM14.ecore:11941-12023 *)
  EClass n_CIM14_IEC61970_Dynamics_Loads_LoadMotor_LoadMotor n_LoadMotor (Some n_CIM14_IEC61970_Dynamics_Loads_AggregateLoad_AggregateLoad)
    [(n_tv, TFloat); (n_pfrac, TFloat); (n_vt, TFloat); (n_d, TFloat); (n_ra, TFloat); (n_ls, TFloat); (n_lfac, TFloat); (n_tpo, TFloat); (n_h, TFloat); (n_lp, TFloat); (n_lpp, TFloat); (n_tppo, TFloat); (n_tbkr, TFloat)]
    [];
(* Model/CIM14/CIM14.ecore:11865-11907 *)
  EClass n_CIM14_IEC61970_Dynamics_Loads_LoadStatic_LoadStatic n_LoadStatic (Some n_CIM14_IEC61970_Dynamics_Loads_AggregateLoad_AggregateLoad)
    [(n_staticLoadType, enum_cim14_IEC61970_Dynamics_Loads_StaticLoadType); (n_ep1, TFloat); (n_kp3, TFloat); (n_eq3, TFloat); (n_kp2, TFloat); (n_eq2, TFloat); (n_kqf, TFloat); (n_kq4, TFloat); (n_kq2, TFloat); (n_kp1, TFloat); (n_ep2, TFloat); (n_eq1, TFloat); (n_kpf, TFloat); (n_kp4, TFloat); (n_kq3, TFloat); (n_ep3, TFloat); (n_kq1, TFloat)]
    [];
(* Model/CIM14/CIM14.ecore:11936-11940 *)
  EClass n_CIM14_IEC61970_Dynamics_Loads_LoadStaticArea_LoadStaticArea n_LoadStaticArea (Some n_CIM14_IEC61970_Dynamics_Loads_LoadStatic_LoadStatic)
    []
    [];
(* Model/CIM14/CIM14.ecore:11931-11935 *)
  EClass n_CIM14_IEC61970_Dynamics_Loads_LoadStaticBus_LoadStaticBus n_LoadStaticBus (Some n_CIM14_IEC61970_Dynamics_Loads_LoadStatic_LoadStatic)
    []
    [];
(* Model/CIM14/CIM14.ecore:11921-11925 *)
  EClass n_CIM14_IEC61970_Dynamics_Loads_LoadStaticOwner_LoadStaticOwner n_LoadStaticOwner (Some n_CIM14_IEC61970_Dynamics_Loads_LoadStatic_LoadStatic)
    []
    [];
(* Model/CIM14/CIM14.ecore:11908-11912 *)
  EClass n_CIM14_IEC61970_Dynamics_Loads_LoadStaticSystem_LoadStaticSystem n_LoadStaticSystem (Some n_CIM14_IEC61970_Dynamics_Loads_LoadStatic_LoadStatic)
    []
    [];
(* Model/CIM14/CIM14.ecore:11926-11930 *)
  EClass n_CIM14_IEC61970_Dynamics_Loads_LoadStaticZone_LoadStaticZone n_LoadStaticZone (Some n_CIM14_IEC61970_Dynamics_Loads_LoadStatic_LoadStatic)
    []
    [];
(* Model/CIM14/CIM14.ecore:7795-7853 *)
  EClass n_CIM14_IEC61970_Dynamics_MetaBlock_MetaBlock n_MetaBlock (Some n_CIM14_IEC61970_Core_IdentifiedObject_IdentifiedObject)
    [(n_blockKind, enum_cim14_IEC61970_Dynamics_BlockKind); (n_internal, TBool); (n_proprietary, TBool); (n_primitive, TBool)]
    [ERef n_MetaBlockReference n_CIM14_IEC61970_Dynamics_MetaBlockReference_MetaBlockReference true (Some n_MemberOf_MetaBlock); ERef n_MetaBlockOutput n_CIM14_IEC61970_Dynamics_MetaBlockOutput_MetaBlockOutput true (Some n_MemberOf_MetaBlock); ERef n_MetaBlockState n_CIM14_IEC61970_Dynamics_MetaBlockState_MetaBlockState true (Some n_MemberOf_MetaBlock); ERef n_MetaBlockSignal n_CIM14_IEC61970_Dynamics_MetaBlockSignal_MetaBlockSignal true (Some n_MemberOf_MetaBlock); ERef n_blockType0 n_CIM14_IEC61970_Dynamics_BlockType_BlockType false (Some n_metaBlock0); ERef n_MetaBlockInput n_CIM14_IEC61970_Dynamics_MetaBlockInput_MetaBlockInput true (Some n_MemberOf_MetaBlock); ERef n_blockConstant0 n_CIM14_IEC61970_Dynamics_BlockConstant_BlockConstant true (Some n_metaBlock0); ERef n_Block n_CIM14_IEC61970_Dynamics_Block_Block true (Some n_MetaBlock); ERef n_MetaBlockParameter n_CIM14_IEC61970_Dynamics_MetaBlockParameter_MetaBlockParameter true (Some n_MemberOf_MetaBlock)];
(* Model/CIM14/CIM14.ecore:8071-8081 *)
  EClass n_CIM14_IEC61970_Dynamics_MetaBlockConInput_MetaBlockConInput n_MetaBlockConInput (Some n_CIM14_IEC61970_Core_IdentifiedObject_IdentifiedObject)
    []
    [ERef n_MetaBlockConSignal n_CIM14_IEC61970_Dynamics_MetaBlockConSignal_MetaBlockConSignal false (Some n_MetaBlockConInput); ERef n_MemberOf_MetaBlockConnection n_CIM14_IEC61970_Dynamics_MetaBlockConnection_MetaBlockConnection false (Some n_MetaBlockConInput); ERef n_Unit n_CIM14_IEC61970_Core_Unit_Unit false (Some n_MetaBlockConInput)];
(* Model/CIM14/CIM14.ecore:7784-7794 *)
  EClass n_CIM14_IEC61970_Dynamics_MetaBlockConOutput_MetaBlockConOutput n_MetaBlockConOutput (Some n_CIM14_IEC61970_Core_IdentifiedObject_IdentifiedObject)
    []
    [ERef n_MetaBlockConSignal n_CIM14_IEC61970_Dynamics_MetaBlockConSignal_MetaBlockConSignal true (Some n_MetaBlockConOutput); ERef n_MemberOf_MetaBlockConnection n_CIM14_IEC61970_Dynamics_MetaBlockConnection_MetaBlockConnection false (Some n_MetaBlockConOutput); ERef n_Unit n_CIM14_IEC61970_Core_Unit_Unit false (Some n_MetaBlockConOutput)];
(* Model/CIM14/CIM14.ecore:8199-8208 *)
  EClass n_CIM14_IEC61970_Dynamics_MetaBlockConSignal_MetaBlockConSignal n_MetaBlockConSignal (Some n_CIM14_IEC61970_Core_IdentifiedObject_IdentifiedObject)
    []
    [ERef n_MetaBlockConInput n_CIM14_IEC61970_Dynamics_MetaBlockConInput_MetaBlockConInput false (Some n_MetaBlockConSignal); ERef n_MemberOf_MetaBlockConnectivity n_CIM14_IEC61970_Dynamics_MetaBlockConnectivity_MetaBlockConnectivity false (Some n_MetaBlockConSignal); ERef n_MetaBlockConOutput n_CIM14_IEC61970_Dynamics_MetaBlockConOutput_MetaBlockConOutput false (Some n_MetaBlockConSignal); ERef n_metaBlockConnectivity0 n_CIM14_IEC61970_Dynamics_MetaBlockConnectivity_MetaBlockConnectivity false (Some n_metaBlockConSignal0)];
(* Model/CIM14/CIM14.ecore:7731-7761 *)
  EClass n_CIM14_IEC61970_Dynamics_MetaBlockConnectable_MetaBlockConnectable n_MetaBlockConnectable (Some n_CIM14_IEC61970_Core_IdentifiedObject_IdentifiedObject)
    []
    [ERef n_StandardControlBlock_MetaBlockStateReference n_CIM14_IEC61970_Dynamics_MetaBlockStateReference_MetaBlockStateReference true (Some n_StandardControlBlock_MetaBlockConnectable); ERef n_MetaBlockOutputReference n_CIM14_IEC61970_Dynamics_MetaBlockOutputReference_MetaBlockOutputReference true (Some n_MetaBlockConnectable); ERef n_MetaBlockStateReference n_CIM14_IEC61970_Dynamics_MetaBlockStateReference_MetaBlockStateReference true (Some n_MetaBlockConnectable); ERef n_BlockInputReference n_CIM14_IEC61970_Dynamics_BlockInputReference_BlockInputReference true (Some n_BlockConnectable); ERef n_StandardControlBlock_MetaBlockInputReference n_CIM14_IEC61970_Dynamics_MetaBlockInputReference_MetaBlockInputReference true (Some n_StandardControlBlock_MetaBlockConnectable); ERef n_StandardControlBlock_MetaBlockParameterReference n_CIM14_IEC61970_Dynamics_MetaBlockParameterReference_MetaBlockParameterReference true (Some n_StandardControlBlock_MetaBlockConnectable); ERef n_MetaBlockParameterReference n_CIM14_IEC61970_Dynamics_MetaBlockParameterReference_MetaBlockParameterReference true (Some n_MetaBlockConnectable); ERef n_StandardControlBlock_MetaBlockOutputReference n_CIM14_IEC61970_Dynamics_MetaBlockOutputReference_MetaBlockOutputReference true (Some n_StandardControlBlock_MetaBlockConnectable); ERef n_MetaBlockInputReference n_CIM14_IEC61970_Dynamics_MetaBlockInputReference_MetaBlockInputReference true (Some n_MetaBlockConnectable)];
(* Model/CIM14/CIM14.ecore:8101-8118 *)
  EClass n_CIM14_IEC61970_Dynamics_MetaBlockConnection_MetaBlockConnection n_MetaBlockConnection (Some n_CIM14_IEC61970_Core_IdentifiedObject_IdentifiedObject)
    [(n_slotname, TText)]
    [ERef n_MetaBlockConOutput n_CIM14_IEC61970_Dynamics_MetaBlockConOutput_MetaBlockConOutput true (Some n_MemberOf_MetaBlockConnection); ERef n_MetaBlockConInput n_CIM14_IEC61970_Dynamics_MetaBlockConInput_MetaBlockConInput true (Some n_MemberOf_MetaBlockConnection); ERef n_metaBlockConnectivity0 n_CIM14_IEC61970_Dynamics_MetaBlockConnectivity_MetaBlockConnectivity false (Some n_metaBlockConnection0); ERef n_BlockConnection n_CIM14_IEC61970_Dynamics_BlockConnection_BlockConnection true (Some n_MetaBlockConnection); ERef n_MemberOf_MetaBlockConnectivity n_CIM14_IEC61970_Dynamics_MetaBlockConnectivity_MetaBlockConnectivity false (Some n_MetaBlockConnection)];
(* Model/CIM14/CIM14.ecore:8272-8283 *)
  EClass n_CIM14_IEC61970_Dynamics_MetaBlockConnectivity_MetaBlockConnectivity n_MetaBlockConnectivity (Some n_CIM14_IEC61970_Core_IdentifiedObject_IdentifiedObject)
    []
    [ERef n_BlockConnectivity n_CIM14_IEC61970_Dynamics_BlockConnectivity_BlockConnectivity true (Some n_MetaBlockConnectivity); ERef n_MetaBlockConSignal n_CIM14_IEC61970_Dynamics_MetaBlockConSignal_MetaBlockConSignal true (Some n_MemberOf_MetaBlockConnectivity); ERef n_metaBlockConnection0 n_CIM14_IEC61970_Dynamics_MetaBlockConnection_MetaBlockConnection true (Some n_metaBlockConnectivity0); ERef n_metaBlockConSignal0 n_CIM14_IEC61970_Dynamics_MetaBlockConSignal_MetaBlockConSignal true (Some n_metaBlockConnectivity0); ERef n_MetaBlockConnection n_CIM14_IEC61970_Dynamics_MetaBlockConnection_MetaBlockConnection true (Some n_MemberOf_MetaBlockConnectivity)];
(* Model/CIM14/CIM14.ecore:7854-7881 *)
  EClass n_CIM14_IEC61970_Dynamics_MetaBlockInput_MetaBlockInput n_MetaBlockInput (Some n_CIM14_IEC61970_Dynamics_MetaBlockConnectable_MetaBlockConnectable)
    []
    [ERef n_blockInputReference0 n_CIM14_IEC61970_Dynamics_BlockInputReference_BlockInputReference true (Some n_metaBlockInput0); ERef n_MemberOf_MetaBlock n_CIM14_IEC61970_Dynamics_MetaBlock_MetaBlock false (Some n_MetaBlockInput); ERef n_blockUsageInputReference0 n_CIM14_IEC61970_Dynamics_BlockUsageInputReference_BlockUsageInputReference true (Some n_metaBlockInput0); ERef n_blockInputType0 n_CIM14_IEC61970_Dynamics_BlockInputType_BlockInputType false (Some n_metaBlockInput0); ERef n_tieToMeasurement0 n_CIM14_IEC61970_Dynamics_TieToMeasurement_TieToMeasurement true (Some n_metaBlockInput0)];
(* Model/CIM14/CIM14.ecore:7893-7908 *)
  EClass n_CIM14_IEC61970_Dynamics_MetaBlockInputReference_MetaBlockInputReference n_MetaBlockInputReference (Some n_CIM14_IEC61970_Core_IdentifiedObject_IdentifiedObject)
    [(n_positiveFlowIn, TBool)]
    [ERef n_StandardControlBlock_MetaBlockConnectable n_CIM14_IEC61970_Dynamics_MetaBlockConnectable_MetaBlockConnectable false (Some n_StandardControlBlock_MetaBlockInputReference); ERef n_MemberOf_MetaBlockReference n_CIM14_IEC61970_Dynamics_MetaBlockReference_MetaBlockReference false (Some n_MetaBlockInputReference); ERef n_MetaBlockSignal n_CIM14_IEC61970_Dynamics_MetaBlockSignal_MetaBlockSignal false (Some n_From); ERef n_MetaBlockConnectable n_CIM14_IEC61970_Dynamics_MetaBlockConnectable_MetaBlockConnectable false (Some n_MetaBlockInputReference)];
(* Model/CIM14/CIM14.ecore:7762-7783 *)
  EClass n_CIM14_IEC61970_Dynamics_MetaBlockOutput_MetaBlockOutput n_MetaBlockOutput (Some n_CIM14_IEC61970_Dynamics_MetaBlockConnectable_MetaBlockConnectable)
    []
    [ERef n_BlockOutputReference n_CIM14_IEC61970_Dynamics_BlockOutputReference_BlockOutputReference true (Some n_metaBlockOutput0); ERef n_MemberOf_MetaBlock n_CIM14_IEC61970_Dynamics_MetaBlock_MetaBlock false (Some n_MetaBlockOutput); ERef n_blockUsageOutputReference0 n_CIM14_IEC61970_Dynamics_BlockUsageOutputReference_BlockUsageOutputReference true (Some n_metaBlockOutput0); ERef n_blockOutputType0 n_CIM14_IEC61970_Dynamics_BlockOutputType_BlockOutputType false (Some n_metaBlockOutput0)];
(* Model/CIM14/CIM14.ecore:8284-8293 *)
  EClass n_CIM14_IEC61970_Dynamics_MetaBlockOutputReference_MetaBlockOutputReference n_MetaBlockOutputReference (Some n_CIM14_IEC61970_Core_IdentifiedObject_IdentifiedObject)
    []
    [ERef n_MetaBlockConnectable n_CIM14_IEC61970_Dynamics_MetaBlockConnectable_MetaBlockConnectable false (Some n_MetaBlockOutputReference); ERef n_MemberOf_MetaBlockReference n_CIM14_IEC61970_Dynamics_MetaBlockReference_MetaBlockReference false (Some n_MetaBlockOutputReference); ERef n_MetaBlockSignal n_CIM14_IEC61970_Dynamics_MetaBlockSignal_MetaBlockSignal true (Some n_To); ERef n_StandardControlBlock_MetaBlockConnectable n_CIM14_IEC61970_Dynamics_MetaBlockConnectable_MetaBlockConnectable false (Some n_StandardControlBlock_MetaBlockOutputReference)];
(* Model/CIM14/CIM14.ecore:7918-7930 *)
  EClass n_CIM14_IEC61970_Dynamics_MetaBlockParameter_MetaBlockParameter n_MetaBlockParameter (Some n_CIM14_IEC61970_Dynamics_MetaBlockConnectable_MetaBlockConnectable)
    []
    [ERef n_BlockParameter n_CIM14_IEC61970_Dynamics_BlockParameter_BlockParameter true (Some n_MetaBlockParameter); ERef n_MemberOf_MetaBlock n_CIM14_IEC61970_Dynamics_MetaBlock_MetaBlock false (Some n_MetaBlockParameter)];
(* Model/CIM14/CIM14.ecore:7931-7941 *)
  EClass n_CIM14_IEC61970_Dynamics_MetaBlockParameterReference_MetaBlockParameterReference n_MetaBlockParameterReference (Some n_CIM14_IEC61970_Core_IdentifiedObject_IdentifiedObject)
    []
    [ERef n_StandardControlBlock_MetaBlockConnectable n_CIM14_IEC61970_Dynamics_MetaBlockConnectable_MetaBlockConnectable false (Some n_StandardControlBlock_MetaBlockParameterReference); ERef n_MetaBlockConnectable n_CIM14_IEC61970_Dynamics_MetaBlockConnectable_MetaBlockConnectable false (Some n_MetaBlockParameterReference); ERef n_MemberOf_MetaBlockReference n_CIM14_IEC61970_Dynamics_MetaBlockReference_MetaBlockReference false (Some n_MetaBlockParameterReference)];
(* Model/CIM14/CIM14.ecore:8131-8160 *)
  EClass n_CIM14_IEC61970_Dynamics_MetaBlockReference_MetaBlockReference n_MetaBlockReference (Some n_CIM14_IEC61970_Core_IdentifiedObject_IdentifiedObject)
    [(n_equationType, TText)]
    [ERef n_blockInputReference0 n_CIM14_IEC61970_Dynamics_BlockInputReference_BlockInputReference true (Some n_metaBlockReference0); ERef n_MemberOf_MetaBlock n_CIM14_IEC61970_Dynamics_MetaBlock_MetaBlock false (Some n_MetaBlockReference); ERef n_MetaBlock n_CIM14_IEC61970_Dynamics_MetaBlock_MetaBlock false None; ERef n_blockOutputReference0 n_CIM14_IEC61970_Dynamics_BlockOutputReference_BlockOutputReference true (Some n_metaBlockReference0); ERef n_MetaBlockStateReference n_CIM14_IEC61970_Dynamics_MetaBlockStateReference_MetaBlockStateReference true (Some n_MemberOf_MetaBlockReference); ERef n_MetaBlockInputReference n_CIM14_IEC61970_Dynamics_MetaBlockInputReference_MetaBlockInputReference true (Some n_MemberOf_MetaBlockReference); ERef n_MetaBlockOutputReference n_CIM14_IEC61970_Dynamics_MetaBlockOutputReference_MetaBlockOutputReference true (Some n_MemberOf_MetaBlockReference); ERef n_BlockParameter n_CIM14_IEC61970_Dynamics_BlockParameter_BlockParameter true (Some n_MemberOf_MetaBlockReference); ERef n_MetaBlockParameterReference n_CIM14_IEC61970_Dynamics_MetaBlockParameterReference_MetaBlockParameterReference true (Some n_MemberOf_MetaBlockReference)];
(* Model/CIM14/CIM14.ecore:7971-7982 *)
  EClass n_CIM14_IEC61970_Dynamics_MetaBlockSignal_MetaBlockSignal n_MetaBlockSignal (Some n_CIM14_IEC61970_Core_IdentifiedObject_IdentifiedObject)
    []
    [ERef n_metaBlockSignal1 n_CIM14_IEC61970_Dynamics_MetaBlockSignal_MetaBlockSignal true (Some n_metaBlockSignal); ERef n_metaBlockSignal n_CIM14_IEC61970_Dynamics_MetaBlockSignal_MetaBlockSignal true (Some n_metaBlockSignal1); ERef n_MemberOf_MetaBlock n_CIM14_IEC61970_Dynamics_MetaBlock_MetaBlock false (Some n_MetaBlockSignal); ERef n_From n_CIM14_IEC61970_Dynamics_MetaBlockInputReference_MetaBlockInputReference false (Some n_MetaBlockSignal); ERef n_To n_CIM14_IEC61970_Dynamics_MetaBlockOutputReference_MetaBlockOutputReference false (Some n_MetaBlockSignal)];
(* Model/CIM14/CIM14.ecore:8237-8240 *)
  EClass n_CIM14_IEC61970_Dynamics_MetaBlockState_MetaBlockState n_MetaBlockState (Some n_CIM14_IEC61970_Dynamics_MetaBlockConnectable_MetaBlockConnectable)
    []
    [ERef n_MemberOf_MetaBlock n_CIM14_IEC61970_Dynamics_MetaBlock_MetaBlock false (Some n_MetaBlockState)];
(* Model/CIM14/CIM14.ecore:7983-7996 *)
  EClass n_CIM14_IEC61970_Dynamics_MetaBlockStateReference_MetaBlockStateReference n_MetaBlockStateReference (Some n_CIM14_IEC61970_Core_IdentifiedObject_IdentifiedObject)
    [(n_positiveFlowIn, TBool)]
    [ERef n_StandardControlBlock_MetaBlockConnectable n_CIM14_IEC61970_Dynamics_MetaBlockConnectable_MetaBlockConnectable false (Some n_StandardControlBlock_MetaBlockStateReference); ERef n_MetaBlockConnectable n_CIM14_IEC61970_Dynamics_MetaBlockConnectable_MetaBlockConnectable false (Some n_MetaBlockStateReference); ERef n_MemberOf_MetaBlockReference n_CIM14_IEC61970_Dynamics_MetaBlockReference_MetaBlockReference false (Some n_MetaBlockStateReference)];
(* Model/CIM14/CIM14.ecore:8327-8355 *)
  EClass n_CIM14_IEC61970_Dynamics_Motors_MechLoad1_MechLoad1 n_MechLoad1 (Some n_CIM14_IEC61970_Dynamics_Motors_MechanicalLoad_MechanicalLoad)
    [(n_e, TFloat); (n_b, TFloat); (n_d, TFloat); (n_a, TFloat)]
    [];
(* Model/CIM14/CIM14.ecore:8302-8308 *)
  EClass n_CIM14_IEC61970_Dynamics_Motors_MechanicalLoad_MechanicalLoad n_MechanicalLoad (Some n_CIM14_IEC61970_Core_PowerSystemResource_PowerSystemResource)
    []
    [ERef n_rotatingMachine0 n_CIM14_IEC61970_Dynamics_RotatingMachine_RotatingMachine true (Some n_mechanicalLoad0)];
(* Model/CIM14/CIM14.ecore:8356-8360 *)
  EClass n_CIM14_IEC61970_Dynamics_Motors_MotorAsync_MotorAsync n_MotorAsync (Some n_CIM14_IEC61970_Dynamics_AsynchronousMachine_AsynchronousMachine)
    []
    [];
(* Model/CIM14/CIM14.ecore:8316-8326 *)
  EClass n_CIM14_IEC61970_Dynamics_Motors_MotorSync_MotorSync n_MotorSync (Some n_CIM14_IEC61970_Wires_SynchronousMachine_SynchronousMachine)
    [(n_synchronousMotorType, enum_cim14_IEC61970_Dynamics_Motors_SynchronousMotorType)]
    [];
(* Model/CIM14/CIM14.ecore:11601-11605 *)
  EClass n_CIM14_IEC61970_Dynamics_PowerSystemStabilizers_PowerSystemStabilizer_PowerSystemStabilizer n_PowerSystemStabilizer (Some n_CIM14_IEC61970_Core_PowerSystemResource_PowerSystemResource)
    []
    [];
(* Model/CIM14/CIM14.ecore:11629-11633 *)
  EClass n_CIM14_IEC61970_Dynamics_PowerSystemStabilizers_PssIEEE1A_PssIEEE1A n_PssIEEE1A (Some n_CIM14_IEC61970_Dynamics_PowerSystemStabilizers_PowerSystemStabilizer_PowerSystemStabilizer)
    []
    [];
(* Model/CIM14/CIM14.ecore:11639-11829 *)
  EClass n_CIM14_IEC61970_Dynamics_PowerSystemStabilizers_PssIEEE2B_PssIEEE2B n_PssIEEE2B (Some n_CIM14_IEC61970_Dynamics_PowerSystemStabilizers_PowerSystemStabilizer_PowerSystemStabilizer)
    [(n_t11, TFloat); (n_vsi1max, TFloat); (n_t3, TFloat); (n_tw3, TFloat); (n_vstmax, TFloat); (n_t2, TFloat); (n_n, TInt); (n_vsi1min, TFloat); (n_t9, TFloat); (n_ks2, TFloat); (n_vstmin, TFloat); (n_j1, TInt); (n_tw1, TFloat); (n_tb, TFloat); (n_t7, TFloat); (n_vsi2max, TFloat); (n_t6, TFloat); (n_t1, TFloat); (n_m, TInt); (n_vsi2min, TFloat); (n_a, TFloat); (n_t4, TFloat); (n_tw4, TFloat); (n_ks4, TFloat); (n_ta, TFloat); (n_ks3, TFloat); (n_t10, TFloat); (n_tw2, TFloat); (n_j2, TInt); (n_ks1, TFloat); (n_t8, TFloat)]
    [];
(* Model/CIM14/CIM14.ecore:11606-11610 *)
  EClass n_CIM14_IEC61970_Dynamics_PowerSystemStabilizers_PssIEEE3B_PssIEEE3B n_PssIEEE3B (Some n_CIM14_IEC61970_Dynamics_PowerSystemStabilizers_PowerSystemStabilizer_PowerSystemStabilizer)
    []
    [];
(* Model/CIM14/CIM14.ecore:11624-11628 *)
  EClass n_CIM14_IEC61970_Dynamics_PowerSystemStabilizers_PssIEEE4B_PssIEEE4B n_PssIEEE4B (Some n_CIM14_IEC61970_Dynamics_PowerSystemStabilizers_PowerSystemStabilizer_PowerSystemStabilizer)
    []
    [];
(* Model/CIM14/CIM14.ecore:11634-11638 *)
  EClass n_CIM14_IEC61970_Dynamics_PowerSystemStabilizers_PssPTIST1_PssPTIST1 n_PssPTIST1 (Some n_CIM14_IEC61970_Dynamics_PowerSystemStabilizers_PowerSystemStabilizer_PowerSystemStabilizer)
    []
    [];
(* Model/CIM14/CIM14.ecore:11845-11849 *)
  EClass n_CIM14_IEC61970_Dynamics_PowerSystemStabilizers_PssPTIST3_PssPTIST3 n_PssPTIST3 (Some n_CIM14_IEC61970_Dynamics_PowerSystemStabilizers_PowerSystemStabilizer_PowerSystemStabilizer)
    []
    [];
(* Model/CIM14/CIM14.ecore:11830-11834 *)
  EClass n_CIM14_IEC61970_Dynamics_PowerSystemStabilizers_PssSB_PssSB n_PssSB (Some n_CIM14_IEC61970_Dynamics_PowerSystemStabilizers_PowerSystemStabilizer_PowerSystemStabilizer)
    []
    [];
(* Model/CIM14/CIM14.ecore:11835-11839 *)
  EClass n_CIM14_IEC61970_Dynamics_PowerSystemStabilizers_PssSB4_PssSB4 n_PssSB4 (Some n_CIM14_IEC61970_Dynamics_PowerSystemStabilizers_PowerSystemStabilizer_PowerSystemStabilizer)
    []
    [];
(* Model/CIM14/CIM14.ecore:11840-11844 *)
  EClass n_CIM14_IEC61970_Dynamics_PowerSystemStabilizers_PssSH_PssSH n_PssSH (Some n_CIM14_IEC61970_Dynamics_PowerSystemStabilizers_PowerSystemStabilizer_PowerSystemStabilizer)
    []
    [];
(* Model/CIM14/CIM14.ecore:11619-11623 *)
  EClass n_CIM14_IEC61970_Dynamics_PowerSystemStabilizers_PssSK_PssSK n_PssSK (Some n_CIM14_IEC61970_Dynamics_PowerSystemStabilizers_PowerSystemStabilizer_PowerSystemStabilizer)
    []
    [];
(* Model/CIM14/CIM14.ecore:11850-11854 *)
  EClass n_CIM14_IEC61970_Dynamics_PowerSystemStabilizers_PssWSCC_PssWSCC n_PssWSCC (Some n_CIM14_IEC61970_Dynamics_PowerSystemStabilizers_PowerSystemStabilizer_PowerSystemStabilizer)
    []
    [];
(* Model/CIM14/CIM14.ecore:8236-8236 *)
  EClass n_CIM14_IEC61970_Dynamics_ProtectiveDevice_ProtectiveDevice n_ProtectiveDevice (Some n_CIM14_Element_Element)
    []
    [];
(* Model/CIM14/CIM14.ecore:7600-7650 *)
  EClass n_CIM14_IEC61970_Dynamics_RotatingMachine_RotatingMachine n_RotatingMachine (Some n_CIM14_IEC61970_Wires_RegulatingCondEq_RegulatingCondEq)
    [(n_parametersFormType, enum_cim14_IEC61970_Dynamics_Generators_ParametersFormType); (n_d, TFloat); (n_rs, TFloat); (n_h, TFloat); (n_s12, TFloat); (n_ratedS, TFloat); (n_s1, TFloat); (n_xls, TFloat)]
    [ERef n_mechanicalLoad0 n_CIM14_IEC61970_Dynamics_Motors_MechanicalLoad_MechanicalLoad true (Some n_rotatingMachine0)];
(* Model/CIM14/CIM14.ecore:8119-8130 *)
  EClass n_CIM14_IEC61970_Dynamics_Slot_Slot n_Slot (Some n_CIM14_IEC61970_Core_IdentifiedObject_IdentifiedObject)
    []
    [ERef n_blockType0 n_CIM14_IEC61970_Dynamics_BlockType_BlockType false (Some n_slot0); ERef n_slotReference0 n_CIM14_IEC61970_Dynamics_SlotReference_SlotReference true (Some n_slot0); ERef n_slotOutput0 n_CIM14_IEC61970_Dynamics_SlotOutput_SlotOutput true (Some n_slot0); ERef n_connectionFrame0 n_CIM14_IEC61970_Dynamics_ConnectionFrame_ConnectionFrame false (Some n_slot0); ERef n_slotInput0 n_CIM14_IEC61970_Dynamics_SlotInput_SlotInput true (Some n_slot0)];
(* Model/CIM14/CIM14.ecore:8011-8021 *)
  EClass n_CIM14_IEC61970_Dynamics_SlotConnection_SlotConnection n_SlotConnection (Some n_CIM14_IEC61970_Core_IdentifiedObject_IdentifiedObject)
    []
    [ERef n_connectionFrame0 n_CIM14_IEC61970_Dynamics_ConnectionFrame_ConnectionFrame false (Some n_slotConnection0); ERef n_slotInput0 n_CIM14_IEC61970_Dynamics_SlotInput_SlotInput false (Some n_slotConnection0); ERef n_slotOutput0 n_CIM14_IEC61970_Dynamics_SlotOutput_SlotOutput false (Some n_slotConnection0)];
(* Model/CIM14/CIM14.ecore:7963-7970 *)
  EClass n_CIM14_IEC61970_Dynamics_SlotInput_SlotInput n_SlotInput (Some n_CIM14_IEC61970_Core_IdentifiedObject_IdentifiedObject)
    []
    [ERef n_blockInputType0 n_CIM14_IEC61970_Dynamics_BlockInputType_BlockInputType false (Some n_slotInput0); ERef n_slotConnection0 n_CIM14_IEC61970_Dynamics_SlotConnection_SlotConnection false (Some n_slotInput0); ERef n_slot0 n_CIM14_IEC61970_Dynamics_Slot_Slot false (Some n_slotInput0)];
(* Model/CIM14/CIM14.ecore:8228-8235 *)
  EClass n_CIM14_IEC61970_Dynamics_SlotOutput_SlotOutput n_SlotOutput (Some n_CIM14_IEC61970_Core_IdentifiedObject_IdentifiedObject)
    []
    [ERef n_slot0 n_CIM14_IEC61970_Dynamics_Slot_Slot false (Some n_slotOutput0); ERef n_slotConnection0 n_CIM14_IEC61970_Dynamics_SlotConnection_SlotConnection true (Some n_slotOutput0); ERef n_blockOutputType0 n_CIM14_IEC61970_Dynamics_BlockOutputType_BlockOutputType false (Some n_slotOutput0)];
(* Model/CIM14/CIM14.ecore:7882-7892 *)
  EClass n_CIM14_IEC61970_Dynamics_SlotReference_SlotReference n_SlotReference (Some n_CIM14_IEC61970_Core_IdentifiedObject_IdentifiedObject)
    []
    [ERef n_slot0 n_CIM14_IEC61970_Dynamics_Slot_Slot false (Some n_slotReference0); ERef n_block0 n_CIM14_IEC61970_Dynamics_Block_Block true (Some n_slotReference0); ERef n_compositeModel0 n_CIM14_IEC61970_Dynamics_CompositeModel_CompositeModel true (Some n_slotReference0)];
(* Model/CIM14/CIM14.ecore:8010-8010 *)
  EClass n_CIM14_IEC61970_Dynamics_SourceModels_SourceModels n_SourceModels (Some n_CIM14_Element_Element)
    []
    [];
(* Model/CIM14/CIM14.ecore:8082-8082 *)
  EClass n_CIM14_IEC61970_Dynamics_StaticVarDevice_StaticVarDevice n_StaticVarDevice (Some n_CIM14_Element_Element)
    []
    [];
(* Model/CIM14/CIM14.ecore:8257-8271 *)
  EClass n_CIM14_IEC61970_Dynamics_TieToMeasurement_TieToMeasurement n_TieToMeasurement (Some n_CIM14_IEC61970_Core_IdentifiedObject_IdentifiedObject)
    []
    [ERef n_measurement0 n_CIM14_IEC61970_Meas_Measurement_Measurement false (Some n_tieToMeasurement0); ERef n_block0 n_CIM14_IEC61970_Dynamics_Block_Block false (Some n_tieToMeasurement0); ERef n_metaBlockInput0 n_CIM14_IEC61970_Dynamics_MetaBlockInput_MetaBlockInput false (Some n_tieToMeasurement0)];
(* Model/CIM14/CIM14.ecore:11086-11086 *)
  EClass n_CIM14_IEC61970_Dynamics_TurbineGovernors_Class1_Class1 n_Class1 (Some n_CIM14_Element_Element)
    []
    [];
(* Model/CIM14/CIM14.ecore:11325-11545 *)
  EClass n_CIM14_IEC61970_Dynamics_TurbineGovernors_GovCT1_GovCT1 n_GovCT1 (Some n_CIM14_IEC61970_Dynamics_TurbineGovernors_TurbineGovernor_TurbineGovernor)
    [(n_tdgov, TFloat); (n_tb, TFloat); (n_kdgov, TFloat); (n_db, TFloat); (n_vmin, TFloat); (n_kturb, TFloat); (n_teng, TFloat); (n_minerr, TFloat); (n_aset, TFloat); (n_maxerr, TFloat); (n_tsa, TFloat); (n_mwbase, TFloat); (n_wfspd, TBool); (n_kiload, TFloat); (n_kpgov, TFloat); (n_ldref, TFloat); (n_vmax, TFloat); (n_rup, TFloat); (n_r, TFloat); (n_tpelec, TFloat); (n_ta, TFloat); (n_ropen, TFloat); (n_kimw, TFloat); (n_ka, TFloat); (n_rdown, TFloat); (n_rclose, TFloat); (n_dm, TFloat); (n_tsb, TFloat); (n_kigov, TFloat); (n_kpload, TFloat); (n_tfload, TFloat); (n_tact, TFloat); (n_tc, TFloat); (n_wfnl, TFloat); (n_pmwset, TFloat); (n_rselect, TBool)]
    [];
(* Model/CIM14/CIM14.ecore:10993-10993 *)
  EClass n_CIM14_IEC61970_Dynamics_TurbineGovernors_GovCT2_GovCT2 n_GovCT2 (Some n_CIM14_IEC61970_Dynamics_TurbineGovernors_TurbineGovernor_TurbineGovernor)
    []
    [];
(* Model/CIM14/CIM14.ecore:11549-11549 *)
  EClass n_CIM14_IEC61970_Dynamics_TurbineGovernors_GovDUM_GovDUM n_GovDUM (Some n_CIM14_IEC61970_Dynamics_TurbineGovernors_TurbineGovernor_TurbineGovernor)
    []
    [];
(* Model/CIM14/CIM14.ecore:10764-10764 *)
  EClass n_CIM14_IEC61970_Dynamics_TurbineGovernors_GovGASM_GovGASM n_GovGASM (Some n_CIM14_IEC61970_Dynamics_TurbineGovernors_TurbineGovernor_TurbineGovernor)
    []
    [];
(* Model/CIM14/CIM14.ecore:11081-11081 *)
  EClass n_CIM14_IEC61970_Dynamics_TurbineGovernors_GovGAST_GovGAST n_GovGAST (Some n_CIM14_IEC61970_Dynamics_TurbineGovernors_TurbineGovernor_TurbineGovernor)
    []
    [];
(* Model/CIM14/CIM14.ecore:10767-10767 *)
  EClass n_CIM14_IEC61970_Dynamics_TurbineGovernors_GovGAST2_GovGAST2 n_GovGAST2 (Some n_CIM14_IEC61970_Dynamics_TurbineGovernors_TurbineGovernor_TurbineGovernor)
    []
    [];
(* Model/CIM14/CIM14.ecore:11547-11547 *)
  EClass n_CIM14_IEC61970_Dynamics_TurbineGovernors_GovGASTWD_GovGASTWD n_GovGASTWD (Some n_CIM14_IEC61970_Dynamics_TurbineGovernors_TurbineGovernor_TurbineGovernor)
    []
    [];
(* Model/CIM14/CIM14.ecore:11546-11546 *)
  EClass n_CIM14_IEC61970_Dynamics_TurbineGovernors_GovHydro0_GovHydro0 n_GovHydro0 (Some n_CIM14_IEC61970_Dynamics_TurbineGovernors_TurbineGovernor_TurbineGovernor)
    []
    [];
(* Model/CIM14/CIM14.ecore:10994-11080 *)
  EClass n_CIM14_IEC61970_Dynamics_TurbineGovernors_GovHydro1_GovHydro1 n_GovHydro1 (Some n_CIM14_IEC61970_Dynamics_TurbineGovernors_TurbineGovernor_TurbineGovernor)
    [(n_tf, TFloat); (n_velm, TFloat); (n_mwbase, TFloat); (n_gmin, TFloat); (n_gmax, TFloat); (n_rperm, TFloat); (n_tr, TFloat); (n_rtemp, TFloat); (n_qnl, TFloat); (n_tg, TFloat); (n_dturb, TFloat); (n_at, TFloat); (n_tw, TFloat)]
    [ERef n_HydroTurbine n_CIM14_IEC61970_Generation_GenerationDynamics_HydroTurbine_HydroTurbine false (Some n_HydroTurbineGovernor); ERef n_synchronousMachine0 n_CIM14_IEC61970_Wires_SynchronousMachine_SynchronousMachine true (Some n_govHydro10)];
(* Model/CIM14/CIM14.ecore:11149-11324 *)
  EClass n_CIM14_IEC61970_Dynamics_TurbineGovernors_GovHydro2_GovHydro2 n_GovHydro2 (Some n_CIM14_IEC61970_Dynamics_TurbineGovernors_TurbineGovernor_TurbineGovernor)
    [(n_tg, TFloat); (n_uc, TFloat); (n_gv1, TFloat); (n_db1, TFloat); (n_pmax, TFloat); (n_pgv4, TFloat); (n_gv5, TFloat); (n_uo, TFloat); (n_rperm, TFloat); (n_db2, TFloat); (n_pgv5, TFloat); (n_tw, TFloat); (n_pgv2, TFloat); (n_gv3, TFloat); (n_gv2, TFloat); (n_rtemp, TFloat); (n_mwbase, TFloat); (n_aturb, TFloat); (n_kturb, TFloat); (n_pgv3, TFloat); (n_pmin, TFloat); (n_tr, TFloat); (n_eps, TFloat); (n_gv6, TFloat); (n_pgv1, TFloat); (n_tp, TFloat); (n_pgv6, TFloat); (n_gv4, TFloat); (n_bturb, TFloat)]
    [];
(* Model/CIM14/CIM14.ecore:11094-11094 *)
  EClass n_CIM14_IEC61970_Dynamics_TurbineGovernors_GovHydro3_GovHydro3 n_GovHydro3 (Some n_CIM14_IEC61970_Dynamics_TurbineGovernors_TurbineGovernor_TurbineGovernor)
    []
    [];
(* Model/CIM14/CIM14.ecore:10992-10992 *)
  EClass n_CIM14_IEC61970_Dynamics_TurbineGovernors_GovHydro4_GovHydro4 n_GovHydro4 (Some n_CIM14_IEC61970_Dynamics_TurbineGovernors_TurbineGovernor_TurbineGovernor)
    []
    [];
(* Model/CIM14/CIM14.ecore:11090-11090 *)
  EClass n_CIM14_IEC61970_Dynamics_TurbineGovernors_GovHydroDD_GovHydroDD n_GovHydroDD (Some n_CIM14_IEC61970_Dynamics_TurbineGovernors_TurbineGovernor_TurbineGovernor)
    []
    [];
(* Model/CIM14/CIM14.ecore:11088-11088 *)
  EClass n_CIM14_IEC61970_Dynamics_TurbineGovernors_GovHydroPID_GovHydroPID n_GovHydroPID (Some n_CIM14_IEC61970_Dynamics_TurbineGovernors_TurbineGovernor_TurbineGovernor)
    []
    [];
(* Model/CIM14/CIM14.ecore:11148-11148 *)
  EClass n_CIM14_IEC61970_Dynamics_TurbineGovernors_GovHydroPID2_GovHydroPID2 n_GovHydroPID2 (Some n_CIM14_IEC61970_Dynamics_TurbineGovernors_TurbineGovernor_TurbineGovernor)
    []
    [];
(* Model/CIM14/CIM14.ecore:10765-10765 *)
  EClass n_CIM14_IEC61970_Dynamics_TurbineGovernors_GovHydroR_GovHydroR n_GovHydroR (Some n_CIM14_IEC61970_Dynamics_TurbineGovernors_TurbineGovernor_TurbineGovernor)
    []
    [];
(* Model/CIM14/CIM14.ecore:11089-11089 *)
  EClass n_CIM14_IEC61970_Dynamics_TurbineGovernors_GovHydroWEH_GovHydroWEH n_GovHydroWEH (Some n_CIM14_IEC61970_Dynamics_TurbineGovernors_TurbineGovernor_TurbineGovernor)
    []
    [];
(* Model/CIM14/CIM14.ecore:11083-11083 *)
  EClass n_CIM14_IEC61970_Dynamics_TurbineGovernors_GovHydroWPID_GovHydroWPID n_GovHydroWPID (Some n_CIM14_IEC61970_Dynamics_TurbineGovernors_TurbineGovernor_TurbineGovernor)
    []
    [];
(* Model/CIM14/CIM14.ecore:10769-10769 *)
  EClass n_CIM14_IEC61970_Dynamics_TurbineGovernors_GovRAV_GovRAV n_GovRAV (Some n_CIM14_IEC61970_Dynamics_TurbineGovernors_TurbineGovernor_TurbineGovernor)
    []
    [];
(* Model/CIM14/CIM14.ecore:11095-11147 *)
  EClass n_CIM14_IEC61970_Dynamics_TurbineGovernors_GovSteam0_GovSteam0 n_GovSteam0 (Some n_CIM14_IEC61970_Dynamics_TurbineGovernors_TurbineGovernor_TurbineGovernor)
    [(n_t2, TFloat); (n_t1, TFloat); (n_vmin, TFloat); (n_dt, TFloat); (n_vmax, TFloat); (n_mwbase, TFloat); (n_r, TFloat); (n_t3, TFloat)]
    [];
(* Model/CIM14/CIM14.ecore:10770-10990 *)
  EClass n_CIM14_IEC61970_Dynamics_TurbineGovernors_GovSteam1_GovSteam1 n_GovSteam1 (Some n_CIM14_IEC61970_Dynamics_TurbineGovernors_TurbineGovernor_TurbineGovernor)
    [(n_gv1, TFloat); (n_pgv3, TFloat); (n_uo, TFloat); (n_k1, TFloat); (n_mwbase, TFloat); (n_k8, TFloat); (n_uc, TFloat); (n_gv5, TFloat); (n_k7, TFloat); (n_gv4, TFloat); (n_k, TFloat); (n_gv2, TFloat); (n_db2, TFloat); (n_pgv4, TFloat); (n_t6, TFloat); (n_k2, TFloat); (n_db1, TFloat); (n_t5, TFloat); (n_k5, TFloat); (n_pgv2, TFloat); (n_pgv1, TFloat); (n_t3, TFloat); (n_t1, TFloat); (n_k6, TFloat); (n_gv3, TFloat); (n_eps, TFloat); (n_gv6, TFloat); (n_t4, TFloat); (n_pgv6, TFloat); (n_pmin, TFloat); (n_k4, TFloat); (n_pgv5, TFloat); (n_pmax, TFloat); (n_t7, TFloat); (n_k3, TFloat); (n_t2, TFloat)]
    [];
(* Model/CIM14/CIM14.ecore:10768-10768 *)
  EClass n_CIM14_IEC61970_Dynamics_TurbineGovernors_GovSteamCC_GovSteamCC n_GovSteamCC (Some n_CIM14_IEC61970_Dynamics_TurbineGovernors_TurbineGovernor_TurbineGovernor)
    []
    [];
(* Model/CIM14/CIM14.ecore:11093-11093 *)
  EClass n_CIM14_IEC61970_Dynamics_TurbineGovernors_GovSteamEU_GovSteamEU n_GovSteamEU (Some n_CIM14_IEC61970_Dynamics_TurbineGovernors_TurbineGovernor_TurbineGovernor)
    []
    [];
(* Model/CIM14/CIM14.ecore:10761-10761 *)
  EClass n_CIM14_IEC61970_Dynamics_TurbineGovernors_GovSteamFV2_GovSteamFV2 n_GovSteamFV2 (Some n_CIM14_IEC61970_Dynamics_TurbineGovernors_TurbineGovernor_TurbineGovernor)
    []
    [];
(* Model/CIM14/CIM14.ecore:11548-11548 *)
  EClass n_CIM14_IEC61970_Dynamics_TurbineGovernors_GovSteamFV3_GovSteamFV3 n_GovSteamFV3 (Some n_CIM14_IEC61970_Dynamics_TurbineGovernors_TurbineGovernor_TurbineGovernor)
    []
    [];
(* Model/CIM14/CIM14.ecore:10763-10763 *)
  EClass n_CIM14_IEC61970_Dynamics_TurbineGovernors_GovSteamSGO_GovSteamSGO n_GovSteamSGO (Some n_CIM14_IEC61970_Dynamics_TurbineGovernors_TurbineGovernor_TurbineGovernor)
    []
    [];
(* Model/CIM14/CIM14.ecore:11091-11091 *)
  EClass n_CIM14_IEC61970_Dynamics_TurbineGovernors_GovWT1P_GovWT1P n_GovWT1P (Some n_CIM14_IEC61970_Dynamics_TurbineGovernors_TurbineGovernor_TurbineGovernor)
    []
    [];
(* Model/CIM14/CIM14.ecore:11084-11084 *)
  EClass n_CIM14_IEC61970_Dynamics_TurbineGovernors_GovWT1T_GovWT1T n_GovWT1T (Some n_CIM14_IEC61970_Dynamics_TurbineGovernors_TurbineGovernor_TurbineGovernor)
    []
    [];
(* Model/CIM14/CIM14.ecore:11092-11092 *)
  EClass n_CIM14_IEC61970_Dynamics_TurbineGovernors_GovWT2P_GovWT2P n_GovWT2P (Some n_CIM14_IEC61970_Dynamics_TurbineGovernors_TurbineGovernor_TurbineGovernor)
    []
    [];
(* Model/CIM14/CIM14.ecore:11085-11085 *)
  EClass n_CIM14_IEC61970_Dynamics_TurbineGovernors_GovWT2T_GovWT2T n_GovWT2T (Some n_CIM14_IEC61970_Dynamics_TurbineGovernors_TurbineGovernor_TurbineGovernor)
    []
    [];
(* Model/CIM14/CIM14.ecore:10762-10762 *)
  EClass n_CIM14_IEC61970_Dynamics_TurbineGovernors_GovWT3P_GovWT3P n_GovWT3P (Some n_CIM14_IEC61970_Dynamics_TurbineGovernors_TurbineGovernor_TurbineGovernor)
    []
    [];
(* Model/CIM14/CIM14.ecore:11082-11082 *)
  EClass n_CIM14_IEC61970_Dynamics_TurbineGovernors_GovWT3T_GovWT3T n_GovWT3T (Some n_CIM14_IEC61970_Dynamics_TurbineGovernors_TurbineGovernor_TurbineGovernor)
    []
    [];
(* Model/CIM14/CIM14.ecore:11087-11087 *)
  EClass n_CIM14_IEC61970_Dynamics_TurbineGovernors_GovWT4P_GovWT4P n_GovWT4P (Some n_CIM14_IEC61970_Dynamics_TurbineGovernors_TurbineGovernor_TurbineGovernor)
    []
    [];
(* Model/CIM14/CIM14.ecore:10766-10766 *)
  EClass n_CIM14_IEC61970_Dynamics_TurbineGovernors_GovWT4T_GovWT4T n_GovWT4T (Some n_CIM14_IEC61970_Dynamics_TurbineGovernors_TurbineGovernor_TurbineGovernor)
    []
    [];
(* Model/CIM14/CIM14.ecore:10991-10991 *)
  EClass n_CIM14_IEC61970_Dynamics_TurbineGovernors_TLCFB1_TLCFB1 n_TLCFB1 (Some n_CIM14_IEC61970_Dynamics_TurbineGovernors_TurbineGovernor_TurbineGovernor)
    []
    [];
(* Model/CIM14/CIM14.ecore:10756-10760 *)
  EClass n_CIM14_IEC61970_Dynamics_TurbineGovernors_TurbineGovernor_TurbineGovernor n_TurbineGovernor (Some n_CIM14_IEC61970_Core_PowerSystemResource_PowerSystemResource)
    []
    [];
(* Model/CIM14/CIM14.ecore:8094-8100 *)
  EClass n_CIM14_IEC61970_Dynamics_UserBlockParameter_UserBlockParameter n_UserBlockParameter (Some n_CIM14_IEC61970_Dynamics_MetaBlockParameter_MetaBlockParameter)
    []
    [ERef n_BlockUsageParameter n_CIM14_IEC61970_Dynamics_BlockParameter_BlockParameter true (Some n_UserBlockParameter)];
(* Model/CIM14/CIM14.ecore:12032-12048 *)
  EClass n_CIM14_IEC61970_Dynamics_VoltageCompensator_VcompCross_VcompCross n_VcompCross (Some n_CIM14_IEC61970_Dynamics_VoltageCompensator_VoltageCompensator_VoltageCompensator)
    [(n_xcomp2, TFloat); (n_rcomp2, TFloat)]
    [];
(* Model/CIM14/CIM14.ecore:12049-12065 *)
  EClass n_CIM14_IEC61970_Dynamics_VoltageCompensator_VcompIEEE_VcompIEEE n_VcompIEEE (Some n_CIM14_IEC61970_Dynamics_VoltageCompensator_VoltageCompensator_VoltageCompensator)
    [(n_xcomp, TFloat); (n_rcomp, TFloat)]
    [];
(* Model/CIM14/CIM14.ecore:12027-12031 *)
  EClass n_CIM14_IEC61970_Dynamics_VoltageCompensator_VoltageCompensator_VoltageCompensator n_VoltageCompensator (Some n_CIM14_IEC61970_Core_PowerSystemResource_PowerSystemResource)
    []
    [];
(* Model/CIM14/CIM14.ecore:7023-7039 *)
  EClass n_CIM14_IEC61970_Equivalents_EquivalentBranch_EquivalentBranch n_EquivalentBranch (Some n_CIM14_IEC61970_Equivalents_EquivalentEquipment_EquivalentEquipment)
    [(n_x, TFloat); (n_r, TFloat)]
    [];
(* Model/CIM14/CIM14.ecore:6995-7005 *)
  EClass n_CIM14_IEC61970_Equivalents_EquivalentEquipment_EquivalentEquipment n_EquivalentEquipment (Some n_CIM14_IEC61970_Core_ConductingEquipment_ConductingEquipment)
    []
    [ERef n_EquivalentNetwork n_CIM14_IEC61970_Equivalents_EquivalentNetwork_EquivalentNetwork false (Some n_EquivalentEquipments)];
(* Model/CIM14/CIM14.ecore:7040-7075 *)
  EClass n_CIM14_IEC61970_Equivalents_EquivalentInjection_EquivalentInjection n_EquivalentInjection (Some n_CIM14_IEC61970_Equivalents_EquivalentEquipment_EquivalentEquipment)
    [(n_maxP, TFloat); (n_regulationCapability, TBool); (n_regulationTarget, TFloat); (n_minP, TFloat); (n_regulationStatus, TBool)]
    [];
(* Model/CIM14/CIM14.ecore:7076-7086 *)
  EClass n_CIM14_IEC61970_Equivalents_EquivalentNetwork_EquivalentNetwork n_EquivalentNetwork (Some n_CIM14_IEC61970_Core_ConnectivityNodeContainer_ConnectivityNodeContainer)
    []
    [ERef n_EquivalentEquipments n_CIM14_IEC61970_Equivalents_EquivalentEquipment_EquivalentEquipment true (Some n_EquivalentNetwork)];
(* Model/CIM14/CIM14.ecore:7006-7022 *)
  EClass n_CIM14_IEC61970_Equivalents_EquivalentShunt_EquivalentShunt n_EquivalentShunt (Some n_CIM14_IEC61970_Equivalents_EquivalentEquipment_EquivalentEquipment)
    [(n_b, TFloat); (n_g, TFloat)]
    [];
(* Model/CIM14/CIM14.ecore:3649-3782 *)
  EClass n_CIM14_IEC61970_Generation_GenerationDynamics_BWRSteamSupply_BWRSteamSupply n_BWRSteamSupply (Some n_CIM14_IEC61970_Generation_GenerationDynamics_SteamSupply_SteamSupply)
    [(n_lowerLimit, TFloat); (n_pressureSetpointGA, TFloat); (n_rfAux8, TFloat); (n_rfAux3, TFloat); (n_rfAux2, TFloat); (n_highPowerLimit, TFloat); (n_rodPattern, TFloat); (n_rodPatternConstant, TFloat); (n_integralGain, TFloat); (n_rfAux7, TFloat); (n_proportionalGain, TFloat); (n_rfAux6, TFloat); (n_pressureSetpointTC2, TFloat); (n_rfAux1, TFloat); (n_pressureSetpointTC1, TFloat); (n_inCoreThermalTC, TFloat); (n_upperLimit, TFloat); (n_rfAux4, TFloat); (n_pressureLimit, TFloat); (n_rfAux5, TFloat); (n_lowPowerLimit, TFloat)]
    [];
(* Model/CIM14/CIM14.ecore:3534-3545 *)
  EClass n_CIM14_IEC61970_Generation_GenerationDynamics_CTTempActivePowerCurve_CTTempActivePowerCurve n_CTTempActivePowerCurve (Some n_CIM14_IEC61970_Core_Curve_Curve)
    []
    [ERef n_CombustionTurbine n_CIM14_IEC61970_Generation_GenerationDynamics_CombustionTurbine_CombustionTurbine false (Some n_CTTempActivePowerCurve)];
(* Model/CIM14/CIM14.ecore:3382-3455 *)
  EClass n_CIM14_IEC61970_Generation_GenerationDynamics_CombustionTurbine_CombustionTurbine n_CombustionTurbine (Some n_CIM14_IEC61970_Generation_GenerationDynamics_PrimeMover_PrimeMover)
    [(n_capabilityVersusFrequency, TFloat); (n_heatRecoveryFlag, TBool); (n_timeConstant, TFloat); (n_auxPowerVersusFrequency, TFloat); (n_auxPowerVersusVoltage, TFloat); (n_referenceTemp, TFloat); (n_ambientTemp, TFloat); (n_powerVariationByTemp, TFloat)]
    [ERef n_HeatRecoveryBoiler n_CIM14_IEC61970_Generation_GenerationDynamics_HeatRecoveryBoiler_HeatRecoveryBoiler false (Some n_CombustionTurbines); ERef n_CTTempActivePowerCurve n_CIM14_IEC61970_Generation_GenerationDynamics_CTTempActivePowerCurve_CTTempActivePowerCurve false (Some n_CombustionTurbine); ERef n_AirCompressor n_CIM14_IEC61970_Generation_Production_AirCompressor_AirCompressor false (Some n_CombustionTurbine)];
(* Model/CIM14/CIM14.ecore:3637-3648 *)
  EClass n_CIM14_IEC61970_Generation_GenerationDynamics_DrumBoiler_DrumBoiler n_DrumBoiler (Some n_CIM14_IEC61970_Generation_GenerationDynamics_FossilSteamSupply_FossilSteamSupply)
    [(n_drumBoilerRating, TFloat)]
    [];
(* Model/CIM14/CIM14.ecore:3041-3207 *)
  EClass n_CIM14_IEC61970_Generation_GenerationDynamics_FossilSteamSupply_FossilSteamSupply n_FossilSteamSupply (Some n_CIM14_IEC61970_Generation_GenerationDynamics_SteamSupply_SteamSupply)
    [(n_boilerControlMode, enum_cim14_IEC61970_Generation_GenerationDynamics_BoilerControlMode); (n_superHeater2Capacity, TFloat); (n_auxPowerVersusFrequency, TFloat); (n_feedWaterIG, TFloat); (n_controlPED, TFloat); (n_throttlePressureSP, TFloat); (n_pressureCtrlIG, TFloat); (n_fuelSupplyDelay, TFloat); (n_controlPEB, TFloat); (n_controlTC, TFloat); (n_pressureFeedback, TInt); (n_feedWaterPG, TFloat); (n_controlIC, TFloat); (n_controlPC, TFloat); (n_minErrorRateP, TFloat); (n_fuelSupplyTC, TFloat); (n_fuelDemandLimit, TFloat); (n_mechPowerSensorLag, TFloat); (n_pressureCtrlDG, TFloat); (n_maxErrorRateP, TFloat); (n_superHeaterPipePD, TFloat); (n_controlErrorBiasP, TFloat); (n_feedWaterTC, TFloat); (n_superHeater1Capacity, TFloat); (n_auxPowerVersusVoltage, TFloat); (n_pressureCtrlPG, TFloat)]
    [];
(* Model/CIM14/CIM14.ecore:3208-3226 *)
  EClass n_CIM14_IEC61970_Generation_GenerationDynamics_HeatRecoveryBoiler_HeatRecoveryBoiler n_HeatRecoveryBoiler (Some n_CIM14_IEC61970_Generation_GenerationDynamics_FossilSteamSupply_FossilSteamSupply)
    [(n_steamSupplyRating2, TFloat)]
    [ERef n_CombustionTurbines n_CIM14_IEC61970_Generation_GenerationDynamics_CombustionTurbine_CombustionTurbine true (Some n_HeatRecoveryBoiler)];
(* Model/CIM14/CIM14.ecore:3456-3528 *)
  EClass n_CIM14_IEC61970_Generation_GenerationDynamics_HydroTurbine_HydroTurbine n_HydroTurbine (Some n_CIM14_IEC61970_Generation_GenerationDynamics_PrimeMover_PrimeMover)
    [(n_turbineType, enum_cim14_IEC61970_Generation_GenerationDynamics_TurbineType); (n_turbineRating, TFloat); (n_maxHeadMaxP, TFloat); (n_transientDroopTime, TFloat); (n_speedRegulation, TFloat); (n_waterStartingTime, TFloat); (n_speedRating, TFloat); (n_transientRegulation, TFloat); (n_gateUpperLimit, TFloat); (n_minHeadMaxP, TFloat); (n_gateRateLimit, TFloat)]
    [ERef n_HydroTurbineGovernor n_CIM14_IEC61970_Dynamics_TurbineGovernors_GovHydro1_GovHydro1 false (Some n_HydroTurbine)];
(* Model/CIM14/CIM14.ecore:3227-3351 *)
  EClass n_CIM14_IEC61970_Generation_GenerationDynamics_PWRSteamSupply_PWRSteamSupply n_PWRSteamSupply (Some n_CIM14_IEC61970_Generation_GenerationDynamics_SteamSupply_SteamSupply)
    [(n_pressureCG, TFloat); (n_throttlePressureSP, TFloat); (n_coldLegFBLagTC, TFloat); (n_hotLegSteamGain, TFloat); (n_coreHTLagTC2, TFloat); (n_coreHTLagTC1, TFloat); (n_coreNeutronicsHT, TFloat); (n_coldLegFBLeadTC1, TFloat); (n_feedbackFactor, TFloat); (n_coreNeutronicsEffTC, TFloat); (n_steamFlowFG, TFloat); (n_steamPressureDropLagTC, TFloat); (n_steamPressureFG, TFloat); (n_coldLegFG1, TFloat); (n_throttlePressureFactor, TFloat); (n_coldLegFBLeadTC2, TFloat); (n_hotLegToColdLegGain, TFloat); (n_coldLegFG2, TFloat); (n_hotLegLagTC, TFloat); (n_coldLegLagTC, TFloat)]
    [];
(* Model/CIM14/CIM14.ecore:3359-3376 *)
  EClass n_CIM14_IEC61970_Generation_GenerationDynamics_PrimeMover_PrimeMover n_PrimeMover (Some n_CIM14_IEC61970_Core_PowerSystemResource_PowerSystemResource)
    [(n_primeMoverRating, TFloat)]
    [ERef n_SynchronousMachines n_CIM14_IEC61970_Wires_SynchronousMachine_SynchronousMachine true (Some n_PrimeMovers)];
(* Model/CIM14/CIM14.ecore:3023-3040 *)
  EClass n_CIM14_IEC61970_Generation_GenerationDynamics_SteamSupply_SteamSupply n_SteamSupply (Some n_CIM14_IEC61970_Core_PowerSystemResource_PowerSystemResource)
    [(n_steamSupplyRating, TFloat)]
    [ERef n_SteamTurbines n_CIM14_IEC61970_Generation_GenerationDynamics_SteamTurbine_SteamTurbine true (Some n_SteamSupplys)];
(* Model/CIM14/CIM14.ecore:3546-3628 *)
  EClass n_CIM14_IEC61970_Generation_GenerationDynamics_SteamTurbine_SteamTurbine n_SteamTurbine (Some n_CIM14_IEC61970_Generation_GenerationDynamics_PrimeMover_PrimeMover)
    [(n_reheater2TC, TFloat); (n_shaft1PowerIP, TFloat); (n_shaft1PowerLP2, TFloat); (n_reheater1TC, TFloat); (n_steamChestTC, TFloat); (n_crossoverTC, TFloat); (n_shaft2PowerHP, TFloat); (n_shaft2PowerLP2, TFloat); (n_shaft2PowerIP, TFloat); (n_shaft1PowerHP, TFloat); (n_shaft1PowerLP1, TFloat); (n_shaft2PowerLP1, TFloat)]
    [ERef n_SteamSupplys n_CIM14_IEC61970_Generation_GenerationDynamics_SteamSupply_SteamSupply true (Some n_SteamTurbines)];
(* Model/CIM14/CIM14.ecore:3529-3533 *)
  EClass n_CIM14_IEC61970_Generation_GenerationDynamics_Subcritical_Subcritical n_Subcritical (Some n_CIM14_IEC61970_Generation_GenerationDynamics_FossilSteamSupply_FossilSteamSupply)
    []
    [];
(* Model/CIM14/CIM14.ecore:3377-3381 *)
  EClass n_CIM14_IEC61970_Generation_GenerationDynamics_Supercritical_Supercritical n_Supercritical (Some n_CIM14_IEC61970_Generation_GenerationDynamics_FossilSteamSupply_FossilSteamSupply)
    []
    [];
(* Model/CIM14/CIM14.ecore:4413-4437 *)
  EClass n_CIM14_IEC61970_Generation_Production_AirCompressor_AirCompressor n_AirCompressor (Some n_CIM14_IEC61970_Core_PowerSystemResource_PowerSystemResource)
    [(n_airCompressorRating, TFloat)]
    [ERef n_CAESPlant n_CIM14_IEC61970_Generation_Production_CAESPlant_CAESPlant false (Some n_AirCompressor); ERef n_CombustionTurbine n_CIM14_IEC61970_Generation_GenerationDynamics_CombustionTurbine_CombustionTurbine false (Some n_AirCompressor)];
(* Model/CIM14/CIM14.ecore:4820-4848 *)
  EClass n_CIM14_IEC61970_Generation_Production_CAESPlant_CAESPlant n_CAESPlant (Some n_CIM14_IEC61970_Core_PowerSystemResource_PowerSystemResource)
    [(n_energyStorageCapacity, TFloat); (n_ratedCapacityP, TFloat)]
    [ERef n_AirCompressor n_CIM14_IEC61970_Generation_Production_AirCompressor_AirCompressor false (Some n_CAESPlant); ERef n_ThermalGeneratingUnit n_CIM14_IEC61970_Generation_Production_ThermalGeneratingUnit_ThermalGeneratingUnit false (Some n_CAESPlant)];
(* Model/CIM14/CIM14.ecore:4479-4530 *)
  EClass n_CIM14_IEC61970_Generation_Production_CogenerationPlant_CogenerationPlant n_CogenerationPlant (Some n_CIM14_IEC61970_Core_PowerSystemResource_PowerSystemResource)
    [(n_cogenLPSteamRating, TFloat); (n_cogenHPSendoutRating, TFloat); (n_ratedP, TFloat); (n_cogenLPSendoutRating, TFloat); (n_cogenHPSteamRating, TFloat)]
    [ERef n_ThermalGeneratingUnits n_CIM14_IEC61970_Generation_Production_ThermalGeneratingUnit_ThermalGeneratingUnit true (Some n_CogenerationPlant); ERef n_SteamSendoutSchedule n_CIM14_IEC61970_Generation_Production_SteamSendoutSchedule_SteamSendoutSchedule false (Some n_CogenerationPlant)];
(* Model/CIM14/CIM14.ecore:3951-3968 *)
  EClass n_CIM14_IEC61970_Generation_Production_CombinedCyclePlant_CombinedCyclePlant n_CombinedCyclePlant (Some n_CIM14_IEC61970_Core_PowerSystemResource_PowerSystemResource)
    [(n_combCyclePlantRating, TFloat)]
    [ERef n_ThermalGeneratingUnits n_CIM14_IEC61970_Generation_Production_ThermalGeneratingUnit_ThermalGeneratingUnit true (Some n_CombinedCyclePlant)];
(* Model/CIM14/CIM14.ecore:4638-4660 *)
  EClass n_CIM14_IEC61970_Generation_Production_EmissionAccount_EmissionAccount n_EmissionAccount (Some n_CIM14_IEC61970_Core_Curve_Curve)
    [(n_emissionType, enum_cim14_IEC61970_Generation_Production_EmissionType); (n_emissionValueSource, enum_cim14_IEC61970_Generation_Production_EmissionValueSource)]
    [ERef n_ThermalGeneratingUnit n_CIM14_IEC61970_Generation_Production_ThermalGeneratingUnit_ThermalGeneratingUnit false (Some n_EmmissionAccounts)];
(* Model/CIM14/CIM14.ecore:3906-3934 *)
  EClass n_CIM14_IEC61970_Generation_Production_EmissionCurve_EmissionCurve n_EmissionCurve (Some n_CIM14_IEC61970_Core_Curve_Curve)
    [(n_emissionType, enum_cim14_IEC61970_Generation_Production_EmissionType); (n_isNetGrossP, TBool); (n_emissionContent, TFloat)]
    [ERef n_ThermalGeneratingUnit n_CIM14_IEC61970_Generation_Production_ThermalGeneratingUnit_ThermalGeneratingUnit false (Some n_EmissionCurves)];
(* Model/CIM14/CIM14.ecore:3809-3887 *)
  EClass n_CIM14_IEC61970_Generation_Production_FossilFuel_FossilFuel n_FossilFuel (Some n_CIM14_IEC61970_Core_IdentifiedObject_IdentifiedObject)
    [(n_fossilFuelType, enum_cim14_IEC61970_Generation_Production_FuelType); (n_fuelSulfur, TFloat); (n_fuelMixture, TFloat); (n_fuelCost, TFloat); (n_fuelHandlingCost, TFloat); (n_fuelEffFactor, TFloat); (n_fuelHeatContent, TFloat); (n_fuelDispatchCost, TFloat); (n_lowBreakpointP, TFloat); (n_highBreakpointP, TFloat)]
    [ERef n_FuelAllocationSchedules n_CIM14_IEC61970_Generation_Production_FuelAllocationSchedule_FuelAllocationSchedule true (Some n_FossilFuel); ERef n_ThermalGeneratingUnit n_CIM14_IEC61970_Generation_Production_ThermalGeneratingUnit_ThermalGeneratingUnit false (Some n_FossilFuels)];
(* Model/CIM14/CIM14.ecore:4950-5000 *)
  EClass n_CIM14_IEC61970_Generation_Production_FuelAllocationSchedule_FuelAllocationSchedule n_FuelAllocationSchedule (Some n_CIM14_IEC61970_Core_Curve_Curve)
    [(n_fuelType, enum_cim14_IEC61970_Generation_Production_FuelType); (n_minFuelAllocation, TFloat); (n_fuelAllocationStartDate, TDate); (n_maxFuelAllocation, TFloat); (n_fuelAllocationEndDate, TDate)]
    [ERef n_FossilFuel n_CIM14_IEC61970_Generation_Production_FossilFuel_FossilFuel false (Some n_FuelAllocationSchedules); ERef n_ThermalGeneratingUnit n_CIM14_IEC61970_Generation_Production_ThermalGeneratingUnit_ThermalGeneratingUnit false (Some n_FuelAllocationSchedules)];
(* Model/CIM14/CIM14.ecore:4862-4878 *)
  EClass n_CIM14_IEC61970_Generation_Production_GenUnitOpCostCurve_GenUnitOpCostCurve n_GenUnitOpCostCurve (Some n_CIM14_IEC61970_Core_Curve_Curve)
    [(n_isNetGrossP, TBool)]
    [ERef n_GeneratingUnit n_CIM14_IEC61970_Generation_Production_GeneratingUnit_GeneratingUnit false (Some n_GenUnitOpCostCurves)];
(* Model/CIM14/CIM14.ecore:4939-4949 *)
  EClass n_CIM14_IEC61970_Generation_Production_GenUnitOpSchedule_GenUnitOpSchedule n_GenUnitOpSchedule (Some n_CIM14_IEC61970_Core_RegularIntervalSchedule_RegularIntervalSchedule)
    []
    [ERef n_GeneratingUnit n_CIM14_IEC61970_Generation_Production_GeneratingUnit_GeneratingUnit false (Some n_GenUnitOpSchedule)];
(* Model/CIM14/CIM14.ecore:4031-4295 *)
  EClass n_CIM14_IEC61970_Generation_Production_GeneratingUnit_GeneratingUnit n_GeneratingUnit (Some n_CIM14_IEC61970_Core_Equipment_Equipment)
    [(n_genControlMode, enum_cim14_IEC61970_Generation_Production_GeneratorControlMode); (n_genOperatingMode, enum_cim14_IEC61970_Generation_Production_GeneratorOperatingMode); (n_genControlSource, enum_cim14_IEC61970_Generation_Production_GeneratorControlSource); (n_startupTime, TFloat); (n_minimumOffTime, TFloat); (n_spinReserveRamp, TFloat); (n_controlDeadband, TFloat); (n_maxOperatingP, TFloat); (n_fastStartFlag, TBool); (n_lowControlLimit, TFloat); (n_baseP, TFloat); (n_maxEconomicP, TFloat); (n_efficiency, TFloat); (n_shortPF, TFloat); (n_lowerRampRate, TFloat); (n_stepChange, TFloat); (n_penaltyFactor, TFloat); (n_longPF, TFloat); (n_ratedGrossMinP, TFloat); (n_ratedGrossMaxP, TFloat); (n_dispReserveFlag, TBool); (n_variableCost, TFloat); (n_modelDetail, TInt); (n_energyMinP, TFloat); (n_maximumAllowableSpinningReserve, TFloat); (n_fuelPriority, TInt); (n_raiseRampRate, TFloat); (n_nominalP, TFloat); (n_normalPF, TFloat); (n_governorMPL, TFloat); (n_ratedNetMaxP, TFloat); (n_controlResponseRate, TFloat); (n_tieLinePF, TFloat); (n_governorSCD, TFloat); (n_controlPulseLow, TFloat); (n_highControlLimit, TFloat); (n_initialP, TFloat); (n_minEconomicP, TFloat); (n_autoCntrlMarginP, TFloat); (n_allocSpinResP, TFloat); (n_startupCost, TFloat); (n_minOperatingP, TFloat); (n_controlPulseHigh, TFloat)]
    [ERef n_SynchronousMachines n_CIM14_IEC61970_Wires_SynchronousMachine_SynchronousMachine true (Some n_GeneratingUnit); ERef n_GrossToNetActivePowerCurves n_CIM14_IEC61970_Generation_Production_GrossToNetActivePowerCurve_GrossToNetActivePowerCurve true (Some n_GeneratingUnit); ERef n_GenUnitOpCostCurves n_CIM14_IEC61970_Generation_Production_GenUnitOpCostCurve_GenUnitOpCostCurve true (Some n_GeneratingUnit); ERef n_GenUnitOpSchedule n_CIM14_IEC61970_Generation_Production_GenUnitOpSchedule_GenUnitOpSchedule false (Some n_GeneratingUnit); ERef n_ControlAreaGeneratingUnit n_CIM14_IEC61970_ControlArea_ControlAreaGeneratingUnit_ControlAreaGeneratingUnit true (Some n_GeneratingUnit)];
(* Model/CIM14/CIM14.ecore:4661-4671 *)
  EClass n_CIM14_IEC61970_Generation_Production_GrossToNetActivePowerCurve_GrossToNetActivePowerCurve n_GrossToNetActivePowerCurve (Some n_CIM14_IEC61970_Core_Curve_Curve)
    []
    [ERef n_GeneratingUnit n_CIM14_IEC61970_Generation_Production_GeneratingUnit_GeneratingUnit false (Some n_GrossToNetActivePowerCurves)];
(* Model/CIM14/CIM14.ecore:4438-4478 *)
  EClass n_CIM14_IEC61970_Generation_Production_HeatInputCurve_HeatInputCurve n_HeatInputCurve (Some n_CIM14_IEC61970_Core_Curve_Curve)
    [(n_heatInputEff, TFloat); (n_auxPowerMult, TFloat); (n_heatInputOffset, TFloat); (n_isNetGrossP, TBool); (n_auxPowerOffset, TFloat)]
    [ERef n_ThermalGeneratingUnit n_CIM14_IEC61970_Generation_Production_ThermalGeneratingUnit_ThermalGeneratingUnit false (Some n_HeatInputCurve)];
(* Model/CIM14/CIM14.ecore:5001-5017 *)
  EClass n_CIM14_IEC61970_Generation_Production_HeatRateCurve_HeatRateCurve n_HeatRateCurve (Some n_CIM14_IEC61970_Core_Curve_Curve)
    [(n_isNetGrossP, TBool)]
    [ERef n_ThermalGeneratingUnit n_CIM14_IEC61970_Generation_Production_ThermalGeneratingUnit_ThermalGeneratingUnit false (Some n_HeatRateCurve)];
(* Model/CIM14/CIM14.ecore:3986-3997 *)
  EClass n_CIM14_IEC61970_Generation_Production_HydroGeneratingEfficiencyCurve_HydroGeneratingEfficiencyCurve n_HydroGeneratingEfficiencyCurve (Some n_CIM14_IEC61970_Core_Curve_Curve)
    []
    [ERef n_HydroGeneratingUnit n_CIM14_IEC61970_Generation_Production_HydroGeneratingUnit_HydroGeneratingUnit false (Some n_HydroGeneratingEfficiencyCurves)];
(* Model/CIM14/CIM14.ecore:4565-4609 *)
  EClass n_CIM14_IEC61970_Generation_Production_HydroGeneratingUnit_HydroGeneratingUnit n_HydroGeneratingUnit (Some n_CIM14_IEC61970_Generation_Production_GeneratingUnit_GeneratingUnit)
    [(n_energyConversionCapability, enum_cim14_IEC61970_Generation_Production_HydroEnergyConversionKind); (n_hydroUnitWaterCost, TFloat)]
    [ERef n_HydroPowerPlant n_CIM14_IEC61970_Generation_Production_HydroPowerPlant_HydroPowerPlant false (Some n_HydroGeneratingUnits); ERef n_PenstockLossCurve n_CIM14_IEC61970_Generation_Production_PenstockLossCurve_PenstockLossCurve false (Some n_HydroGeneratingUnit); ERef n_HydroGeneratingEfficiencyCurves n_CIM14_IEC61970_Generation_Production_HydroGeneratingEfficiencyCurve_HydroGeneratingEfficiencyCurve true (Some n_HydroGeneratingUnit); ERef n_TailbayLossCurve n_CIM14_IEC61970_Generation_Production_TailbayLossCurve_TailbayLossCurve true (Some n_HydroGeneratingUnit)];
(* Model/CIM14/CIM14.ecore:5136-5220 *)
  EClass n_CIM14_IEC61970_Generation_Production_HydroPowerPlant_HydroPowerPlant n_HydroPowerPlant (Some n_CIM14_IEC61970_Core_PowerSystemResource_PowerSystemResource)
    [(n_hydroPlantType, enum_cim14_IEC61970_Generation_Production_HydroPlantType); (n_penstockType, enum_cim14_IEC61970_Generation_Production_PenstockType); (n_surgeTankCode, enum_cim14_IEC61970_Generation_Production_SurgeTankCode); (n_plantRatedHead, TFloat); (n_plantDischargeCapacity, TFloat); (n_surgeTankCrestLevel, TFloat); (n_dischargeTravelDelay, TFloat); (n_pumpRatedP, TFloat); (n_genRatedP, TFloat)]
    [ERef n_HydroGeneratingUnits n_CIM14_IEC61970_Generation_Production_HydroGeneratingUnit_HydroGeneratingUnit true (Some n_HydroPowerPlant); ERef n_HydroPumps n_CIM14_IEC61970_Generation_Production_HydroPump_HydroPump true (Some n_HydroPowerPlant); ERef n_Reservoir n_CIM14_IEC61970_Generation_Production_Reservoir_Reservoir false (Some n_HydroPowerPlants); ERef n_GenSourcePumpDischargeReservoir n_CIM14_IEC61970_Generation_Production_Reservoir_Reservoir false (Some n_UpstreamFromHydroPowerPlants)];
(* Model/CIM14/CIM14.ecore:4890-4938 *)
  EClass n_CIM14_IEC61970_Generation_Production_HydroPump_HydroPump n_HydroPump (Some n_CIM14_IEC61970_Core_PowerSystemResource_PowerSystemResource)
    [(n_pumpPowerAtMaxHead, TFloat); (n_pumpPowerAtMinHead, TFloat); (n_pumpDischAtMinHead, TFloat); (n_pumpDischAtMaxHead, TFloat)]
    [ERef n_SynchronousMachine n_CIM14_IEC61970_Wires_SynchronousMachine_SynchronousMachine false (Some n_HydroPump); ERef n_HydroPumpOpSchedule n_CIM14_IEC61970_Generation_Production_HydroPumpOpSchedule_HydroPumpOpSchedule false (Some n_HydroPump); ERef n_HydroPowerPlant n_CIM14_IEC61970_Generation_Production_HydroPowerPlant_HydroPowerPlant false (Some n_HydroPumps)];
(* Model/CIM14/CIM14.ecore:4688-4698 *)
  EClass n_CIM14_IEC61970_Generation_Production_HydroPumpOpSchedule_HydroPumpOpSchedule n_HydroPumpOpSchedule (Some n_CIM14_IEC61970_Core_RegularIntervalSchedule_RegularIntervalSchedule)
    []
    [ERef n_HydroPump n_CIM14_IEC61970_Generation_Production_HydroPump_HydroPump false (Some n_HydroPumpOpSchedule)];
(* Model/CIM14/CIM14.ecore:5018-5034 *)
  EClass n_CIM14_IEC61970_Generation_Production_IncrementalHeatRateCurve_IncrementalHeatRateCurve n_IncrementalHeatRateCurve (Some n_CIM14_IEC61970_Core_Curve_Curve)
    [(n_isNetGrossP, TBool)]
    [ERef n_ThermalGeneratingUnit n_CIM14_IEC61970_Generation_Production_ThermalGeneratingUnit_ThermalGeneratingUnit false (Some n_IncrementalHeatRateCurve)];
(* Model/CIM14/CIM14.ecore:4554-4564 *)
  EClass n_CIM14_IEC61970_Generation_Production_InflowForecast_InflowForecast n_InflowForecast (Some n_CIM14_IEC61970_Core_RegularIntervalSchedule_RegularIntervalSchedule)
    []
    [ERef n_Reservoir n_CIM14_IEC61970_Generation_Production_Reservoir_Reservoir false (Some n_InflowForecasts)];
(* Model/CIM14/CIM14.ecore:3789-3799 *)
  EClass n_CIM14_IEC61970_Generation_Production_LevelVsVolumeCurve_LevelVsVolumeCurve n_LevelVsVolumeCurve (Some n_CIM14_IEC61970_Core_Curve_Curve)
    []
    [ERef n_Reservoir n_CIM14_IEC61970_Generation_Production_Reservoir_Reservoir false (Some n_LevelVsVolumeCurves)];
(* Model/CIM14/CIM14.ecore:4296-4300 *)
  EClass n_CIM14_IEC61970_Generation_Production_NuclearGeneratingUnit_NuclearGeneratingUnit n_NuclearGeneratingUnit (Some n_CIM14_IEC61970_Generation_Production_GeneratingUnit_GeneratingUnit)
    []
    [];
(* Model/CIM14/CIM14.ecore:4879-4889 *)
  EClass n_CIM14_IEC61970_Generation_Production_PenstockLossCurve_PenstockLossCurve n_PenstockLossCurve (Some n_CIM14_IEC61970_Core_Curve_Curve)
    []
    [ERef n_HydroGeneratingUnit n_CIM14_IEC61970_Generation_Production_HydroGeneratingUnit_HydroGeneratingUnit false (Some n_PenstockLossCurve)];
(* Model/CIM14/CIM14.ecore:4699-4819 *)
  EClass n_CIM14_IEC61970_Generation_Production_Reservoir_Reservoir n_Reservoir (Some n_CIM14_IEC61970_Core_PowerSystemResource_PowerSystemResource)
    [(n_spillWayGateType, enum_cim14_IEC61970_Generation_Production_SpillwayGateType); (n_fullSupplyLevel, TFloat); (n_spillTravelDelay, TFloat); (n_spillwayCrestLength, TFloat); (n_grossCapacity, TFloat); (n_riverOutletWorks, TText); (n_spillwayCapacity, TFloat); (n_spillwayCrestLevel, TFloat); (n_normalMinOperateLevel, TFloat); (n_energyStorageRating, TFloat); (n_activeStorageCapacity, TFloat)]
    [ERef n_LevelVsVolumeCurves n_CIM14_IEC61970_Generation_Production_LevelVsVolumeCurve_LevelVsVolumeCurve true (Some n_Reservoir); ERef n_InflowForecasts n_CIM14_IEC61970_Generation_Production_InflowForecast_InflowForecast true (Some n_Reservoir); ERef n_TargetLevelSchedule n_CIM14_IEC61970_Generation_Production_TargetLevelSchedule_TargetLevelSchedule false (Some n_Reservoir); ERef n_HydroPowerPlants n_CIM14_IEC61970_Generation_Production_HydroPowerPlant_HydroPowerPlant true (Some n_Reservoir); ERef n_UpstreamFromHydroPowerPlants n_CIM14_IEC61970_Generation_Production_HydroPowerPlant_HydroPowerPlant true (Some n_GenSourcePumpDischargeReservoir); ERef n_SpillsFromReservoir n_CIM14_IEC61970_Generation_Production_Reservoir_Reservoir false (Some n_SpillsIntoReservoirs); ERef n_SpillsIntoReservoirs n_CIM14_IEC61970_Generation_Production_Reservoir_Reservoir true (Some n_SpillsFromReservoir)];
(* Model/CIM14/CIM14.ecore:4531-4553 *)
  EClass n_CIM14_IEC61970_Generation_Production_ShutdownCurve_ShutdownCurve n_ShutdownCurve (Some n_CIM14_IEC61970_Core_Curve_Curve)
    [(n_shutdownCost, TFloat); (n_shutdownDate, TDate)]
    [ERef n_ThermalGeneratingUnit n_CIM14_IEC61970_Generation_Production_ThermalGeneratingUnit_ThermalGeneratingUnit false (Some n_ShutdownCurve)];
(* Model/CIM14/CIM14.ecore:3969-3985 *)
  EClass n_CIM14_IEC61970_Generation_Production_StartIgnFuelCurve_StartIgnFuelCurve n_StartIgnFuelCurve (Some n_CIM14_IEC61970_Core_Curve_Curve)
    [(n_ignitionFuelType, enum_cim14_IEC61970_Generation_Production_FuelType)]
    [ERef n_StartupModel n_CIM14_IEC61970_Generation_Production_StartupModel_StartupModel false (Some n_StartIgnFuelCurve)];
(* Model/CIM14/CIM14.ecore:4306-4322 *)
  EClass n_CIM14_IEC61970_Generation_Production_StartMainFuelCurve_StartMainFuelCurve n_StartMainFuelCurve (Some n_CIM14_IEC61970_Core_Curve_Curve)
    [(n_mainFuelType, enum_cim14_IEC61970_Generation_Production_FuelType)]
    [ERef n_StartupModel n_CIM14_IEC61970_Generation_Production_StartupModel_StartupModel false (Some n_StartMainFuelCurve)];
(* Model/CIM14/CIM14.ecore:4014-4030 *)
  EClass n_CIM14_IEC61970_Generation_Production_StartRampCurve_StartRampCurve n_StartRampCurve (Some n_CIM14_IEC61970_Core_Curve_Curve)
    [(n_hotStandbyRamp, TFloat)]
    [ERef n_StartupModel n_CIM14_IEC61970_Generation_Production_StartupModel_StartupModel false (Some n_StartRampCurve)];
(* Model/CIM14/CIM14.ecore:4323-4412 *)
  EClass n_CIM14_IEC61970_Generation_Production_StartupModel_StartupModel n_StartupModel (Some n_CIM14_IEC61970_Core_IdentifiedObject_IdentifiedObject)
    [(n_stbyAuxP, TFloat); (n_incrementalMaintCost, TFloat); (n_hotStandbyHeat, TFloat); (n_startupPriority, TInt); (n_fixedMaintCost, TFloat); (n_startupDate, TDate); (n_minimumRunTime, TFloat); (n_startupCost, TFloat); (n_riskFactorCost, TFloat); (n_minimumDownTime, TFloat)]
    [ERef n_ThermalGeneratingUnit n_CIM14_IEC61970_Generation_Production_ThermalGeneratingUnit_ThermalGeneratingUnit false (Some n_StartupModel); ERef n_StartRampCurve n_CIM14_IEC61970_Generation_Production_StartRampCurve_StartRampCurve false (Some n_StartupModel); ERef n_StartMainFuelCurve n_CIM14_IEC61970_Generation_Production_StartMainFuelCurve_StartMainFuelCurve false (Some n_StartupModel); ERef n_StartIgnFuelCurve n_CIM14_IEC61970_Generation_Production_StartIgnFuelCurve_StartIgnFuelCurve false (Some n_StartupModel)];
(* Model/CIM14/CIM14.ecore:3895-3905 *)
  EClass n_CIM14_IEC61970_Generation_Production_SteamSendoutSchedule_SteamSendoutSchedule n_SteamSendoutSchedule (Some n_CIM14_IEC61970_Core_RegularIntervalSchedule_RegularIntervalSchedule)
    []
    [ERef n_CogenerationPlant n_CIM14_IEC61970_Generation_Production_CogenerationPlant_CogenerationPlant false (Some n_SteamSendoutSchedule)];
(* Model/CIM14/CIM14.ecore:5120-5130 *)
  EClass n_CIM14_IEC61970_Generation_Production_TailbayLossCurve_TailbayLossCurve n_TailbayLossCurve (Some n_CIM14_IEC61970_Core_Curve_Curve)
    []
    [ERef n_HydroGeneratingUnit n_CIM14_IEC61970_Generation_Production_HydroGeneratingUnit_HydroGeneratingUnit false (Some n_TailbayLossCurve)];
(* Model/CIM14/CIM14.ecore:4610-4632 *)
  EClass n_CIM14_IEC61970_Generation_Production_TargetLevelSchedule_TargetLevelSchedule n_TargetLevelSchedule (Some n_CIM14_IEC61970_Core_Curve_Curve)
    [(n_highLevelLimit, TFloat); (n_lowLevelLimit, TFloat)]
    [ERef n_Reservoir n_CIM14_IEC61970_Generation_Production_Reservoir_Reservoir false (Some n_TargetLevelSchedule)];
(* Model/CIM14/CIM14.ecore:5035-5119 *)
  EClass n_CIM14_IEC61970_Generation_Production_ThermalGeneratingUnit_ThermalGeneratingUnit n_ThermalGeneratingUnit (Some n_CIM14_IEC61970_Generation_Production_GeneratingUnit_GeneratingUnit)
    [(n_oMCost, TFloat)]
    [ERef n_StartupModel n_CIM14_IEC61970_Generation_Production_StartupModel_StartupModel false (Some n_ThermalGeneratingUnit); ERef n_EmmissionAccounts n_CIM14_IEC61970_Generation_Production_EmissionAccount_EmissionAccount true (Some n_ThermalGeneratingUnit); ERef n_CombinedCyclePlant n_CIM14_IEC61970_Generation_Production_CombinedCyclePlant_CombinedCyclePlant false (Some n_ThermalGeneratingUnits); ERef n_CogenerationPlant n_CIM14_IEC61970_Generation_Production_CogenerationPlant_CogenerationPlant false (Some n_ThermalGeneratingUnits); ERef n_EmissionCurves n_CIM14_IEC61970_Generation_Production_EmissionCurve_EmissionCurve true (Some n_ThermalGeneratingUnit); ERef n_HeatRateCurve n_CIM14_IEC61970_Generation_Production_HeatRateCurve_HeatRateCurve false (Some n_ThermalGeneratingUnit); ERef n_ShutdownCurve n_CIM14_IEC61970_Generation_Production_ShutdownCurve_ShutdownCurve false (Some n_ThermalGeneratingUnit); ERef n_IncrementalHeatRateCurve n_CIM14_IEC61970_Generation_Production_IncrementalHeatRateCurve_IncrementalHeatRateCurve false (Some n_ThermalGeneratingUnit); ERef n_FuelAllocationSchedules n_CIM14_IEC61970_Generation_Production_FuelAllocationSchedule_FuelAllocationSchedule true (Some n_ThermalGeneratingUnit); ERef n_FossilFuels n_CIM14_IEC61970_Generation_Production_FossilFuel_FossilFuel true (Some n_ThermalGeneratingUnit); ERef n_HeatInputCurve n_CIM14_IEC61970_Generation_Production_HeatInputCurve_HeatInputCurve false (Some n_ThermalGeneratingUnit); ERef n_CAESPlant n_CIM14_IEC61970_Generation_Production_CAESPlant_CAESPlant false (Some n_ThermalGeneratingUnit)];
(* Model/CIM14/CIM14.ecore:4301-4305 *)
  EClass n_CIM14_IEC61970_Generation_Production_WindGeneratingUnit_WindGeneratingUnit n_WindGeneratingUnit (Some n_CIM14_IEC61970_Generation_Production_GeneratingUnit_GeneratingUnit)
    []
    [];
(* Model/CIM14/CIM14.ecore:38-54 *)
  EClass n_CIM14_IEC61970_IEC61970CIMVersion_IEC61970CIMVersion n_IEC61970CIMVersion (Some n_CIM14_Element_Element)
    [(n_version, TText); (n_date, TDate)]
    [];
(* Model/CIM14/CIM14.ecore:7462-7473 *)
  EClass n_CIM14_IEC61970_Informative_InfCore_ModelingAuthority_ModelingAuthority n_ModelingAuthority (Some n_CIM14_IEC61970_Core_IdentifiedObject_IdentifiedObject)
    []
    [ERef n_ModelingAuthoritySets n_CIM14_IEC61970_Informative_InfCore_ModelingAuthoritySet_ModelingAuthoritySet true (Some n_ModelingAuthority)];
(* Model/CIM14/CIM14.ecore:7474-7490 *)
  EClass n_CIM14_IEC61970_Informative_InfCore_ModelingAuthoritySet_ModelingAuthoritySet n_ModelingAuthoritySet (Some n_CIM14_IEC61970_Core_IdentifiedObject_IdentifiedObject)
    []
    [ERef n_ModelingAuthority n_CIM14_IEC61970_Informative_InfCore_ModelingAuthority_ModelingAuthority false (Some n_ModelingAuthoritySets); ERef n_IdentifiedObjects n_CIM14_IEC61970_Core_IdentifiedObject_IdentifiedObject true (Some n_ModelingAuthoritySet)];
(* Model/CIM14/CIM14.ecore:5504-5514 *)
  EClass n_CIM14_IEC61970_LoadModel_ConformLoad_ConformLoad n_ConformLoad (Some n_CIM14_IEC61970_Wires_EnergyConsumer_EnergyConsumer)
    []
    [ERef n_LoadGroup n_CIM14_IEC61970_LoadModel_ConformLoadGroup_ConformLoadGroup false (Some n_EnergyConsumers)];
(* Model/CIM14/CIM14.ecore:5546-5562 *)
  EClass n_CIM14_IEC61970_LoadModel_ConformLoadGroup_ConformLoadGroup n_ConformLoadGroup (Some n_CIM14_IEC61970_LoadModel_LoadGroup_LoadGroup)
    []
    [ERef n_ConformLoadSchedules n_CIM14_IEC61970_LoadModel_ConformLoadSchedule_ConformLoadSchedule true (Some n_ConformLoadGroup); ERef n_EnergyConsumers n_CIM14_IEC61970_LoadModel_ConformLoad_ConformLoad true (Some n_LoadGroup)];
(* Model/CIM14/CIM14.ecore:5482-5492 *)
  EClass n_CIM14_IEC61970_LoadModel_ConformLoadSchedule_ConformLoadSchedule n_ConformLoadSchedule (Some n_CIM14_IEC61970_LoadModel_SeasonDayTypeSchedule_SeasonDayTypeSchedule)
    []
    [ERef n_ConformLoadGroup n_CIM14_IEC61970_LoadModel_ConformLoadGroup_ConformLoadGroup false (Some n_ConformLoadSchedules)];
(* Model/CIM14/CIM14.ecore:5535-5545 *)
  EClass n_CIM14_IEC61970_LoadModel_DayType_DayType n_DayType (Some n_CIM14_IEC61970_Core_IdentifiedObject_IdentifiedObject)
    []
    [ERef n_SeasonDayTypeSchedules n_CIM14_IEC61970_LoadModel_SeasonDayTypeSchedule_SeasonDayTypeSchedule true (Some n_DayType)];
(* Model/CIM14/CIM14.ecore:5364-5374 *)
  EClass n_CIM14_IEC61970_LoadModel_EnergyArea_EnergyArea n_EnergyArea (Some n_CIM14_IEC61970_Core_IdentifiedObject_IdentifiedObject)
    []
    [ERef n_ControlArea n_CIM14_IEC61970_ControlArea_ControlArea_ControlArea false (Some n_EnergyArea)];
(* Model/CIM14/CIM14.ecore:5375-5385 *)
  EClass n_CIM14_IEC61970_LoadModel_LoadArea_LoadArea n_LoadArea (Some n_CIM14_IEC61970_LoadModel_EnergyArea_EnergyArea)
    []
    [ERef n_SubLoadAreas n_CIM14_IEC61970_LoadModel_SubLoadArea_SubLoadArea true (Some n_LoadArea)];
(* Model/CIM14/CIM14.ecore:5408-5418 *)
  EClass n_CIM14_IEC61970_LoadModel_LoadGroup_LoadGroup n_LoadGroup (Some n_CIM14_IEC61970_Core_IdentifiedObject_IdentifiedObject)
    []
    [ERef n_SubLoadArea n_CIM14_IEC61970_LoadModel_SubLoadArea_SubLoadArea false (Some n_LoadGroups)];
(* Model/CIM14/CIM14.ecore:5283-5363 *)
  EClass n_CIM14_IEC61970_LoadModel_LoadResponseCharacteristic_LoadResponseCharacteristic n_LoadResponseCharacteristic (Some n_CIM14_IEC61970_Core_IdentifiedObject_IdentifiedObject)
    [(n_pFrequencyExponent, TFloat); (n_qFrequencyExponent, TFloat); (n_pConstantPower, TFloat); (n_pConstantCurrent, TFloat); (n_pVoltageExponent, TFloat); (n_pConstantImpedance, TFloat); (n_qConstantImpedance, TFloat); (n_qConstantPower, TFloat); (n_qVoltageExponent, TFloat); (n_exponentModel, TBool); (n_qConstantCurrent, TFloat)]
    [ERef n_EnergyConsumer n_CIM14_IEC61970_Wires_EnergyConsumer_EnergyConsumer true (Some n_LoadResponse)];
(* Model/CIM14/CIM14.ecore:5493-5503 *)
  EClass n_CIM14_IEC61970_LoadModel_NonConformLoad_NonConformLoad n_NonConformLoad (Some n_CIM14_IEC61970_Wires_EnergyConsumer_EnergyConsumer)
    []
    [ERef n_LoadGroup n_CIM14_IEC61970_LoadModel_NonConformLoadGroup_NonConformLoadGroup false (Some n_EnergyConsumers)];
(* Model/CIM14/CIM14.ecore:5419-5435 *)
  EClass n_CIM14_IEC61970_LoadModel_NonConformLoadGroup_NonConformLoadGroup n_NonConformLoadGroup (Some n_CIM14_IEC61970_LoadModel_LoadGroup_LoadGroup)
    []
    [ERef n_EnergyConsumers n_CIM14_IEC61970_LoadModel_NonConformLoad_NonConformLoad true (Some n_LoadGroup); ERef n_NonConformLoadSchedules n_CIM14_IEC61970_LoadModel_NonConformLoadSchedule_NonConformLoadSchedule true (Some n_NonConformLoadGroup)];
(* Model/CIM14/CIM14.ecore:5524-5534 *)
  EClass n_CIM14_IEC61970_LoadModel_NonConformLoadSchedule_NonConformLoadSchedule n_NonConformLoadSchedule (Some n_CIM14_IEC61970_LoadModel_SeasonDayTypeSchedule_SeasonDayTypeSchedule)
    []
    [ERef n_NonConformLoadGroup n_CIM14_IEC61970_LoadModel_NonConformLoadGroup_NonConformLoadGroup false (Some n_NonConformLoadSchedules)];
(* Model/CIM14/CIM14.ecore:5260-5282 *)
  EClass n_CIM14_IEC61970_LoadModel_PowerCutZone_PowerCutZone n_PowerCutZone (Some n_CIM14_IEC61970_Core_PowerSystemResource_PowerSystemResource)
    [(n_cutLevel1, TFloat); (n_cutLevel2, TFloat)]
    [ERef n_EnergyConsumers n_CIM14_IEC61970_Wires_EnergyConsumer_EnergyConsumer true (Some n_PowerCutZone)];
(* Model/CIM14/CIM14.ecore:5453-5481 *)
  EClass n_CIM14_IEC61970_LoadModel_Season_Season n_Season (Some n_CIM14_Element_Element)
    [(n_name, enum_cim14_IEC61970_LoadModel_SeasonName); (n_startDate, TDate); (n_endDate, TDate)]
    [ERef n_SeasonDayTypeSchedules n_CIM14_IEC61970_LoadModel_SeasonDayTypeSchedule_SeasonDayTypeSchedule true (Some n_Season)];
(* Model/CIM14/CIM14.ecore:5436-5452 *)
  EClass n_CIM14_IEC61970_LoadModel_SeasonDayTypeSchedule_SeasonDayTypeSchedule n_SeasonDayTypeSchedule (Some n_CIM14_IEC61970_Core_RegularIntervalSchedule_RegularIntervalSchedule)
    []
    [ERef n_Season n_CIM14_IEC61970_LoadModel_Season_Season false (Some n_SeasonDayTypeSchedules); ERef n_DayType n_CIM14_IEC61970_LoadModel_DayType_DayType false (Some n_SeasonDayTypeSchedules)];
(* Model/CIM14/CIM14.ecore:5386-5390 *)
  EClass n_CIM14_IEC61970_LoadModel_StationSupply_StationSupply n_StationSupply (Some n_CIM14_IEC61970_Wires_EnergyConsumer_EnergyConsumer)
    []
    [];
(* Model/CIM14/CIM14.ecore:5391-5407 *)
  EClass n_CIM14_IEC61970_LoadModel_SubLoadArea_SubLoadArea n_SubLoadArea (Some n_CIM14_IEC61970_LoadModel_EnergyArea_EnergyArea)
    []
    [ERef n_LoadGroups n_CIM14_IEC61970_LoadModel_LoadGroup_LoadGroup true (Some n_SubLoadArea); ERef n_LoadArea n_CIM14_IEC61970_LoadModel_LoadArea_LoadArea false (Some n_SubLoadAreas)];
(* Model/CIM14/CIM14.ecore:6204-6226 *)
  EClass n_CIM14_IEC61970_Meas_Accumulator_Accumulator n_Accumulator (Some n_CIM14_IEC61970_Meas_Measurement_Measurement)
    [(n_maxValue, TInt)]
    [ERef n_LimitSets n_CIM14_IEC61970_Meas_AccumulatorLimitSet_AccumulatorLimitSet true (Some n_Measurements); ERef n_AccumulatorValues n_CIM14_IEC61970_Meas_AccumulatorValue_AccumulatorValue true (Some n_Accumulator)];
(* Model/CIM14/CIM14.ecore:6244-6260 *)
  EClass n_CIM14_IEC61970_Meas_AccumulatorLimit_AccumulatorLimit n_AccumulatorLimit (Some n_CIM14_IEC61970_Meas_Limit_Limit)
    [(n_value, TInt)]
    [ERef n_LimitSet n_CIM14_IEC61970_Meas_AccumulatorLimitSet_AccumulatorLimitSet false (Some n_Limits)];
(* Model/CIM14/CIM14.ecore:6055-6071 *)
  EClass n_CIM14_IEC61970_Meas_AccumulatorLimitSet_AccumulatorLimitSet n_AccumulatorLimitSet (Some n_CIM14_IEC61970_Meas_LimitSet_LimitSet)
    []
    [ERef n_Measurements n_CIM14_IEC61970_Meas_Accumulator_Accumulator true (Some n_LimitSets); ERef n_Limits n_CIM14_IEC61970_Meas_AccumulatorLimit_AccumulatorLimit true (Some n_LimitSet)];
(* Model/CIM14/CIM14.ecore:6446-6462 *)
  EClass n_CIM14_IEC61970_Meas_AccumulatorValue_AccumulatorValue n_AccumulatorValue (Some n_CIM14_IEC61970_Meas_MeasurementValue_MeasurementValue)
    [(n_value, TInt)]
    [ERef n_Accumulator n_CIM14_IEC61970_Meas_Accumulator_Accumulator false (Some n_AccumulatorValues)];
(* Model/CIM14/CIM14.ecore:6310-6356 *)
  EClass n_CIM14_IEC61970_Meas_Analog_Analog n_Analog (Some n_CIM14_IEC61970_Meas_Measurement_Measurement)
    [(n_positiveFlowIn, TBool); (n_minValue, TFloat); (n_maxValue, TFloat); (n_normalValue, TFloat)]
    [ERef n_LimitSets n_CIM14_IEC61970_Meas_AnalogLimitSet_AnalogLimitSet true (Some n_Measurements); ERef n_SetPoint n_CIM14_IEC61970_Meas_SetPoint_SetPoint false (Some n_Analog); ERef n_AnalogValues n_CIM14_IEC61970_Meas_AnalogValue_AnalogValue true (Some n_Analog)];
(* Model/CIM14/CIM14.ecore:6026-6042 *)
  EClass n_CIM14_IEC61970_Meas_AnalogLimit_AnalogLimit n_AnalogLimit (Some n_CIM14_IEC61970_Meas_Limit_Limit)
    [(n_value, TFloat)]
    [ERef n_LimitSet n_CIM14_IEC61970_Meas_AnalogLimitSet_AnalogLimitSet false (Some n_Limits)];
(* Model/CIM14/CIM14.ecore:6227-6243 *)
  EClass n_CIM14_IEC61970_Meas_AnalogLimitSet_AnalogLimitSet n_AnalogLimitSet (Some n_CIM14_IEC61970_Meas_LimitSet_LimitSet)
    []
    [ERef n_Measurements n_CIM14_IEC61970_Meas_Analog_Analog true (Some n_LimitSets); ERef n_Limits n_CIM14_IEC61970_Meas_AnalogLimit_AnalogLimit true (Some n_LimitSet)];
(* Model/CIM14/CIM14.ecore:6272-6301 *)
  EClass n_CIM14_IEC61970_Meas_AnalogValue_AnalogValue n_AnalogValue (Some n_CIM14_IEC61970_Meas_MeasurementValue_MeasurementValue)
    [(n_value, TFloat)]
    [ERef n_AltTieMeas n_CIM14_IEC61970_ControlArea_AltTieMeas_AltTieMeas true (Some n_AnalogValue); ERef n_Analog n_CIM14_IEC61970_Meas_Analog_Analog false (Some n_AnalogValues); ERef n_AltGeneratingUnit n_CIM14_IEC61970_ControlArea_AltGeneratingUnitMeas_AltGeneratingUnitMeas true (Some n_AnalogValue)];
(* Model/CIM14/CIM14.ecore:6107-6135 *)
  EClass n_CIM14_IEC61970_Meas_Command_Command n_Command (Some n_CIM14_IEC61970_Meas_Control_Control)
    [(n_value, TInt); (n_normalValue, TInt)]
    [ERef n_ValueAliasSet n_CIM14_IEC61970_Meas_ValueAliasSet_ValueAliasSet false (Some n_Commands); ERef n_Discrete n_CIM14_IEC61970_Meas_Discrete_Discrete false (Some n_Command)];
(* Model/CIM14/CIM14.ecore:5805-5846 *)
  EClass n_CIM14_IEC61970_Meas_Control_Control n_Control (Some n_CIM14_IEC61970_Core_IdentifiedObject_IdentifiedObject)
    [(n_timeStamp, TDate); (n_operationInProgress, TBool)]
    [ERef n_Unit n_CIM14_IEC61970_Core_Unit_Unit false (Some n_Controls); ERef n_RegulatingCondEq n_CIM14_IEC61970_Wires_RegulatingCondEq_RegulatingCondEq false (Some n_Controls); ERef n_ControlType n_CIM14_IEC61970_Meas_ControlType_ControlType false (Some n_Controls); ERef n_RemoteControl n_CIM14_IEC61970_SCADA_RemoteControl_RemoteControl false (Some n_Control)];
(* Model/CIM14/CIM14.ecore:6193-6203 *)
  EClass n_CIM14_IEC61970_Meas_ControlType_ControlType n_ControlType (Some n_CIM14_IEC61970_Core_IdentifiedObject_IdentifiedObject)
    []
    [ERef n_Controls n_CIM14_IEC61970_Meas_Control_Control true (Some n_ControlType)];
(* Model/CIM14/CIM14.ecore:5940-5980 *)
  EClass n_CIM14_IEC61970_Meas_CurrentTransformer_CurrentTransformer n_CurrentTransformer (Some n_CIM14_IEC61970_Core_Equipment_Equipment)
    [(n_maxRatio, TFloat); (n_accuracyClass, TText); (n_coreCount, TInt); (n_ctClass, TText); (n_usage, TText); (n_accuracyLimit, TText)]
    [];
(* Model/CIM14/CIM14.ecore:5899-5939 *)
  EClass n_CIM14_IEC61970_Meas_Discrete_Discrete n_Discrete (Some n_CIM14_IEC61970_Meas_Measurement_Measurement)
    [(n_normalValue, TInt); (n_minValue, TInt); (n_maxValue, TInt)]
    [ERef n_Command n_CIM14_IEC61970_Meas_Command_Command false (Some n_Discrete); ERef n_DiscreteValues n_CIM14_IEC61970_Meas_DiscreteValue_DiscreteValue true (Some n_Discrete); ERef n_ValueAliasSet n_CIM14_IEC61970_Meas_ValueAliasSet_ValueAliasSet false (Some n_Discretes)];
(* Model/CIM14/CIM14.ecore:6004-6020 *)
  EClass n_CIM14_IEC61970_Meas_DiscreteValue_DiscreteValue n_DiscreteValue (Some n_CIM14_IEC61970_Meas_MeasurementValue_MeasurementValue)
    [(n_value, TInt)]
    [ERef n_Discrete n_CIM14_IEC61970_Meas_Discrete_Discrete false (Some n_DiscreteValues)];
(* Model/CIM14/CIM14.ecore:6021-6025 *)
  EClass n_CIM14_IEC61970_Meas_Limit_Limit n_Limit (Some n_CIM14_IEC61970_Core_IdentifiedObject_IdentifiedObject)
    []
    [];
(* Model/CIM14/CIM14.ecore:6043-6054 *)
  EClass n_CIM14_IEC61970_Meas_LimitSet_LimitSet n_LimitSet (Some n_CIM14_IEC61970_Core_IdentifiedObject_IdentifiedObject)
    [(n_isPercentageLimits, TBool)]
    [];
(* Model/CIM14/CIM14.ecore:5847-5887 *)
  EClass n_CIM14_IEC61970_Meas_Measurement_Measurement n_Measurement (Some n_CIM14_IEC61970_Core_IdentifiedObject_IdentifiedObject)
    [(n_measurementType, TText)]
    [ERef n_PowerSystemResource n_CIM14_IEC61970_Core_PowerSystemResource_PowerSystemResource false (Some n_Measurements); ERef n_Locations n_CIM14_IEC61968_Common_Location_Location true (Some n_Measurements); ERef n_Terminal n_CIM14_IEC61970_Core_Terminal_Terminal false (Some n_Measurements); ERef n_Unit n_CIM14_IEC61970_Core_Unit_Unit false (Some n_Measurements); ERef n_tieToMeasurement0 n_CIM14_IEC61970_Dynamics_TieToMeasurement_TieToMeasurement true (Some n_measurement0); ERef n_Asset n_CIM14_IEC61968_Assets_Asset_Asset false (Some n_Measurements); ERef n_Documents n_CIM14_IEC61968_Common_Document_Document true (Some n_Measurements)];
(* Model/CIM14/CIM14.ecore:5770-5804 *)
  EClass n_CIM14_IEC61970_Meas_MeasurementValue_MeasurementValue n_MeasurementValue (Some n_CIM14_IEC61970_Core_IdentifiedObject_IdentifiedObject)
    [(n_sensorAccuracy, TFloat); (n_timeStamp, TDate)]
    [ERef n_MeasurementValueSource n_CIM14_IEC61970_Meas_MeasurementValueSource_MeasurementValueSource false (Some n_MeasurementValues); ERef n_RemoteSource n_CIM14_IEC61970_SCADA_RemoteSource_RemoteSource false (Some n_MeasurementValue); ERef n_MeasurementValueQuality n_CIM14_IEC61970_Meas_MeasurementValueQuality_MeasurementValueQuality false (Some n_MeasurementValue)];
(* Model/CIM14/CIM14.ecore:6435-6445 *)
  EClass n_CIM14_IEC61970_Meas_MeasurementValueQuality_MeasurementValueQuality n_MeasurementValueQuality (Some n_CIM14_IEC61970_Meas_Quality61850_Quality61850)
    []
    [ERef n_MeasurementValue n_CIM14_IEC61970_Meas_MeasurementValue_MeasurementValue false (Some n_MeasurementValueQuality)];
(* Model/CIM14/CIM14.ecore:6261-6271 *)
  EClass n_CIM14_IEC61970_Meas_MeasurementValueSource_MeasurementValueSource n_MeasurementValueSource (Some n_CIM14_IEC61970_Core_IdentifiedObject_IdentifiedObject)
    []
    [ERef n_MeasurementValues n_CIM14_IEC61970_Meas_MeasurementValue_MeasurementValue true (Some n_MeasurementValueSource)];
(* Model/CIM14/CIM14.ecore:6153-6175 *)
  EClass n_CIM14_IEC61970_Meas_PotentialTransformer_PotentialTransformer n_PotentialTransformer (Some n_CIM14_IEC61970_Core_Equipment_Equipment)
    [(n_ptClass, TText); (n_accuracyClass, TText); (n_nominalRatio, TFloat)]
    [];
(* Model/CIM14/CIM14.ecore:6357-6434 *)
  EClass n_CIM14_IEC61970_Meas_Quality61850_Quality61850 n_Quality61850 (Some n_CIM14_Element_Element)
    [(n_validity, enum_cim14_IEC61970_Meas_Validity); (n_source, enum_cim14_IEC61970_SCADA_Source); (n_failure, TBool); (n_suspect, TBool); (n_oldData, TBool); (n_badReference, TBool); (n_test, TBool); (n_outOfRange, TBool); (n_estimatorReplaced, TBool); (n_oscillatory, TBool); (n_operatorBlocked, TBool); (n_overFlow, TBool)]
    [];
(* Model/CIM14/CIM14.ecore:6072-6106 *)
  EClass n_CIM14_IEC61970_Meas_SetPoint_SetPoint n_SetPoint (Some n_CIM14_IEC61970_Meas_Control_Control)
    [(n_minValue, TFloat); (n_value, TFloat); (n_maxValue, TFloat); (n_normalValue, TFloat)]
    [ERef n_Analog n_CIM14_IEC61970_Meas_Analog_Analog false (Some n_SetPoint)];
(* Model/CIM14/CIM14.ecore:5888-5898 *)
  EClass n_CIM14_IEC61970_Meas_StringMeasurement_StringMeasurement n_StringMeasurement (Some n_CIM14_IEC61970_Meas_Measurement_Measurement)
    []
    [ERef n_StringMeasurementValues n_CIM14_IEC61970_Meas_StringMeasurementValue_StringMeasurementValue true (Some n_StringMeasurement)];
(* Model/CIM14/CIM14.ecore:6136-6152 *)
  EClass n_CIM14_IEC61970_Meas_StringMeasurementValue_StringMeasurementValue n_StringMeasurementValue (Some n_CIM14_IEC61970_Meas_MeasurementValue_MeasurementValue)
    [(n_value, TText)]
    [ERef n_StringMeasurement n_CIM14_IEC61970_Meas_StringMeasurement_StringMeasurement false (Some n_StringMeasurementValues)];
(* Model/CIM14/CIM14.ecore:5981-6003 *)
  EClass n_CIM14_IEC61970_Meas_ValueAliasSet_ValueAliasSet n_ValueAliasSet (Some n_CIM14_IEC61970_Core_IdentifiedObject_IdentifiedObject)
    []
    [ERef n_Commands n_CIM14_IEC61970_Meas_Command_Command true (Some n_ValueAliasSet); ERef n_Values n_CIM14_IEC61970_Meas_ValueToAlias_ValueToAlias true (Some n_ValueAliasSet); ERef n_Discretes n_CIM14_IEC61970_Meas_Discrete_Discrete true (Some n_ValueAliasSet)];
(* Model/CIM14/CIM14.ecore:6176-6192 *)
  EClass n_CIM14_IEC61970_Meas_ValueToAlias_ValueToAlias n_ValueToAlias (Some n_CIM14_IEC61970_Core_IdentifiedObject_IdentifiedObject)
    [(n_value, TInt)]
    [ERef n_ValueAliasSet n_CIM14_IEC61970_Meas_ValueAliasSet_ValueAliasSet false (Some n_Values)];
(* Model/CIM14/CIM14.ecore:5730-5740 *)
  EClass n_CIM14_IEC61970_OperationalLimits_ActivePowerLimit_ActivePowerLimit n_ActivePowerLimit (Some n_CIM14_IEC61970_OperationalLimits_OperationalLimit_OperationalLimit)
    [(n_value, TFloat)]
    [];
(* Model/CIM14/CIM14.ecore:5676-5686 *)
  EClass n_CIM14_IEC61970_OperationalLimits_ApparentPowerLimit_ApparentPowerLimit n_ApparentPowerLimit (Some n_CIM14_IEC61970_OperationalLimits_OperationalLimit_OperationalLimit)
    [(n_value, TFloat)]
    [];
(* Model/CIM14/CIM14.ecore:5603-5652 *)
  EClass n_CIM14_IEC61970_OperationalLimits_BranchGroup_BranchGroup n_BranchGroup (Some n_CIM14_IEC61970_Core_IdentifiedObject_IdentifiedObject)
    [(n_minimumReactivePower, TFloat); (n_monitorActivePower, TBool); (n_minimumActivePower, TFloat); (n_maximumReactivePower, TFloat); (n_maximumActivePower, TFloat); (n_monitorReactivePower, TBool)]
    [ERef n_BranchGroupTerminal n_CIM14_IEC61970_OperationalLimits_BranchGroupTerminal_BranchGroupTerminal true (Some n_BranchGroup)];
(* Model/CIM14/CIM14.ecore:5653-5675 *)
  EClass n_CIM14_IEC61970_OperationalLimits_BranchGroupTerminal_BranchGroupTerminal n_BranchGroupTerminal (Some n_CIM14_Element_Element)
    [(n_positiveFlowIn, TBool)]
    [ERef n_BranchGroup n_CIM14_IEC61970_OperationalLimits_BranchGroup_BranchGroup false (Some n_BranchGroupTerminal); ERef n_Terminal n_CIM14_IEC61970_Core_Terminal_Terminal false (Some n_BranchGroupTerminal)];
(* Model/CIM14/CIM14.ecore:5592-5602 *)
  EClass n_CIM14_IEC61970_OperationalLimits_CurrentLimit_CurrentLimit n_CurrentLimit (Some n_CIM14_IEC61970_OperationalLimits_OperationalLimit_OperationalLimit)
    [(n_value, TFloat)]
    [];
(* Model/CIM14/CIM14.ecore:5569-5591 *)
  EClass n_CIM14_IEC61970_OperationalLimits_OperationalLimit_OperationalLimit n_OperationalLimit (Some n_CIM14_IEC61970_Core_IdentifiedObject_IdentifiedObject)
    [(n_type, TText)]
    [ERef n_OperationalLimitType n_CIM14_IEC61970_OperationalLimits_OperationalLimitType_OperationalLimitType false (Some n_OperationalLimit); ERef n_OperationalLimitSet n_CIM14_IEC61970_OperationalLimits_OperationalLimitSet_OperationalLimitSet false (Some n_OperationalLimitValue)];
(* Model/CIM14/CIM14.ecore:5695-5718 *)
  EClass n_CIM14_IEC61970_OperationalLimits_OperationalLimitSet_OperationalLimitSet n_OperationalLimitSet (Some n_CIM14_IEC61970_Core_IdentifiedObject_IdentifiedObject)
    []
    [ERef n_Equipment n_CIM14_IEC61970_Core_Equipment_Equipment false (Some n_OperationalLimitSet); ERef n_Terminal n_CIM14_IEC61970_Core_Terminal_Terminal false (Some n_OperationalLimitSet); ERef n_OperationalLimitValue n_CIM14_IEC61970_OperationalLimits_OperationalLimit_OperationalLimit true (Some n_OperationalLimitSet)];
(* Model/CIM14/CIM14.ecore:5741-5763 *)
  EClass n_CIM14_IEC61970_OperationalLimits_OperationalLimitType_OperationalLimitType n_OperationalLimitType (Some n_CIM14_IEC61970_Core_IdentifiedObject_IdentifiedObject)
    [(n_direction, enum_cim14_IEC61970_OperationalLimits_OperationalLimitDirectionKind); (n_acceptableDuration, TFloat)]
    [ERef n_OperationalLimit n_CIM14_IEC61970_OperationalLimits_OperationalLimit_OperationalLimit true (Some n_OperationalLimitType)];
(* Model/CIM14/CIM14.ecore:5719-5729 *)
  EClass n_CIM14_IEC61970_OperationalLimits_VoltageLimit_VoltageLimit n_VoltageLimit (Some n_CIM14_IEC61970_OperationalLimits_OperationalLimit_OperationalLimit)
    [(n_value, TFloat)]
    [];
(* Model/CIM14/CIM14.ecore:2881-2947 *)
  EClass n_CIM14_IEC61970_Outage_ClearanceTag_ClearanceTag n_ClearanceTag (Some n_CIM14_IEC61970_Core_IdentifiedObject_IdentifiedObject)
    [(n_workStartTime, TDate); (n_workDescription, TText); (n_workEndTime, TDate); (n_authorityName, TText); (n_deenergizeReqFlag, TBool); (n_groundReqFlag, TBool); (n_tagIssueTime, TDate); (n_phaseCheckReqFlag, TBool)]
    [ERef n_ClearanceTagType n_CIM14_IEC61970_Outage_ClearanceTagType_ClearanceTagType false (Some n_ClearanceTags); ERef n_ConductingEquipment n_CIM14_IEC61970_Core_ConductingEquipment_ConductingEquipment false (Some n_ClearanceTags)];
(* Model/CIM14/CIM14.ecore:2948-2958 *)
  EClass n_CIM14_IEC61970_Outage_ClearanceTagType_ClearanceTagType n_ClearanceTagType (Some n_CIM14_IEC61970_Core_IdentifiedObject_IdentifiedObject)
    []
    [ERef n_ClearanceTags n_CIM14_IEC61970_Outage_ClearanceTag_ClearanceTag true (Some n_ClearanceTagType)];
(* Model/CIM14/CIM14.ecore:2959-2975 *)
  EClass n_CIM14_IEC61970_Outage_OutageSchedule_OutageSchedule n_OutageSchedule (Some n_CIM14_IEC61970_Core_IrregularIntervalSchedule_IrregularIntervalSchedule)
    []
    [ERef n_SwitchingOperations n_CIM14_IEC61970_Outage_SwitchingOperation_SwitchingOperation true (Some n_OutageSchedule); ERef n_PowerSystemResource n_CIM14_IEC61970_Core_PowerSystemResource_PowerSystemResource false (Some n_OutageSchedule)];
(* Model/CIM14/CIM14.ecore:2976-3004 *)
  EClass n_CIM14_IEC61970_Outage_SwitchingOperation_SwitchingOperation n_SwitchingOperation (Some n_CIM14_IEC61970_Core_IdentifiedObject_IdentifiedObject)
    [(n_newState, enum_cim14_IEC61970_Outage_SwitchState); (n_operationTime, TDate)]
    [ERef n_Switches n_CIM14_IEC61970_Wires_Switch_Switch true (Some n_SwitchingOperations); ERef n_OutageSchedule n_CIM14_IEC61970_Outage_OutageSchedule_OutageSchedule false (Some n_SwitchingOperations)];
(* Model/CIM14/CIM14.ecore:7222-7268 *)
  EClass n_CIM14_IEC61970_Protection_CurrentRelay_CurrentRelay n_CurrentRelay (Some n_CIM14_IEC61970_Protection_ProtectionEquipment_ProtectionEquipment)
    [(n_currentLimit1, TFloat); (n_timeDelay3, TFloat); (n_timeDelay2, TFloat); (n_currentLimit3, TFloat); (n_currentLimit2, TFloat); (n_inverseTimeFlag, TBool); (n_timeDelay1, TFloat)]
    [];
(* Model/CIM14/CIM14.ecore:7274-7278 *)
  EClass n_CIM14_IEC61970_Protection_FaultIndicator_FaultIndicator n_FaultIndicator (Some n_CIM14_IEC61970_Core_Equipment_Equipment)
    []
    [];
(* Model/CIM14/CIM14.ecore:7174-7221 *)
  EClass n_CIM14_IEC61970_Protection_ProtectionEquipment_ProtectionEquipment n_ProtectionEquipment (Some n_CIM14_IEC61970_Core_Equipment_Equipment)
    [(n_lowLimit, TFloat); (n_powerDirectionFlag, TBool); (n_highLimit, TFloat); (n_relayDelayTime, TFloat)]
    [ERef n_ProtectedSwitches n_CIM14_IEC61970_Wires_ProtectedSwitch_ProtectedSwitch true None; ERef n_Unit n_CIM14_IEC61970_Core_Unit_Unit false (Some n_ProtectionEquipments); ERef n_ConductingEquipments n_CIM14_IEC61970_Core_ConductingEquipment_ConductingEquipment true (Some n_ProtectionEquipments)];
(* Model/CIM14/CIM14.ecore:7151-7173 *)
  EClass n_CIM14_IEC61970_Protection_RecloseSequence_RecloseSequence n_RecloseSequence (Some n_CIM14_IEC61970_Core_IdentifiedObject_IdentifiedObject)
    [(n_recloseDelay, TFloat); (n_recloseStep, TInt)]
    [ERef n_ProtectedSwitch n_CIM14_IEC61970_Wires_ProtectedSwitch_ProtectedSwitch false (Some n_RecloseSequences)];
(* Model/CIM14/CIM14.ecore:7269-7273 *)
  EClass n_CIM14_IEC61970_Protection_SurgeProtector_SurgeProtector n_SurgeProtector (Some n_CIM14_IEC61970_Core_Equipment_Equipment)
    []
    [];
(* Model/CIM14/CIM14.ecore:7279-7301 *)
  EClass n_CIM14_IEC61970_Protection_SynchrocheckRelay_SynchrocheckRelay n_SynchrocheckRelay (Some n_CIM14_IEC61970_Protection_ProtectionEquipment_ProtectionEquipment)
    [(n_maxFreqDiff, TFloat); (n_maxVoltDiff, TFloat); (n_maxAngleDiff, TFloat)]
    [];
(* Model/CIM14/CIM14.ecore:6549-6559 *)
  EClass n_CIM14_IEC61970_SCADA_CommunicationLink_CommunicationLink n_CommunicationLink (Some n_CIM14_IEC61970_Core_PowerSystemResource_PowerSystemResource)
    []
    [ERef n_RemoteUnits n_CIM14_IEC61970_SCADA_RemoteUnit_RemoteUnit true (Some n_CommunicationLinks)];
(* Model/CIM14/CIM14.ecore:6480-6508 *)
  EClass n_CIM14_IEC61970_SCADA_RemoteControl_RemoteControl n_RemoteControl (Some n_CIM14_IEC61970_SCADA_RemotePoint_RemotePoint)
    [(n_actuatorMinimum, TFloat); (n_remoteControlled, TBool); (n_actuatorMaximum, TFloat)]
    [ERef n_Control n_CIM14_IEC61970_Meas_Control_Control false (Some n_RemoteControl)];
(* Model/CIM14/CIM14.ecore:6469-6479 *)
  EClass n_CIM14_IEC61970_SCADA_RemotePoint_RemotePoint n_RemotePoint (Some n_CIM14_IEC61970_Core_IdentifiedObject_IdentifiedObject)
    []
    [ERef n_RemoteUnit n_CIM14_IEC61970_SCADA_RemoteUnit_RemoteUnit false (Some n_RemotePoints)];
(* Model/CIM14/CIM14.ecore:6560-6594 *)
  EClass n_CIM14_IEC61970_SCADA_RemoteSource_RemoteSource n_RemoteSource (Some n_CIM14_IEC61970_SCADA_RemotePoint_RemotePoint)
    [(n_scanInterval, TFloat); (n_sensorMaximum, TFloat); (n_deadband, TFloat); (n_sensorMinimum, TFloat)]
    [ERef n_MeasurementValue n_CIM14_IEC61970_Meas_MeasurementValue_MeasurementValue false (Some n_RemoteSource)];
(* Model/CIM14/CIM14.ecore:6518-6540 *)
  EClass n_CIM14_IEC61970_SCADA_RemoteUnit_RemoteUnit n_RemoteUnit (Some n_CIM14_IEC61970_Core_PowerSystemResource_PowerSystemResource)
    [(n_remoteUnitType, enum_cim14_IEC61970_SCADA_RemoteUnitType)]
    [ERef n_CommunicationLinks n_CIM14_IEC61970_SCADA_CommunicationLink_CommunicationLink true (Some n_RemoteUnits); ERef n_RemotePoints n_CIM14_IEC61970_SCADA_RemotePoint_RemotePoint true (Some n_RemoteUnit)];
(* Model/CIM14/CIM14.ecore:2701-2705 *)
  EClass n_CIM14_IEC61970_StateVariables_StateVariable_StateVariable n_StateVariable (Some n_CIM14_Element_Element)
    []
    [];
(* Model/CIM14/CIM14.ecore:2852-2874 *)
  EClass n_CIM14_IEC61970_StateVariables_SvInjection_SvInjection n_SvInjection (Some n_CIM14_IEC61970_StateVariables_StateVariable_StateVariable)
    [(n_pNetInjection, TFloat); (n_qNetInjection, TFloat)]
    [ERef n_TopologicalNode n_CIM14_IEC61970_Topology_TopologicalNode_TopologicalNode false (Some n_SvInjection)];
(* Model/CIM14/CIM14.ecore:2788-2810 *)
  EClass n_CIM14_IEC61970_StateVariables_SvPowerFlow_SvPowerFlow n_SvPowerFlow (Some n_CIM14_IEC61970_StateVariables_StateVariable_StateVariable)
    [(n_q, TFloat); (n_p, TFloat)]
    [ERef n_Terminal n_CIM14_IEC61970_Core_Terminal_Terminal false (Some n_SvPowerFlow)];
(* Model/CIM14/CIM14.ecore:2729-2763 *)
  EClass n_CIM14_IEC61970_StateVariables_SvShortCircuit_SvShortCircuit n_SvShortCircuit (Some n_CIM14_IEC61970_StateVariables_StateVariable_StateVariable)
    [(n_x0PerX, TFloat); (n_sShortCircuit, TFloat); (n_r0PerR, TFloat); (n_xPerR, TFloat)]
    [ERef n_TopologicalNode n_CIM14_IEC61970_Topology_TopologicalNode_TopologicalNode false (Some n_SvShortCircuit)];
(* Model/CIM14/CIM14.ecore:2764-2787 *)
  EClass n_CIM14_IEC61970_StateVariables_SvShuntCompensatorSections_SvShuntCompensatorSections n_SvShuntCompensatorSections (Some n_CIM14_IEC61970_StateVariables_StateVariable_StateVariable)
    [(n_continuousSections, TFloat); (n_sections, TInt)]
    [ERef n_ShuntCompensator n_CIM14_IEC61970_Wires_ShuntCompensator_ShuntCompensator false (Some n_SvShuntCompensatorSections)];
(* Model/CIM14/CIM14.ecore:2811-2827 *)
  EClass n_CIM14_IEC61970_StateVariables_SvStatus_SvStatus n_SvStatus (Some n_CIM14_IEC61970_StateVariables_StateVariable_StateVariable)
    [(n_inService, TBool)]
    [ERef n_ConductingEquipment n_CIM14_IEC61970_Core_ConductingEquipment_ConductingEquipment false (Some n_SvStatus)];
(* Model/CIM14/CIM14.ecore:2828-2851 *)
  EClass n_CIM14_IEC61970_StateVariables_SvTapStep_SvTapStep n_SvTapStep (Some n_CIM14_IEC61970_StateVariables_StateVariable_StateVariable)
    [(n_continuousPosition, TFloat); (n_position, TInt)]
    [ERef n_TapChanger n_CIM14_IEC61970_Wires_TapChanger_TapChanger false (Some n_SvTapStep)];
(* Model/CIM14/CIM14.ecore:2706-2728 *)
  EClass n_CIM14_IEC61970_StateVariables_SvVoltage_SvVoltage n_SvVoltage (Some n_CIM14_IEC61970_StateVariables_StateVariable_StateVariable)
    [(n_angle, TFloat); (n_v, TFloat)]
    [ERef n_TopologicalNode n_CIM14_IEC61970_Topology_TopologicalNode_TopologicalNode false (Some n_SvVoltage)];
(* Model/CIM14/CIM14.ecore:2684-2700 *)
  EClass n_CIM14_IEC61970_StateVariables_TopologicalIsland_TopologicalIsland n_TopologicalIsland (Some n_CIM14_IEC61970_Core_IdentifiedObject_IdentifiedObject)
    []
    [ERef n_TopologicalNodes n_CIM14_IEC61970_Topology_TopologicalNode_TopologicalNode true (Some n_TopologicalIsland); ERef n_AngleRef_TopologicalNode n_CIM14_IEC61970_Topology_TopologicalNode_TopologicalNode false (Some n_AngleRef_TopologicalIsland)];
(* Model/CIM14/CIM14.ecore:7563-7579 *)
  EClass n_CIM14_IEC61970_Topology_BusNameMarker_BusNameMarker n_BusNameMarker (Some n_CIM14_IEC61970_Core_IdentifiedObject_IdentifiedObject)
    []
    [ERef n_ReportingGroup n_CIM14_IEC61970_Core_ReportingGroup_ReportingGroup false (Some n_BusNameMarker); ERef n_ConnectivityNode n_CIM14_IEC61970_Core_ConnectivityNode_ConnectivityNode true (Some n_BusNameMarker)];
(* Model/CIM14/CIM14.ecore:7498-7562 *)
  EClass n_CIM14_IEC61970_Topology_TopologicalNode_TopologicalNode n_TopologicalNode (Some n_CIM14_IEC61970_Core_IdentifiedObject_IdentifiedObject)
    []
    [ERef n_Terminal n_CIM14_IEC61970_Core_Terminal_Terminal true (Some n_TopologicalNode); ERef n_TopologicalIsland n_CIM14_IEC61970_StateVariables_TopologicalIsland_TopologicalIsland false (Some n_TopologicalNodes); ERef n_ReportingGroup n_CIM14_IEC61970_Core_ReportingGroup_ReportingGroup false (Some n_TopologicalNode); ERef n_ConnectivityNodes n_CIM14_IEC61970_Core_ConnectivityNode_ConnectivityNode true (Some n_TopologicalNode); ERef n_SvInjection n_CIM14_IEC61970_StateVariables_SvInjection_SvInjection false (Some n_TopologicalNode); ERef n_SvVoltage n_CIM14_IEC61970_StateVariables_SvVoltage_SvVoltage false (Some n_TopologicalNode); ERef n_SvShortCircuit n_CIM14_IEC61970_StateVariables_SvShortCircuit_SvShortCircuit false (Some n_TopologicalNode); ERef n_BaseVoltage n_CIM14_IEC61970_Core_BaseVoltage_BaseVoltage false (Some n_TopologicalNode); ERef n_ConnectivityNodeContainer n_CIM14_IEC61970_Core_ConnectivityNodeContainer_ConnectivityNodeContainer false (Some n_TopologicalNode); ERef n_AngleRef_TopologicalIsland n_CIM14_IEC61970_StateVariables_TopologicalIsland_TopologicalIsland false (Some n_AngleRef_TopologicalNode)];
(* Model/CIM14/CIM14.ecore:1944-1996 *)
  EClass n_CIM14_IEC61970_Wires_ACLineSegment_ACLineSegment n_ACLineSegment (Some n_CIM14_IEC61970_Wires_Conductor_Conductor)
    [(n_gch, TFloat); (n_r, TFloat); (n_x0, TFloat); (n_bch, TFloat); (n_x, TFloat); (n_r0, TFloat); (n_g0ch, TFloat); (n_b0ch, TFloat)]
    [];
(* Model/CIM14/CIM14.ecore:2634-2650 *)
  EClass n_CIM14_IEC61970_Wires_Breaker_Breaker n_Breaker (Some n_CIM14_IEC61970_Wires_ProtectedSwitch_ProtectedSwitch)
    [(n_inTransitTime, TFloat); (n_ratedCurrent, TFloat)]
    [];
(* Model/CIM14/CIM14.ecore:2651-2661 *)
  EClass n_CIM14_IEC61970_Wires_BusbarSection_BusbarSection n_BusbarSection (Some n_CIM14_IEC61970_Wires_Connector_Connector)
    []
    [ERef n_VoltageControlZone n_CIM14_IEC61970_Wires_VoltageControlZone_VoltageControlZone false (Some n_BusbarSection)];
(* Model/CIM14/CIM14.ecore:2247-2263 *)
  EClass n_CIM14_IEC61970_Wires_CompositeSwitch_CompositeSwitch n_CompositeSwitch (Some n_CIM14_IEC61970_Core_Equipment_Equipment)
    [(n_compositeSwitchType, TText)]
    [ERef n_Switches n_CIM14_IEC61970_Wires_Switch_Switch true (Some n_CompositeSwitch)];
(* Model/CIM14/CIM14.ecore:1330-1340 *)
  EClass n_CIM14_IEC61970_Wires_Conductor_Conductor n_Conductor (Some n_CIM14_IEC61970_Core_ConductingEquipment_ConductingEquipment)
    [(n_length, TFloat)]
    [];
(* Model/CIM14/CIM14.ecore:1292-1296 *)
  EClass n_CIM14_IEC61970_Wires_Connector_Connector n_Connector (Some n_CIM14_IEC61970_Core_ConductingEquipment_ConductingEquipment)
    []
    [];
(* Model/CIM14/CIM14.ecore:2606-2622 *)
  EClass n_CIM14_IEC61970_Wires_DCLineSegment_DCLineSegment n_DCLineSegment (Some n_CIM14_IEC61970_Wires_Conductor_Conductor)
    [(n_dcSegmentInductance, TFloat); (n_dcSegmentResistance, TFloat)]
    [];
(* Model/CIM14/CIM14.ecore:2187-2191 *)
  EClass n_CIM14_IEC61970_Wires_Disconnector_Disconnector n_Disconnector (Some n_CIM14_IEC61970_Wires_Switch_Switch)
    []
    [];
(* Model/CIM14/CIM14.ecore:1699-1749 *)
  EClass n_CIM14_IEC61970_Wires_EnergyConsumer_EnergyConsumer n_EnergyConsumer (Some n_CIM14_IEC61970_Core_ConductingEquipment_ConductingEquipment)
    [(n_customerCount, TInt); (n_qfixedPct, TFloat); (n_pfixed, TFloat); (n_pfixedPct, TFloat); (n_qfixed, TFloat)]
    [ERef n_aggregateLoad0 n_CIM14_IEC61970_Dynamics_Loads_AggregateLoad_AggregateLoad true (Some n_energyConsumer0); ERef n_PowerCutZone n_CIM14_IEC61970_LoadModel_PowerCutZone_PowerCutZone false (Some n_EnergyConsumers); ERef n_ServiceDeliveryPoints n_CIM14_IEC61968_Metering_ServiceDeliveryPoint_ServiceDeliveryPoint true (Some n_EnergyConsumer); ERef n_LoadResponse n_CIM14_IEC61970_LoadModel_LoadResponseCharacteristic_LoadResponseCharacteristic false (Some n_EnergyConsumer)];
(* Model/CIM14/CIM14.ecore:2507-2571 *)
  EClass n_CIM14_IEC61970_Wires_EnergySource_EnergySource n_EnergySource (Some n_CIM14_IEC61970_Core_ConductingEquipment_ConductingEquipment)
    [(n_x, TFloat); (n_activePower, TFloat); (n_r, TFloat); (n_nominalVoltage, TFloat); (n_voltageMagnitude, TFloat); (n_xn, TFloat); (n_x0, TFloat); (n_rn, TFloat); (n_voltageAngle, TFloat); (n_r0, TFloat)]
    [];
(* Model/CIM14/CIM14.ecore:1038-1078 *)
  EClass n_CIM14_IEC61970_Wires_FrequencyConverter_FrequencyConverter n_FrequencyConverter (Some n_CIM14_IEC61970_Wires_RegulatingCondEq_RegulatingCondEq)
    [(n_minU, TFloat); (n_maxU, TFloat); (n_maxP, TFloat); (n_minP, TFloat); (n_frequency, TFloat); (n_operatingMode, TText)]
    [];
(* Model/CIM14/CIM14.ecore:2572-2582 *)
  EClass n_CIM14_IEC61970_Wires_Fuse_Fuse n_Fuse (Some n_CIM14_IEC61970_Wires_Switch_Switch)
    [(n_ratingCurrent, TFloat)]
    [];
(* Model/CIM14/CIM14.ecore:1316-1320 *)
  EClass n_CIM14_IEC61970_Wires_Ground_Ground n_Ground (Some n_CIM14_IEC61970_Core_ConductingEquipment_ConductingEquipment)
    []
    [];
(* Model/CIM14/CIM14.ecore:2209-2213 *)
  EClass n_CIM14_IEC61970_Wires_GroundDisconnector_GroundDisconnector n_GroundDisconnector (Some n_CIM14_IEC61970_Wires_Switch_Switch)
    []
    [];
(* Model/CIM14/CIM14.ecore:1180-1190 *)
  EClass n_CIM14_IEC61970_Wires_HeatExchanger_HeatExchanger n_HeatExchanger (Some n_CIM14_IEC61970_Core_Equipment_Equipment)
    []
    [ERef n_PowerTransformer n_CIM14_IEC61970_Wires_PowerTransformer_PowerTransformer false (Some n_HeatExchanger)];
(* Model/CIM14/CIM14.ecore:2595-2605 *)
  EClass n_CIM14_IEC61970_Wires_ImpedanceVariationCurve_ImpedanceVariationCurve n_ImpedanceVariationCurve (Some n_CIM14_IEC61970_Core_Curve_Curve)
    []
    [ERef n_TapChanger n_CIM14_IEC61970_Wires_TapChanger_TapChanger false (Some n_ImpedanceVariationCurve)];
(* Model/CIM14/CIM14.ecore:2583-2587 *)
  EClass n_CIM14_IEC61970_Wires_Jumper_Jumper n_Jumper (Some n_CIM14_IEC61970_Wires_Switch_Switch)
    []
    [];
(* Model/CIM14/CIM14.ecore:1297-1301 *)
  EClass n_CIM14_IEC61970_Wires_Junction_Junction n_Junction (Some n_CIM14_IEC61970_Wires_Connector_Connector)
    []
    [];
(* Model/CIM14/CIM14.ecore:1281-1291 *)
  EClass n_CIM14_IEC61970_Wires_Line_Line n_Line (Some n_CIM14_IEC61970_Core_EquipmentContainer_EquipmentContainer)
    []
    [ERef n_Region n_CIM14_IEC61970_Core_SubGeographicalRegion_SubGeographicalRegion false (Some n_Lines)];
(* Model/CIM14/CIM14.ecore:1925-1935 *)
  EClass n_CIM14_IEC61970_Wires_LoadBreakSwitch_LoadBreakSwitch n_LoadBreakSwitch (Some n_CIM14_IEC61970_Wires_ProtectedSwitch_ProtectedSwitch)
    [(n_ratedCurrent, TFloat)]
    [];
(* Model/CIM14/CIM14.ecore:2122-2186 *)
  EClass n_CIM14_IEC61970_Wires_MutualCoupling_MutualCoupling n_MutualCoupling (Some n_CIM14_IEC61970_Core_IdentifiedObject_IdentifiedObject)
    [(n_distance22, TFloat); (n_g0ch, TFloat); (n_distance12, TFloat); (n_distance21, TFloat); (n_x0, TFloat); (n_b0ch, TFloat); (n_r0, TFloat); (n_distance11, TFloat)]
    [ERef n_Second_Terminal n_CIM14_IEC61970_Core_Terminal_Terminal false (Some n_HasSecond_MutualCoupling); ERef n_First_Terminal n_CIM14_IEC61970_Core_Terminal_Terminal false (Some n_HasFirst_MutualCoupling)];
(* Model/CIM14/CIM14.ecore:2264-2328 *)
  EClass n_CIM14_IEC61970_Wires_PhaseTapChanger_PhaseTapChanger n_PhaseTapChanger (Some n_CIM14_IEC61970_Wires_TapChanger_TapChanger)
    [(n_phaseTapChangerType, enum_cim14_IEC61970_Wires_PhaseTapChangerKind); (n_nominalVoltageOutOfPhase, TFloat); (n_xStepMin, TFloat); (n_stepPhaseShiftIncrement, TFloat); (n_windingConnectionAngle, TFloat); (n_xStepMax, TFloat); (n_voltageStepIncrementOutOfPhase, TFloat)]
    [ERef n_PhaseVariationCurve n_CIM14_IEC61970_Wires_PhaseVariationCurve_PhaseVariationCurve false (Some n_PhaseTapChanger); ERef n_Winding n_CIM14_IEC61968_WiresExt_DistributionTransformerWinding_DistributionTransformerWinding false (Some n_PhaseTapChanger); ERef n_TransformerWinding n_CIM14_IEC61970_Wires_TransformerWinding_TransformerWinding false (Some n_PhaseTapChanger)];
(* Model/CIM14/CIM14.ecore:2111-2121 *)
  EClass n_CIM14_IEC61970_Wires_PhaseVariationCurve_PhaseVariationCurve n_PhaseVariationCurve (Some n_CIM14_IEC61970_Core_Curve_Curve)
    []
    [ERef n_PhaseTapChanger n_CIM14_IEC61970_Wires_PhaseTapChanger_PhaseTapChanger false (Some n_PhaseVariationCurve)];
(* Model/CIM14/CIM14.ecore:1997-2001 *)
  EClass n_CIM14_IEC61970_Wires_Plant_Plant n_Plant (Some n_CIM14_IEC61970_Core_EquipmentContainer_EquipmentContainer)
    []
    [];
(* Model/CIM14/CIM14.ecore:986-1020 *)
  EClass n_CIM14_IEC61970_Wires_PowerTransformer_PowerTransformer n_PowerTransformer (Some n_CIM14_IEC61970_Core_Equipment_Equipment)
    [(n_magSatFlux, TFloat); (n_magBaseU, TFloat); (n_bmagSat, TFloat)]
    [ERef n_TransformerWindings n_CIM14_IEC61970_Wires_TransformerWinding_TransformerWinding true (Some n_PowerTransformer); ERef n_HeatExchanger n_CIM14_IEC61970_Wires_HeatExchanger_HeatExchanger false (Some n_PowerTransformer)];
(* Model/CIM14/CIM14.ecore:1914-1924 *)
  EClass n_CIM14_IEC61970_Wires_ProtectedSwitch_ProtectedSwitch n_ProtectedSwitch (Some n_CIM14_IEC61970_Wires_Switch_Switch)
    []
    [ERef n_RecloseSequences n_CIM14_IEC61970_Protection_RecloseSequence_RecloseSequence true (Some n_ProtectedSwitch)];
(* Model/CIM14/CIM14.ecore:1835-1863 *)
  EClass n_CIM14_IEC61970_Wires_RatioTapChanger_RatioTapChanger n_RatioTapChanger (Some n_CIM14_IEC61970_Wires_TapChanger_TapChanger)
    [(n_tculControlMode, enum_cim14_IEC61970_Wires_TransformerControlMode)]
    [ERef n_Winding n_CIM14_IEC61968_WiresExt_DistributionTransformerWinding_DistributionTransformerWinding false (Some n_RatioTapChanger); ERef n_TransformerWinding n_CIM14_IEC61970_Wires_TransformerWinding_TransformerWinding false (Some n_RatioTapChanger); ERef n_RatioVariationCurve n_CIM14_IEC61970_Wires_RatioVariationCurve_RatioVariationCurve false (Some n_RatioTapChanger)];
(* Model/CIM14/CIM14.ecore:2231-2241 *)
  EClass n_CIM14_IEC61970_Wires_RatioVariationCurve_RatioVariationCurve n_RatioVariationCurve (Some n_CIM14_IEC61970_Core_Curve_Curve)
    []
    [ERef n_RatioTapChanger n_CIM14_IEC61970_Wires_RatioTapChanger_RatioTapChanger false (Some n_RatioVariationCurve)];
(* Model/CIM14/CIM14.ecore:1244-1272 *)
  EClass n_CIM14_IEC61970_Wires_ReactiveCapabilityCurve_ReactiveCapabilityCurve n_ReactiveCapabilityCurve (Some n_CIM14_IEC61970_Core_Curve_Curve)
    [(n_coolantTemperature, TFloat); (n_hydrogenPressure, TFloat)]
    [ERef n_InitiallyUsedBySynchronousMachines n_CIM14_IEC61970_Wires_SynchronousMachine_SynchronousMachine true (Some n_InitialReactiveCapabilityCurve); ERef n_SynchronousMachines n_CIM14_IEC61970_Wires_SynchronousMachine_SynchronousMachine true (Some n_ReactiveCapabilityCurves)];
(* Model/CIM14/CIM14.ecore:2329-2405 *)
  EClass n_CIM14_IEC61970_Wires_RectifierInverter_RectifierInverter n_RectifierInverter (Some n_CIM14_IEC61970_Core_ConductingEquipment_ConductingEquipment)
    [(n_ratedU, TFloat); (n_compoundResistance, TFloat); (n_frequency, TFloat); (n_minCompoundVoltage, TFloat); (n_minP, TFloat); (n_maxP, TFloat); (n_operatingMode, TText); (n_commutatingResistance, TFloat); (n_bridges, TInt); (n_maxU, TFloat); (n_commutatingReactance, TFloat); (n_minU, TFloat)]
    [];
(* Model/CIM14/CIM14.ecore:1021-1037 *)
  EClass n_CIM14_IEC61970_Wires_RegulatingCondEq_RegulatingCondEq n_RegulatingCondEq (Some n_CIM14_IEC61970_Core_ConductingEquipment_ConductingEquipment)
    []
    [ERef n_Controls n_CIM14_IEC61970_Meas_Control_Control true (Some n_RegulatingCondEq); ERef n_RegulatingControl n_CIM14_IEC61970_Wires_RegulatingControl_RegulatingControl false (Some n_RegulatingCondEq)];
(* Model/CIM14/CIM14.ecore:1191-1243 *)
  EClass n_CIM14_IEC61970_Wires_RegulatingControl_RegulatingControl n_RegulatingControl (Some n_CIM14_IEC61970_Core_PowerSystemResource_PowerSystemResource)
    [(n_mode, enum_cim14_IEC61970_Wires_RegulatingControlModeKind); (n_targetRange, TFloat); (n_discrete, TBool); (n_targetValue, TFloat)]
    [ERef n_RegulationSchedule n_CIM14_IEC61970_Wires_RegulationSchedule_RegulationSchedule true (Some n_RegulatingControl); ERef n_Terminal n_CIM14_IEC61970_Core_Terminal_Terminal false (Some n_RegulatingControl); ERef n_TapChanger n_CIM14_IEC61970_Wires_TapChanger_TapChanger true (Some n_RegulatingControl); ERef n_RegulatingCondEq n_CIM14_IEC61970_Wires_RegulatingCondEq_RegulatingCondEq true (Some n_RegulatingControl)];
(* Model/CIM14/CIM14.ecore:2002-2037 *)
  EClass n_CIM14_IEC61970_Wires_RegulationSchedule_RegulationSchedule n_RegulationSchedule (Some n_CIM14_IEC61970_LoadModel_SeasonDayTypeSchedule_SeasonDayTypeSchedule)
    [(n_lineDropX, TFloat); (n_lineDropR, TFloat); (n_lineDropCompensation, TBool)]
    [ERef n_RegulatingControl n_CIM14_IEC61970_Wires_RegulatingControl_RegulatingControl false (Some n_RegulationSchedule); ERef n_VoltageControlZones n_CIM14_IEC61970_Wires_VoltageControlZone_VoltageControlZone true (Some n_RegulationSchedule)];
(* Model/CIM14/CIM14.ecore:2242-2246 *)
  EClass n_CIM14_IEC61970_Wires_Resistor_Resistor n_Resistor (Some n_CIM14_IEC61970_Core_ConductingEquipment_ConductingEquipment)
    []
    [];
(* Model/CIM14/CIM14.ecore:2192-2208 *)
  EClass n_CIM14_IEC61970_Wires_SeriesCompensator_SeriesCompensator n_SeriesCompensator (Some n_CIM14_IEC61970_Core_ConductingEquipment_ConductingEquipment)
    [(n_r, TFloat); (n_x, TFloat)]
    [];
(* Model/CIM14/CIM14.ecore:1079-1179 *)
  EClass n_CIM14_IEC61970_Wires_ShuntCompensator_ShuntCompensator n_ShuntCompensator (Some n_CIM14_IEC61970_Wires_RegulatingCondEq_RegulatingCondEq)
    [(n_maxU, TFloat); (n_reactivePerSection, TFloat); (n_aVRDelay, TFloat); (n_voltageSensitivity, TFloat); (n_normalSections, TInt); (n_g0PerSection, TFloat); (n_maximumSections, TInt); (n_bPerSection, TFloat); (n_nomQ, TFloat); (n_switchOnCount, TInt); (n_minU, TFloat); (n_b0PerSection, TFloat); (n_switchOnDate, TDate); (n_nomU, TFloat); (n_gPerSection, TFloat)]
    [ERef n_SvShuntCompensatorSections n_CIM14_IEC61970_StateVariables_SvShuntCompensatorSections_SvShuntCompensatorSections false (Some n_ShuntCompensator)];
(* Model/CIM14/CIM14.ecore:2406-2440 *)
  EClass n_CIM14_IEC61970_Wires_StaticVarCompensator_StaticVarCompensator n_StaticVarCompensator (Some n_CIM14_IEC61970_Wires_RegulatingCondEq_RegulatingCondEq)
    [(n_sVCControlMode, enum_cim14_IEC61970_Wires_SVCControlMode); (n_voltageSetPoint, TFloat); (n_capacitiveRating, TFloat); (n_inductiveRating, TFloat); (n_slope, TFloat)]
    [];
(* Model/CIM14/CIM14.ecore:1864-1913 *)
  EClass n_CIM14_IEC61970_Wires_Switch_Switch n_Switch (Some n_CIM14_IEC61970_Core_ConductingEquipment_ConductingEquipment)
    [(n_switchOnCount, TInt); (n_switchOnDate, TDate); (n_retained, TBool); (n_normalOpen, TBool)]
    [ERef n_SwitchingOperations n_CIM14_IEC61970_Outage_SwitchingOperation_SwitchingOperation true (Some n_Switches); ERef n_CompositeSwitch n_CIM14_IEC61970_Wires_CompositeSwitch_CompositeSwitch false (Some n_Switches); ERef n_ConnectDisconnectFunctions n_CIM14_IEC61968_LoadControl_ConnectDisconnectFunction_ConnectDisconnectFunction true (Some n_Switches); ERef n_SwitchSchedules n_CIM14_IEC61970_Wires_SwitchSchedule_SwitchSchedule true (Some n_Switch)];
(* Model/CIM14/CIM14.ecore:2623-2633 *)
  EClass n_CIM14_IEC61970_Wires_SwitchSchedule_SwitchSchedule n_SwitchSchedule (Some n_CIM14_IEC61970_LoadModel_SeasonDayTypeSchedule_SeasonDayTypeSchedule)
    []
    [ERef n_Switch n_CIM14_IEC61970_Wires_Switch_Switch false (Some n_SwitchSchedules)];
(* Model/CIM14/CIM14.ecore:1484-1698 *)
  EClass n_CIM14_IEC61970_Wires_SynchronousMachine_SynchronousMachine n_SynchronousMachine (Some n_CIM14_IEC61970_Dynamics_RotatingMachine_RotatingMachine)
    [(n_operatingMode, enum_cim14_IEC61970_Wires_SynchronousMachineOperatingMode); (n_type, enum_cim14_IEC61970_Wires_SynchronousMachineType); (n_coolantType, enum_cim14_IEC61970_Wires_CoolantType); (n_xQuadTrans, TFloat); (n_condenserP, TFloat); (n_referencePriority, TInt); (n_damping, TFloat); (n_x0, TFloat); (n_r2, TFloat); (n_minQ, TFloat); (n_xDirectSync, TFloat); (n_maxQ, TFloat); (n_r0, TFloat); (n_aVRToManualLead, TFloat); (n_x, TFloat); (n_inertia, TFloat); (n_coolantCondition, TFloat); (n_manualToAVR, TFloat); (n_r, TFloat); (n_maxU, TFloat); (n_xQuadSync, TFloat); (n_qPercent, TFloat); (n_xQuadSubtrans, TFloat); (n_minU, TFloat); (n_aVRToManualLag, TFloat); (n_baseQ, TFloat); (n_xDirectTrans, TFloat); (n_x2, TFloat); (n_xDirectSubtrans, TFloat)]
    [ERef n_genLoad0 n_CIM14_IEC61970_Dynamics_Generators_GenLoad_GenLoad true (Some n_synchronousMachine0); ERef n_HydroPump n_CIM14_IEC61970_Generation_Production_HydroPump_HydroPump false (Some n_SynchronousMachine); ERef n_GeneratingUnit n_CIM14_IEC61970_Generation_Production_GeneratingUnit_GeneratingUnit false (Some n_SynchronousMachines); ERef n_govHydro10 n_CIM14_IEC61970_Dynamics_TurbineGovernors_GovHydro1_GovHydro1 true (Some n_synchronousMachine0); ERef n_PrimeMovers n_CIM14_IEC61970_Generation_GenerationDynamics_PrimeMover_PrimeMover true (Some n_SynchronousMachines); ERef n_InitialReactiveCapabilityCurve n_CIM14_IEC61970_Wires_ReactiveCapabilityCurve_ReactiveCapabilityCurve false (Some n_InitiallyUsedBySynchronousMachines); ERef n_genEquiv0 n_CIM14_IEC61970_Dynamics_Generators_GenEquiv_GenEquiv true (Some n_synchronousMachine0); ERef n_ReactiveCapabilityCurves n_CIM14_IEC61970_Wires_ReactiveCapabilityCurve_ReactiveCapabilityCurve true (Some n_SynchronousMachines)];
(* Model/CIM14/CIM14.ecore:1750-1834 *)
  EClass n_CIM14_IEC61970_Wires_TapChanger_TapChanger n_TapChanger (Some n_CIM14_IEC61970_Core_PowerSystemResource_PowerSystemResource)
    [(n_stepVoltageIncrement, TFloat); (n_normalStep, TInt); (n_neutralStep, TInt); (n_subsequentDelay, TFloat); (n_regulationStatus, TBool); (n_ltcFlag, TBool); (n_highStep, TInt); (n_initialDelay, TFloat); (n_lowStep, TInt); (n_neutralU, TFloat)]
    [ERef n_SvTapStep n_CIM14_IEC61970_StateVariables_SvTapStep_SvTapStep false (Some n_TapChanger); ERef n_ImpedanceVariationCurve n_CIM14_IEC61970_Wires_ImpedanceVariationCurve_ImpedanceVariationCurve false (Some n_TapChanger); ERef n_TapSchedules n_CIM14_IEC61970_Wires_TapSchedule_TapSchedule true (Some n_TapChanger); ERef n_RegulatingControl n_CIM14_IEC61970_Wires_RegulatingControl_RegulatingControl false (Some n_TapChanger)];
(* Model/CIM14/CIM14.ecore:2453-2482 *)
  EClass n_CIM14_IEC61970_Wires_TapSchedule_TapSchedule n_TapSchedule (Some n_CIM14_IEC61970_LoadModel_SeasonDayTypeSchedule_SeasonDayTypeSchedule)
    [(n_lineDropCompensation, TBool); (n_lineDropR, TFloat); (n_lineDropX, TFloat)]
    [ERef n_TapChanger n_CIM14_IEC61970_Wires_TapChanger_TapChanger false (Some n_TapSchedules)];
(* Model/CIM14/CIM14.ecore:1341-1483 *)
  EClass n_CIM14_IEC61970_Wires_TransformerWinding_TransformerWinding n_TransformerWinding (Some n_CIM14_IEC61970_Core_ConductingEquipment_ConductingEquipment)
    [(n_connectionType, enum_cim14_IEC61970_Wires_WindingConnection); (n_windingType, enum_cim14_IEC61970_Wires_WindingType); (n_x, TFloat); (n_grounded, TBool); (n_g, TFloat); (n_r, TFloat); (n_x0, TFloat); (n_ratedU, TFloat); (n_ratedS, TFloat); (n_emergencyS, TFloat); (n_rground, TFloat); (n_shortTermS, TFloat); (n_r0, TFloat); (n_g0, TFloat); (n_insulationU, TFloat); (n_b, TFloat); (n_b0, TFloat); (n_xground, TFloat)]
    [ERef n_From_WindingTest n_CIM14_IEC61970_Wires_WindingTest_WindingTest true (Some n_From_TransformerWinding); ERef n_To_WindingTest n_CIM14_IEC61970_Wires_WindingTest_WindingTest true (Some n_To_TransformerWinding); ERef n_RatioTapChanger n_CIM14_IEC61970_Wires_RatioTapChanger_RatioTapChanger false (Some n_TransformerWinding); ERef n_PowerTransformer n_CIM14_IEC61970_Wires_PowerTransformer_PowerTransformer false (Some n_TransformerWindings); ERef n_PhaseTapChanger n_CIM14_IEC61970_Wires_PhaseTapChanger_PhaseTapChanger false (Some n_TransformerWinding)];
(* Model/CIM14/CIM14.ecore:2490-2506 *)
  EClass n_CIM14_IEC61970_Wires_VoltageControlZone_VoltageControlZone n_VoltageControlZone (Some n_CIM14_IEC61970_Core_PowerSystemResource_PowerSystemResource)
    []
    [ERef n_RegulationSchedule n_CIM14_IEC61970_Wires_RegulationSchedule_RegulationSchedule false (Some n_VoltageControlZones); ERef n_BusbarSection n_CIM14_IEC61970_Wires_BusbarSection_BusbarSection false (Some n_VoltageControlZone)];
(* Model/CIM14/CIM14.ecore:2046-2110 *)
  EClass n_CIM14_IEC61970_Wires_WindingTest_WindingTest n_WindingTest (Some n_CIM14_IEC61970_Core_IdentifiedObject_IdentifiedObject)
    [(n_fromTapStep, TInt); (n_leakageImpedance, TFloat); (n_noLoadLoss, TFloat); (n_phaseShift, TFloat); (n_excitingCurrent, TFloat); (n_loadLoss, TFloat); (n_toTapStep, TInt); (n_voltage, TFloat)]
    [ERef n_From_TransformerWinding n_CIM14_IEC61970_Wires_TransformerWinding_TransformerWinding false (Some n_From_WindingTest); ERef n_To_TransformerWinding n_CIM14_IEC61970_Wires_TransformerWinding_TransformerWinding false (Some n_To_WindingTest)]].

(** Classes of Model/CIM15/CIM15.ecore: 600. *)
Definition ecore_cim15 : list eclass := [
(* Model/CIM15/CIM15.ecore:15-44 *)
  EClass n_CIM15_CombinedVersion_CombinedVersion n_CombinedVersion (Some n_CIM15_Element_Element)
    [(n_date, TText); (n_version, TText)]
    [];
(* Model/CIM15/CIM15.ecore:45-48 *)
  EClass n_CIM15_Element_Element n_Element None
    [(n_UUID, TText)]
    [];
(* Model/CIM15/CIM15.ecore:25585-25688 *)
  EClass n_CIM15_IEC61968_AssetModels_CableInfo_CableInfo n_CableInfo (Some n_CIM15_IEC61968_AssetModels_ConductorInfo_ConductorInfo)
    [(n_outerJacketKind, enum_cim15_IEC61968_AssetModels_CableOuterJacketKind); (n_sheathAsNeutral, TBool); (n_isStrandFill, TBool); (n_nominalTemperature, TFloat); (n_constructionKind, enum_cim15_IEC61968_AssetModels_CableConstructionKind); (n_diameterOverJacket, TFloat); (n_diameterOverInsulation, TFloat); (n_diameterOverScreen, TFloat); (n_shieldMaterial, enum_cim15_IEC61968_AssetModels_CableShieldMaterialKind); (n_diameterOverCore, TFloat)]
    [ERef n_DuctBankInfo n_CIM15_IEC61970_Informative_InfAssets_Duct_Duct false (Some n_CableInfos)];
(* Model/CIM15/CIM15.ecore:26006-26044 *)
  EClass n_CIM15_IEC61968_AssetModels_ConcentricNeutralCableInfo_ConcentricNeutralCableInfo n_ConcentricNeutralCableInfo (Some n_CIM15_IEC61968_AssetModels_CableInfo_CableInfo)
    [(n_neutralStrandCount, TInt); (n_diameterOverNeutral, TFloat)]
    [ERef n_WireType n_CIM15_IEC61968_AssetModels_WireType_WireType false (Some n_ConcentricNeutralCableInfos)];
(* Model/CIM15/CIM15.ecore:25173-25247 *)
  EClass n_CIM15_IEC61968_AssetModels_ConductorInfo_ConductorInfo n_ConductorInfo (Some n_CIM15_IEC61968_Assets_AssetInfo_AssetInfo)
    [(n_insulated, TBool); (n_usage, enum_cim15_IEC61968_AssetModels_ConductorUsageKind); (n_insulationMaterial, enum_cim15_IEC61968_AssetModels_ConductorInsulationKind); (n_phaseCount, TInt); (n_insulationThickness, TFloat)]
    [ERef n_WireArrangements n_CIM15_IEC61968_AssetModels_WireArrangement_WireArrangement true (Some n_ConductorInfo); ERef n_LineSegments n_CIM15_IEC61970_Wires_ACLineSegment_ACLineSegment true (Some n_ConductorInfo)];
(* Model/CIM15/CIM15.ecore:24956-25003 *)
  EClass n_CIM15_IEC61968_AssetModels_EndDeviceInfo_EndDeviceInfo n_EndDeviceInfo (Some n_CIM15_IEC61968_Assets_AssetInfo_AssetInfo)
    [(n_phaseCount, TInt); (n_ratedCurrent, TFloat); (n_ratedVoltage, TFloat)]
    [ERef n_EndDevices n_CIM15_IEC61968_Metering_EndDevice_EndDevice true (Some n_EndDeviceInfo)];
(* Model/CIM15/CIM15.ecore:25879-25944 *)
  EClass n_CIM15_IEC61968_AssetModels_NoLoadTest_NoLoadTest n_NoLoadTest (Some n_CIM15_IEC61968_AssetModels_TransformerTest_TransformerTest)
    [(n_excitingCurrent, TFloat); (n_lossZero, TFloat); (n_excitingCurrentZero, TFloat); (n_energisedEndVoltage, TFloat); (n_loss, TFloat)]
    [ERef n_EnergisedEnd n_CIM15_IEC61968_AssetModels_TransformerEndInfo_TransformerEndInfo false (Some n_EnergisedEndNoLoadTest)];
(* Model/CIM15/CIM15.ecore:25495-25569 *)
  EClass n_CIM15_IEC61968_AssetModels_OpenCircuitTest_OpenCircuitTest n_OpenCircuitTest (Some n_CIM15_IEC61968_AssetModels_TransformerTest_TransformerTest)
    [(n_energisedEndStep, TInt); (n_openEndVoltage, TFloat); (n_openEndStep, TInt); (n_energisedEndVoltage, TFloat); (n_phaseShift, TFloat)]
    [ERef n_OpenEnd n_CIM15_IEC61968_AssetModels_TransformerEndInfo_TransformerEndInfo false (Some n_OpenEndOpenCircuitTests); ERef n_EnergisedEnd n_CIM15_IEC61968_AssetModels_TransformerEndInfo_TransformerEndInfo false (Some n_EnergisedEndOpenCircuitTests)];
(* Model/CIM15/CIM15.ecore:25945-25985 *)
  EClass n_CIM15_IEC61968_AssetModels_OverheadConductorInfo_OverheadConductorInfo n_OverheadConductorInfo (Some n_CIM15_IEC61968_AssetModels_ConductorInfo_ConductorInfo)
    [(n_neutralInsulationThickness, TFloat); (n_phaseConductorSpacing, TFloat); (n_phaseConductorCount, TInt)]
    [ERef n_MountingPoint n_CIM15_IEC61970_Informative_InfAssets_MountingPoint_MountingPoint false (Some n_OverheadConductors)];
(* Model/CIM15/CIM15.ecore:25465-25494 *)
  EClass n_CIM15_IEC61968_AssetModels_PowerTransformerInfo_PowerTransformerInfo n_PowerTransformerInfo (Some n_CIM15_IEC61968_Assets_AssetInfo_AssetInfo)
    []
    [ERef n_TransformerTankInfo n_CIM15_IEC61968_AssetModels_TransformerTankInfo_TransformerTankInfo true (Some n_PowerTransformerInfo); ERef n_PowerTransformers n_CIM15_IEC61970_Wires_PowerTransformer_PowerTransformer true (Some n_PowerTransformerInfo)];
(* Model/CIM15/CIM15.ecore:24872-24955 *)
  EClass n_CIM15_IEC61968_AssetModels_ShortCircuitTest_ShortCircuitTest n_ShortCircuitTest (Some n_CIM15_IEC61968_AssetModels_TransformerTest_TransformerTest)
    [(n_lossZero, TFloat); (n_leakageImpedance, TFloat); (n_loss, TFloat); (n_groundedEndStep, TInt); (n_leakageImpedanceZero, TFloat); (n_energisedEndStep, TInt)]
    [ERef n_GroundedEnds n_CIM15_IEC61968_AssetModels_TransformerEndInfo_TransformerEndInfo true (Some n_GroundedEndShortCircuitTests); ERef n_EnergisedEnd n_CIM15_IEC61968_AssetModels_TransformerEndInfo_TransformerEndInfo false (Some n_EnergisedEndShortCircuitTests)];
(* Model/CIM15/CIM15.ecore:25248-25403 *)
  EClass n_CIM15_IEC61968_AssetModels_TapChangerInfo_TapChangerInfo n_TapChangerInfo (Some n_CIM15_IEC61968_Assets_AssetInfo_AssetInfo)
    [(n_ctRating, TFloat); (n_stepPhaseIncrement, TFloat); (n_ratedApparentPower, TFloat); (n_frequency, TFloat); (n_neutralU, TFloat); (n_ctRatio, TFloat); (n_stepVoltageIncrement, TFloat); (n_isTcul, TBool); (n_neutralStep, TInt); (n_ratedCurrent, TFloat); (n_lowStep, TInt); (n_ratedVoltage, TFloat); (n_highStep, TInt); (n_ptRatio, TFloat); (n_bil, TFloat)]
    [ERef n_TapChangers n_CIM15_IEC61970_Wires_TapChanger_TapChanger true (Some n_TapChangerInfo)];
(* Model/CIM15/CIM15.ecore:25143-25172 *)
  EClass n_CIM15_IEC61968_AssetModels_TapeShieldCableInfo_TapeShieldCableInfo n_TapeShieldCableInfo (Some n_CIM15_IEC61968_AssetModels_CableInfo_CableInfo)
    [(n_tapeLap, TFloat); (n_tapeThickness, TFloat)]
    [];
(* Model/CIM15/CIM15.ecore:25689-25871 *)
  EClass n_CIM15_IEC61968_AssetModels_TransformerEndInfo_TransformerEndInfo n_TransformerEndInfo (Some n_CIM15_IEC61968_Assets_AssetInfo_AssetInfo)
    [(n_r, TFloat); (n_insulationU, TFloat); (n_emergencyS, TFloat); (n_shortTermS, TFloat); (n_connectionKind, enum_cim15_IEC61970_Wires_WindingConnection); (n_endNumber, TInt); (n_ratedS, TFloat); (n_ratedU, TFloat); (n_phaseAngleClock, TInt)]
    [ERef n_FromMeshImpedance n_CIM15_IEC61970_Wires_TransformerMeshImpedance_TransformerMeshImpedance true (Some n_FromTransformerEndInfo); ERef n_EnergisedEndNoLoadTest n_CIM15_IEC61968_AssetModels_NoLoadTest_NoLoadTest true (Some n_EnergisedEnd); ERef n_OpenEndOpenCircuitTests n_CIM15_IEC61968_AssetModels_OpenCircuitTest_OpenCircuitTest true (Some n_OpenEnd); ERef n_ToMeshImpedance n_CIM15_IEC61970_Wires_TransformerMeshImpedance_TransformerMeshImpedance true (Some n_ToTransformerEndInfo); ERef n_TransformerEnd n_CIM15_IEC61970_Wires_TransformerEnd_TransformerEnd true (Some n_TransformerEndInfo); ERef n_TransformerTankInfo n_CIM15_IEC61968_AssetModels_TransformerTankInfo_TransformerTankInfo false (Some n_TransformerEndInfos); ERef n_EnergisedEndOpenCircuitTests n_CIM15_IEC61968_AssetModels_OpenCircuitTest_OpenCircuitTest true (Some n_EnergisedEnd); ERef n_GroundedEndShortCircuitTests n_CIM15_IEC61968_AssetModels_ShortCircuitTest_ShortCircuitTest true (Some n_GroundedEnds); ERef n_EnergisedEndShortCircuitTests n_CIM15_IEC61968_AssetModels_ShortCircuitTest_ShortCircuitTest true (Some n_EnergisedEnd); ERef n_CoreAdmittance n_CIM15_IEC61970_Wires_TransformerCoreAdmittance_TransformerCoreAdmittance false (Some n_TransformerEndInfo)];
(* Model/CIM15/CIM15.ecore:25404-25448 *)
  EClass n_CIM15_IEC61968_AssetModels_TransformerTankInfo_TransformerTankInfo n_TransformerTankInfo (Some n_CIM15_IEC61968_Assets_AssetInfo_AssetInfo)
    []
    [ERef n_TransformerAssets n_CIM15_IEC61970_Informative_InfAssets_TransformerAsset_TransformerAsset true (Some n_TransformerInfo); ERef n_TransformerEndInfos n_CIM15_IEC61968_AssetModels_TransformerEndInfo_TransformerEndInfo true (Some n_TransformerTankInfo); ERef n_PowerTransformerInfo n_CIM15_IEC61968_AssetModels_PowerTransformerInfo_PowerTransformerInfo false (Some n_TransformerTankInfo); ERef n_TransformerAssetModels n_CIM15_IEC61970_Informative_InfAssetModels_TransformerAssetModel_TransformerAssetModel true (Some n_TransformerInfo); ERef n_TransformerTanks n_CIM15_IEC61970_Wires_TransformerTank_TransformerTank true (Some n_TransformerTankInfo)];
(* Model/CIM15/CIM15.ecore:26102-26131 *)
  EClass n_CIM15_IEC61968_AssetModels_TransformerTest_TransformerTest n_TransformerTest (Some n_CIM15_IEC61970_Core_IdentifiedObject_IdentifiedObject)
    [(n_basePower, TFloat); (n_temperature, TFloat)]
    [];
(* Model/CIM15/CIM15.ecore:26045-26101 *)
  EClass n_CIM15_IEC61968_AssetModels_WireArrangement_WireArrangement n_WireArrangement (Some n_CIM15_IEC61970_Core_IdentifiedObject_IdentifiedObject)
    [(n_mountingPointY, TFloat); (n_mountingPointX, TFloat); (n_position, TInt)]
    [ERef n_ConductorInfo n_CIM15_IEC61968_AssetModels_ConductorInfo_ConductorInfo false (Some n_WireArrangements); ERef n_WireType n_CIM15_IEC61968_AssetModels_WireType_WireType false (Some n_WireArrangements)];
(* Model/CIM15/CIM15.ecore:25004-25142 *)
  EClass n_CIM15_IEC61968_AssetModels_WireType_WireType n_WireType (Some n_CIM15_IEC61970_Core_IdentifiedObject_IdentifiedObject)
    [(n_coreRadius, TFloat); (n_rAC50, TFloat); (n_coreStrandCount, TInt); (n_radius, TFloat); (n_material, enum_cim15_IEC61968_AssetModels_ConductorMaterialKind); (n_rDC20, TFloat); (n_sizeDescription, TText); (n_rAC75, TFloat); (n_gmr, TFloat); (n_ratedCurrent, TFloat); (n_strandCount, TInt); (n_rAC25, TFloat)]
    [ERef n_WireArrangements n_CIM15_IEC61968_AssetModels_WireArrangement_WireArrangement true (Some n_WireType); ERef n_ConcentricNeutralCableInfos n_CIM15_IEC61968_AssetModels_ConcentricNeutralCableInfo_ConcentricNeutralCableInfo true (Some n_WireType)];
(* Model/CIM15/CIM15.ecore:29751-29790 *)
  EClass n_CIM15_IEC61968_Assets_AcceptanceTest_AcceptanceTest n_AcceptanceTest None
    [(n_success, TBool); (n_dateTime, TDate); (n_type, TText)]
    [];
(* Model/CIM15/CIM15.ecore:29305-29542 *)
  EClass n_CIM15_IEC61968_Assets_Asset_Asset n_Asset (Some n_CIM15_IEC61970_Core_IdentifiedObject_IdentifiedObject)
    [(n_corporateCode, TText); (n_utcNumber, TText); (n_initialCondition, TText); (n_category, TText); (n_serialNumber, TText); (n_critical, TBool); (n_application, TText); (n_purchasePrice, TFloat); (n_initialLossOfLife, TFloat); (n_manufacturedDate, TText); (n_installationDate, TText); (n_lotNumber, TText)]
    [ERef n_DocumentRoles n_CIM15_IEC61970_Informative_InfAssets_DocAssetRole_DocAssetRole true (Some n_Asset); ERef n_Mediums n_CIM15_IEC61970_Informative_InfAssets_Medium_Medium true (Some n_Assets); ERef n_ErpRecDeliveryItems n_CIM15_IEC61970_Informative_InfERPSupport_ErpRecDelvLineItem_ErpRecDelvLineItem true (Some n_Assets); ERef n_Ratings n_CIM15_IEC61968_Common_UserAttribute_UserAttribute true (Some n_RatingAssets); ERef n_ToAssetRoles n_CIM15_IEC61970_Informative_InfAssets_AssetAssetRole_AssetAssetRole true (Some n_FromAsset); ERef n_electronicAddress n_CIM15_IEC61968_Common_ElectronicAddress_ElectronicAddress false None; ERef n_FromAssetRoles n_CIM15_IEC61970_Informative_InfAssets_AssetAssetRole_AssetAssetRole true (Some n_ToAsset); ERef n_AssetFunctions n_CIM15_IEC61968_Assets_AssetFunction_AssetFunction true (Some n_Asset); ERef n_ErpItemMaster n_CIM15_IEC61970_Informative_InfERPSupport_ErpItemMaster_ErpItemMaster false (Some n_Asset); ERef n_ErpInventory n_CIM15_IEC61970_Informative_InfERPSupport_ErpInventory_ErpInventory false (Some n_Asset); ERef n_ReliabilityInfos n_CIM15_IEC61970_Informative_InfAssets_ReliabilityInfo_ReliabilityInfo true (Some n_Assets); ERef n_AssetInfo n_CIM15_IEC61968_Assets_AssetInfo_AssetInfo false (Some n_Assets); ERef n_WorkTask n_CIM15_IEC61970_Informative_InfWork_WorkTask_WorkTask false (Some n_Assets); ERef n_acceptanceTest n_CIM15_IEC61968_Assets_AcceptanceTest_AcceptanceTest false None; ERef n_ErpOrganisationRoles n_CIM15_IEC61970_Informative_InfAssets_OrgAssetRole_OrgAssetRole true (Some n_Asset); ERef n_ScheduledEvents n_CIM15_IEC61970_Informative_InfCommon_ScheduledEvent_ScheduledEvent true (Some n_Assets); ERef n_AssetContainer n_CIM15_IEC61968_Assets_AssetContainer_AssetContainer false (Some n_Assets); ERef n_AssetPropertyCurves n_CIM15_IEC61970_Informative_InfAssets_AssetPropertyCurve_AssetPropertyCurve true (Some n_Assets); ERef n_ChangeItems n_CIM15_IEC61970_Informative_InfOperations_ChangeItem_ChangeItem true (Some n_Asset); ERef n_ActivityRecords n_CIM15_IEC61968_Common_ActivityRecord_ActivityRecord true (Some n_Assets); ERef n_Location n_CIM15_IEC61968_Common_Location_Location false (Some n_Assets); ERef n_status n_CIM15_IEC61968_Common_Status_Status false None; ERef n_PowerSystemResources n_CIM15_IEC61970_Core_PowerSystemResource_PowerSystemResource true (Some n_Assets); ERef n_FinancialInfo n_CIM15_IEC61970_Informative_InfAssets_FinancialInfo_FinancialInfo false (Some n_Asset); ERef n_Properties n_CIM15_IEC61968_Common_UserAttribute_UserAttribute true (Some n_PropertyAssets); ERef n_Measurements n_CIM15_IEC61970_Meas_Measurement_Measurement true (Some n_Asset)];
(* Model/CIM15/CIM15.ecore:29562-29586 *)
  EClass n_CIM15_IEC61968_Assets_AssetContainer_AssetContainer n_AssetContainer (Some n_CIM15_IEC61968_Assets_Asset_Asset)
    []
    [ERef n_Seals n_CIM15_IEC61968_Assets_Seal_Seal true (Some n_AssetContainer); ERef n_Assets n_CIM15_IEC61968_Assets_Asset_Asset true (Some n_AssetContainer); ERef n_LandProperties n_CIM15_IEC61970_Informative_InfLocations_LandProperty_LandProperty true (Some n_AssetContainers)];
(* Model/CIM15/CIM15.ecore:29593-29651 *)
  EClass n_CIM15_IEC61968_Assets_AssetFunction_AssetFunction n_AssetFunction (Some n_CIM15_IEC61970_Core_IdentifiedObject_IdentifiedObject)
    [(n_password, TText); (n_hardwareID, TText); (n_firmwareID, TText); (n_programID, TText); (n_configID, TText)]
    [ERef n_Asset n_CIM15_IEC61968_Assets_Asset_Asset false (Some n_AssetFunctions)];
(* Model/CIM15/CIM15.ecore:29719-29750 *)
  EClass n_CIM15_IEC61968_Assets_AssetInfo_AssetInfo n_AssetInfo (Some n_CIM15_IEC61970_Core_IdentifiedObject_IdentifiedObject)
    []
    [ERef n_Assets n_CIM15_IEC61968_Assets_Asset_Asset false (Some n_AssetInfo); ERef n_DimensionsInfo n_CIM15_IEC61970_Informative_InfAssets_DimensionsInfo_DimensionsInfo false (Some n_AssetInfos); ERef n_AssetModel n_CIM15_IEC61968_Assets_AssetModel_AssetModel false (Some n_AssetInfo)];
(* Model/CIM15/CIM15.ecore:29275-29298 *)
  EClass n_CIM15_IEC61968_Assets_AssetModel_AssetModel n_AssetModel (Some n_CIM15_IEC61970_Core_IdentifiedObject_IdentifiedObject)
    []
    [ERef n_AssetInfo n_CIM15_IEC61968_Assets_AssetInfo_AssetInfo false (Some n_AssetModel); ERef n_ErpInventoryCounts n_CIM15_IEC61970_Informative_InfERPSupport_ErpInventoryCount_ErpInventoryCount true (Some n_AssetModel)];
(* Model/CIM15/CIM15.ecore:29543-29554 *)
  EClass n_CIM15_IEC61968_Assets_ComMedia_ComMedia n_ComMedia (Some n_CIM15_IEC61968_Assets_Asset_Asset)
    []
    [];
(* Model/CIM15/CIM15.ecore:29205-29274 *)
  EClass n_CIM15_IEC61968_Assets_ProductAssetModel_ProductAssetModel n_ProductAssetModel (Some n_CIM15_IEC61968_Assets_AssetModel_AssetModel)
    [(n_modelVersion, TText); (n_usageKind, enum_cim15_IEC61968_Assets_AssetModelUsageKind); (n_corporateStandardKind, enum_cim15_IEC61968_Assets_CorporateStandardKind); (n_modelNumber, TText); (n_weightTotal, TFloat)]
    [ERef n_GenericAssetModelOrMaterial n_CIM15_IEC61970_Informative_InfAssets_GenericAssetModelOrMaterial_GenericAssetModelOrMaterial false (Some n_ProductAssetModels); ERef n_AssetModelCatalogueItems n_CIM15_IEC61970_Informative_InfAssetModels_AssetModelCatalogueItem_AssetModelCatalogueItem true (Some n_AssetModel)];
(* Model/CIM15/CIM15.ecore:29652-29708 *)
  EClass n_CIM15_IEC61968_Assets_Seal_Seal n_Seal (Some n_CIM15_IEC61970_Core_IdentifiedObject_IdentifiedObject)
    [(n_appliedDateTime, TDate); (n_sealNumber, TText); (n_kind, enum_cim15_IEC61968_Assets_SealKind); (n_condition, enum_cim15_IEC61968_Assets_SealConditionKind)]
    [ERef n_AssetContainer n_CIM15_IEC61968_Assets_AssetContainer_AssetContainer false (Some n_Seals)];
(* Model/CIM15/CIM15.ecore:24567-24647 *)
  EClass n_CIM15_IEC61968_Common_ActivityRecord_ActivityRecord n_ActivityRecord (Some n_CIM15_IEC61970_Core_IdentifiedObject_IdentifiedObject)
    [(n_severity, TText); (n_createdDateTime, TDate); (n_reason, TText); (n_category, TText)]
    [ERef n_ErpPersons n_CIM15_IEC61970_Informative_InfERPSupport_ErpPerson_ErpPerson true (Some n_ActivityRecords); ERef n_Organisations n_CIM15_IEC61970_Informative_InfERPSupport_ErpOrganisation_ErpOrganisation true (Some n_ActivityRecords); ERef n_Documents n_CIM15_IEC61968_Common_Document_Document true (Some n_ActivityRecords); ERef n_Assets n_CIM15_IEC61968_Assets_Asset_Asset true (Some n_ActivityRecords); ERef n_status n_CIM15_IEC61968_Common_Status_Status false None; ERef n_ScheduledEvent n_CIM15_IEC61970_Informative_InfCommon_ScheduledEvent_ScheduledEvent false (Some n_ActivityRecord)];
(* Model/CIM15/CIM15.ecore:24833-24862 *)
  EClass n_CIM15_IEC61968_Common_Agreement_Agreement n_Agreement (Some n_CIM15_IEC61968_Common_Document_Document)
    [(n_signDate, TText)]
    [ERef n_validityInterval n_CIM15_IEC61970_Domain_DateTimeInterval_DateTimeInterval false None];
(* Model/CIM15/CIM15.ecore:24064-24098 *)
  EClass n_CIM15_IEC61968_Common_CoordinateSystem_CoordinateSystem n_CoordinateSystem (Some n_CIM15_IEC61970_Core_IdentifiedObject_IdentifiedObject)
    [(n_crsUrn, TText)]
    [ERef n_Diagrams n_CIM15_IEC61970_Informative_InfGMLSupport_Diagram_Diagram true (Some n_CoordinateSystem); ERef n_Location n_CIM15_IEC61968_Common_Location_Location true (Some n_CoordinateSystem); ERef n_GmlDiagramObjects n_CIM15_IEC61970_Informative_InfGMLSupport_GmlDiagramObject_GmlDiagramObject true (Some n_CoordinateSystems)];
(* Model/CIM15/CIM15.ecore:24099-24233 *)
  EClass n_CIM15_IEC61968_Common_Document_Document n_Document (Some n_CIM15_IEC61970_Core_IdentifiedObject_IdentifiedObject)
    [(n_revisionNumber, TText); (n_createdDateTime, TDate); (n_lastModifiedDateTime, TDate); (n_subject, TText); (n_title, TText); (n_category, TText)]
    [ERef n_ChangeItems n_CIM15_IEC61970_Informative_InfOperations_ChangeItem_ChangeItem true (Some n_Document); ERef n_ToDocumentRoles n_CIM15_IEC61970_Informative_InfCommon_DocDocRole_DocDocRole true (Some n_FromDocument); ERef n_electronicAddress n_CIM15_IEC61968_Common_ElectronicAddress_ElectronicAddress false None; ERef n_NetworkDataSets n_CIM15_IEC61970_Informative_InfOperations_NetworkDataSet_NetworkDataSet true (Some n_Documents); ERef n_FromDocumentRoles n_CIM15_IEC61970_Informative_InfCommon_DocDocRole_DocDocRole true (Some n_ToDocument); ERef n_ScheduleParameterInfos n_CIM15_IEC61970_Informative_InfCommon_ScheduleParameterInfo_ScheduleParameterInfo true (Some n_Documents); ERef n_ErpOrganisationRoles n_CIM15_IEC61970_Informative_InfERPSupport_DocOrgRole_DocOrgRole true (Some n_Document); ERef n_Measurements n_CIM15_IEC61970_Meas_Measurement_Measurement true (Some n_Documents); ERef n_ActivityRecords n_CIM15_IEC61968_Common_ActivityRecord_ActivityRecord true (Some n_Documents); ERef n_ChangeSets n_CIM15_IEC61970_Informative_InfOperations_ChangeSet_ChangeSet true (Some n_Documents); ERef n_ErpPersonRoles n_CIM15_IEC61970_Informative_InfERPSupport_DocErpPersonRole_DocErpPersonRole true (Some n_Document); ERef n_ScheduledEvents n_CIM15_IEC61970_Informative_InfCommon_ScheduledEvent_ScheduledEvent true (Some n_Document); ERef n_docStatus n_CIM15_IEC61968_Common_Status_Status false None; ERef n_AssetRoles n_CIM15_IEC61970_Informative_InfAssets_DocAssetRole_DocAssetRole true (Some n_Document); ERef n_status n_CIM15_IEC61968_Common_Status_Status false None; ERef n_PowerSystemResourceRoles n_CIM15_IEC61970_Informative_InfCommon_DocPsrRole_DocPsrRole true (Some n_Document)];
(* Model/CIM15/CIM15.ecore:23772-23847 *)
  EClass n_CIM15_IEC61968_Common_ElectronicAddress_ElectronicAddress n_ElectronicAddress None
    [(n_radio, TText); (n_password, TText); (n_lan, TText); (n_userID, TText); (n_email, TText); (n_web, TText)]
    [ERef n_status n_CIM15_IEC61968_Common_Status_Status false None];
(* Model/CIM15/CIM15.ecore:23848-24005 *)
  EClass n_CIM15_IEC61968_Common_Location_Location n_Location (Some n_CIM15_IEC61970_Core_IdentifiedObject_IdentifiedObject)
    [(n_category, TText); (n_geoInfoReference, TText); (n_corporateCode, TText); (n_direction, TText)]
    [ERef n_mainAddress n_CIM15_IEC61968_Common_StreetAddress_StreetAddress false None; ERef n_phone1 n_CIM15_IEC61968_Common_TelephoneNumber_TelephoneNumber false None; ERef n_phone2 n_CIM15_IEC61968_Common_TelephoneNumber_TelephoneNumber false None; ERef n_PowerSystemResources n_CIM15_IEC61970_Core_PowerSystemResource_PowerSystemResource true (Some n_Location); ERef n_secondaryAddress n_CIM15_IEC61968_Common_StreetAddress_StreetAddress false None; ERef n_ChangeItems n_CIM15_IEC61970_Informative_InfOperations_ChangeItem_ChangeItem true (Some n_Location); ERef n_RedLines n_CIM15_IEC61970_Informative_InfLocations_RedLine_RedLine true (Some n_Locations); ERef n_DimensionsInfo n_CIM15_IEC61970_Informative_InfAssets_DimensionsInfo_DimensionsInfo false (Some n_Locations); ERef n_LandProperties n_CIM15_IEC61970_Informative_InfLocations_LandProperty_LandProperty true (Some n_Locations); ERef n_Assets n_CIM15_IEC61968_Assets_Asset_Asset true (Some n_Location); ERef n_Hazards n_CIM15_IEC61970_Informative_InfLocations_Hazard_Hazard true (Some n_Locations); ERef n_status n_CIM15_IEC61968_Common_Status_Status false None; ERef n_Crews n_CIM15_IEC61970_Informative_InfWork_Crew_Crew true (Some n_Locations); ERef n_PositionPoints n_CIM15_IEC61968_Common_PositionPoint_PositionPoint true (Some n_Location); ERef n_electronicAddress n_CIM15_IEC61968_Common_ElectronicAddress_ElectronicAddress false None; ERef n_Directions n_CIM15_IEC61970_Informative_InfLocations_Direction_Direction true (Some n_Location); ERef n_Measurements n_CIM15_IEC61970_Meas_Measurement_Measurement true (Some n_Locations); ERef n_Routes n_CIM15_IEC61970_Informative_InfLocations_Route_Route true (Some n_Locations); ERef n_CoordinateSystem n_CIM15_IEC61968_Common_CoordinateSystem_CoordinateSystem false (Some n_Location); ERef n_ErpOrganisations n_CIM15_IEC61970_Informative_InfERPSupport_ErpOrganisation_ErpOrganisation true (Some n_Locations)];
(* Model/CIM15/CIM15.ecore:24716-24774 *)
  EClass n_CIM15_IEC61968_Common_Organisation_Organisation n_Organisation (Some n_CIM15_IEC61970_Core_IdentifiedObject_IdentifiedObject)
    []
    [ERef n_phone2 n_CIM15_IEC61968_Common_TelephoneNumber_TelephoneNumber false None; ERef n_phone1 n_CIM15_IEC61968_Common_TelephoneNumber_TelephoneNumber false None; ERef n_streetAddress n_CIM15_IEC61968_Common_StreetAddress_StreetAddress false None; ERef n_postalAddress n_CIM15_IEC61968_Common_PostalAddress_PostalAddress false None; ERef n_electronicAddress n_CIM15_IEC61968_Common_ElectronicAddress_ElectronicAddress false None; ERef n_BusinessRoles n_CIM15_IEC61970_Informative_InfCommon_BusinessRole_BusinessRole true (Some n_Organisations)];
(* Model/CIM15/CIM15.ecore:24234-24290 *)
  EClass n_CIM15_IEC61968_Common_PositionPoint_PositionPoint n_PositionPoint (Some n_CIM15_Element_Element)
    [(n_xPosition, TText); (n_zPosition, TText); (n_sequenceNumber, TInt); (n_yPosition, TText)]
    [ERef n_Location n_CIM15_IEC61968_Common_Location_Location false (Some n_PositionPoints)];
(* Model/CIM15/CIM15.ecore:23674-23722 *)
  EClass n_CIM15_IEC61968_Common_PostalAddress_PostalAddress n_PostalAddress None
    [(n_poBox, TText); (n_postalCode, TText)]
    [ERef n_streetDetail n_CIM15_IEC61968_Common_StreetDetail_StreetDetail false None; ERef n_townDetail n_CIM15_IEC61968_Common_TownDetail_TownDetail false None];
(* Model/CIM15/CIM15.ecore:23723-23771 *)
  EClass n_CIM15_IEC61968_Common_Status_Status n_Status None
    [(n_reason, TText); (n_dateTime, TDate); (n_value, TText); (n_remark, TText)]
    [];
(* Model/CIM15/CIM15.ecore:24357-24396 *)
  EClass n_CIM15_IEC61968_Common_StreetAddress_StreetAddress n_StreetAddress None
    []
    [ERef n_status n_CIM15_IEC61968_Common_Status_Status false None; ERef n_streetDetail n_CIM15_IEC61968_Common_StreetDetail_StreetDetail false None; ERef n_townDetail n_CIM15_IEC61968_Common_TownDetail_TownDetail false None];
(* Model/CIM15/CIM15.ecore:24397-24499 *)
  EClass n_CIM15_IEC61968_Common_StreetDetail_StreetDetail n_StreetDetail None
    [(n_withinTownLimits, TBool); (n_name, TText); (n_type, TText); (n_prefix, TText); (n_buildingName, TText); (n_suiteNumber, TText); (n_suffix, TText); (n_addressGeneral, TText); (n_code, TText); (n_number, TText)]
    [];
(* Model/CIM15/CIM15.ecore:24775-24832 *)
  EClass n_CIM15_IEC61968_Common_TelephoneNumber_TelephoneNumber n_TelephoneNumber None
    [(n_cityCode, TText); (n_localNumber, TText); (n_extension, TText); (n_areaCode, TText); (n_countryCode, TText)]
    [];
(* Model/CIM15/CIM15.ecore:24648-24715 *)
  EClass n_CIM15_IEC61968_Common_TimePoint_TimePoint n_TimePoint (Some n_CIM15_IEC61970_Core_IdentifiedObject_IdentifiedObject)
    [(n_dateTime, TDate); (n_sequenceNumber, TInt); (n_relativeTimeInterval, TFloat)]
    [ERef n_status n_CIM15_IEC61968_Common_Status_Status false None; ERef n_window n_CIM15_IEC61970_Domain_DateTimeInterval_DateTimeInterval false None; ERef n_TimeSchedule n_CIM15_IEC61968_Common_TimeSchedule_TimeSchedule false (Some n_TimePoints); ERef n_ScheduledEvents n_CIM15_IEC61970_Informative_InfCommon_ScheduledEvent_ScheduledEvent true (Some n_TimePoint)];
(* Model/CIM15/CIM15.ecore:24500-24566 *)
  EClass n_CIM15_IEC61968_Common_TimeSchedule_TimeSchedule n_TimeSchedule (Some n_CIM15_IEC61968_Common_Document_Document)
    [(n_recurrencePeriod, TFloat); (n_disabled, TBool); (n_offset, TFloat); (n_recurrencePattern, TText)]
    [ERef n_TimePoints n_CIM15_IEC61968_Common_TimePoint_TimePoint true (Some n_TimeSchedule); ERef n_scheduleInterval n_CIM15_IEC61970_Domain_DateTimeInterval_DateTimeInterval false None];
(* Model/CIM15/CIM15.ecore:24006-24063 *)
  EClass n_CIM15_IEC61968_Common_TownDetail_TownDetail n_TownDetail None
    [(n_name, TText); (n_stateOrProvince, TText); (n_section, TText); (n_code, TText); (n_country, TText)]
    [];
(* Model/CIM15/CIM15.ecore:24291-24356 *)
  EClass n_CIM15_IEC61968_Common_UserAttribute_UserAttribute n_UserAttribute (Some n_CIM15_Element_Element)
    [(n_name, TText); (n_value, TText); (n_sequenceNumber, TInt)]
    [ERef n_ErpLedgerEntries n_CIM15_IEC61970_Informative_InfERPSupport_ErpLedgerEntry_ErpLedgerEntry true (Some n_UserAttributes); ERef n_ProcedureDataSets n_CIM15_IEC61970_Informative_InfAssets_ProcedureDataSet_ProcedureDataSet true (Some n_Properties); ERef n_Transaction n_CIM15_IEC61968_PaymentMetering_Transaction_Transaction false (Some n_UserAttributes); ERef n_PropertySpecification n_CIM15_IEC61970_Informative_InfAssets_Specification_Specification false (Some n_AssetProperites); ERef n_Procedure n_CIM15_IEC61970_Informative_InfAssets_Procedure_Procedure false (Some n_ProcedureValues); ERef n_PropertyAssets n_CIM15_IEC61968_Assets_Asset_Asset true (Some n_Properties); ERef n_RatingSpecification n_CIM15_IEC61970_Informative_InfAssets_Specification_Specification false (Some n_Ratings); ERef n_ErpInvoiceLineItems n_CIM15_IEC61970_Informative_InfERPSupport_ErpInvoiceLineItem_ErpInvoiceLineItem true (Some n_UserAttributes); ERef n_RatingAssets n_CIM15_IEC61968_Assets_Asset_Asset true (Some n_Ratings)];
(* Model/CIM15/CIM15.ecore:30346-30438 *)
  EClass n_CIM15_IEC61968_Customers_Customer_Customer n_Customer (Some n_CIM15_IEC61968_Common_Organisation_Organisation)
    [(n_vip, TBool); (n_pucNumber, TText); (n_specialNeed, TText); (n_kind, enum_cim15_IEC61968_Customers_CustomerKind)]
    [ERef n_CustomerAgreements n_CIM15_IEC61968_Customers_CustomerAgreement_CustomerAgreement true (Some n_Customer); ERef n_ErpPersons n_CIM15_IEC61970_Informative_InfERPSupport_ErpPerson_ErpPerson true (Some n_CustomerData); ERef n_EndDevices n_CIM15_IEC61968_Metering_EndDevice_EndDevice true (Some n_Customer); ERef n_Works n_CIM15_IEC61968_Work_Work_Work true (Some n_Customers); ERef n_status n_CIM15_IEC61968_Common_Status_Status false None; ERef n_PlannedOutage n_CIM15_IEC61970_Informative_InfOperations_PlannedOutage_PlannedOutage false (Some n_CustomerDatas); ERef n_OutageNotifications n_CIM15_IEC61970_Informative_InfOperations_OutageNotification_OutageNotification true (Some n_CustomerDatas); ERef n_TroubleTickets n_CIM15_IEC61970_Informative_InfOperations_TroubleTicket_TroubleTicket true (Some n_CustomerData)];
(* Model/CIM15/CIM15.ecore:29933-29969 *)
  EClass n_CIM15_IEC61968_Customers_CustomerAccount_CustomerAccount n_CustomerAccount (Some n_CIM15_IEC61968_Common_Document_Document)
    []
    [ERef n_WorkBillingInfos n_CIM15_IEC61970_Informative_InfCustomers_WorkBillingInfo_WorkBillingInfo true (Some n_CustomerAccount); ERef n_CustomerAgreements n_CIM15_IEC61968_Customers_CustomerAgreement_CustomerAgreement true (Some n_CustomerAccount); ERef n_ErpInvoicees n_CIM15_IEC61970_Informative_InfERPSupport_ErpInvoice_ErpInvoice true (Some n_CustomerAccount); ERef n_PaymentTransactions n_CIM15_IEC61968_PaymentMetering_Transaction_Transaction true (Some n_CustomerAccount); ERef n_CustomerBillingInfos n_CIM15_IEC61970_Informative_InfCustomers_CustomerBillingInfo_CustomerBillingInfo true (Some n_CustomerAccount)];
(* Model/CIM15/CIM15.ecore:30062-30195 *)
  EClass n_CIM15_IEC61968_Customers_CustomerAgreement_CustomerAgreement n_CustomerAgreement (Some n_CIM15_IEC61968_Common_Agreement_Agreement)
    [(n_billingCycle, TText); (n_loadMgmt, TText); (n_budgetBill, TText)]
    [ERef n_PricingStructures n_CIM15_IEC61968_Customers_PricingStructure_PricingStructure true (Some n_CustomerAgreements); ERef n_CustomerAccount n_CIM15_IEC61968_Customers_CustomerAccount_CustomerAccount false (Some n_CustomerAgreements); ERef n_StandardIndustryCode n_CIM15_IEC61970_Informative_InfCustomers_StandardIndustryCode_StandardIndustryCode false (Some n_CustomerAgreements); ERef n_AuxiliaryAgreements n_CIM15_IEC61968_PaymentMetering_AuxiliaryAgreement_AuxiliaryAgreement true (Some n_CustomerAgreement); ERef n_MeterReadings n_CIM15_IEC61968_Metering_MeterReading_MeterReading true (Some n_CustomerAgreement); ERef n_Equipments n_CIM15_IEC61970_Core_Equipment_Equipment true (Some n_CustomerAgreements); ERef n_ServiceSupplier n_CIM15_IEC61968_PaymentMetering_ServiceSupplier_ServiceSupplier false (Some n_CustomerAgreements); ERef n_ServiceLocations n_CIM15_IEC61968_Customers_ServiceLocation_ServiceLocation true (Some n_CustomerAgreements); ERef n_DemandResponseProgram n_CIM15_IEC61968_Metering_DemandResponseProgram_DemandResponseProgram false (Some n_CustomerAgreements); ERef n_ServiceDeliveryPoints n_CIM15_IEC61968_Metering_ServiceDeliveryPoint_ServiceDeliveryPoint true (Some n_CustomerAgreement); ERef n_Customer n_CIM15_IEC61968_Customers_Customer_Customer false (Some n_CustomerAgreements); ERef n_EndDeviceControls n_CIM15_IEC61968_Metering_EndDeviceControl_EndDeviceControl true (Some n_CustomerAgreement)];
(* Model/CIM15/CIM15.ecore:30235-30345 *)
  EClass n_CIM15_IEC61968_Customers_PricingStructure_PricingStructure n_PricingStructure (Some n_CIM15_IEC61968_Common_Document_Document)
    [(n_dailyFloorUsage, TInt); (n_dailyCeilingUsage, TInt); (n_taxExemption, TBool); (n_code, TText); (n_dailyEstimatedUsage, TInt); (n_revenueKind, enum_cim15_IEC61968_Customers_RevenueKind)]
    [ERef n_ServiceCategory n_CIM15_IEC61968_Customers_ServiceCategory_ServiceCategory false (Some n_PricingStructures); ERef n_CustomerAgreements n_CIM15_IEC61968_Customers_CustomerAgreement_CustomerAgreement true (Some n_PricingStructures); ERef n_ServiceDeliveryPoints n_CIM15_IEC61968_Metering_ServiceDeliveryPoint_ServiceDeliveryPoint true (Some n_PricingStructures); ERef n_Tariffs n_CIM15_IEC61968_Customers_Tariff_Tariff true (Some n_PricingStructures); ERef n_Transactions n_CIM15_IEC61968_PaymentMetering_Transaction_Transaction true (Some n_PricingStructure)];
(* Model/CIM15/CIM15.ecore:30196-30234 *)
  EClass n_CIM15_IEC61968_Customers_ServiceCategory_ServiceCategory n_ServiceCategory (Some n_CIM15_IEC61970_Core_IdentifiedObject_IdentifiedObject)
    [(n_kind, enum_cim15_IEC61968_Customers_ServiceKind)]
    [ERef n_PricingStructures n_CIM15_IEC61968_Customers_PricingStructure_PricingStructure true (Some n_ServiceCategory); ERef n_ServiceDeliveryPoints n_CIM15_IEC61968_Metering_ServiceDeliveryPoint_ServiceDeliveryPoint true (Some n_ServiceCategory)];
(* Model/CIM15/CIM15.ecore:29993-30061 *)
  EClass n_CIM15_IEC61968_Customers_ServiceLocation_ServiceLocation n_ServiceLocation (Some n_CIM15_IEC61968_Common_Location_Location)
    [(n_siteAccessProblem, TText); (n_accessMethod, TText); (n_needsInspection, TBool)]
    [ERef n_EndDevices n_CIM15_IEC61968_Metering_EndDevice_EndDevice true (Some n_ServiceLocation); ERef n_ErpPersons n_CIM15_IEC61970_Informative_InfERPSupport_ErpPerson_ErpPerson true (Some n_ServiceLocation); ERef n_ServiceDeliveryPoints n_CIM15_IEC61968_Metering_ServiceDeliveryPoint_ServiceDeliveryPoint true (Some n_ServiceLocation); ERef n_CustomerAgreements n_CIM15_IEC61968_Customers_CustomerAgreement_CustomerAgreement true (Some n_ServiceLocations)];
(* Model/CIM15/CIM15.ecore:29885-29932 *)
  EClass n_CIM15_IEC61968_Customers_Tariff_Tariff n_Tariff (Some n_CIM15_IEC61968_Common_Document_Document)
    [(n_startDate, TText); (n_endDate, TText)]
    [ERef n_PricingStructures n_CIM15_IEC61968_Customers_PricingStructure_PricingStructure true (Some n_Tariffs); ERef n_TariffProfiles n_CIM15_IEC61968_PaymentMetering_TariffProfile_TariffProfile true (Some n_Tariffs)];
(* Model/CIM15/CIM15.ecore:23636-23665 *)
  EClass n_CIM15_IEC61968_IEC61968CIMVersion_IEC61968CIMVersion n_IEC61968CIMVersion (Some n_CIM15_Element_Element)
    [(n_version, TText); (n_date, TText)]
    [];
(* Model/CIM15/CIM15.ecore:30461-30550 *)
  EClass n_CIM15_IEC61968_LoadControl_ConnectDisconnectFunction_ConnectDisconnectFunction n_ConnectDisconnectFunction (Some n_CIM15_IEC61968_Metering_EndDeviceFunction_EndDeviceFunction)
    [(n_isDelayedDiscon, TBool); (n_eventCount, TInt); (n_isRemoteAutoReconOp, TBool); (n_isRemoteAutoDisconOp, TBool); (n_isLocalAutoDisconOp, TBool); (n_isLocalAutoReconOp, TBool); (n_isConnected, TBool)]
    [ERef n_rcdInfo n_CIM15_IEC61968_LoadControl_RemoteConnectDisconnectInfo_RemoteConnectDisconnectInfo false None; ERef n_Switches n_CIM15_IEC61970_Wires_Switch_Switch true (Some n_ConnectDisconnectFunctions)];
(* Model/CIM15/CIM15.ecore:30551-30673 *)
  EClass n_CIM15_IEC61968_LoadControl_RemoteConnectDisconnectInfo_RemoteConnectDisconnectInfo n_RemoteConnectDisconnectInfo None
    [(n_isArmConnect, TBool); (n_energyUsageWarning, TFloat); (n_needsVoltageLimitCheck, TBool); (n_customerVoltageLimit, TFloat); (n_isArmDisconnect, TBool); (n_isEnergyLimiting, TBool); (n_armedTimeout, TFloat); (n_powerLimit, TFloat); (n_needsPowerLimitCheck, TBool); (n_usePushbutton, TBool); (n_energyLimit, TFloat); (n_energyUsageStartDateTime, TDate)]
    [];
(* Model/CIM15/CIM15.ecore:27083-27121 *)
  EClass n_CIM15_IEC61968_Metering_ComFunction_ComFunction n_ComFunction (Some n_CIM15_IEC61968_Metering_EndDeviceFunction_EndDeviceFunction)
    [(n_amrRouter, TText); (n_amrAddress, TText); (n_twoWay, TBool)]
    [];
(* Model/CIM15/CIM15.ecore:26499-26555 *)
  EClass n_CIM15_IEC61968_Metering_DemandResponseProgram_DemandResponseProgram n_DemandResponseProgram (Some n_CIM15_IEC61970_Core_IdentifiedObject_IdentifiedObject)
    [(n_type, TText)]
    [ERef n_EndDeviceControls n_CIM15_IEC61968_Metering_EndDeviceControl_EndDeviceControl true (Some n_DemandResponseProgram); ERef n_validityInterval n_CIM15_IEC61970_Domain_DateTimeInterval_DateTimeInterval false None; ERef n_CustomerAgreements n_CIM15_IEC61968_Customers_CustomerAgreement_CustomerAgreement true (Some n_DemandResponseProgram); ERef n_EndDeviceGroups n_CIM15_IEC61968_Metering_EndDeviceGroup_EndDeviceGroup true (Some n_DemandResponseProgram)];
(* Model/CIM15/CIM15.ecore:27443-27482 *)
  EClass n_CIM15_IEC61968_Metering_DynamicDemand_DynamicDemand n_DynamicDemand None
    [(n_subInterval, TFloat); (n_interval, TFloat); (n_kind, enum_cim15_IEC61968_Metering_DemandKind)]
    [];
(* Model/CIM15/CIM15.ecore:26433-26498 *)
  EClass n_CIM15_IEC61968_Metering_ElectricMeteringFunction_ElectricMeteringFunction n_ElectricMeteringFunction (Some n_CIM15_IEC61968_Metering_EndDeviceFunction_EndDeviceFunction)
    [(n_kWMultiplier, TInt); (n_kWhMultiplier, TInt)]
    [ERef n_ctRatioMultiplier n_CIM15_IEC61968_Metering_ReadingMultiplier_ReadingMultiplier false None; ERef n_billingMultiplier n_CIM15_IEC61968_Metering_ReadingMultiplier_ReadingMultiplier false None; ERef n_vtRatioMultiplier n_CIM15_IEC61968_Metering_ReadingMultiplier_ReadingMultiplier false None; ERef n_demandMultiplier n_CIM15_IEC61968_Metering_ReadingMultiplier_ReadingMultiplier false None];
(* Model/CIM15/CIM15.ecore:27122-27214 *)
  EClass n_CIM15_IEC61968_Metering_EndDevice_EndDevice n_EndDevice (Some n_CIM15_IEC61968_Assets_AssetContainer_AssetContainer)
    [(n_timeZoneOffset, TFloat); (n_amrSystem, TText)]
    [ERef n_EndDeviceInfo n_CIM15_IEC61968_AssetModels_EndDeviceInfo_EndDeviceInfo false (Some n_EndDevices); ERef n_ServiceDeliveryPoint n_CIM15_IEC61968_Metering_ServiceDeliveryPoint_ServiceDeliveryPoint false (Some n_EndDevices); ERef n_ServiceLocation n_CIM15_IEC61968_Customers_ServiceLocation_ServiceLocation false (Some n_EndDevices); ERef n_EndDeviceFunctions n_CIM15_IEC61968_Metering_EndDeviceFunction_EndDeviceFunction true (Some n_EndDevice); ERef n_EndDeviceControls n_CIM15_IEC61968_Metering_EndDeviceControl_EndDeviceControl true (Some n_EndDevice); ERef n_Customer n_CIM15_IEC61968_Customers_Customer_Customer false (Some n_EndDevices); ERef n_EndDeviceGroups n_CIM15_IEC61968_Metering_EndDeviceGroup_EndDeviceGroup true (Some n_EndDevices)];
(* Model/CIM15/CIM15.ecore:27349-27442 *)
  EClass n_CIM15_IEC61968_Metering_EndDeviceControl_EndDeviceControl n_EndDeviceControl (Some n_CIM15_IEC61970_Core_IdentifiedObject_IdentifiedObject)
    [(n_drProgramLevel, TInt); (n_drProgramMandatory, TBool); (n_type, TText); (n_priceSignal, TFloat)]
    [ERef n_DemandResponseProgram n_CIM15_IEC61968_Metering_DemandResponseProgram_DemandResponseProgram false (Some n_EndDeviceControls); ERef n_CustomerAgreement n_CIM15_IEC61968_Customers_CustomerAgreement_CustomerAgreement false (Some n_EndDeviceControls); ERef n_scheduledInterval n_CIM15_IEC61970_Domain_DateTimeInterval_DateTimeInterval false None; ERef n_EndDeviceGroup n_CIM15_IEC61968_Metering_EndDeviceGroup_EndDeviceGroup false (Some n_EndDeviceControls); ERef n_EndDevice n_CIM15_IEC61968_Metering_EndDevice_EndDevice false (Some n_EndDeviceControls)];
(* Model/CIM15/CIM15.ecore:26701-26739 *)
  EClass n_CIM15_IEC61968_Metering_EndDeviceEvent_EndDeviceEvent n_EndDeviceEvent (Some n_CIM15_IEC61968_Common_ActivityRecord_ActivityRecord)
    [(n_userID, TText)]
    [ERef n_EndDeviceFunction n_CIM15_IEC61968_Metering_EndDeviceFunction_EndDeviceFunction false (Some n_EndDeviceEvents); ERef n_MeterReading n_CIM15_IEC61968_Metering_MeterReading_MeterReading false (Some n_EndDeviceEvents)];
(* Model/CIM15/CIM15.ecore:27017-27082 *)
  EClass n_CIM15_IEC61968_Metering_EndDeviceFunction_EndDeviceFunction n_EndDeviceFunction (Some n_CIM15_IEC61968_Assets_AssetFunction_AssetFunction)
    [(n_enabled, TBool); (n_supported, TBool)]
    [ERef n_Registers n_CIM15_IEC61968_Metering_Register_Register true (Some n_EndDeviceFunction); ERef n_ComEquipment n_CIM15_IEC61970_Informative_InfAssets_ComEquipment_ComEquipment false (Some n_EndDeviceFunctions); ERef n_EndDeviceEvents n_CIM15_IEC61968_Metering_EndDeviceEvent_EndDeviceEvent true (Some n_EndDeviceFunction); ERef n_EndDevice n_CIM15_IEC61968_Metering_EndDevice_EndDevice false (Some n_EndDeviceFunctions)];
(* Model/CIM15/CIM15.ecore:27236-27283 *)
  EClass n_CIM15_IEC61968_Metering_EndDeviceGroup_EndDeviceGroup n_EndDeviceGroup (Some n_CIM15_IEC61970_Core_IdentifiedObject_IdentifiedObject)
    [(n_groupAddress, TInt)]
    [ERef n_EndDeviceControls n_CIM15_IEC61968_Metering_EndDeviceControl_EndDeviceControl true (Some n_EndDeviceGroup); ERef n_EndDevices n_CIM15_IEC61968_Metering_EndDevice_EndDevice true (Some n_EndDeviceGroups); ERef n_DemandResponseProgram n_CIM15_IEC61968_Metering_DemandResponseProgram_DemandResponseProgram false (Some n_EndDeviceGroups)];
(* Model/CIM15/CIM15.ecore:26969-27016 *)
  EClass n_CIM15_IEC61968_Metering_IntervalBlock_IntervalBlock n_IntervalBlock (Some n_CIM15_Element_Element)
    []
    [ERef n_ReadingType n_CIM15_IEC61968_Metering_ReadingType_ReadingType false (Some n_IntervalBlocks); ERef n_IntervalReadings n_CIM15_IEC61968_Metering_IntervalReading_IntervalReading true (Some n_IntervalBlocks); ERef n_MeterReading n_CIM15_IEC61968_Metering_MeterReading_MeterReading false (Some n_IntervalBlocks); ERef n_PendingCalculation n_CIM15_IEC61968_Metering_PendingCalculation_PendingCalculation false (Some n_IntervalBlocks)];
(* Model/CIM15/CIM15.ecore:26740-26778 *)
  EClass n_CIM15_IEC61968_Metering_IntervalReading_IntervalReading n_IntervalReading (Some n_CIM15_IEC61970_Meas_MeasurementValue_MeasurementValue)
    [(n_value, TFloat)]
    [ERef n_IntervalBlocks n_CIM15_IEC61968_Metering_IntervalBlock_IntervalBlock true (Some n_IntervalReadings); ERef n_ReadingQualities n_CIM15_IEC61968_Metering_ReadingQuality_ReadingQuality true (Some n_IntervalReading)];
(* Model/CIM15/CIM15.ecore:26779-26853 *)
  EClass n_CIM15_IEC61968_Metering_Meter_Meter n_Meter (Some n_CIM15_IEC61968_Metering_EndDevice_EndDevice)
    [(n_kR, TFloat); (n_kH, TFloat); (n_formNumber, TText)]
    [ERef n_MeterReplacementWorks n_CIM15_IEC61968_Metering_MeterServiceWork_MeterServiceWork true (Some n_OldMeter); ERef n_MeterReadings n_CIM15_IEC61968_Metering_MeterReading_MeterReading true (Some n_Meter); ERef n_MeterServiceWorks n_CIM15_IEC61968_Metering_MeterServiceWork_MeterServiceWork true (Some n_Meter); ERef n_VendingTransactions n_CIM15_IEC61968_PaymentMetering_Transaction_Transaction true (Some n_Meter)];
(* Model/CIM15/CIM15.ecore:26587-26661 *)
  EClass n_CIM15_IEC61968_Metering_MeterReading_MeterReading n_MeterReading (Some n_CIM15_IEC61970_Core_IdentifiedObject_IdentifiedObject)
    []
    [ERef n_ServiceDeliveryPoint n_CIM15_IEC61968_Metering_ServiceDeliveryPoint_ServiceDeliveryPoint false (Some n_MeterReadings); ERef n_valuesInterval n_CIM15_IEC61970_Domain_DateTimeInterval_DateTimeInterval false None; ERef n_EndDeviceEvents n_CIM15_IEC61968_Metering_EndDeviceEvent_EndDeviceEvent true (Some n_MeterReading); ERef n_Readings n_CIM15_IEC61968_Metering_Reading_Reading true (Some n_MeterReadings); ERef n_CustomerAgreement n_CIM15_IEC61968_Customers_CustomerAgreement_CustomerAgreement false (Some n_MeterReadings); ERef n_Meter n_CIM15_IEC61968_Metering_Meter_Meter false (Some n_MeterReadings); ERef n_IntervalBlocks n_CIM15_IEC61968_Metering_IntervalBlock_IntervalBlock true (Some n_MeterReading)];
(* Model/CIM15/CIM15.ecore:26854-26883 *)
  EClass n_CIM15_IEC61968_Metering_MeterServiceWork_MeterServiceWork n_MeterServiceWork (Some n_CIM15_IEC61968_Work_Work_Work)
    []
    [ERef n_OldMeter n_CIM15_IEC61968_Metering_Meter_Meter false (Some n_MeterReplacementWorks); ERef n_Meter n_CIM15_IEC61968_Metering_Meter_Meter false (Some n_MeterServiceWorks)];
(* Model/CIM15/CIM15.ecore:26893-26968 *)
  EClass n_CIM15_IEC61968_Metering_PendingCalculation_PendingCalculation n_PendingCalculation (Some n_CIM15_Element_Element)
    [(n_scalarNumerator, TInt); (n_multiplyBeforeAdd, TBool); (n_scalarDenominator, TInt); (n_scalarFloat, TFloat); (n_offset, TInt)]
    [ERef n_IntervalBlocks n_CIM15_IEC61968_Metering_IntervalBlock_IntervalBlock true (Some n_PendingCalculation); ERef n_ReadingType n_CIM15_IEC61968_Metering_ReadingType_ReadingType false (Some n_PendingCalculation)];
(* Model/CIM15/CIM15.ecore:26199-26246 *)
  EClass n_CIM15_IEC61968_Metering_Reading_Reading n_Reading (Some n_CIM15_IEC61970_Meas_MeasurementValue_MeasurementValue)
    [(n_value, TFloat)]
    [ERef n_ReadingType n_CIM15_IEC61968_Metering_ReadingType_ReadingType false (Some n_Readings); ERef n_MeterReadings n_CIM15_IEC61968_Metering_MeterReading_MeterReading true (Some n_Readings); ERef n_ReadingQualities n_CIM15_IEC61968_Metering_ReadingQuality_ReadingQuality true (Some n_Reading)];
(* Model/CIM15/CIM15.ecore:26556-26586 *)
  EClass n_CIM15_IEC61968_Metering_ReadingMultiplier_ReadingMultiplier n_ReadingMultiplier None
    [(n_value, TFloat); (n_isApplied, TBool)]
    [];
(* Model/CIM15/CIM15.ecore:26662-26700 *)
  EClass n_CIM15_IEC61968_Metering_ReadingQuality_ReadingQuality n_ReadingQuality (Some n_CIM15_Element_Element)
    [(n_quality, TText)]
    [ERef n_Reading n_CIM15_IEC61968_Metering_Reading_Reading false (Some n_ReadingQualities); ERef n_IntervalReading n_CIM15_IEC61968_Metering_IntervalReading_IntervalReading false (Some n_ReadingQualities)];
(* Model/CIM15/CIM15.ecore:27488-27618 *)
  EClass n_CIM15_IEC61968_Metering_ReadingType_ReadingType n_ReadingType (Some n_CIM15_IEC61970_Core_IdentifiedObject_IdentifiedObject)
    [(n_multiplier, enum_cim15_IEC61970_Domain_UnitMultiplier); (n_unit, enum_cim15_IEC61970_Domain_UnitSymbol); (n_kind, enum_cim15_IEC61968_Metering_ReadingKind); (n_reverseChronology, TBool); (n_defaultQuality, TText); (n_intervalLength, TFloat); (n_channelNumber, TInt); (n_defaultValueDataType, TText)]
    [ERef n_IntervalBlocks n_CIM15_IEC61968_Metering_IntervalBlock_IntervalBlock true (Some n_ReadingType); ERef n_dynamicConfiguration n_CIM15_IEC61968_Metering_DynamicDemand_DynamicDemand false None; ERef n_Readings n_CIM15_IEC61968_Metering_Reading_Reading true (Some n_ReadingType); ERef n_Register n_CIM15_IEC61968_Metering_Register_Register false (Some n_ReadingType); ERef n_PendingCalculation n_CIM15_IEC61968_Metering_PendingCalculation_PendingCalculation false (Some n_ReadingType)];
(* Model/CIM15/CIM15.ecore:27301-27348 *)
  EClass n_CIM15_IEC61968_Metering_Register_Register n_Register (Some n_CIM15_IEC61970_Core_IdentifiedObject_IdentifiedObject)
    [(n_leftDigitCount, TInt); (n_rightDigitCount, TInt)]
    [ERef n_ReadingType n_CIM15_IEC61968_Metering_ReadingType_ReadingType false (Some n_Register); ERef n_EndDeviceFunction n_CIM15_IEC61968_Metering_EndDeviceFunction_EndDeviceFunction false (Some n_Registers)];
(* Model/CIM15/CIM15.ecore:26141-26198 *)
  EClass n_CIM15_IEC61968_Metering_SDPLocation_SDPLocation n_SDPLocation (Some n_CIM15_IEC61968_Common_Location_Location)
    [(n_accessMethod, TText); (n_remark, TText); (n_siteAccessProblem, TText); (n_occupancyDate, TText)]
    [ERef n_ServiceDeliveryPoints n_CIM15_IEC61968_Metering_ServiceDeliveryPoint_ServiceDeliveryPoint true (Some n_SDPLocations)];
(* Model/CIM15/CIM15.ecore:26247-26432 *)
  EClass n_CIM15_IEC61968_Metering_ServiceDeliveryPoint_ServiceDeliveryPoint n_ServiceDeliveryPoint (Some n_CIM15_IEC61970_Core_IdentifiedObject_IdentifiedObject)
    [(n_checkBilling, TBool); (n_estimatedLoad, TFloat); (n_ratedPower, TFloat); (n_servicePriority, TText); (n_grounded, TBool); (n_serviceDeliveryRemark, TText); (n_phaseCode, enum_cim15_IEC61970_Core_PhaseCode); (n_ctptReference, TInt); (n_ratedCurrent, TFloat); (n_ratedVoltage, TFloat)]
    [ERef n_SDPLocations n_CIM15_IEC61968_Metering_SDPLocation_SDPLocation true (Some n_ServiceDeliveryPoints); ERef n_ServiceLocation n_CIM15_IEC61968_Customers_ServiceLocation_ServiceLocation false (Some n_ServiceDeliveryPoints); ERef n_EndDevices n_CIM15_IEC61968_Metering_EndDevice_EndDevice true (Some n_ServiceDeliveryPoint); ERef n_MeterReadings n_CIM15_IEC61968_Metering_MeterReading_MeterReading true (Some n_ServiceDeliveryPoint); ERef n_ServiceCategory n_CIM15_IEC61968_Customers_ServiceCategory_ServiceCategory false (Some n_ServiceDeliveryPoints); ERef n_PricingStructures n_CIM15_IEC61968_Customers_PricingStructure_PricingStructure true (Some n_ServiceDeliveryPoints); ERef n_EnergyConsumer n_CIM15_IEC61970_Wires_EnergyConsumer_EnergyConsumer false (Some n_ServiceDeliveryPoints); ERef n_ServiceSupplier n_CIM15_IEC61968_PaymentMetering_ServiceSupplier_ServiceSupplier false (Some n_ServiceDeliveryPoints); ERef n_CustomerAgreement n_CIM15_IEC61968_Customers_CustomerAgreement_CustomerAgreement false (Some n_ServiceDeliveryPoints); ERef n_TransformerTanks n_CIM15_IEC61970_Wires_TransformerTank_TransformerTank false (Some n_ServiceDeliveryPoints)];
(* Model/CIM15/CIM15.ecore:27215-27235 *)
  EClass n_CIM15_IEC61968_Metering_SimpleEndDeviceFunction_SimpleEndDeviceFunction n_SimpleEndDeviceFunction (Some n_CIM15_IEC61968_Metering_EndDeviceFunction_EndDeviceFunction)
    [(n_kind, enum_cim15_IEC61968_Metering_EndDeviceFunctionKind)]
    [];
(* Model/CIM15/CIM15.ecore:28649-28688 *)
  EClass n_CIM15_IEC61968_PaymentMetering_AccountMovement_AccountMovement n_AccountMovement None
    [(n_dateTime, TDate); (n_reason, TText); (n_amount, TFloat)]
    [];
(* Model/CIM15/CIM15.ecore:27808-27856 *)
  EClass n_CIM15_IEC61968_PaymentMetering_AccountingUnit_AccountingUnit n_AccountingUnit None
    [(n_multiplier, enum_cim15_IEC61970_Domain_UnitMultiplier); (n_energyUnit, TFloat); (n_monetaryUnit, enum_cim15_IEC61970_Domain_Currency); (n_value, TFloat)]
    [];
(* Model/CIM15/CIM15.ecore:28937-29020 *)
  EClass n_CIM15_IEC61968_PaymentMetering_AuxiliaryAccount_AuxiliaryAccount n_AuxiliaryAccount (Some n_CIM15_IEC61968_Common_Document_Document)
    [(n_principleAmount, TFloat); (n_balance, TFloat)]
    [ERef n_lastDebit n_CIM15_IEC61968_PaymentMetering_AccountMovement_AccountMovement false None; ERef n_PaymentTransactions n_CIM15_IEC61968_PaymentMetering_Transaction_Transaction true (Some n_AuxiliaryAccount); ERef n_Charges n_CIM15_IEC61968_PaymentMetering_Charge_Charge true (Some n_AuxiliaryAccounts); ERef n_lastCredit n_CIM15_IEC61968_PaymentMetering_AccountMovement_AccountMovement false None; ERef n_AuxiliaryAgreement n_CIM15_IEC61968_PaymentMetering_AuxiliaryAgreement_AuxiliaryAgreement false (Some n_AuxiliaryAccounts); ERef n_due n_CIM15_IEC61968_PaymentMetering_Due_Due false None];
(* Model/CIM15/CIM15.ecore:28170-28289 *)
  EClass n_CIM15_IEC61968_PaymentMetering_AuxiliaryAgreement_AuxiliaryAgreement n_AuxiliaryAgreement (Some n_CIM15_IEC61968_Common_Agreement_Agreement)
    [(n_vendPortionArrear, TFloat); (n_auxRef, TText); (n_payCycle, TText); (n_arrearsInterest, TFloat); (n_fixedAmount, TFloat); (n_vendPortion, TFloat); (n_subCategory, TText); (n_auxCycle, TText); (n_auxPriorityCode, TText); (n_minAmount, TFloat)]
    [ERef n_CustomerAgreement n_CIM15_IEC61968_Customers_CustomerAgreement_CustomerAgreement false (Some n_AuxiliaryAgreements); ERef n_AuxiliaryAccounts n_CIM15_IEC61968_PaymentMetering_AuxiliaryAccount_AuxiliaryAccount true (Some n_AuxiliaryAgreement)];
(* Model/CIM15/CIM15.ecore:28879-28936 *)
  EClass n_CIM15_IEC61968_PaymentMetering_BankAccountDetail_BankAccountDetail n_BankAccountDetail None
    [(n_holderID, TText); (n_holderName, TText); (n_bankName, TText); (n_branchCode, TText); (n_accountNumber, TText)]
    [];
(* Model/CIM15/CIM15.ecore:29051-29108 *)
  EClass n_CIM15_IEC61968_PaymentMetering_Card_Card n_Card (Some n_CIM15_Element_Element)
    [(n_cvNumber, TText); (n_expiryDate, TText); (n_pan, TText); (n_accountHolderName, TText)]
    [ERef n_Tender n_CIM15_IEC61968_PaymentMetering_Tender_Tender false (Some n_Card)];
(* Model/CIM15/CIM15.ecore:29021-29050 *)
  EClass n_CIM15_IEC61968_PaymentMetering_Cashier_Cashier n_Cashier (Some n_CIM15_IEC61970_Core_IdentifiedObject_IdentifiedObject)
    []
    [ERef n_electronicAddress n_CIM15_IEC61968_Common_ElectronicAddress_ElectronicAddress false None; ERef n_CashierShifts n_CIM15_IEC61968_PaymentMetering_CashierShift_CashierShift true (Some n_Cashier)];
(* Model/CIM15/CIM15.ecore:27701-27750 *)
  EClass n_CIM15_IEC61968_PaymentMetering_CashierShift_CashierShift n_CashierShift (Some n_CIM15_IEC61968_PaymentMetering_Shift_Shift)
    [(n_cashFloat, TFloat)]
    [ERef n_Transactions n_CIM15_IEC61968_PaymentMetering_Transaction_Transaction true (Some n_CashierShift); ERef n_PointOfSale n_CIM15_IEC61968_PaymentMetering_PointOfSale_PointOfSale false (Some n_CashierShifts); ERef n_Receipts n_CIM15_IEC61968_PaymentMetering_Receipt_Receipt true (Some n_CashierShift); ERef n_Cashier n_CIM15_IEC61968_PaymentMetering_Cashier_Cashier false (Some n_CashierShifts)];
(* Model/CIM15/CIM15.ecore:28084-28169 *)
  EClass n_CIM15_IEC61968_PaymentMetering_Charge_Charge n_Charge (Some n_CIM15_IEC61970_Core_IdentifiedObject_IdentifiedObject)
    [(n_variablePortion, TFloat); (n_kind, enum_cim15_IEC61968_PaymentMetering_ChargeKind)]
    [ERef n_ConsumptionTariffIntervals n_CIM15_IEC61968_PaymentMetering_ConsumptionTariffInterval_ConsumptionTariffInterval true (Some n_Charges); ERef n_TimeTariffIntervals n_CIM15_IEC61968_PaymentMetering_TimeTariffInterval_TimeTariffInterval true (Some n_Charges); ERef n_AuxiliaryAccounts n_CIM15_IEC61968_PaymentMetering_AuxiliaryAccount_AuxiliaryAccount true (Some n_Charges); ERef n_ChildCharges n_CIM15_IEC61968_PaymentMetering_Charge_Charge true (Some n_ParentCharge); ERef n_fixedPortion n_CIM15_IEC61968_PaymentMetering_AccountingUnit_AccountingUnit false None; ERef n_ParentCharge n_CIM15_IEC61968_PaymentMetering_Charge_Charge false (Some n_ChildCharges)];
(* Model/CIM15/CIM15.ecore:28563-28628 *)
  EClass n_CIM15_IEC61968_PaymentMetering_Cheque_Cheque n_Cheque (Some n_CIM15_Element_Element)
    [(n_micrNumber, TText); (n_chequeNumber, TText); (n_date, TText); (n_kind, enum_cim15_IEC61968_PaymentMetering_ChequeKind)]
    [ERef n_Tender n_CIM15_IEC61968_PaymentMetering_Tender_Tender false (Some n_Cheque); ERef n_bankAccountDetail n_CIM15_IEC61968_PaymentMetering_BankAccountDetail_BankAccountDetail false None];
(* Model/CIM15/CIM15.ecore:28484-28541 *)
  EClass n_CIM15_IEC61968_PaymentMetering_ConsumptionTariffInterval_ConsumptionTariffInterval n_ConsumptionTariffInterval (Some n_CIM15_Element_Element)
    [(n_startValue, TFloat); (n_sequenceNumber, TInt)]
    [ERef n_Charges n_CIM15_IEC61968_PaymentMetering_Charge_Charge true (Some n_ConsumptionTariffIntervals); ERef n_TariffProfiles n_CIM15_IEC61968_PaymentMetering_TariffProfile_TariffProfile true (Some n_ConsumptionTariffIntervals); ERef n_TouTariffIntervals n_CIM15_IEC61968_PaymentMetering_TimeTariffInterval_TimeTariffInterval true (Some n_ConsumptionTariffIntervals)];
(* Model/CIM15/CIM15.ecore:28821-28878 *)
  EClass n_CIM15_IEC61968_PaymentMetering_Due_Due n_Due None
    [(n_interest, TFloat); (n_charges, TFloat); (n_principle, TFloat); (n_current, TFloat); (n_arrears, TFloat)]
    [];
(* Model/CIM15/CIM15.ecore:28435-28483 *)
  EClass n_CIM15_IEC61968_PaymentMetering_LineDetail_LineDetail n_LineDetail None
    [(n_amount, TFloat); (n_rounding, TFloat); (n_dateTime, TDate); (n_note, TText)]
    [];
(* Model/CIM15/CIM15.ecore:29109-29165 *)
  EClass n_CIM15_IEC61968_PaymentMetering_MerchantAccount_MerchantAccount n_MerchantAccount (Some n_CIM15_IEC61968_Common_Document_Document)
    [(n_currentBalance, TFloat); (n_provisionalBalance, TFloat)]
    [ERef n_MerchantAgreement n_CIM15_IEC61968_PaymentMetering_MerchantAgreement_MerchantAgreement false (Some n_MerchantAccounts); ERef n_Transactors n_CIM15_IEC61968_PaymentMetering_Transactor_Transactor true (Some n_MerchantAccounts); ERef n_VendorShifts n_CIM15_IEC61968_PaymentMetering_VendorShift_VendorShift true (Some n_MerchantAccount)];
(* Model/CIM15/CIM15.ecore:28414-28434 *)
  EClass n_CIM15_IEC61968_PaymentMetering_MerchantAgreement_MerchantAgreement n_MerchantAgreement (Some n_CIM15_IEC61968_Common_Agreement_Agreement)
    []
    [ERef n_MerchantAccounts n_CIM15_IEC61968_PaymentMetering_MerchantAccount_MerchantAccount true (Some n_MerchantAgreement)];
(* Model/CIM15/CIM15.ecore:29166-29195 *)
  EClass n_CIM15_IEC61968_PaymentMetering_PointOfSale_PointOfSale n_PointOfSale (Some n_CIM15_IEC61970_Core_IdentifiedObject_IdentifiedObject)
    [(n_location, TText)]
    [ERef n_CashierShifts n_CIM15_IEC61968_PaymentMetering_CashierShift_CashierShift true (Some n_PointOfSale)];
(* Model/CIM15/CIM15.ecore:28755-28820 *)
  EClass n_CIM15_IEC61968_PaymentMetering_Receipt_Receipt n_Receipt (Some n_CIM15_IEC61970_Core_IdentifiedObject_IdentifiedObject)
    [(n_isBankable, TBool)]
    [ERef n_VendorShift n_CIM15_IEC61968_PaymentMetering_VendorShift_VendorShift false (Some n_Receipts); ERef n_line n_CIM15_IEC61968_PaymentMetering_LineDetail_LineDetail false None; ERef n_CashierShift n_CIM15_IEC61968_PaymentMetering_CashierShift_CashierShift false (Some n_Receipts); ERef n_Tenders n_CIM15_IEC61968_PaymentMetering_Tender_Tender true (Some n_Receipt); ERef n_Transactions n_CIM15_IEC61968_PaymentMetering_Transaction_Transaction true (Some n_Receipt)];
(* Model/CIM15/CIM15.ecore:28356-28413 *)
  EClass n_CIM15_IEC61968_PaymentMetering_ServiceSupplier_ServiceSupplier n_ServiceSupplier (Some n_CIM15_IEC61968_Common_Organisation_Organisation)
    [(n_issuerIdentificationNumber, TText); (n_kind, enum_cim15_IEC61968_PaymentMetering_SupplierKind)]
    [ERef n_BankAccounts n_CIM15_IEC61970_Informative_InfCommon_BankAccount_BankAccount true (Some n_ServiceSupplier); ERef n_ServiceDeliveryPoints n_CIM15_IEC61968_Metering_ServiceDeliveryPoint_ServiceDeliveryPoint true (Some n_ServiceSupplier); ERef n_CustomerAgreements n_CIM15_IEC61968_Customers_CustomerAgreement_CustomerAgreement true (Some n_ServiceSupplier)];
(* Model/CIM15/CIM15.ecore:28689-28754 *)
  EClass n_CIM15_IEC61968_PaymentMetering_Shift_Shift n_Shift (Some n_CIM15_IEC61970_Core_IdentifiedObject_IdentifiedObject)
    [(n_transactionsGrandTotal, TFloat); (n_receiptsGrandTotalBankable, TFloat); (n_receiptsGrandTotalRounding, TFloat); (n_transactionsGrandTotalRounding, TFloat); (n_receiptsGrandTotalNonBankable, TFloat)]
    [ERef n_activityInterval n_CIM15_IEC61970_Domain_DateTimeInterval_DateTimeInterval false None];
(* Model/CIM15/CIM15.ecore:27751-27800 *)
  EClass n_CIM15_IEC61968_PaymentMetering_TariffProfile_TariffProfile n_TariffProfile (Some n_CIM15_IEC61968_Common_Document_Document)
    [(n_tariffCycle, TText)]
    [ERef n_Tariffs n_CIM15_IEC61968_Customers_Tariff_Tariff true (Some n_TariffProfiles); ERef n_ConsumptionTariffIntervals n_CIM15_IEC61968_PaymentMetering_ConsumptionTariffInterval_ConsumptionTariffInterval true (Some n_TariffProfiles); ERef n_TimeTariffIntervals n_CIM15_IEC61968_PaymentMetering_TimeTariffInterval_TimeTariffInterval true (Some n_TariffProfiles)];
(* Model/CIM15/CIM15.ecore:28290-28355 *)
  EClass n_CIM15_IEC61968_PaymentMetering_Tender_Tender n_Tender (Some n_CIM15_IEC61970_Core_IdentifiedObject_IdentifiedObject)
    [(n_kind, enum_cim15_IEC61968_PaymentMetering_TenderKind); (n_change, TFloat); (n_amount, TFloat)]
    [ERef n_Card n_CIM15_IEC61968_PaymentMetering_Card_Card false (Some n_Tender); ERef n_Receipt n_CIM15_IEC61968_PaymentMetering_Receipt_Receipt false (Some n_Tenders); ERef n_Cheque n_CIM15_IEC61968_PaymentMetering_Cheque_Cheque false (Some n_Tender)];
(* Model/CIM15/CIM15.ecore:28026-28083 *)
  EClass n_CIM15_IEC61968_PaymentMetering_TimeTariffInterval_TimeTariffInterval n_TimeTariffInterval (Some n_CIM15_Element_Element)
    [(n_startDateTime, TDate); (n_sequenceNumber, TInt)]
    [ERef n_ConsumptionTariffIntervals n_CIM15_IEC61968_PaymentMetering_ConsumptionTariffInterval_ConsumptionTariffInterval true (Some n_TouTariffIntervals); ERef n_TariffProfiles n_CIM15_IEC61968_PaymentMetering_TariffProfile_TariffProfile true (Some n_TimeTariffIntervals); ERef n_Charges n_CIM15_IEC61968_PaymentMetering_Charge_Charge true (Some n_TimeTariffIntervals)];
(* Model/CIM15/CIM15.ecore:27869-28025 *)
  EClass n_CIM15_IEC61968_PaymentMetering_Transaction_Transaction n_Transaction (Some n_CIM15_IEC61970_Core_IdentifiedObject_IdentifiedObject)
    [(n_donorReference, TText); (n_kind, enum_cim15_IEC61968_PaymentMetering_TransactionKind); (n_receiverReference, TText); (n_serviceUnitsError, TFloat); (n_diverseReference, TText); (n_serviceUnitsEnergy, TFloat); (n_reversedId, TText)]
    [ERef n_PricingStructure n_CIM15_IEC61968_Customers_PricingStructure_PricingStructure false (Some n_Transactions); ERef n_line n_CIM15_IEC61968_PaymentMetering_LineDetail_LineDetail false None; ERef n_UserAttributes n_CIM15_IEC61968_Common_UserAttribute_UserAttribute true (Some n_Transaction); ERef n_AuxiliaryAccount n_CIM15_IEC61968_PaymentMetering_AuxiliaryAccount_AuxiliaryAccount false (Some n_PaymentTransactions); ERef n_VendorShift n_CIM15_IEC61968_PaymentMetering_VendorShift_VendorShift false (Some n_Transactions); ERef n_Receipt n_CIM15_IEC61968_PaymentMetering_Receipt_Receipt false (Some n_Transactions); ERef n_Meter n_CIM15_IEC61968_Metering_Meter_Meter false (Some n_VendingTransactions); ERef n_CustomerAccount n_CIM15_IEC61968_Customers_CustomerAccount_CustomerAccount false (Some n_PaymentTransactions); ERef n_CashierShift n_CIM15_IEC61968_PaymentMetering_CashierShift_CashierShift false (Some n_Transactions)];
(* Model/CIM15/CIM15.ecore:27680-27700 *)
  EClass n_CIM15_IEC61968_PaymentMetering_Transactor_Transactor n_Transactor (Some n_CIM15_IEC61970_Core_IdentifiedObject_IdentifiedObject)
    []
    [ERef n_MerchantAccounts n_CIM15_IEC61968_PaymentMetering_MerchantAccount_MerchantAccount true (Some n_Transactors)];
(* Model/CIM15/CIM15.ecore:28542-28562 *)
  EClass n_CIM15_IEC61968_PaymentMetering_Vendor_Vendor n_Vendor (Some n_CIM15_IEC61970_Core_IdentifiedObject_IdentifiedObject)
    []
    [ERef n_VendorShifts n_CIM15_IEC61968_PaymentMetering_VendorShift_VendorShift true (Some n_Vendor)];
(* Model/CIM15/CIM15.ecore:27628-27679 *)
  EClass n_CIM15_IEC61968_PaymentMetering_VendorShift_VendorShift n_VendorShift (Some n_CIM15_IEC61968_PaymentMetering_Shift_Shift)
    [(n_merchantDebitAmount, TFloat); (n_posted, TBool)]
    [ERef n_Vendor n_CIM15_IEC61968_PaymentMetering_Vendor_Vendor false (Some n_VendorShifts); ERef n_Receipts n_CIM15_IEC61968_PaymentMetering_Receipt_Receipt true (Some n_VendorShift); ERef n_MerchantAccount n_CIM15_IEC61968_PaymentMetering_MerchantAccount_MerchantAccount false (Some n_VendorShifts); ERef n_Transactions n_CIM15_IEC61968_PaymentMetering_Transaction_Transaction true (Some n_VendorShift)];
(* Model/CIM15/CIM15.ecore:29800-29865 *)
  EClass n_CIM15_IEC61968_Work_Work_Work n_Work (Some n_CIM15_IEC61968_Common_Document_Document)
    [(n_kind, enum_cim15_IEC61968_Work_WorkKind); (n_priority, TText); (n_requestDateTime, TDate)]
    [ERef n_Designs n_CIM15_IEC61970_Informative_InfWork_Design_Design true (Some n_Work); ERef n_WorkCostDetails n_CIM15_IEC61970_Informative_InfWork_WorkCostDetail_WorkCostDetail true (Some n_Works); ERef n_ErpProjectAccounting n_CIM15_IEC61970_Informative_InfERPSupport_ErpProjectAccounting_ErpProjectAccounting false (Some n_Works); ERef n_Project n_CIM15_IEC61970_Informative_InfWork_Project_Project false (Some n_Works); ERef n_WorkFlowSteps n_CIM15_IEC61970_Informative_InfWork_WorkFlowStep_WorkFlowStep true (Some n_Work); ERef n_WorkTasks n_CIM15_IEC61970_Informative_InfWork_WorkTask_WorkTask true (Some n_Work); ERef n_BusinessCase n_CIM15_IEC61970_Informative_InfWork_BusinessCase_BusinessCase false (Some n_Works); ERef n_WorkBillingInfo n_CIM15_IEC61970_Informative_InfCustomers_WorkBillingInfo_WorkBillingInfo false (Some n_Works); ERef n_Request n_CIM15_IEC61970_Informative_InfWork_Request_Request false (Some n_Works); ERef n_Customers n_CIM15_IEC61968_Customers_Customer_Customer true (Some n_Works)];
(* Model/CIM15/CIM15.ecore:19821-19841 *)
  EClass n_CIM15_IEC61970_AuxiliaryEquipment_AuxiliaryEquipment_AuxiliaryEquipment n_AuxiliaryEquipment (Some n_CIM15_IEC61970_Core_Equipment_Equipment)
    []
    [ERef n_Terminal n_CIM15_IEC61970_Core_Terminal_Terminal false (Some n_AuxiliaryEquipment)];
(* Model/CIM15/CIM15.ecore:19842-19916 *)
  EClass n_CIM15_IEC61970_AuxiliaryEquipment_CurrentTransformer_CurrentTransformer n_CurrentTransformer (Some n_CIM15_IEC61970_AuxiliaryEquipment_Sensor_Sensor)
    [(n_ctClass, TText); (n_accuracyLimit, TText); (n_usage, TText); (n_accuracyClass, TText); (n_coreCount, TInt); (n_maxRatio, TFloat)]
    [ERef n_CTInfo n_CIM15_IEC61970_Informative_InfAssets_CurrentTransformerInfo_CurrentTransformerInfo false (Some n_CTs)];
(* Model/CIM15/CIM15.ecore:19938-19958 *)
  EClass n_CIM15_IEC61970_AuxiliaryEquipment_FaultIndicator_FaultIndicator n_FaultIndicator (Some n_CIM15_IEC61970_AuxiliaryEquipment_AuxiliaryEquipment_AuxiliaryEquipment)
    []
    [ERef n_FaultIndicatorInfo n_CIM15_IEC61970_Informative_InfAssets_FaultIndicatorInfo_FaultIndicatorInfo false (Some n_FaultIndicators)];
(* Model/CIM15/CIM15.ecore:19761-19808 *)
  EClass n_CIM15_IEC61970_AuxiliaryEquipment_PotentialTransformer_PotentialTransformer n_PotentialTransformer (Some n_CIM15_IEC61970_AuxiliaryEquipment_Sensor_Sensor)
    [(n_nominalRatio, TFloat); (n_accuracyClass, TText); (n_ptClass, TText)]
    [ERef n_PTInfo n_CIM15_IEC61970_Informative_InfAssets_PotentialTransformerInfo_PotentialTransformerInfo false (Some n_PTs)];
(* Model/CIM15/CIM15.ecore:19809-19820 *)
  EClass n_CIM15_IEC61970_AuxiliaryEquipment_Sensor_Sensor n_Sensor (Some n_CIM15_IEC61970_AuxiliaryEquipment_AuxiliaryEquipment_AuxiliaryEquipment)
    []
    [];
(* Model/CIM15/CIM15.ecore:19917-19937 *)
  EClass n_CIM15_IEC61970_AuxiliaryEquipment_SurgeProtector_SurgeProtector n_SurgeProtector (Some n_CIM15_IEC61970_AuxiliaryEquipment_AuxiliaryEquipment_AuxiliaryEquipment)
    []
    [ERef n_SurgeProtectorInfo n_CIM15_IEC61970_Informative_InfAssets_SurgeProtectorInfo_SurgeProtectorInfo false (Some n_SurgeProtectors)];
(* Model/CIM15/CIM15.ecore:23434-23463 *)
  EClass n_CIM15_IEC61970_Contingency_Contingency_Contingency n_Contingency (Some n_CIM15_IEC61970_Core_IdentifiedObject_IdentifiedObject)
    [(n_mustStudy, TBool)]
    [ERef n_ContingencyElement n_CIM15_IEC61970_Contingency_ContingencyElement_ContingencyElement true (Some n_Contingency)];
(* Model/CIM15/CIM15.ecore:23464-23484 *)
  EClass n_CIM15_IEC61970_Contingency_ContingencyElement_ContingencyElement n_ContingencyElement (Some n_CIM15_IEC61970_Core_IdentifiedObject_IdentifiedObject)
    []
    [ERef n_Contingency n_CIM15_IEC61970_Contingency_Contingency_Contingency false (Some n_ContingencyElement)];
(* Model/CIM15/CIM15.ecore:23400-23429 *)
  EClass n_CIM15_IEC61970_Contingency_ContingencyEquipment_ContingencyEquipment n_ContingencyEquipment (Some n_CIM15_IEC61970_Contingency_ContingencyElement_ContingencyElement)
    [(n_contingentStatus, enum_cim15_IEC61970_Contingency_ContingencyEquipmentStatusKind)]
    [ERef n_Equipment n_CIM15_IEC61970_Core_Equipment_Equipment false (Some n_ContingencyEquipment)];
(* Model/CIM15/CIM15.ecore:19559-19597 *)
  EClass n_CIM15_IEC61970_ControlArea_AltGeneratingUnitMeas_AltGeneratingUnitMeas n_AltGeneratingUnitMeas (Some n_CIM15_Element_Element)
    [(n_priority, TInt)]
    [ERef n_AnalogValue n_CIM15_IEC61970_Meas_AnalogValue_AnalogValue false (Some n_AltGeneratingUnit); ERef n_ControlAreaGeneratingUnit n_CIM15_IEC61970_ControlArea_ControlAreaGeneratingUnit_ControlAreaGeneratingUnit false (Some n_AltGeneratingUnitMeas)];
(* Model/CIM15/CIM15.ecore:19520-19558 *)
  EClass n_CIM15_IEC61970_ControlArea_AltTieMeas_AltTieMeas n_AltTieMeas (Some n_CIM15_Element_Element)
    [(n_priority, TInt)]
    [ERef n_AnalogValue n_CIM15_IEC61970_Meas_AnalogValue_AnalogValue false (Some n_AltTieMeas); ERef n_TieFlow n_CIM15_IEC61970_ControlArea_TieFlow_TieFlow false (Some n_AltTieMeas)];
(* Model/CIM15/CIM15.ecore:19646-19712 *)
  EClass n_CIM15_IEC61970_ControlArea_ControlArea_ControlArea n_ControlArea (Some n_CIM15_IEC61970_Core_PowerSystemResource_PowerSystemResource)
    [(n_type, enum_cim15_IEC61970_ControlArea_ControlAreaTypeKind); (n_pTolerance, TFloat); (n_netInterchange, TFloat)]
    [ERef n_ControlAreaGeneratingUnit n_CIM15_IEC61970_ControlArea_ControlAreaGeneratingUnit_ControlAreaGeneratingUnit true (Some n_ControlArea); ERef n_TieFlow n_CIM15_IEC61970_ControlArea_TieFlow_TieFlow true (Some n_ControlArea); ERef n_EnergyArea n_CIM15_IEC61970_LoadModel_EnergyArea_EnergyArea false (Some n_ControlArea)];
(* Model/CIM15/CIM15.ecore:19718-19757 *)
  EClass n_CIM15_IEC61970_ControlArea_ControlAreaGeneratingUnit_ControlAreaGeneratingUnit n_ControlAreaGeneratingUnit (Some n_CIM15_Element_Element)
    []
    [ERef n_AltGeneratingUnitMeas n_CIM15_IEC61970_ControlArea_AltGeneratingUnitMeas_AltGeneratingUnitMeas true (Some n_ControlAreaGeneratingUnit); ERef n_GeneratingUnit n_CIM15_IEC61970_Generation_Production_GeneratingUnit_GeneratingUnit false (Some n_ControlAreaGeneratingUnit); ERef n_ControlArea n_CIM15_IEC61970_ControlArea_ControlArea_ControlArea false (Some n_ControlAreaGeneratingUnit)];
(* Model/CIM15/CIM15.ecore:19598-19645 *)
  EClass n_CIM15_IEC61970_ControlArea_TieFlow_TieFlow n_TieFlow (Some n_CIM15_Element_Element)
    [(n_positiveFlowIn, TBool)]
    [ERef n_AltTieMeas n_CIM15_IEC61970_ControlArea_AltTieMeas_AltTieMeas true (Some n_TieFlow); ERef n_Terminal n_CIM15_IEC61970_Core_Terminal_Terminal false (Some n_TieFlow); ERef n_ControlArea n_CIM15_IEC61970_ControlArea_ControlArea_ControlArea false (Some n_TieFlow)];
(* Model/CIM15/CIM15.ecore:21076-21096 *)
  EClass n_CIM15_IEC61970_Core_BasePower_BasePower n_BasePower (Some n_CIM15_IEC61970_Core_IdentifiedObject_IdentifiedObject)
    [(n_basePower, TFloat)]
    [];
(* Model/CIM15/CIM15.ecore:21594-21650 *)
  EClass n_CIM15_IEC61970_Core_BaseVoltage_BaseVoltage n_BaseVoltage (Some n_CIM15_IEC61970_Core_IdentifiedObject_IdentifiedObject)
    [(n_nominalVoltage, TFloat); (n_isDC, TBool)]
    [ERef n_TopologicalNode n_CIM15_IEC61970_Topology_TopologicalNode_TopologicalNode true (Some n_BaseVoltage); ERef n_VoltageLevel n_CIM15_IEC61970_Core_VoltageLevel_VoltageLevel true (Some n_BaseVoltage); ERef n_ConductingEquipment n_CIM15_IEC61970_Core_ConductingEquipment_ConductingEquipment true (Some n_BaseVoltage)];
(* Model/CIM15/CIM15.ecore:21186-21242 *)
  EClass n_CIM15_IEC61970_Core_BasicIntervalSchedule_BasicIntervalSchedule n_BasicIntervalSchedule (Some n_CIM15_IEC61970_Core_IdentifiedObject_IdentifiedObject)
    [(n_startTime, TDate); (n_value1Multiplier, enum_cim15_IEC61970_Domain_UnitMultiplier); (n_value2Unit, enum_cim15_IEC61970_Domain_UnitSymbol); (n_value1Unit, enum_cim15_IEC61970_Domain_UnitSymbol); (n_value2Multiplier, enum_cim15_IEC61970_Domain_UnitMultiplier)]
    [];
(* Model/CIM15/CIM15.ecore:20940-21006 *)
  EClass n_CIM15_IEC61970_Core_Bay_Bay n_Bay (Some n_CIM15_IEC61970_Core_EquipmentContainer_EquipmentContainer)
    [(n_bayPowerMeasFlag, TBool); (n_bayEnergyMeasFlag, TBool); (n_busBarConfiguration, enum_cim15_IEC61970_Core_BusbarConfiguration); (n_breakerConfiguration, enum_cim15_IEC61970_Core_BreakerConfiguration)]
    [ERef n_VoltageLevel n_CIM15_IEC61970_Core_VoltageLevel_VoltageLevel false (Some n_Bays); ERef n_Substation n_CIM15_IEC61970_Core_Substation_Substation false (Some n_Bays)];
(* Model/CIM15/CIM15.ecore:20743-20801 *)
  EClass n_CIM15_IEC61970_Core_ConductingEquipment_ConductingEquipment n_ConductingEquipment (Some n_CIM15_IEC61970_Core_Equipment_Equipment)
    []
    [ERef n_BaseVoltage n_CIM15_IEC61970_Core_BaseVoltage_BaseVoltage false (Some n_ConductingEquipment); ERef n_ClearanceTags n_CIM15_IEC61970_Outage_ClearanceTag_ClearanceTag true (Some n_ConductingEquipment); ERef n_ProtectionEquipments n_CIM15_IEC61970_Protection_ProtectionEquipment_ProtectionEquipment true (Some n_ConductingEquipments); ERef n_Terminals n_CIM15_IEC61970_Core_Terminal_Terminal true (Some n_ConductingEquipment); ERef n_OutageStepRoles n_CIM15_IEC61970_Informative_InfOperations_OutageStepPsrRole_OutageStepPsrRole true (Some n_ConductingEquipment); ERef n_SvStatus n_CIM15_IEC61970_StateVariables_SvStatus_SvStatus false (Some n_ConductingEquipment)];
(* Model/CIM15/CIM15.ecore:20850-20888 *)
  EClass n_CIM15_IEC61970_Core_ConnectivityNode_ConnectivityNode n_ConnectivityNode (Some n_CIM15_IEC61970_Core_IdentifiedObject_IdentifiedObject)
    []
    [ERef n_TopologicalNode n_CIM15_IEC61970_Topology_TopologicalNode_TopologicalNode false (Some n_ConnectivityNodes); ERef n_ConnectivityNodeContainer n_CIM15_IEC61970_Core_ConnectivityNodeContainer_ConnectivityNodeContainer false (Some n_ConnectivityNodes); ERef n_Terminals n_CIM15_IEC61970_Core_Terminal_Terminal true (Some n_ConnectivityNode)];
(* Model/CIM15/CIM15.ecore:20910-20939 *)
  EClass n_CIM15_IEC61970_Core_ConnectivityNodeContainer_ConnectivityNodeContainer n_ConnectivityNodeContainer (Some n_CIM15_IEC61970_Core_PowerSystemResource_PowerSystemResource)
    []
    [ERef n_TopologicalNode n_CIM15_IEC61970_Topology_TopologicalNode_TopologicalNode true (Some n_ConnectivityNodeContainer); ERef n_ConnectivityNodes n_CIM15_IEC61970_Core_ConnectivityNode_ConnectivityNode true (Some n_ConnectivityNodeContainer)];
(* Model/CIM15/CIM15.ecore:21243-21344 *)
  EClass n_CIM15_IEC61970_Core_Curve_Curve n_Curve (Some n_CIM15_IEC61970_Core_IdentifiedObject_IdentifiedObject)
    [(n_xUnit, enum_cim15_IEC61970_Domain_UnitSymbol); (n_y1Multiplier, enum_cim15_IEC61970_Domain_UnitMultiplier); (n_y2Unit, enum_cim15_IEC61970_Domain_UnitSymbol); (n_y3Multiplier, enum_cim15_IEC61970_Domain_UnitMultiplier); (n_y1Unit, enum_cim15_IEC61970_Domain_UnitSymbol); (n_xMultiplier, enum_cim15_IEC61970_Domain_UnitMultiplier); (n_y3Unit, enum_cim15_IEC61970_Domain_UnitSymbol); (n_y2Multiplier, enum_cim15_IEC61970_Domain_UnitMultiplier); (n_curveStyle, enum_cim15_IEC61970_Core_CurveStyle)]
    [ERef n_CurveDatas n_CIM15_IEC61970_Core_CurveData_CurveData true (Some n_Curve)];
(* Model/CIM15/CIM15.ecore:21366-21422 *)
  EClass n_CIM15_IEC61970_Core_CurveData_CurveData n_CurveData (Some n_CIM15_Element_Element)
    [(n_y3value, TFloat); (n_xvalue, TFloat); (n_y2value, TFloat); (n_y1value, TFloat)]
    [ERef n_Curve n_CIM15_IEC61970_Core_Curve_Curve false (Some n_CurveDatas)];
(* Model/CIM15/CIM15.ecore:20692-20742 *)
  EClass n_CIM15_IEC61970_Core_Equipment_Equipment n_Equipment (Some n_CIM15_IEC61970_Core_PowerSystemResource_PowerSystemResource)
    [(n_normallyInService, TBool); (n_aggregate, TBool)]
    [ERef n_ContingencyEquipment n_CIM15_IEC61970_Contingency_ContingencyEquipment_ContingencyEquipment true (Some n_Equipment); ERef n_CustomerAgreements n_CIM15_IEC61968_Customers_CustomerAgreement_CustomerAgreement true (Some n_Equipments); ERef n_EquipmentContainer n_CIM15_IEC61970_Core_EquipmentContainer_EquipmentContainer false (Some n_Equipments)];
(* Model/CIM15/CIM15.ecore:21007-21027 *)
  EClass n_CIM15_IEC61970_Core_EquipmentContainer_EquipmentContainer n_EquipmentContainer (Some n_CIM15_IEC61970_Core_ConnectivityNodeContainer_ConnectivityNodeContainer)
    []
    [ERef n_Equipments n_CIM15_IEC61970_Core_Equipment_Equipment true (Some n_EquipmentContainer)];
(* Model/CIM15/CIM15.ecore:21345-21365 *)
  EClass n_CIM15_IEC61970_Core_GeographicalRegion_GeographicalRegion n_GeographicalRegion (Some n_CIM15_IEC61970_Core_IdentifiedObject_IdentifiedObject)
    []
    [ERef n_Regions n_CIM15_IEC61970_Core_SubGeographicalRegion_SubGeographicalRegion true (Some n_Region)];
(* Model/CIM15/CIM15.ecore:21120-21185 *)
  EClass n_CIM15_IEC61970_Core_IdentifiedObject_IdentifiedObject n_IdentifiedObject (Some n_CIM15_Element_Element)
    [(n_mRID, TText); (n_aliasName, TText); (n_name, TText)]
    [ERef n_Names n_CIM15_IEC61970_Core_Name_Name true (Some n_IdentifiedObject); ERef n_DiagramObjects n_CIM15_IEC61970_Graphics_DiagramObject_DiagramObject true (Some n_IdentifiedObject); ERef n_ModelingAuthoritySet n_CIM15_IEC61970_Informative_InfCore_ModelingAuthoritySet_ModelingAuthoritySet false (Some n_IdentifiedObjects)];
(* Model/CIM15/CIM15.ecore:21814-21834 *)
  EClass n_CIM15_IEC61970_Core_IrregularIntervalSchedule_IrregularIntervalSchedule n_IrregularIntervalSchedule (Some n_CIM15_IEC61970_Core_BasicIntervalSchedule_BasicIntervalSchedule)
    []
    [ERef n_TimePoints n_CIM15_IEC61970_Core_IrregularTimePoint_IrregularTimePoint true (Some n_IntervalSchedule)];
(* Model/CIM15/CIM15.ecore:22049-22096 *)
  EClass n_CIM15_IEC61970_Core_IrregularTimePoint_IrregularTimePoint n_IrregularTimePoint (Some n_CIM15_Element_Element)
    [(n_time, TFloat); (n_value1, TFloat); (n_value2, TFloat)]
    [ERef n_IntervalSchedule n_CIM15_IEC61970_Core_IrregularIntervalSchedule_IrregularIntervalSchedule false (Some n_TimePoints)];
(* Model/CIM15/CIM15.ecore:21555-21593 *)
  EClass n_CIM15_IEC61970_Core_Name_Name n_Name (Some n_CIM15_Element_Element)
    [(n_name, TText)]
    [ERef n_NameType n_CIM15_IEC61970_Core_NameType_NameType false (Some n_Names); ERef n_IdentifiedObject n_CIM15_IEC61970_Core_IdentifiedObject_IdentifiedObject false (Some n_Names)];
(* Model/CIM15/CIM15.ecore:21462-21509 *)
  EClass n_CIM15_IEC61970_Core_NameType_NameType n_NameType (Some n_CIM15_Element_Element)
    [(n_name, TText); (n_description, TText)]
    [ERef n_Names n_CIM15_IEC61970_Core_Name_Name true (Some n_NameType); ERef n_NameTypeAuthority n_CIM15_IEC61970_Core_NameTypeAuthority_NameTypeAuthority false (Some n_NameTypes)];
(* Model/CIM15/CIM15.ecore:20653-20691 *)
  EClass n_CIM15_IEC61970_Core_NameTypeAuthority_NameTypeAuthority n_NameTypeAuthority (Some n_CIM15_Element_Element)
    [(n_name, TText); (n_description, TText)]
    [ERef n_NameTypes n_CIM15_IEC61970_Core_NameType_NameType true (Some n_NameTypeAuthority)];
(* Model/CIM15/CIM15.ecore:21905-21925 *)
  EClass n_CIM15_IEC61970_Core_OperatingParticipant_OperatingParticipant n_OperatingParticipant (Some n_CIM15_IEC61970_Core_IdentifiedObject_IdentifiedObject)
    []
    [ERef n_OperatingShare n_CIM15_IEC61970_Core_OperatingShare_OperatingShare true (Some n_OperatingParticipant)];
(* Model/CIM15/CIM15.ecore:21926-21964 *)
  EClass n_CIM15_IEC61970_Core_OperatingShare_OperatingShare n_OperatingShare (Some n_CIM15_Element_Element)
    [(n_percentage, TFloat)]
    [ERef n_PowerSystemResource n_CIM15_IEC61970_Core_PowerSystemResource_PowerSystemResource false (Some n_OperatingShare); ERef n_OperatingParticipant n_CIM15_IEC61970_Core_OperatingParticipant_OperatingParticipant false (Some n_OperatingShare)];
(* Model/CIM15/CIM15.ecore:20889-20909 *)
  EClass n_CIM15_IEC61970_Core_PSRType_PSRType n_PSRType (Some n_CIM15_IEC61970_Core_IdentifiedObject_IdentifiedObject)
    []
    [ERef n_PowerSystemResources n_CIM15_IEC61970_Core_PowerSystemResource_PowerSystemResource true (Some n_PSRType)];
(* Model/CIM15/CIM15.ecore:20554-20652 *)
  EClass n_CIM15_IEC61970_Core_PowerSystemResource_PowerSystemResource n_PowerSystemResource (Some n_CIM15_IEC61970_Core_IdentifiedObject_IdentifiedObject)
    []
    [ERef n_ChangeItems n_CIM15_IEC61970_Informative_InfOperations_ChangeItem_ChangeItem true (Some n_PowerSystemResource); ERef n_ScheduleSteps n_CIM15_IEC61970_Informative_InfOperations_SwitchingStep_SwitchingStep true (Some n_PowerSystemResources); ERef n_SafetyDocuments n_CIM15_IEC61970_Informative_InfOperations_SafetyDocument_SafetyDocument true (Some n_PowerSystemResource); ERef n_OperatingShare n_CIM15_IEC61970_Core_OperatingShare_OperatingShare true (Some n_PowerSystemResource); ERef n_DocumentRoles n_CIM15_IEC61970_Informative_InfCommon_DocPsrRole_DocPsrRole true (Some n_PowerSystemResource); ERef n_PsrLists n_CIM15_IEC61970_Core_PsrList_PsrList true (Some n_PowerSystemResources); ERef n_Measurements n_CIM15_IEC61970_Meas_Measurement_Measurement true (Some n_PowerSystemResource); ERef n_ReportingGroup n_CIM15_IEC61970_Core_ReportingGroup_ReportingGroup true (Some n_PowerSystemResource); ERef n_PSRType n_CIM15_IEC61970_Core_PSRType_PSRType false (Some n_PowerSystemResources); ERef n_Assets n_CIM15_IEC61968_Assets_Asset_Asset true (Some n_PowerSystemResources); ERef n_ErpOrganisationRoles n_CIM15_IEC61970_Informative_InfOperations_OrgPsrRole_OrgPsrRole true (Some n_PowerSystemResource); ERef n_Location n_CIM15_IEC61968_Common_Location_Location false (Some n_PowerSystemResources); ERef n_PSREvent n_CIM15_IEC61970_Informative_InfOperations_PSREvent_PSREvent true (Some n_PowerSystemResource); ERef n_NetworkDataSets n_CIM15_IEC61970_Informative_InfOperations_NetworkDataSet_NetworkDataSet true (Some n_PowerSystemResources); ERef n_OutageSchedule n_CIM15_IEC61970_Outage_OutageSchedule_OutageSchedule false (Some n_PowerSystemResource)];
(* Model/CIM15/CIM15.ecore:21097-21119 *)
  EClass n_CIM15_IEC61970_Core_PsrList_PsrList n_PsrList (Some n_CIM15_IEC61970_Core_IdentifiedObject_IdentifiedObject)
    [(n_typePSRList, TText)]
    [ERef n_PowerSystemResources n_CIM15_IEC61970_Core_PowerSystemResource_PowerSystemResource true (Some n_PsrLists)];
(* Model/CIM15/CIM15.ecore:21860-21898 *)
  EClass n_CIM15_IEC61970_Core_RegularIntervalSchedule_RegularIntervalSchedule n_RegularIntervalSchedule (Some n_CIM15_IEC61970_Core_BasicIntervalSchedule_BasicIntervalSchedule)
    [(n_endTime, TDate); (n_timeStep, TFloat)]
    [ERef n_TimePoints n_CIM15_IEC61970_Core_RegularTimePoint_RegularTimePoint true (Some n_IntervalSchedule)];
(* Model/CIM15/CIM15.ecore:20802-20849 *)
  EClass n_CIM15_IEC61970_Core_RegularTimePoint_RegularTimePoint n_RegularTimePoint (Some n_CIM15_Element_Element)
    [(n_value2, TFloat); (n_value1, TFloat); (n_sequenceNumber, TInt)]
    [ERef n_IntervalSchedule n_CIM15_IEC61970_Core_RegularIntervalSchedule_RegularIntervalSchedule false (Some n_TimePoints)];
(* Model/CIM15/CIM15.ecore:21028-21075 *)
  EClass n_CIM15_IEC61970_Core_ReportingGroup_ReportingGroup n_ReportingGroup (Some n_CIM15_IEC61970_Core_IdentifiedObject_IdentifiedObject)
    []
    [ERef n_BusNameMarker n_CIM15_IEC61970_Topology_BusNameMarker_BusNameMarker true (Some n_ReportingGroup); ERef n_ReportingSuperGroup n_CIM15_IEC61970_Core_ReportingSuperGroup_ReportingSuperGroup false (Some n_ReportingGroup); ERef n_TopologicalNode n_CIM15_IEC61970_Topology_TopologicalNode_TopologicalNode true (Some n_ReportingGroup); ERef n_PowerSystemResource n_CIM15_IEC61970_Core_PowerSystemResource_PowerSystemResource true (Some n_ReportingGroup)];
(* Model/CIM15/CIM15.ecore:22028-22048 *)
  EClass n_CIM15_IEC61970_Core_ReportingSuperGroup_ReportingSuperGroup n_ReportingSuperGroup (Some n_CIM15_IEC61970_Core_IdentifiedObject_IdentifiedObject)
    []
    [ERef n_ReportingGroup n_CIM15_IEC61970_Core_ReportingGroup_ReportingGroup true (Some n_ReportingSuperGroup)];
(* Model/CIM15/CIM15.ecore:21423-21461 *)
  EClass n_CIM15_IEC61970_Core_SubGeographicalRegion_SubGeographicalRegion n_SubGeographicalRegion (Some n_CIM15_IEC61970_Core_IdentifiedObject_IdentifiedObject)
    []
    [ERef n_Substations n_CIM15_IEC61970_Core_Substation_Substation true (Some n_Region); ERef n_Lines n_CIM15_IEC61970_Wires_Line_Line true (Some n_Region); ERef n_Region n_CIM15_IEC61970_Core_GeographicalRegion_GeographicalRegion false (Some n_Regions)];
(* Model/CIM15/CIM15.ecore:21510-21548 *)
  EClass n_CIM15_IEC61970_Core_Substation_Substation n_Substation (Some n_CIM15_IEC61970_Core_EquipmentContainer_EquipmentContainer)
    []
    [ERef n_Bays n_CIM15_IEC61970_Core_Bay_Bay true (Some n_Substation); ERef n_VoltageLevels n_CIM15_IEC61970_Core_VoltageLevel_VoltageLevel true (Some n_Substation); ERef n_Region n_CIM15_IEC61970_Core_SubGeographicalRegion_SubGeographicalRegion false (Some n_Substations)];
(* Model/CIM15/CIM15.ecore:21651-21813 *)
  EClass n_CIM15_IEC61970_Core_Terminal_Terminal n_Terminal (Some n_CIM15_IEC61970_Core_IdentifiedObject_IdentifiedObject)
    [(n_phases, enum_cim15_IEC61970_Core_PhaseCode); (n_connected, TBool); (n_sequenceNumber, TInt)]
    [ERef n_BushingInfo n_CIM15_IEC61970_Informative_InfAssets_Bushing_Bushing false (Some n_Terminal); ERef n_TieFlow n_CIM15_IEC61970_ControlArea_TieFlow_TieFlow true (Some n_Terminal); ERef n_HasSecond_MutualCoupling n_CIM15_IEC61970_Wires_MutualCoupling_MutualCoupling true (Some n_Second_Terminal); ERef n_OperationalLimitSet n_CIM15_IEC61970_OperationalLimits_OperationalLimitSet_OperationalLimitSet true (Some n_Terminal); ERef n_Measurements n_CIM15_IEC61970_Meas_Measurement_Measurement true (Some n_Terminal); ERef n_ConductingEquipment n_CIM15_IEC61970_Core_ConductingEquipment_ConductingEquipment false (Some n_Terminals); ERef n_RegulatingControl n_CIM15_IEC61970_Wires_RegulatingControl_RegulatingControl true (Some n_Terminal); ERef n_HasFirst_MutualCoupling n_CIM15_IEC61970_Wires_MutualCoupling_MutualCoupling true (Some n_First_Terminal); ERef n_AuxiliaryEquipment n_CIM15_IEC61970_AuxiliaryEquipment_AuxiliaryEquipment_AuxiliaryEquipment true (Some n_Terminal); ERef n_TransformerEnd n_CIM15_IEC61970_Wires_TransformerEnd_TransformerEnd true (Some n_Terminal); ERef n_ConnectivityNode n_CIM15_IEC61970_Core_ConnectivityNode_ConnectivityNode false (Some n_Terminals); ERef n_BranchGroupTerminal n_CIM15_IEC61970_OperationalLimits_BranchGroupTerminal_BranchGroupTerminal true (Some n_Terminal); ERef n_BusNameMarker n_CIM15_IEC61970_Topology_BusNameMarker_BusNameMarker false (Some n_Terminal); ERef n_SvPowerFlow n_CIM15_IEC61970_StateVariables_SvPowerFlow_SvPowerFlow false (Some n_Terminal); ERef n_TopologicalNode n_CIM15_IEC61970_Topology_TopologicalNode_TopologicalNode false (Some n_Terminal)];
(* Model/CIM15/CIM15.ecore:21971-22027 *)
  EClass n_CIM15_IEC61970_Core_VoltageLevel_VoltageLevel n_VoltageLevel (Some n_CIM15_IEC61970_Core_EquipmentContainer_EquipmentContainer)
    [(n_highVoltageLimit, TFloat); (n_lowVoltageLimit, TFloat)]
    [ERef n_Bays n_CIM15_IEC61970_Core_Bay_Bay true (Some n_VoltageLevel); ERef n_Substation n_CIM15_IEC61970_Core_Substation_Substation false (Some n_VoltageLevels); ERef n_BaseVoltage n_CIM15_IEC61970_Core_BaseVoltage_BaseVoltage false (Some n_VoltageLevel)];
(* Model/CIM15/CIM15.ecore:22952-22974 *)
  EClass n_CIM15_IEC61970_CutsJumpers_Clamp_Clamp n_Clamp (Some n_CIM15_IEC61970_Core_ConductingEquipment_ConductingEquipment)
    [(n_lengthFromTerminal1, TFloat)]
    [ERef n_ACLineSegment n_CIM15_IEC61970_Wires_ACLineSegment_ACLineSegment false (Some n_Clamp)];
(* Model/CIM15/CIM15.ecore:22929-22951 *)
  EClass n_CIM15_IEC61970_CutsJumpers_Cut_Cut n_Cut (Some n_CIM15_IEC61970_Wires_Switch_Switch)
    [(n_lengthFromTerminal1, TFloat)]
    [ERef n_ACLineSegment n_CIM15_IEC61970_Wires_ACLineSegment_ACLineSegment false (Some n_Cut)];
(* Model/CIM15/CIM15.ecore:20013-20043 *)
  EClass n_CIM15_IEC61970_Domain_DateTimeInterval_DateTimeInterval n_DateTimeInterval None
    [(n_start, TDate); (n_end, TDate)]
    [];
(* Model/CIM15/CIM15.ecore:23361-23390 *)
  EClass n_CIM15_IEC61970_Equivalents_EquivalentBranch_EquivalentBranch n_EquivalentBranch (Some n_CIM15_IEC61970_Equivalents_EquivalentEquipment_EquivalentEquipment)
    [(n_x, TFloat); (n_r, TFloat)]
    [];
(* Model/CIM15/CIM15.ecore:23261-23281 *)
  EClass n_CIM15_IEC61970_Equivalents_EquivalentEquipment_EquivalentEquipment n_EquivalentEquipment (Some n_CIM15_IEC61970_Core_ConductingEquipment_ConductingEquipment)
    []
    [ERef n_EquivalentNetwork n_CIM15_IEC61970_Equivalents_EquivalentNetwork_EquivalentNetwork false (Some n_EquivalentEquipments)];
(* Model/CIM15/CIM15.ecore:23303-23360 *)
  EClass n_CIM15_IEC61970_Equivalents_EquivalentInjection_EquivalentInjection n_EquivalentInjection (Some n_CIM15_IEC61970_Equivalents_EquivalentEquipment_EquivalentEquipment)
    [(n_regulationCapability, TBool); (n_maxP, TFloat); (n_regulationStatus, TBool); (n_regulationTarget, TFloat); (n_minP, TFloat)]
    [];
(* Model/CIM15/CIM15.ecore:23282-23302 *)
  EClass n_CIM15_IEC61970_Equivalents_EquivalentNetwork_EquivalentNetwork n_EquivalentNetwork (Some n_CIM15_IEC61970_Core_ConnectivityNodeContainer_ConnectivityNodeContainer)
    []
    [ERef n_EquivalentEquipments n_CIM15_IEC61970_Equivalents_EquivalentEquipment_EquivalentEquipment true (Some n_EquivalentNetwork)];
(* Model/CIM15/CIM15.ecore:23231-23260 *)
  EClass n_CIM15_IEC61970_Equivalents_EquivalentShunt_EquivalentShunt n_EquivalentShunt (Some n_CIM15_IEC61970_Equivalents_EquivalentEquipment_EquivalentEquipment)
    [(n_b, TFloat); (n_g, TFloat)]
    [];
(* Model/CIM15/CIM15.ecore:2629-2832 *)
  EClass n_CIM15_IEC61970_Generation_GenerationDynamics_BWRSteamSupply_BWRSteamSupply n_BWRSteamSupply (Some n_CIM15_IEC61970_Generation_GenerationDynamics_SteamSupply_SteamSupply)
    [(n_lowerLimit, TFloat); (n_pressureSetpointTC1, TFloat); (n_pressureSetpointTC2, TFloat); (n_rodPattern, TFloat); (n_pressureSetpointGA, TFloat); (n_upperLimit, TFloat); (n_pressureLimit, TFloat); (n_rfAux5, TFloat); (n_rfAux6, TFloat); (n_rfAux3, TFloat); (n_rodPatternConstant, TFloat); (n_rfAux4, TFloat); (n_rfAux7, TFloat); (n_rfAux8, TFloat); (n_highPowerLimit, TFloat); (n_rfAux1, TFloat); (n_inCoreThermalTC, TFloat); (n_rfAux2, TFloat); (n_proportionalGain, TFloat); (n_lowPowerLimit, TFloat); (n_integralGain, TFloat)]
    [];
(* Model/CIM15/CIM15.ecore:3780-3801 *)
  EClass n_CIM15_IEC61970_Generation_GenerationDynamics_CTTempActivePowerCurve_CTTempActivePowerCurve n_CTTempActivePowerCurve (Some n_CIM15_IEC61970_Core_Curve_Curve)
    []
    [ERef n_CombustionTurbine n_CIM15_IEC61970_Generation_GenerationDynamics_CombustionTurbine_CombustionTurbine false (Some n_CTTempActivePowerCurve)];
(* Model/CIM15/CIM15.ecore:3600-3713 *)
  EClass n_CIM15_IEC61970_Generation_GenerationDynamics_CombustionTurbine_CombustionTurbine n_CombustionTurbine (Some n_CIM15_IEC61970_Generation_GenerationDynamics_PrimeMover_PrimeMover)
    [(n_capabilityVersusFrequency, TFloat); (n_referenceTemp, TFloat); (n_auxPowerVersusFrequency, TFloat); (n_powerVariationByTemp, TFloat); (n_auxPowerVersusVoltage, TFloat); (n_timeConstant, TFloat); (n_heatRecoveryFlag, TBool); (n_ambientTemp, TFloat)]
    [ERef n_HeatRecoveryBoiler n_CIM15_IEC61970_Generation_GenerationDynamics_HeatRecoveryBoiler_HeatRecoveryBoiler false (Some n_CombustionTurbines); ERef n_AirCompressor n_CIM15_IEC61970_Generation_Production_AirCompressor_AirCompressor false (Some n_CombustionTurbine); ERef n_CTTempActivePowerCurve n_CIM15_IEC61970_Generation_GenerationDynamics_CTTempActivePowerCurve_CTTempActivePowerCurve false (Some n_CombustionTurbine)];
(* Model/CIM15/CIM15.ecore:3758-3779 *)
  EClass n_CIM15_IEC61970_Generation_GenerationDynamics_DrumBoiler_DrumBoiler n_DrumBoiler (Some n_CIM15_IEC61970_Generation_GenerationDynamics_FossilSteamSupply_FossilSteamSupply)
    [(n_drumBoilerRating, TFloat)]
    [];
(* Model/CIM15/CIM15.ecore:3104-3355 *)
  EClass n_CIM15_IEC61970_Generation_GenerationDynamics_FossilSteamSupply_FossilSteamSupply n_FossilSteamSupply (Some n_CIM15_IEC61970_Generation_GenerationDynamics_SteamSupply_SteamSupply)
    [(n_fuelDemandLimit, TFloat); (n_auxPowerVersusFrequency, TFloat); (n_mechPowerSensorLag, TFloat); (n_pressureCtrlDG, TFloat); (n_throttlePressureSP, TFloat); (n_feedWaterPG, TFloat); (n_feedWaterTC, TFloat); (n_controlPC, TFloat); (n_fuelSupplyDelay, TFloat); (n_controlPED, TFloat); (n_controlPEB, TFloat); (n_boilerControlMode, enum_cim15_IEC61970_Generation_GenerationDynamics_BoilerControlMode); (n_controlTC, TFloat); (n_minErrorRateP, TFloat); (n_superHeater1Capacity, TFloat); (n_controlErrorBiasP, TFloat); (n_pressureCtrlIG, TFloat); (n_feedWaterIG, TFloat); (n_pressureFeedback, TInt); (n_auxPowerVersusVoltage, TFloat); (n_fuelSupplyTC, TFloat); (n_maxErrorRateP, TFloat); (n_superHeaterPipePD, TFloat); (n_pressureCtrlPG, TFloat); (n_superHeater2Capacity, TFloat); (n_controlIC, TFloat)]
    [];
(* Model/CIM15/CIM15.ecore:3714-3745 *)
  EClass n_CIM15_IEC61970_Generation_GenerationDynamics_HeatRecoveryBoiler_HeatRecoveryBoiler n_HeatRecoveryBoiler (Some n_CIM15_IEC61970_Generation_GenerationDynamics_FossilSteamSupply_FossilSteamSupply)
    [(n_steamSupplyRating2, TFloat)]
    [ERef n_CombustionTurbines n_CIM15_IEC61970_Generation_GenerationDynamics_CombustionTurbine_CombustionTurbine true (Some n_HeatRecoveryBoiler)];
(* Model/CIM15/CIM15.ecore:2833-2943 *)
  EClass n_CIM15_IEC61970_Generation_GenerationDynamics_HydroTurbine_HydroTurbine n_HydroTurbine (Some n_CIM15_IEC61970_Generation_GenerationDynamics_PrimeMover_PrimeMover)
    [(n_maxHeadMaxP, TFloat); (n_minHeadMaxP, TFloat); (n_turbineRating, TFloat); (n_gateRateLimit, TFloat); (n_turbineType, enum_cim15_IEC61970_Generation_GenerationDynamics_TurbineType); (n_gateUpperLimit, TFloat); (n_speedRating, TFloat); (n_speedRegulation, TFloat); (n_transientDroopTime, TFloat); (n_transientRegulation, TFloat); (n_waterStartingTime, TFloat)]
    [];
(* Model/CIM15/CIM15.ecore:3368-3559 *)
  EClass n_CIM15_IEC61970_Generation_GenerationDynamics_PWRSteamSupply_PWRSteamSupply n_PWRSteamSupply (Some n_CIM15_IEC61970_Generation_GenerationDynamics_SteamSupply_SteamSupply)
    [(n_coreNeutronicsHT, TFloat); (n_steamFlowFG, TFloat); (n_hotLegToColdLegGain, TFloat); (n_steamPressureDropLagTC, TFloat); (n_coreHTLagTC1, TFloat); (n_coreHTLagTC2, TFloat); (n_hotLegLagTC, TFloat); (n_throttlePressureSP, TFloat); (n_hotLegSteamGain, TFloat); (n_throttlePressureFactor, TFloat); (n_coldLegFBLagTC, TFloat); (n_pressureCG, TFloat); (n_steamPressureFG, TFloat); (n_feedbackFactor, TFloat); (n_coreNeutronicsEffTC, TFloat); (n_coldLegFG2, TFloat); (n_coldLegFG1, TFloat); (n_coldLegLagTC, TFloat); (n_coldLegFBLeadTC2, TFloat); (n_coldLegFBLeadTC1, TFloat)]
    [];
(* Model/CIM15/CIM15.ecore:3569-3599 *)
  EClass n_CIM15_IEC61970_Generation_GenerationDynamics_PrimeMover_PrimeMover n_PrimeMover (Some n_CIM15_IEC61970_Core_PowerSystemResource_PowerSystemResource)
    [(n_primeMoverRating, TFloat)]
    [ERef n_SynchronousMachines n_CIM15_IEC61970_Wires_SynchronousMachine_SynchronousMachine true (Some n_PrimeMovers)];
(* Model/CIM15/CIM15.ecore:3073-3103 *)
  EClass n_CIM15_IEC61970_Generation_GenerationDynamics_SteamSupply_SteamSupply n_SteamSupply (Some n_CIM15_IEC61970_Core_PowerSystemResource_PowerSystemResource)
    [(n_steamSupplyRating, TFloat)]
    [ERef n_SteamTurbines n_CIM15_IEC61970_Generation_GenerationDynamics_SteamTurbine_SteamTurbine true (Some n_SteamSupplys)];
(* Model/CIM15/CIM15.ecore:2944-3072 *)
  EClass n_CIM15_IEC61970_Generation_GenerationDynamics_SteamTurbine_SteamTurbine n_SteamTurbine (Some n_CIM15_IEC61970_Generation_GenerationDynamics_PrimeMover_PrimeMover)
    [(n_shaft1PowerIP, TFloat); (n_shaft2PowerIP, TFloat); (n_crossoverTC, TFloat); (n_shaft1PowerLP1, TFloat); (n_shaft1PowerLP2, TFloat); (n_reheater1TC, TFloat); (n_shaft2PowerLP1, TFloat); (n_shaft2PowerLP2, TFloat); (n_reheater2TC, TFloat); (n_steamChestTC, TFloat); (n_shaft1PowerHP, TFloat); (n_shaft2PowerHP, TFloat)]
    [ERef n_SteamSupplys n_CIM15_IEC61970_Generation_GenerationDynamics_SteamSupply_SteamSupply true (Some n_SteamTurbines)];
(* Model/CIM15/CIM15.ecore:3356-3367 *)
  EClass n_CIM15_IEC61970_Generation_GenerationDynamics_Subcritical_Subcritical n_Subcritical (Some n_CIM15_IEC61970_Generation_GenerationDynamics_FossilSteamSupply_FossilSteamSupply)
    []
    [];
(* Model/CIM15/CIM15.ecore:3746-3757 *)
  EClass n_CIM15_IEC61970_Generation_GenerationDynamics_Supercritical_Supercritical n_Supercritical (Some n_CIM15_IEC61970_Generation_GenerationDynamics_FossilSteamSupply_FossilSteamSupply)
    []
    [];
(* Model/CIM15/CIM15.ecore:2457-2497 *)
  EClass n_CIM15_IEC61970_Generation_Production_AirCompressor_AirCompressor n_AirCompressor (Some n_CIM15_IEC61970_Core_PowerSystemResource_PowerSystemResource)
    [(n_airCompressorRating, TFloat)]
    [ERef n_CombustionTurbine n_CIM15_IEC61970_Generation_GenerationDynamics_CombustionTurbine_CombustionTurbine false (Some n_AirCompressor); ERef n_CAESPlant n_CIM15_IEC61970_Generation_Production_CAESPlant_CAESPlant false (Some n_AirCompressor)];
(* Model/CIM15/CIM15.ecore:2409-2456 *)
  EClass n_CIM15_IEC61970_Generation_Production_CAESPlant_CAESPlant n_CAESPlant (Some n_CIM15_IEC61970_Core_PowerSystemResource_PowerSystemResource)
    [(n_ratedCapacityP, TFloat); (n_energyStorageCapacity, TFloat)]
    [ERef n_AirCompressor n_CIM15_IEC61970_Generation_Production_AirCompressor_AirCompressor false (Some n_CAESPlant); ERef n_ThermalGeneratingUnit n_CIM15_IEC61970_Generation_Production_ThermalGeneratingUnit_ThermalGeneratingUnit false (Some n_CAESPlant)];
(* Model/CIM15/CIM15.ecore:591-670 *)
  EClass n_CIM15_IEC61970_Generation_Production_CogenerationPlant_CogenerationPlant n_CogenerationPlant (Some n_CIM15_IEC61970_Core_PowerSystemResource_PowerSystemResource)
    [(n_cogenLPSteamRating, TFloat); (n_cogenLPSendoutRating, TFloat); (n_ratedP, TFloat); (n_cogenHPSendoutRating, TFloat); (n_cogenHPSteamRating, TFloat)]
    [ERef n_SteamSendoutSchedule n_CIM15_IEC61970_Generation_Production_SteamSendoutSchedule_SteamSendoutSchedule false (Some n_CogenerationPlant); ERef n_ThermalGeneratingUnits n_CIM15_IEC61970_Generation_Production_ThermalGeneratingUnit_ThermalGeneratingUnit true (Some n_CogenerationPlant)];
(* Model/CIM15/CIM15.ecore:987-1017 *)
  EClass n_CIM15_IEC61970_Generation_Production_CombinedCyclePlant_CombinedCyclePlant n_CombinedCyclePlant (Some n_CIM15_IEC61970_Core_PowerSystemResource_PowerSystemResource)
    [(n_combCyclePlantRating, TFloat)]
    [ERef n_ThermalGeneratingUnits n_CIM15_IEC61970_Generation_Production_ThermalGeneratingUnit_ThermalGeneratingUnit true (Some n_CombinedCyclePlant)];
(* Model/CIM15/CIM15.ecore:1183-1221 *)
  EClass n_CIM15_IEC61970_Generation_Production_EmissionAccount_EmissionAccount n_EmissionAccount (Some n_CIM15_IEC61970_Core_Curve_Curve)
    [(n_emissionType, enum_cim15_IEC61970_Generation_Production_EmissionType); (n_emissionValueSource, enum_cim15_IEC61970_Generation_Production_EmissionValueSource)]
    [ERef n_ThermalGeneratingUnit n_CIM15_IEC61970_Generation_Production_ThermalGeneratingUnit_ThermalGeneratingUnit false (Some n_EmmissionAccounts)];
(* Model/CIM15/CIM15.ecore:857-904 *)
  EClass n_CIM15_IEC61970_Generation_Production_EmissionCurve_EmissionCurve n_EmissionCurve (Some n_CIM15_IEC61970_Core_Curve_Curve)
    [(n_emissionContent, TFloat); (n_isNetGrossP, TBool); (n_emissionType, enum_cim15_IEC61970_Generation_Production_EmissionType)]
    [ERef n_ThermalGeneratingUnit n_CIM15_IEC61970_Generation_Production_ThermalGeneratingUnit_ThermalGeneratingUnit false (Some n_EmissionCurves)];
(* Model/CIM15/CIM15.ecore:1518-1639 *)
  EClass n_CIM15_IEC61970_Generation_Production_FossilFuel_FossilFuel n_FossilFuel (Some n_CIM15_IEC61970_Core_IdentifiedObject_IdentifiedObject)
    [(n_fuelSulfur, TFloat); (n_fuelCost, TFloat); (n_fossilFuelType, enum_cim15_IEC61970_Generation_Production_FuelType); (n_lowBreakpointP, TFloat); (n_fuelDispatchCost, TFloat); (n_fuelHandlingCost, TFloat); (n_fuelHeatContent, TFloat); (n_fuelEffFactor, TFloat); (n_fuelMixture, TFloat); (n_highBreakpointP, TFloat)]
    [ERef n_ThermalGeneratingUnit n_CIM15_IEC61970_Generation_Production_ThermalGeneratingUnit_ThermalGeneratingUnit false (Some n_FossilFuels); ERef n_FuelAllocationSchedules n_CIM15_IEC61970_Generation_Production_FuelAllocationSchedule_FuelAllocationSchedule true (Some n_FossilFuel)];
(* Model/CIM15/CIM15.ecore:696-772 *)
  EClass n_CIM15_IEC61970_Generation_Production_FuelAllocationSchedule_FuelAllocationSchedule n_FuelAllocationSchedule (Some n_CIM15_IEC61970_Core_Curve_Curve)
    [(n_minFuelAllocation, TFloat); (n_fuelAllocationEndDate, TDate); (n_maxFuelAllocation, TFloat); (n_fuelAllocationStartDate, TDate); (n_fuelType, enum_cim15_IEC61970_Generation_Production_FuelType)]
    [ERef n_FossilFuel n_CIM15_IEC61970_Generation_Production_FossilFuel_FossilFuel false (Some n_FuelAllocationSchedules); ERef n_ThermalGeneratingUnit n_CIM15_IEC61970_Generation_Production_ThermalGeneratingUnit_ThermalGeneratingUnit false (Some n_FuelAllocationSchedules)];
(* Model/CIM15/CIM15.ecore:1458-1487 *)
  EClass n_CIM15_IEC61970_Generation_Production_GenUnitOpCostCurve_GenUnitOpCostCurve n_GenUnitOpCostCurve (Some n_CIM15_IEC61970_Core_Curve_Curve)
    [(n_isNetGrossP, TBool)]
    [ERef n_GeneratingUnit n_CIM15_IEC61970_Generation_Production_GeneratingUnit_GeneratingUnit false (Some n_GenUnitOpCostCurves)];
(* Model/CIM15/CIM15.ecore:675-695 *)
  EClass n_CIM15_IEC61970_Generation_Production_GenUnitOpSchedule_GenUnitOpSchedule n_GenUnitOpSchedule (Some n_CIM15_IEC61970_Core_RegularIntervalSchedule_RegularIntervalSchedule)
    []
    [ERef n_GeneratingUnit n_CIM15_IEC61970_Generation_Production_GeneratingUnit_GeneratingUnit false (Some n_GenUnitOpSchedule)];
(* Model/CIM15/CIM15.ecore:1641-2032 *)
  EClass n_CIM15_IEC61970_Generation_Production_GeneratingUnit_GeneratingUnit n_GeneratingUnit (Some n_CIM15_IEC61970_Core_Equipment_Equipment)
    [(n_ratedGrossMinP, TFloat); (n_efficiency, TFloat); (n_stepChange, TFloat); (n_ratedNetMaxP, TFloat); (n_tieLinePF, TFloat); (n_dispReserveFlag, TBool); (n_controlPulseHigh, TFloat); (n_startupTime, TFloat); (n_maxOperatingP, TFloat); (n_genControlSource, enum_cim15_IEC61970_Generation_Production_GeneratorControlSource); (n_normalPF, TFloat); (n_initialP, TFloat); (n_spinReserveRamp, TFloat); (n_allocSpinResP, TFloat); (n_minEconomicP, TFloat); (n_longPF, TFloat); (n_nominalP, TFloat); (n_controlResponseRate, TFloat); (n_ratedGrossMaxP, TFloat); (n_penaltyFactor, TFloat); (n_fastStartFlag, TBool); (n_minimumOffTime, TFloat); (n_shortPF, TFloat); (n_governorMPL, TFloat); (n_energyMinP, TFloat); (n_fuelPriority, TInt); (n_maxEconomicP, TFloat); (n_autoCntrlMarginP, TFloat); (n_highControlLimit, TFloat); (n_modelDetail, TBig); (n_controlPulseLow, TFloat); (n_raiseRampRate, TFloat); (n_controlDeadband, TFloat); (n_baseP, TFloat); (n_startupCost, TFloat); (n_variableCost, TFloat); (n_genOperatingMode, enum_cim15_IEC61970_Generation_Production_GeneratorOperatingMode); (n_lowerRampRate, TFloat); (n_minOperatingP, TFloat); (n_lowControlLimit, TFloat); (n_maximumAllowableSpinningReserve, TFloat); (n_genControlMode, enum_cim15_IEC61970_Generation_Production_GeneratorControlMode); (n_governorSCD, TFloat)]
    [ERef n_ControlAreaGeneratingUnit n_CIM15_IEC61970_ControlArea_ControlAreaGeneratingUnit_ControlAreaGeneratingUnit true (Some n_GeneratingUnit); ERef n_SynchronousMachines n_CIM15_IEC61970_Wires_SynchronousMachine_SynchronousMachine true (Some n_GeneratingUnit); ERef n_GenUnitOpSchedule n_CIM15_IEC61970_Generation_Production_GenUnitOpSchedule_GenUnitOpSchedule false (Some n_GeneratingUnit); ERef n_GrossToNetActivePowerCurves n_CIM15_IEC61970_Generation_Production_GrossToNetActivePowerCurve_GrossToNetActivePowerCurve true (Some n_GeneratingUnit); ERef n_GenUnitOpCostCurves n_CIM15_IEC61970_Generation_Production_GenUnitOpCostCurve_GenUnitOpCostCurve true (Some n_GeneratingUnit)];
(* Model/CIM15/CIM15.ecore:773-793 *)
  EClass n_CIM15_IEC61970_Generation_Production_GrossToNetActivePowerCurve_GrossToNetActivePowerCurve n_GrossToNetActivePowerCurve (Some n_CIM15_IEC61970_Core_Curve_Curve)
    []
    [ERef n_GeneratingUnit n_CIM15_IEC61970_Generation_Production_GeneratingUnit_GeneratingUnit false (Some n_GrossToNetActivePowerCurves)];
(* Model/CIM15/CIM15.ecore:2498-2563 *)
  EClass n_CIM15_IEC61970_Generation_Production_HeatInputCurve_HeatInputCurve n_HeatInputCurve (Some n_CIM15_IEC61970_Core_Curve_Curve)
    [(n_isNetGrossP, TBool); (n_heatInputEff, TFloat); (n_heatInputOffset, TFloat); (n_auxPowerOffset, TFloat); (n_auxPowerMult, TFloat)]
    [ERef n_ThermalGeneratingUnit n_CIM15_IEC61970_Generation_Production_ThermalGeneratingUnit_ThermalGeneratingUnit false (Some n_HeatInputCurve)];
(* Model/CIM15/CIM15.ecore:1018-1047 *)
  EClass n_CIM15_IEC61970_Generation_Production_HeatRateCurve_HeatRateCurve n_HeatRateCurve (Some n_CIM15_IEC61970_Core_Curve_Curve)
    [(n_isNetGrossP, TBool)]
    [ERef n_ThermalGeneratingUnit n_CIM15_IEC61970_Generation_Production_ThermalGeneratingUnit_ThermalGeneratingUnit false (Some n_HeatRateCurve)];
(* Model/CIM15/CIM15.ecore:2210-2231 *)
  EClass n_CIM15_IEC61970_Generation_Production_HydroGeneratingEfficiencyCurve_HydroGeneratingEfficiencyCurve n_HydroGeneratingEfficiencyCurve (Some n_CIM15_IEC61970_Core_Curve_Curve)
    []
    [ERef n_HydroGeneratingUnit n_CIM15_IEC61970_Generation_Production_HydroGeneratingUnit_HydroGeneratingUnit false (Some n_HydroGeneratingEfficiencyCurves)];
(* Model/CIM15/CIM15.ecore:1388-1456 *)
  EClass n_CIM15_IEC61970_Generation_Production_HydroGeneratingUnit_HydroGeneratingUnit n_HydroGeneratingUnit (Some n_CIM15_IEC61970_Generation_Production_GeneratingUnit_GeneratingUnit)
    [(n_energyConversionCapability, enum_cim15_IEC61970_Generation_Production_HydroEnergyConversionKind); (n_hydroUnitWaterCost, TFloat)]
    [ERef n_PenstockLossCurve n_CIM15_IEC61970_Generation_Production_PenstockLossCurve_PenstockLossCurve false (Some n_HydroGeneratingUnit); ERef n_HydroPowerPlant n_CIM15_IEC61970_Generation_Production_HydroPowerPlant_HydroPowerPlant false (Some n_HydroGeneratingUnits); ERef n_TailbayLossCurve n_CIM15_IEC61970_Generation_Production_TailbayLossCurve_TailbayLossCurve true (Some n_HydroGeneratingUnit); ERef n_HydroGeneratingEfficiencyCurves n_CIM15_IEC61970_Generation_Production_HydroGeneratingEfficiencyCurve_HydroGeneratingEfficiencyCurve true (Some n_HydroGeneratingUnit)];
(* Model/CIM15/CIM15.ecore:2279-2408 *)
  EClass n_CIM15_IEC61970_Generation_Production_HydroPowerPlant_HydroPowerPlant n_HydroPowerPlant (Some n_CIM15_IEC61970_Core_PowerSystemResource_PowerSystemResource)
    [(n_penstockType, enum_cim15_IEC61970_Generation_Production_PenstockType); (n_pumpRatedP, TFloat); (n_hydroPlantType, enum_cim15_IEC61970_Generation_Production_HydroPlantType); (n_surgeTankCrestLevel, TFloat); (n_dischargeTravelDelay, TFloat); (n_plantDischargeCapacity, TFloat); (n_plantRatedHead, TFloat); (n_genRatedP, TFloat); (n_surgeTankCode, enum_cim15_IEC61970_Generation_Production_SurgeTankCode)]
    [ERef n_HydroGeneratingUnits n_CIM15_IEC61970_Generation_Production_HydroGeneratingUnit_HydroGeneratingUnit true (Some n_HydroPowerPlant); ERef n_GenSourcePumpDischargeReservoir n_CIM15_IEC61970_Generation_Production_Reservoir_Reservoir false (Some n_UpstreamFromHydroPowerPlants); ERef n_Reservoir n_CIM15_IEC61970_Generation_Production_Reservoir_Reservoir false (Some n_HydroPowerPlants); ERef n_HydroPumps n_CIM15_IEC61970_Generation_Production_HydroPump_HydroPump true (Some n_HydroPowerPlant)];
(* Model/CIM15/CIM15.ecore:2114-2188 *)
  EClass n_CIM15_IEC61970_Generation_Production_HydroPump_HydroPump n_HydroPump (Some n_CIM15_IEC61970_Core_PowerSystemResource_PowerSystemResource)
    [(n_pumpDischAtMaxHead, TFloat); (n_pumpDischAtMinHead, TFloat); (n_pumpPowerAtMinHead, TFloat); (n_pumpPowerAtMaxHead, TFloat)]
    [ERef n_HydroPowerPlant n_CIM15_IEC61970_Generation_Production_HydroPowerPlant_HydroPowerPlant false (Some n_HydroPumps); ERef n_HydroPumpOpSchedule n_CIM15_IEC61970_Generation_Production_HydroPumpOpSchedule_HydroPumpOpSchedule false (Some n_HydroPump); ERef n_SynchronousMachine n_CIM15_IEC61970_Wires_SynchronousMachine_SynchronousMachine false (Some n_HydroPump)];
(* Model/CIM15/CIM15.ecore:905-925 *)
  EClass n_CIM15_IEC61970_Generation_Production_HydroPumpOpSchedule_HydroPumpOpSchedule n_HydroPumpOpSchedule (Some n_CIM15_IEC61970_Core_RegularIntervalSchedule_RegularIntervalSchedule)
    []
    [ERef n_HydroPump n_CIM15_IEC61970_Generation_Production_HydroPump_HydroPump false (Some n_HydroPumpOpSchedule)];
(* Model/CIM15/CIM15.ecore:1488-1517 *)
  EClass n_CIM15_IEC61970_Generation_Production_IncrementalHeatRateCurve_IncrementalHeatRateCurve n_IncrementalHeatRateCurve (Some n_CIM15_IEC61970_Core_Curve_Curve)
    [(n_isNetGrossP, TBool)]
    [ERef n_ThermalGeneratingUnit n_CIM15_IEC61970_Generation_Production_ThermalGeneratingUnit_ThermalGeneratingUnit false (Some n_IncrementalHeatRateCurve)];
(* Model/CIM15/CIM15.ecore:2189-2209 *)
  EClass n_CIM15_IEC61970_Generation_Production_InflowForecast_InflowForecast n_InflowForecast (Some n_CIM15_IEC61970_Core_RegularIntervalSchedule_RegularIntervalSchedule)
    []
    [ERef n_Reservoir n_CIM15_IEC61970_Generation_Production_Reservoir_Reservoir false (Some n_InflowForecasts)];
(* Model/CIM15/CIM15.ecore:794-814 *)
  EClass n_CIM15_IEC61970_Generation_Production_LevelVsVolumeCurve_LevelVsVolumeCurve n_LevelVsVolumeCurve (Some n_CIM15_IEC61970_Core_Curve_Curve)
    []
    [ERef n_Reservoir n_CIM15_IEC61970_Generation_Production_Reservoir_Reservoir false (Some n_LevelVsVolumeCurves)];
(* Model/CIM15/CIM15.ecore:845-856 *)
  EClass n_CIM15_IEC61970_Generation_Production_NuclearGeneratingUnit_NuclearGeneratingUnit n_NuclearGeneratingUnit (Some n_CIM15_IEC61970_Generation_Production_GeneratingUnit_GeneratingUnit)
    []
    [];
(* Model/CIM15/CIM15.ecore:1228-1248 *)
  EClass n_CIM15_IEC61970_Generation_Production_PenstockLossCurve_PenstockLossCurve n_PenstockLossCurve (Some n_CIM15_IEC61970_Core_Curve_Curve)
    []
    [ERef n_HydroGeneratingUnit n_CIM15_IEC61970_Generation_Production_HydroGeneratingUnit_HydroGeneratingUnit false (Some n_PenstockLossCurve)];
(* Model/CIM15/CIM15.ecore:409-590 *)
  EClass n_CIM15_IEC61970_Generation_Production_Reservoir_Reservoir n_Reservoir (Some n_CIM15_IEC61970_Core_PowerSystemResource_PowerSystemResource)
    [(n_spillwayCapacity, TFloat); (n_energyStorageRating, TFloat); (n_grossCapacity, TFloat); (n_riverOutletWorks, TText); (n_spillwayCrestLevel, TFloat); (n_normalMinOperateLevel, TFloat); (n_spillwayCrestLength, TFloat); (n_spillTravelDelay, TFloat); (n_activeStorageCapacity, TFloat); (n_spillWayGateType, enum_cim15_IEC61970_Generation_Production_SpillwayGateType); (n_fullSupplyLevel, TFloat)]
    [ERef n_LevelVsVolumeCurves n_CIM15_IEC61970_Generation_Production_LevelVsVolumeCurve_LevelVsVolumeCurve true (Some n_Reservoir); ERef n_TargetLevelSchedule n_CIM15_IEC61970_Generation_Production_TargetLevelSchedule_TargetLevelSchedule false (Some n_Reservoir); ERef n_HydroPowerPlants n_CIM15_IEC61970_Generation_Production_HydroPowerPlant_HydroPowerPlant true (Some n_Reservoir); ERef n_UpstreamFromHydroPowerPlants n_CIM15_IEC61970_Generation_Production_HydroPowerPlant_HydroPowerPlant true (Some n_GenSourcePumpDischargeReservoir); ERef n_InflowForecasts n_CIM15_IEC61970_Generation_Production_InflowForecast_InflowForecast true (Some n_Reservoir); ERef n_SpillsFromReservoir n_CIM15_IEC61970_Generation_Production_Reservoir_Reservoir false (Some n_SpillsIntoReservoirs); ERef n_SpillsIntoReservoirs n_CIM15_IEC61970_Generation_Production_Reservoir_Reservoir true (Some n_SpillsFromReservoir)];
(* Model/CIM15/CIM15.ecore:2240-2278 *)
  EClass n_CIM15_IEC61970_Generation_Production_ShutdownCurve_ShutdownCurve n_ShutdownCurve (Some n_CIM15_IEC61970_Core_Curve_Curve)
    [(n_shutdownDate, TDate); (n_shutdownCost, TFloat)]
    [ERef n_ThermalGeneratingUnit n_CIM15_IEC61970_Generation_Production_ThermalGeneratingUnit_ThermalGeneratingUnit false (Some n_ShutdownCurve)];
(* Model/CIM15/CIM15.ecore:2033-2062 *)
  EClass n_CIM15_IEC61970_Generation_Production_StartIgnFuelCurve_StartIgnFuelCurve n_StartIgnFuelCurve (Some n_CIM15_IEC61970_Core_Curve_Curve)
    [(n_ignitionFuelType, enum_cim15_IEC61970_Generation_Production_FuelType)]
    [ERef n_StartupModel n_CIM15_IEC61970_Generation_Production_StartupModel_StartupModel false (Some n_StartIgnFuelCurve)];
(* Model/CIM15/CIM15.ecore:2063-2092 *)
  EClass n_CIM15_IEC61970_Generation_Production_StartMainFuelCurve_StartMainFuelCurve n_StartMainFuelCurve (Some n_CIM15_IEC61970_Core_Curve_Curve)
    [(n_mainFuelType, enum_cim15_IEC61970_Generation_Production_FuelType)]
    [ERef n_StartupModel n_CIM15_IEC61970_Generation_Production_StartupModel_StartupModel false (Some n_StartMainFuelCurve)];
(* Model/CIM15/CIM15.ecore:815-844 *)
  EClass n_CIM15_IEC61970_Generation_Production_StartRampCurve_StartRampCurve n_StartRampCurve (Some n_CIM15_IEC61970_Core_Curve_Curve)
    [(n_hotStandbyRamp, TFloat)]
    [ERef n_StartupModel n_CIM15_IEC61970_Generation_Production_StartupModel_StartupModel false (Some n_StartRampCurve)];
(* Model/CIM15/CIM15.ecore:1249-1387 *)
  EClass n_CIM15_IEC61970_Generation_Production_StartupModel_StartupModel n_StartupModel (Some n_CIM15_IEC61970_Core_IdentifiedObject_IdentifiedObject)
    [(n_startupCost, TFloat); (n_stbyAuxP, TFloat); (n_minimumRunTime, TFloat); (n_riskFactorCost, TFloat); (n_minimumDownTime, TFloat); (n_fixedMaintCost, TFloat); (n_startupDate, TDate); (n_hotStandbyHeat, TFloat); (n_startupPriority, TInt); (n_incrementalMaintCost, TFloat)]
    [ERef n_StartRampCurve n_CIM15_IEC61970_Generation_Production_StartRampCurve_StartRampCurve false (Some n_StartupModel); ERef n_StartMainFuelCurve n_CIM15_IEC61970_Generation_Production_StartMainFuelCurve_StartMainFuelCurve false (Some n_StartupModel); ERef n_StartIgnFuelCurve n_CIM15_IEC61970_Generation_Production_StartIgnFuelCurve_StartIgnFuelCurve false (Some n_StartupModel); ERef n_ThermalGeneratingUnit n_CIM15_IEC61970_Generation_Production_ThermalGeneratingUnit_ThermalGeneratingUnit false (Some n_StartupModel)];
(* Model/CIM15/CIM15.ecore:926-946 *)
  EClass n_CIM15_IEC61970_Generation_Production_SteamSendoutSchedule_SteamSendoutSchedule n_SteamSendoutSchedule (Some n_CIM15_IEC61970_Core_RegularIntervalSchedule_RegularIntervalSchedule)
    []
    [ERef n_CogenerationPlant n_CIM15_IEC61970_Generation_Production_CogenerationPlant_CogenerationPlant false (Some n_SteamSendoutSchedule)];
(* Model/CIM15/CIM15.ecore:2093-2113 *)
  EClass n_CIM15_IEC61970_Generation_Production_TailbayLossCurve_TailbayLossCurve n_TailbayLossCurve (Some n_CIM15_IEC61970_Core_Curve_Curve)
    []
    [ERef n_HydroGeneratingUnit n_CIM15_IEC61970_Generation_Production_HydroGeneratingUnit_HydroGeneratingUnit false (Some n_TailbayLossCurve)];
(* Model/CIM15/CIM15.ecore:947-985 *)
  EClass n_CIM15_IEC61970_Generation_Production_TargetLevelSchedule_TargetLevelSchedule n_TargetLevelSchedule (Some n_CIM15_IEC61970_Core_Curve_Curve)
    [(n_lowLevelLimit, TFloat); (n_highLevelLimit, TFloat)]
    [ERef n_Reservoir n_CIM15_IEC61970_Generation_Production_Reservoir_Reservoir false (Some n_TargetLevelSchedule)];
(* Model/CIM15/CIM15.ecore:1052-1182 *)
  EClass n_CIM15_IEC61970_Generation_Production_ThermalGeneratingUnit_ThermalGeneratingUnit n_ThermalGeneratingUnit (Some n_CIM15_IEC61970_Generation_Production_GeneratingUnit_GeneratingUnit)
    [(n_oMCost, TFloat)]
    [ERef n_CAESPlant n_CIM15_IEC61970_Generation_Production_CAESPlant_CAESPlant false (Some n_ThermalGeneratingUnit); ERef n_CogenerationPlant n_CIM15_IEC61970_Generation_Production_CogenerationPlant_CogenerationPlant false (Some n_ThermalGeneratingUnits); ERef n_ShutdownCurve n_CIM15_IEC61970_Generation_Production_ShutdownCurve_ShutdownCurve false (Some n_ThermalGeneratingUnit); ERef n_FossilFuels n_CIM15_IEC61970_Generation_Production_FossilFuel_FossilFuel true (Some n_ThermalGeneratingUnit); ERef n_HeatRateCurve n_CIM15_IEC61970_Generation_Production_HeatRateCurve_HeatRateCurve false (Some n_ThermalGeneratingUnit); ERef n_FuelAllocationSchedules n_CIM15_IEC61970_Generation_Production_FuelAllocationSchedule_FuelAllocationSchedule true (Some n_ThermalGeneratingUnit); ERef n_EmissionCurves n_CIM15_IEC61970_Generation_Production_EmissionCurve_EmissionCurve true (Some n_ThermalGeneratingUnit); ERef n_HeatInputCurve n_CIM15_IEC61970_Generation_Production_HeatInputCurve_HeatInputCurve false (Some n_ThermalGeneratingUnit); ERef n_CombinedCyclePlant n_CIM15_IEC61970_Generation_Production_CombinedCyclePlant_CombinedCyclePlant false (Some n_ThermalGeneratingUnits); ERef n_IncrementalHeatRateCurve n_CIM15_IEC61970_Generation_Production_IncrementalHeatRateCurve_IncrementalHeatRateCurve false (Some n_ThermalGeneratingUnit); ERef n_StartupModel n_CIM15_IEC61970_Generation_Production_StartupModel_StartupModel false (Some n_ThermalGeneratingUnit); ERef n_EmmissionAccounts n_CIM15_IEC61970_Generation_Production_EmissionAccount_EmissionAccount true (Some n_ThermalGeneratingUnit)];
(* Model/CIM15/CIM15.ecore:2564-2575 *)
  EClass n_CIM15_IEC61970_Generation_Production_WindGeneratingUnit_WindGeneratingUnit n_WindGeneratingUnit (Some n_CIM15_IEC61970_Generation_Production_GeneratingUnit_GeneratingUnit)
    []
    [];
(* Model/CIM15/CIM15.ecore:22142-22243 *)
  EClass n_CIM15_IEC61970_Graphics_DiagramObject_DiagramObject n_DiagramObject (Some n_CIM15_IEC61970_Core_IdentifiedObject_IdentifiedObject)
    [(n_offsetY, TFloat); (n_offsetX, TFloat); (n_isPolygon, TBool); (n_rotation, TFloat); (n_drawingOrder, TInt)]
    [ERef n_VisibilityLayers n_CIM15_IEC61970_Graphics_VisibilityLayer_VisibilityLayer true (Some n_DiagramObjects); ERef n_IdentifiedObject n_CIM15_IEC61970_Core_IdentifiedObject_IdentifiedObject false (Some n_DiagramObjects); ERef n_DiagramObjectStyle n_CIM15_IEC61970_Graphics_DiagramObjectStyle_DiagramObjectStyle false (Some n_DiagramObjects); ERef n_DiagramObjectPoints n_CIM15_IEC61970_Graphics_DiagramObjectPoint_DiagramObjectPoint true (Some n_DiagramObject); ERef n_Diagram n_CIM15_IEC61970_Informative_InfGMLSupport_Diagram_Diagram false (Some n_DiagramObjects)];
(* Model/CIM15/CIM15.ecore:22121-22141 *)
  EClass n_CIM15_IEC61970_Graphics_DiagramObjectGluePoint_DiagramObjectGluePoint n_DiagramObjectGluePoint (Some n_CIM15_Element_Element)
    []
    [ERef n_DiagramObjectPoints n_CIM15_IEC61970_Graphics_DiagramObjectPoint_DiagramObjectPoint true (Some n_DiagramObjectGluePoint)];
(* Model/CIM15/CIM15.ecore:22265-22330 *)
  EClass n_CIM15_IEC61970_Graphics_DiagramObjectPoint_DiagramObjectPoint n_DiagramObjectPoint (Some n_CIM15_Element_Element)
    [(n_sequenceNumber, TInt); (n_xPosition, TFloat); (n_yPosition, TFloat); (n_zPosition, TFloat)]
    [ERef n_DiagramObjectGluePoint n_CIM15_IEC61970_Graphics_DiagramObjectGluePoint_DiagramObjectGluePoint false (Some n_DiagramObjectPoints); ERef n_DiagramObject n_CIM15_IEC61970_Graphics_DiagramObject_DiagramObject false (Some n_DiagramObjectPoints)];
(* Model/CIM15/CIM15.ecore:22244-22264 *)
  EClass n_CIM15_IEC61970_Graphics_DiagramObjectStyle_DiagramObjectStyle n_DiagramObjectStyle (Some n_CIM15_IEC61970_Core_IdentifiedObject_IdentifiedObject)
    []
    [ERef n_DiagramObjects n_CIM15_IEC61970_Graphics_DiagramObject_DiagramObject true (Some n_DiagramObjectStyle)];
(* Model/CIM15/CIM15.ecore:22100-22120 *)
  EClass n_CIM15_IEC61970_Graphics_TextDiagramObject_TextDiagramObject n_TextDiagramObject (Some n_CIM15_IEC61970_Graphics_DiagramObject_DiagramObject)
    [(n_text, TText)]
    [];
(* Model/CIM15/CIM15.ecore:22335-22364 *)
  EClass n_CIM15_IEC61970_Graphics_VisibilityLayer_VisibilityLayer n_VisibilityLayer (Some n_CIM15_IEC61970_Core_IdentifiedObject_IdentifiedObject)
    [(n_drawingOrder, TInt)]
    [ERef n_DiagramObjects n_CIM15_IEC61970_Graphics_DiagramObject_DiagramObject true (Some n_VisibilityLayers)];
(* Model/CIM15/CIM15.ecore:131-160 *)
  EClass n_CIM15_IEC61970_IEC61970CIMVersion_IEC61970CIMVersion n_IEC61970CIMVersion (Some n_CIM15_Element_Element)
    [(n_date, TText); (n_version, TText)]
    [];
(* Model/CIM15/CIM15.ecore:13925-13941 *)
  EClass n_CIM15_IEC61970_Informative_InfAssetModels_AssetModelCatalogue_AssetModelCatalogue n_AssetModelCatalogue (Some n_CIM15_IEC61970_Core_IdentifiedObject_IdentifiedObject)
    []
    [ERef n_AssetModelCatalogueItems n_CIM15_IEC61970_Informative_InfAssetModels_AssetModelCatalogueItem_AssetModelCatalogueItem true (Some n_AssetModelCatalogue); ERef n_status n_CIM15_IEC61968_Common_Status_Status false None];
(* Model/CIM15/CIM15.ecore:14124-14153 *)
  EClass n_CIM15_IEC61970_Informative_InfAssetModels_AssetModelCatalogueItem_AssetModelCatalogueItem n_AssetModelCatalogueItem (Some n_CIM15_IEC61968_Common_Document_Document)
    [(n_unitCost, TFloat)]
    [ERef n_ErpPOLineItems n_CIM15_IEC61970_Informative_InfERPSupport_ErpPOLineItem_ErpPOLineItem true (Some n_AssetModelCatalogueItem); ERef n_AssetModelCatalogue n_CIM15_IEC61970_Informative_InfAssetModels_AssetModelCatalogue_AssetModelCatalogue false (Some n_AssetModelCatalogueItems); ERef n_AssetModel n_CIM15_IEC61968_Assets_ProductAssetModel_ProductAssetModel false (Some n_AssetModelCatalogueItems); ERef n_ErpQuoteLineItems n_CIM15_IEC61970_Informative_InfERPSupport_ErpQuoteLineItem_ErpQuoteLineItem true (Some n_AssetModelCatalogueItem)];
(* Model/CIM15/CIM15.ecore:13942-14088 *)
  EClass n_CIM15_IEC61970_Informative_InfAssetModels_TransformerAssetModel_TransformerAssetModel n_TransformerAssetModel (Some n_CIM15_IEC61968_Assets_ProductAssetModel_ProductAssetModel)
    [(n_neutralBIL, TFloat); (n_constructionKind, enum_cim15_IEC61970_Informative_InfAssetModels_TransformerConstructionKind); (n_coreCoilsWeight, TFloat); (n_windingInsulationKind, enum_cim15_IEC61970_Informative_InfAssetModels_WindingInsulationKind); (n_hourOverLoadRating, TFloat); (n_altPrimaryNomVoltage, TFloat); (n_altSecondaryNomVoltage, TFloat); (n_reconfigWinding, TBool); (n_function, enum_cim15_IEC61970_Informative_InfAssetModels_TransformerFunctionKind); (n_oilPreservationKind, enum_cim15_IEC61970_Informative_InfAssetModels_OilPreservationKind); (n_dayOverLoadRating, TFloat); (n_coreKind, enum_cim15_IEC61970_Informative_InfAssetModels_TransformerCoreKind); (n_autoTransformer, TBool); (n_solidInsulationWeight, TFloat)]
    [ERef n_TransformerAssets n_CIM15_IEC61970_Informative_InfAssets_TransformerAsset_TransformerAsset true (Some n_TransformerAssetModel); ERef n_TransformerInfo n_CIM15_IEC61968_AssetModels_TransformerTankInfo_TransformerTankInfo false (Some n_TransformerAssetModels)];
(* Model/CIM15/CIM15.ecore:8833-8848 *)
  EClass n_CIM15_IEC61970_Informative_InfAssets_AssetAssetRole_AssetAssetRole n_AssetAssetRole (Some n_CIM15_IEC61970_Informative_InfCommon_Role_Role)
    []
    [ERef n_ToAsset n_CIM15_IEC61968_Assets_Asset_Asset false (Some n_FromAssetRoles); ERef n_FromAsset n_CIM15_IEC61968_Assets_Asset_Asset false (Some n_ToAssetRoles)];
(* Model/CIM15/CIM15.ecore:9337-9352 *)
  EClass n_CIM15_IEC61970_Informative_InfAssets_AssetPropertyCurve_AssetPropertyCurve n_AssetPropertyCurve (Some n_CIM15_IEC61970_Core_Curve_Curve)
    []
    [ERef n_Specification n_CIM15_IEC61970_Informative_InfAssets_Specification_Specification false (Some n_AssetPropertyCurves); ERef n_Assets n_CIM15_IEC61968_Assets_Asset_Asset true (Some n_AssetPropertyCurves)];
(* Model/CIM15/CIM15.ecore:8945-8965 *)
  EClass n_CIM15_IEC61970_Informative_InfAssets_BreakerInfo_BreakerInfo n_BreakerInfo (Some n_CIM15_IEC61970_Informative_InfAssets_SwitchInfo_SwitchInfo)
    [(n_phaseTrip, TFloat)]
    [];
(* Model/CIM15/CIM15.ecore:9096-9157 *)
  EClass n_CIM15_IEC61970_Informative_InfAssets_Bushing_Bushing n_Bushing (Some n_CIM15_IEC61968_Assets_Asset_Asset)
    [(n_c2PowerFactor, TFloat); (n_c2Capacitance, TFloat); (n_c1PowerFactor, TFloat); (n_insulationKind, enum_cim15_IEC61970_Informative_InfAssets_BushingInsulationKind); (n_c1Capacitance, TFloat)]
    [ERef n_Terminal n_CIM15_IEC61970_Core_Terminal_Terminal false (Some n_BushingInfo); ERef n_BushingInsulationPFs n_CIM15_IEC61970_Informative_InfAssets_BushingInsulationPF_BushingInsulationPF true (Some n_BushingInfo)];
(* Model/CIM15/CIM15.ecore:8472-8498 *)
  EClass n_CIM15_IEC61970_Informative_InfAssets_BushingInsulationPF_BushingInsulationPF n_BushingInsulationPF (Some n_CIM15_IEC61970_Core_IdentifiedObject_IdentifiedObject)
    [(n_testKind, enum_cim15_IEC61970_Informative_InfAssets_BushingInsulationPfTestKind)]
    [ERef n_status n_CIM15_IEC61968_Common_Status_Status false None; ERef n_TransformerObservation n_CIM15_IEC61970_Informative_InfAssets_TransformerObservation_TransformerObservation false (Some n_BushingInsultationPFs); ERef n_BushingInfo n_CIM15_IEC61970_Informative_InfAssets_Bushing_Bushing false (Some n_BushingInsulationPFs)];
(* Model/CIM15/CIM15.ecore:9060-9071 *)
  EClass n_CIM15_IEC61970_Informative_InfAssets_Cabinet_Cabinet n_Cabinet (Some n_CIM15_IEC61968_Assets_AssetContainer_AssetContainer)
    []
    [];
(* Model/CIM15/CIM15.ecore:9307-9327 *)
  EClass n_CIM15_IEC61970_Informative_InfAssets_ComEquipment_ComEquipment n_ComEquipment (Some n_CIM15_IEC61968_Assets_Asset_Asset)
    []
    [ERef n_EndDeviceFunctions n_CIM15_IEC61968_Metering_EndDeviceFunction_EndDeviceFunction true (Some n_ComEquipment)];
(* Model/CIM15/CIM15.ecore:8966-9059 *)
  EClass n_CIM15_IEC61970_Informative_InfAssets_CompositeSwitchInfo_CompositeSwitchInfo n_CompositeSwitchInfo (Some n_CIM15_IEC61968_Assets_AssetInfo_AssetInfo)
    [(n_kind, enum_cim15_IEC61970_Informative_InfAssets_CompositeSwitchKind); (n_phaseCode, enum_cim15_IEC61970_Core_PhaseCode); (n_remote, TBool); (n_switchStateCount, TInt); (n_ratedVoltage, TFloat); (n_ganged, TBool); (n_phaseCount, TInt); (n_initOpMode, TText); (n_interruptingRating, TFloat)]
    [];
(* Model/CIM15/CIM15.ecore:7804-7847 *)
  EClass n_CIM15_IEC61970_Informative_InfAssets_ConductorAsset_ConductorAsset n_ConductorAsset (Some n_CIM15_IEC61968_Assets_Asset_Asset)
    [(n_isHorizontal, TBool); (n_groundingMethod, TText); (n_insulated, TBool)]
    [ERef n_CircuitSection n_CIM15_IEC61970_Informative_InfOperations_CircuitSection_CircuitSection false (Some n_ConductorAssets); ERef n_ConductorSegment n_CIM15_IEC61970_Wires_ACLineSegment_ACLineSegment false (Some n_ConductorAssets)];
(* Model/CIM15/CIM15.ecore:8321-8471 *)
  EClass n_CIM15_IEC61970_Informative_InfAssets_CurrentTransformerInfo_CurrentTransformerInfo n_CurrentTransformerInfo (Some n_CIM15_IEC61968_Assets_AssetInfo_AssetInfo)
    [(n_tertiaryFlsRating, TFloat); (n_coreCount, TInt); (n_secondaryFlsRating, TFloat); (n_usage, TText); (n_accuracyClass, TText); (n_ctClass, TText); (n_kneePointVoltage, TFloat); (n_coreBurden, TFloat); (n_accuracyLimit, TFloat); (n_kneePointCurrent, TFloat); (n_primaryFlsRating, TFloat)]
    [ERef n_nominalRatio n_CIM15_IEC61970_Informative_InfCommon_Ratio_Ratio false None; ERef n_secondaryRatio n_CIM15_IEC61970_Informative_InfCommon_Ratio_Ratio false None; ERef n_CTs n_CIM15_IEC61970_AuxiliaryEquipment_CurrentTransformer_CurrentTransformer true (Some n_CTInfo); ERef n_tertiaryRatio n_CIM15_IEC61970_Informative_InfCommon_Ratio_Ratio false None; ERef n_maxRatio n_CIM15_IEC61970_Informative_InfCommon_Ratio_Ratio false None; ERef n_primaryRatio n_CIM15_IEC61970_Informative_InfCommon_Ratio_Ratio false None];
(* Model/CIM15/CIM15.ecore:9418-9480 *)
  EClass n_CIM15_IEC61970_Informative_InfAssets_DimensionsInfo_DimensionsInfo n_DimensionsInfo (Some n_CIM15_IEC61970_Core_IdentifiedObject_IdentifiedObject)
    [(n_sizeWidth, TFloat); (n_sizeDiameter, TFloat); (n_sizeLength, TFloat); (n_orientation, TText); (n_sizeDepth, TFloat)]
    [ERef n_Locations n_CIM15_IEC61968_Common_Location_Location true (Some n_DimensionsInfo); ERef n_AssetInfos n_CIM15_IEC61968_Assets_AssetInfo_AssetInfo true (Some n_DimensionsInfo); ERef n_Specifications n_CIM15_IEC61970_Informative_InfAssets_Specification_Specification true (Some n_DimensionsInfos)];
(* Model/CIM15/CIM15.ecore:7765-7780 *)
  EClass n_CIM15_IEC61970_Informative_InfAssets_DocAssetRole_DocAssetRole n_DocAssetRole (Some n_CIM15_IEC61970_Informative_InfCommon_Role_Role)
    []
    [ERef n_Document n_CIM15_IEC61968_Common_Document_Document false (Some n_AssetRoles); ERef n_Asset n_CIM15_IEC61968_Assets_Asset_Asset false (Some n_DocumentRoles)];
(* Model/CIM15/CIM15.ecore:8757-8790 *)
  EClass n_CIM15_IEC61970_Informative_InfAssets_Duct_Duct n_Duct (Some n_CIM15_IEC61968_Assets_AssetContainer_AssetContainer)
    [(n_xCoord, TInt); (n_yCoord, TInt)]
    [ERef n_DuctBankInfo n_CIM15_IEC61970_Informative_InfAssets_DuctBank_DuctBank false (Some n_DuctInfos); ERef n_CableInfos n_CIM15_IEC61968_AssetModels_CableInfo_CableInfo true (Some n_DuctBankInfo)];
(* Model/CIM15/CIM15.ecore:7781-7803 *)
  EClass n_CIM15_IEC61970_Informative_InfAssets_DuctBank_DuctBank n_DuctBank (Some n_CIM15_IEC61968_Assets_AssetContainer_AssetContainer)
    [(n_circuitCount, TInt)]
    [ERef n_DuctInfos n_CIM15_IEC61970_Informative_InfAssets_Duct_Duct true (Some n_DuctBankInfo)];
(* Model/CIM15/CIM15.ecore:8538-8702 *)
  EClass n_CIM15_IEC61970_Informative_InfAssets_ElectricalInfo_ElectricalInfo n_ElectricalInfo (Some n_CIM15_IEC61968_Assets_AssetInfo_AssetInfo)
    [(n_phaseCount, TInt); (n_ratedApparentPower, TFloat); (n_phaseCode, enum_cim15_IEC61970_Core_PhaseCode); (n_frequency, TFloat); (n_r0, TFloat); (n_r, TFloat); (n_bil, TFloat); (n_x0, TFloat); (n_x, TFloat); (n_ratedCurrent, TFloat); (n_wireCount, TInt); (n_b0, TFloat); (n_b, TFloat); (n_ratedVoltage, TFloat); (n_g, TFloat); (n_g0, TFloat); (n_isConnected, TBool)]
    [];
(* Model/CIM15/CIM15.ecore:7744-7764 *)
  EClass n_CIM15_IEC61970_Informative_InfAssets_FACTSDevice_FACTSDevice n_FACTSDevice (Some n_CIM15_IEC61968_Assets_Asset_Asset)
    [(n_kind, enum_cim15_IEC61970_Informative_InfAssets_FACTSDeviceKind)]
    [];
(* Model/CIM15/CIM15.ecore:9652-9672 *)
  EClass n_CIM15_IEC61970_Informative_InfAssets_Facility_Facility n_Facility (Some n_CIM15_IEC61968_Assets_AssetContainer_AssetContainer)
    [(n_kind, TText)]
    [];
(* Model/CIM15/CIM15.ecore:9362-9411 *)
  EClass n_CIM15_IEC61970_Informative_InfAssets_FailureEvent_FailureEvent n_FailureEvent (Some n_CIM15_IEC61968_Common_ActivityRecord_ActivityRecord)
    [(n_failureIsolationMethod, enum_cim15_IEC61970_Informative_InfAssets_FailureIsolationMethodKind); (n_corporateCode, TText); (n_faultLocatingMethod, TText); (n_location, TText)]
    [];
(* Model/CIM15/CIM15.ecore:8726-8756 *)
  EClass n_CIM15_IEC61970_Informative_InfAssets_FaultIndicatorInfo_FaultIndicatorInfo n_FaultIndicatorInfo (Some n_CIM15_IEC61968_Assets_AssetInfo_AssetInfo)
    [(n_resetKind, enum_cim15_IEC61970_Informative_InfAssets_FaultIndicatorResetKind)]
    [ERef n_FaultIndicators n_CIM15_IEC61970_AuxiliaryEquipment_FaultIndicator_FaultIndicator true (Some n_FaultIndicatorInfo)];
(* Model/CIM15/CIM15.ecore:7857-7971 *)
  EClass n_CIM15_IEC61970_Informative_InfAssets_FinancialInfo_FinancialInfo n_FinancialInfo (Some n_CIM15_IEC61970_Core_IdentifiedObject_IdentifiedObject)
    [(n_warrantyEndDateTime, TDate); (n_costDescription, TText); (n_purchaseDateTime, TDate); (n_account, TText); (n_financialValue, TFloat); (n_purchaseOrderNumber, TText); (n_plantTransferDateTime, TDate); (n_quantity, TBig); (n_valueDateTime, TDate); (n_costType, TText); (n_actualPurchaseCost, TFloat)]
    [ERef n_Asset n_CIM15_IEC61968_Assets_Asset_Asset false (Some n_FinancialInfo)];
(* Model/CIM15/CIM15.ecore:10104-10166 *)
  EClass n_CIM15_IEC61970_Informative_InfAssets_GenericAssetModelOrMaterial_GenericAssetModelOrMaterial n_GenericAssetModelOrMaterial (Some n_CIM15_IEC61968_Assets_AssetModel_AssetModel)
    [(n_estimatedUnitCost, TFloat); (n_stockItem, TBool); (n_quantity, TText)]
    [ERef n_ErpReqLineItems n_CIM15_IEC61970_Informative_InfERPSupport_ErpReqLineItem_ErpReqLineItem true (Some n_TypeAsset); ERef n_ProductAssetModels n_CIM15_IEC61968_Assets_ProductAssetModel_ProductAssetModel true (Some n_GenericAssetModelOrMaterial); ERef n_ErpInventoryIssues n_CIM15_IEC61970_Informative_InfERPSupport_ErpIssueInventory_ErpIssueInventory true (Some n_TypeAsset); ERef n_CUWorkEquipmentAsset n_CIM15_IEC61970_Informative_InfWork_CUWorkEquipmentItem_CUWorkEquipmentItem false (Some n_TypeAsset); ERef n_TypeAssetCatalogue n_CIM15_IEC61970_Informative_InfTypeAsset_TypeAssetCatalogue_TypeAssetCatalogue false (Some n_TypeAssets); ERef n_CUAsset n_CIM15_IEC61970_Informative_InfWork_CUAsset_CUAsset false (Some n_TypeAsset); ERef n_ErpBomItemDatas n_CIM15_IEC61970_Informative_InfERPSupport_ErpBomItemData_ErpBomItemData true (Some n_TypeAsset)];
(* Model/CIM15/CIM15.ecore:8499-8537 *)
  EClass n_CIM15_IEC61970_Informative_InfAssets_Joint_Joint n_Joint (Some n_CIM15_IEC61968_Assets_Asset_Asset)
    [(n_insulation, TText); (n_fillKind, enum_cim15_IEC61970_Informative_InfAssets_JointFillKind); (n_configurationKind, enum_cim15_IEC61970_Informative_InfAssets_JointConfigurationKind)]
    [];
(* Model/CIM15/CIM15.ecore:9558-9591 *)
  EClass n_CIM15_IEC61970_Informative_InfAssets_Medium_Medium n_Medium (Some n_CIM15_IEC61970_Core_IdentifiedObject_IdentifiedObject)
    [(n_kind, enum_cim15_IEC61970_Informative_InfAssets_MediumKind); (n_volumeSpec, TFloat)]
    [ERef n_Specification n_CIM15_IEC61970_Informative_InfAssets_Specification_Specification false (Some n_Mediums); ERef n_Assets n_CIM15_IEC61968_Assets_Asset_Asset true (Some n_Mediums)];
(* Model/CIM15/CIM15.ecore:9512-9527 *)
  EClass n_CIM15_IEC61970_Informative_InfAssets_MountingConnection_MountingConnection n_MountingConnection (Some n_CIM15_IEC61970_Core_IdentifiedObject_IdentifiedObject)
    []
    [ERef n_StructureInfos n_CIM15_IEC61970_Informative_InfAssets_Structure_Structure true (Some n_MountingConnections); ERef n_MountingPoints n_CIM15_IEC61970_Informative_InfAssets_MountingPoint_MountingPoint true (Some n_Connections)];
(* Model/CIM15/CIM15.ecore:9882-9904 *)
  EClass n_CIM15_IEC61970_Informative_InfAssets_MountingPoint_MountingPoint n_MountingPoint (Some n_CIM15_IEC61970_Core_IdentifiedObject_IdentifiedObject)
    [(n_xCoord, TInt); (n_phaseCode, enum_cim15_IEC61970_Core_PhaseCode); (n_yCoord, TInt)]
    [ERef n_Connections n_CIM15_IEC61970_Informative_InfAssets_MountingConnection_MountingConnection true (Some n_MountingPoints); ERef n_OverheadConductors n_CIM15_IEC61968_AssetModels_OverheadConductorInfo_OverheadConductorInfo true (Some n_MountingPoint)];
(* Model/CIM15/CIM15.ecore:10027-10052 *)
  EClass n_CIM15_IEC61970_Informative_InfAssets_OrgAssetRole_OrgAssetRole n_OrgAssetRole (Some n_CIM15_IEC61970_Informative_InfCommon_Role_Role)
    [(n_percentOwnership, TFloat)]
    [ERef n_ErpOrganisation n_CIM15_IEC61970_Informative_InfERPSupport_ErpOrganisation_ErpOrganisation false (Some n_AssetRoles); ERef n_Asset n_CIM15_IEC61968_Assets_Asset_Asset false (Some n_ErpOrganisationRoles)];
(* Model/CIM15/CIM15.ecore:10401-10520 *)
  EClass n_CIM15_IEC61970_Informative_InfAssets_Pole_Pole n_Pole (Some n_CIM15_IEC61970_Informative_InfAssets_Structure_Structure)
    [(n_breastBlock, TBool); (n_diameter, TFloat); (n_baseKind, enum_cim15_IEC61970_Informative_InfAssets_PoleBaseKind); (n_jpaReference, TText); (n_treatmentKind, enum_cim15_IEC61970_Informative_InfAssets_PoleTreatmentKind); (n_preservativeKind, enum_cim15_IEC61970_Informative_InfAssets_PolePreservativeKind); (n_length, TFloat); (n_construction, TText); (n_speciesType, TText); (n_classification, TText); (n_treatedDateTime, TDate)]
    [ERef n_Streetlights n_CIM15_IEC61970_Informative_InfAssets_Streetlight_Streetlight true (Some n_Pole)];
(* Model/CIM15/CIM15.ecore:8182-8235 *)
  EClass n_CIM15_IEC61970_Informative_InfAssets_PotentialTransformerInfo_PotentialTransformerInfo n_PotentialTransformerInfo (Some n_CIM15_IEC61968_Assets_AssetInfo_AssetInfo)
    [(n_ptClass, TText); (n_accuracyClass, TText)]
    [ERef n_nominalRatio n_CIM15_IEC61970_Informative_InfCommon_Ratio_Ratio false None; ERef n_primaryRatio n_CIM15_IEC61970_Informative_InfCommon_Ratio_Ratio false None; ERef n_tertiaryRatio n_CIM15_IEC61970_Informative_InfCommon_Ratio_Ratio false None; ERef n_PTs n_CIM15_IEC61970_AuxiliaryEquipment_PotentialTransformer_PotentialTransformer true (Some n_PTInfo); ERef n_secondaryRatio n_CIM15_IEC61970_Informative_InfCommon_Ratio_Ratio false None];
(* Model/CIM15/CIM15.ecore:8791-8832 *)
  EClass n_CIM15_IEC61970_Informative_InfAssets_PowerRating_PowerRating n_PowerRating (Some n_CIM15_IEC61970_Core_IdentifiedObject_IdentifiedObject)
    [(n_stage, TInt); (n_powerRating, TFloat); (n_coolingKind, enum_cim15_IEC61970_Informative_InfAssets_CoolingKind)]
    [ERef n_TransformerAssets n_CIM15_IEC61970_Informative_InfAssets_TransformerAsset_TransformerAsset true (Some n_PowerRatings)];
(* Model/CIM15/CIM15.ecore:8880-8944 *)
  EClass n_CIM15_IEC61970_Informative_InfAssets_Procedure_Procedure n_Procedure (Some n_CIM15_IEC61968_Common_Document_Document)
    [(n_corporateCode, TText); (n_sequenceNumber, TText); (n_kind, enum_cim15_IEC61970_Informative_InfAssets_ProcedureKind); (n_instruction, TText)]
    [ERef n_ProcedureValues n_CIM15_IEC61968_Common_UserAttribute_UserAttribute true (Some n_Procedure); ERef n_ProcedureDataSets n_CIM15_IEC61970_Informative_InfAssets_ProcedureDataSet_ProcedureDataSet true (Some n_Procedure); ERef n_CompatibleUnits n_CIM15_IEC61970_Informative_InfWork_CompatibleUnit_CompatibleUnit true (Some n_Procedures); ERef n_Limits n_CIM15_IEC61970_Meas_Limit_Limit true (Some n_Procedures)];
(* Model/CIM15/CIM15.ecore:8002-8038 *)
  EClass n_CIM15_IEC61970_Informative_InfAssets_ProcedureDataSet_ProcedureDataSet n_ProcedureDataSet (Some n_CIM15_IEC61968_Common_Document_Document)
    [(n_completedDateTime, TDate)]
    [ERef n_Properties n_CIM15_IEC61968_Common_UserAttribute_UserAttribute true (Some n_ProcedureDataSets); ERef n_TransformerObservations n_CIM15_IEC61970_Informative_InfAssets_TransformerObservation_TransformerObservation true (Some n_ProcedureDataSets); ERef n_Procedure n_CIM15_IEC61970_Informative_InfAssets_Procedure_Procedure false (Some n_ProcedureDataSets); ERef n_MeasurementValues n_CIM15_IEC61970_Meas_MeasurementValue_MeasurementValue true (Some n_ProcedureDataSets)];
(* Model/CIM15/CIM15.ecore:7972-8001 *)
  EClass n_CIM15_IEC61970_Informative_InfAssets_ProtectionEquipmentInfo_ProtectionEquipmentInfo n_ProtectionEquipmentInfo (Some n_CIM15_IEC61968_Assets_AssetInfo_AssetInfo)
    [(n_groundTrip, TFloat); (n_phaseTrip, TFloat)]
    [];
(* Model/CIM15/CIM15.ecore:9592-9651 *)
  EClass n_CIM15_IEC61970_Informative_InfAssets_RecloserInfo_RecloserInfo n_RecloserInfo (Some n_CIM15_IEC61970_Informative_InfAssets_SwitchInfo_SwitchInfo)
    [(n_groundTripNormalEnabled, TBool); (n_groundTripCapable, TBool); (n_recloseLockoutCount, TInt); (n_phaseTripRating, TFloat); (n_groundTripRating, TFloat)]
    [];
(* Model/CIM15/CIM15.ecore:10206-10239 *)
  EClass n_CIM15_IEC61970_Informative_InfAssets_ReliabilityInfo_ReliabilityInfo n_ReliabilityInfo (Some n_CIM15_IEC61970_Core_IdentifiedObject_IdentifiedObject)
    [(n_momFailureRate, TFloat); (n_mTTR, TFloat)]
    [ERef n_Specification n_CIM15_IEC61970_Informative_InfAssets_Specification_Specification false (Some n_ReliabilityInfos); ERef n_Assets n_CIM15_IEC61968_Assets_Asset_Asset true (Some n_ReliabilityInfos)];
(* Model/CIM15/CIM15.ecore:9997-10026 *)
  EClass n_CIM15_IEC61970_Informative_InfAssets_SVC_SVC n_SVC (Some n_CIM15_IEC61970_Informative_InfAssets_FACTSDevice_FACTSDevice)
    [(n_inductiveRating, TFloat); (n_capacitiveRating, TFloat)]
    [];
(* Model/CIM15/CIM15.ecore:9843-9865 *)
  EClass n_CIM15_IEC61970_Informative_InfAssets_ShuntCompensatorInfo_ShuntCompensatorInfo n_ShuntCompensatorInfo (Some n_CIM15_IEC61968_Assets_AssetInfo_AssetInfo)
    [(n_maxPowerLoss, TFloat)]
    [ERef n_ShuntImpedanceInfo n_CIM15_IEC61970_Informative_InfAssets_ShuntImpedanceInfo_ShuntImpedanceInfo false (Some n_ShuntCompensatorInfos)];
(* Model/CIM15/CIM15.ecore:9673-9842 *)
  EClass n_CIM15_IEC61970_Informative_InfAssets_ShuntImpedanceInfo_ShuntImpedanceInfo n_ShuntImpedanceInfo (Some n_CIM15_IEC61968_Assets_AssetInfo_AssetInfo)
    [(n_maxSwitchOperationCount, TInt); (n_localControlKind, enum_cim15_IEC61970_Informative_InfAssets_ShuntImpedanceLocalControlKind); (n_switchOperationCycle, TFloat); (n_vRegLineLine, TBool); (n_highVoltageOverride, TFloat); (n_lowVoltageOverride, TFloat); (n_regBranch, TText); (n_cellSize, TFloat); (n_localOnLevel, TText); (n_regBranchKind, enum_cim15_IEC61970_Informative_InfAssets_RegulationBranchKind); (n_normalOpen, TBool); (n_controlKind, enum_cim15_IEC61970_Informative_InfAssets_ShuntImpedanceControlKind); (n_regBranchEnd, TInt); (n_branchDirect, TInt); (n_localOffLevel, TText); (n_sensingPhaseCode, enum_cim15_IEC61970_Core_PhaseCode); (n_localOverride, TBool)]
    [ERef n_ShuntCompensatorInfos n_CIM15_IEC61970_Informative_InfAssets_ShuntCompensatorInfo_ShuntCompensatorInfo true (Some n_ShuntImpedanceInfo)];
(* Model/CIM15/CIM15.ecore:8090-8133 *)
  EClass n_CIM15_IEC61970_Informative_InfAssets_Specification_Specification n_Specification (Some n_CIM15_IEC61968_Common_Document_Document)
    []
    [ERef n_AssetPropertyCurves n_CIM15_IEC61970_Informative_InfAssets_AssetPropertyCurve_AssetPropertyCurve true (Some n_Specification); ERef n_Mediums n_CIM15_IEC61970_Informative_InfAssets_Medium_Medium true (Some n_Specification); ERef n_AssetProperites n_CIM15_IEC61968_Common_UserAttribute_UserAttribute true (Some n_PropertySpecification); ERef n_ReliabilityInfos n_CIM15_IEC61970_Informative_InfAssets_ReliabilityInfo_ReliabilityInfo true (Some n_Specification); ERef n_DimensionsInfos n_CIM15_IEC61970_Informative_InfAssets_DimensionsInfo_DimensionsInfo true (Some n_Specifications); ERef n_Ratings n_CIM15_IEC61968_Common_UserAttribute_UserAttribute true (Some n_RatingSpecification); ERef n_QualificationRequirements n_CIM15_IEC61970_Informative_InfWork_QualificationRequirement_QualificationRequirement true (Some n_Specifications)];
(* Model/CIM15/CIM15.ecore:9926-9973 *)
  EClass n_CIM15_IEC61970_Informative_InfAssets_Streetlight_Streetlight n_Streetlight (Some n_CIM15_IEC61968_Assets_Asset_Asset)
    [(n_armLength, TFloat); (n_lampKind, enum_cim15_IEC61970_Informative_InfAssets_StreetlightLampKind); (n_lightRating, TFloat)]
    [ERef n_Pole n_CIM15_IEC61970_Informative_InfAssets_Pole_Pole false (Some n_Streetlights)];
(* Model/CIM15/CIM15.ecore:8236-8316 *)
  EClass n_CIM15_IEC61970_Informative_InfAssets_Structure_Structure n_Structure (Some n_CIM15_IEC61968_Assets_AssetContainer_AssetContainer)
    [(n_ratedVoltage, TFloat); (n_fumigantAppliedDate, TText); (n_weedRemovedDate, TText); (n_removeWeed, TBool); (n_height, TFloat); (n_fumigantName, TText); (n_materialKind, enum_cim15_IEC61970_Informative_InfAssets_StructureMaterialKind)]
    [ERef n_StructureSupportInfos n_CIM15_IEC61970_Informative_InfAssets_StructureSupport_StructureSupport true (Some n_SecuredStructure); ERef n_MountingConnections n_CIM15_IEC61970_Informative_InfAssets_MountingConnection_MountingConnection true (Some n_StructureInfos)];
(* Model/CIM15/CIM15.ecore:9230-9306 *)
  EClass n_CIM15_IEC61970_Informative_InfAssets_StructureSupport_StructureSupport n_StructureSupport (Some n_CIM15_IEC61968_Assets_Asset_Asset)
    [(n_anchorRodCount, TInt); (n_length, TFloat); (n_anchorRodLength, TFloat); (n_direction, TFloat); (n_anchorKind, enum_cim15_IEC61970_Informative_InfAssets_AnchorKind); (n_kind, enum_cim15_IEC61970_Informative_InfAssets_StructureSupportKind); (n_size, TText)]
    [ERef n_SecuredStructure n_CIM15_IEC61970_Informative_InfAssets_Structure_Structure false (Some n_StructureSupportInfos)];
(* Model/CIM15/CIM15.ecore:9905-9925 *)
  EClass n_CIM15_IEC61970_Informative_InfAssets_SubstationAsset_SubstationAsset n_SubstationAsset (Some n_CIM15_IEC61968_Assets_Asset_Asset)
    [(n_function, enum_cim15_IEC61970_Informative_InfAssets_SubstationFunctionKind)]
    [];
(* Model/CIM15/CIM15.ecore:9199-9229 *)
  EClass n_CIM15_IEC61970_Informative_InfAssets_SurgeProtectorInfo_SurgeProtectorInfo n_SurgeProtectorInfo (Some n_CIM15_IEC61968_Assets_AssetInfo_AssetInfo)
    [(n_maxCurrentRating, TFloat); (n_maxContinousOperatingVoltage, TFloat); (n_nominalDesignVoltage, TFloat); (n_maxEnergyAbsorption, TFloat)]
    [ERef n_SurgeProtectors n_CIM15_IEC61970_AuxiliaryEquipment_SurgeProtector_SurgeProtector true (Some n_SurgeProtectorInfo)];
(* Model/CIM15/CIM15.ecore:10521-10613 *)
  EClass n_CIM15_IEC61970_Informative_InfAssets_SwitchInfo_SwitchInfo n_SwitchInfo (Some n_CIM15_IEC61968_Assets_AssetInfo_AssetInfo)
    [(n_dielectricStrength, TFloat); (n_gang, TBool); (n_makingCapacity, TFloat); (n_withstandCurrent, TFloat); (n_loadBreak, TBool); (n_minimumCurrent, TFloat); (n_interruptingRating, TFloat); (n_remote, TBool); (n_poleCount, TInt)]
    [];
(* Model/CIM15/CIM15.ecore:10053-10091 *)
  EClass n_CIM15_IEC61970_Informative_InfAssets_TestDataSet_TestDataSet n_TestDataSet (Some n_CIM15_IEC61970_Informative_InfAssets_ProcedureDataSet_ProcedureDataSet)
    [(n_specimenToLabDateTime, TDate); (n_conclusion, TText); (n_specimenID, TText)]
    [];
(* Model/CIM15/CIM15.ecore:9974-9996 *)
  EClass n_CIM15_IEC61970_Informative_InfAssets_Tool_Tool n_Tool (Some n_CIM15_IEC61968_Assets_Asset_Asset)
    [(n_lastCalibrationDate, TText)]
    [ERef n_Crew n_CIM15_IEC61970_Informative_InfWork_Crew_Crew false (Some n_Tools)];
(* Model/CIM15/CIM15.ecore:9481-9501 *)
  EClass n_CIM15_IEC61970_Informative_InfAssets_Tower_Tower n_Tower (Some n_CIM15_IEC61970_Informative_InfAssets_Structure_Structure)
    [(n_constructionKind, enum_cim15_IEC61970_Informative_InfAssets_TowerConstructionKind)]
    [];
(* Model/CIM15/CIM15.ecore:8849-8879 *)
  EClass n_CIM15_IEC61970_Informative_InfAssets_TransformerAsset_TransformerAsset n_TransformerAsset (Some n_CIM15_IEC61968_Assets_Asset_Asset)
    [(n_reconditionedDateTime, TDate)]
    [ERef n_PowerRatings n_CIM15_IEC61970_Informative_InfAssets_PowerRating_PowerRating true (Some n_TransformerAssets); ERef n_TransformerObservations n_CIM15_IEC61970_Informative_InfAssets_TransformerObservation_TransformerObservation true (Some n_TransformerAsset); ERef n_TransformerInfo n_CIM15_IEC61968_AssetModels_TransformerTankInfo_TransformerTankInfo false (Some n_TransformerAssets); ERef n_TransformerAssetModel n_CIM15_IEC61970_Informative_InfAssetModels_TransformerAssetModel_TransformerAssetModel false (Some n_TransformerAssets)];
(* Model/CIM15/CIM15.ecore:10240-10384 *)
  EClass n_CIM15_IEC61970_Informative_InfAssets_TransformerObservation_TransformerObservation n_TransformerObservation (Some n_CIM15_IEC61970_Core_IdentifiedObject_IdentifiedObject)
    [(n_oilNeutralizationNumber, TText); (n_waterContent, TText); (n_oilLevel, TText); (n_freqResp, TText); (n_oilDielectricStrength, TFloat); (n_oilColor, TText); (n_hotSpotTemp, TFloat); (n_dga, TText); (n_furfuralDP, TText); (n_oilIFT, TText); (n_bushingTemp, TFloat); (n_topOilTemp, TFloat); (n_pumpVibration, TText)]
    [ERef n_BushingInsultationPFs n_CIM15_IEC61970_Informative_InfAssets_BushingInsulationPF_BushingInsulationPF true (Some n_TransformerObservation); ERef n_ProcedureDataSets n_CIM15_IEC61970_Informative_InfAssets_ProcedureDataSet_ProcedureDataSet true (Some n_TransformerObservations); ERef n_Transformer n_CIM15_IEC61970_Wires_TransformerTank_TransformerTank false (Some n_TransformerObservations); ERef n_status n_CIM15_IEC61968_Common_Status_Status false None; ERef n_WindingInsulationPFs n_CIM15_IEC61970_Informative_InfAssets_WindingInsulation_WindingInsulation true (Some n_TransformerObservation); ERef n_TransformerAsset n_CIM15_IEC61970_Informative_InfAssets_TransformerAsset_TransformerAsset false (Some n_TransformerObservations)];
(* Model/CIM15/CIM15.ecore:8134-8181 *)
  EClass n_CIM15_IEC61970_Informative_InfAssets_UndergroundStructure_UndergroundStructure n_UndergroundStructure (Some n_CIM15_IEC61970_Informative_InfAssets_Structure_Structure)
    [(n_hasVentilation, TBool); (n_kind, enum_cim15_IEC61970_Informative_InfAssets_UndergroundStructureKind); (n_material, TText); (n_sealingWarrantyExpiresDate, TText)]
    [];
(* Model/CIM15/CIM15.ecore:9158-9198 *)
  EClass n_CIM15_IEC61970_Informative_InfAssets_Vehicle_Vehicle n_Vehicle (Some n_CIM15_IEC61968_Assets_Asset_Asset)
    [(n_odometerReading, TFloat); (n_odometerReadDateTime, TDate); (n_usageKind, enum_cim15_IEC61970_Informative_InfAssets_VehicleUsageKind)]
    [ERef n_Crew n_CIM15_IEC61970_Informative_InfWork_Crew_Crew false (Some n_Vehicles)];
(* Model/CIM15/CIM15.ecore:8039-8089 *)
  EClass n_CIM15_IEC61970_Informative_InfAssets_WindingInsulation_WindingInsulation n_WindingInsulation (Some n_CIM15_IEC61970_Core_IdentifiedObject_IdentifiedObject)
    [(n_insulationPFStatus, TText); (n_insulationResistance, TText); (n_leakageReactance, TFloat)]
    [ERef n_Ground n_CIM15_IEC61970_Wires_Ground_Ground false (Some n_WindingInsulations); ERef n_TransformerObservation n_CIM15_IEC61970_Informative_InfAssets_TransformerObservation_TransformerObservation false (Some n_WindingInsulationPFs); ERef n_ToWinding n_CIM15_IEC61970_Wires_TransformerEnd_TransformerEnd false (Some n_ToWindingInsulations); ERef n_FromWinding n_CIM15_IEC61970_Wires_TransformerEnd_TransformerEnd false (Some n_FromWindingInsulations); ERef n_status n_CIM15_IEC61968_Common_Status_Status false None];
(* Model/CIM15/CIM15.ecore:8703-8718 *)
  EClass n_CIM15_IEC61970_Informative_InfAssets_WorkEquipment_WorkEquipment n_WorkEquipment (Some n_CIM15_IEC61968_Assets_Asset_Asset)
    []
    [ERef n_Crew n_CIM15_IEC61970_Informative_InfWork_Crew_Crew false (Some n_WorkEquipmentAssets); ERef n_Usages n_CIM15_IEC61970_Informative_InfWork_Usage_Usage true (Some n_WorkEquipmentAsset)];
(* Model/CIM15/CIM15.ecore:7386-7433 *)
  EClass n_CIM15_IEC61970_Informative_InfCommon_Bank_Bank n_Bank (Some n_CIM15_IEC61968_Common_Organisation_Organisation)
    [(n_bic, TText); (n_iban, TText); (n_branchCode, TText)]
    [ERef n_BankAccounts n_CIM15_IEC61970_Informative_InfCommon_BankAccount_BankAccount true (Some n_Bank)];
(* Model/CIM15/CIM15.ecore:7639-7677 *)
  EClass n_CIM15_IEC61970_Informative_InfCommon_BankAccount_BankAccount n_BankAccount (Some n_CIM15_IEC61968_Common_Document_Document)
    [(n_accountNumber, TText)]
    [ERef n_ServiceSupplier n_CIM15_IEC61968_PaymentMetering_ServiceSupplier_ServiceSupplier false (Some n_BankAccounts); ERef n_Bank n_CIM15_IEC61970_Informative_InfCommon_Bank_Bank false (Some n_BankAccounts)];
(* Model/CIM15/CIM15.ecore:7723-7734 *)
  EClass n_CIM15_IEC61970_Informative_InfCommon_BusinessPlan_BusinessPlan n_BusinessPlan (Some n_CIM15_IEC61968_Common_Document_Document)
    []
    [];
(* Model/CIM15/CIM15.ecore:7486-7510 *)
  EClass n_CIM15_IEC61970_Informative_InfCommon_BusinessRole_BusinessRole n_BusinessRole (Some n_CIM15_IEC61970_Core_IdentifiedObject_IdentifiedObject)
    [(n_category, TText)]
    [ERef n_Organisations n_CIM15_IEC61968_Common_Organisation_Organisation true (Some n_BusinessRoles); ERef n_status n_CIM15_IEC61968_Common_Status_Status false None];
(* Model/CIM15/CIM15.ecore:7678-7706 *)
  EClass n_CIM15_IEC61970_Informative_InfCommon_Craft_Craft n_Craft (Some n_CIM15_IEC61970_Core_IdentifiedObject_IdentifiedObject)
    [(n_category, TText)]
    [ERef n_Skills n_CIM15_IEC61970_Informative_InfCommon_Skill_Skill true (Some n_Crafts); ERef n_ErpPersons n_CIM15_IEC61970_Informative_InfERPSupport_ErpPerson_ErpPerson true (Some n_Crafts); ERef n_status n_CIM15_IEC61968_Common_Status_Status false None; ERef n_Capabilities n_CIM15_IEC61970_Informative_InfWork_Capability_Capability true (Some n_Crafts)];
(* Model/CIM15/CIM15.ecore:7707-7722 *)
  EClass n_CIM15_IEC61970_Informative_InfCommon_DocDocRole_DocDocRole n_DocDocRole (Some n_CIM15_IEC61970_Informative_InfCommon_Role_Role)
    []
    [ERef n_ToDocument n_CIM15_IEC61968_Common_Document_Document false (Some n_FromDocumentRoles); ERef n_FromDocument n_CIM15_IEC61968_Common_Document_Document false (Some n_ToDocumentRoles)];
(* Model/CIM15/CIM15.ecore:7592-7607 *)
  EClass n_CIM15_IEC61970_Informative_InfCommon_DocPsrRole_DocPsrRole n_DocPsrRole (Some n_CIM15_IEC61970_Informative_InfCommon_Role_Role)
    []
    [ERef n_Document n_CIM15_IEC61968_Common_Document_Document false (Some n_PowerSystemResourceRoles); ERef n_PowerSystemResource n_CIM15_IEC61970_Core_PowerSystemResource_PowerSystemResource false (Some n_DocumentRoles)];
(* Model/CIM15/CIM15.ecore:7608-7638 *)
  EClass n_CIM15_IEC61970_Informative_InfCommon_Ratio_Ratio n_Ratio None
    [(n_numerator, TFloat); (n_denominator, TFloat)]
    [];
(* Model/CIM15/CIM15.ecore:7363-7385 *)
  EClass n_CIM15_IEC61970_Informative_InfCommon_Role_Role n_Role (Some n_CIM15_IEC61970_Core_IdentifiedObject_IdentifiedObject)
    [(n_category, TText)]
    [ERef n_status n_CIM15_IEC61968_Common_Status_Status false None];
(* Model/CIM15/CIM15.ecore:7553-7591 *)
  EClass n_CIM15_IEC61970_Informative_InfCommon_ScheduleParameterInfo_ScheduleParameterInfo n_ScheduleParameterInfo (Some n_CIM15_IEC61970_Core_IdentifiedObject_IdentifiedObject)
    []
    [ERef n_ForInspectionDataSet n_CIM15_IEC61970_Informative_InfWork_InspectionDataSet_InspectionDataSet false (Some n_AccordingToSchedules); ERef n_requestedWindow n_CIM15_IEC61970_Domain_DateTimeInterval_DateTimeInterval false None; ERef n_Documents n_CIM15_IEC61968_Common_Document_Document true (Some n_ScheduleParameterInfos); ERef n_estimatedWindow n_CIM15_IEC61970_Domain_DateTimeInterval_DateTimeInterval false None; ERef n_ScheduledEvents n_CIM15_IEC61970_Informative_InfCommon_ScheduledEvent_ScheduledEvent true (Some n_ScheduleParameterInfo); ERef n_status n_CIM15_IEC61968_Common_Status_Status false None];
(* Model/CIM15/CIM15.ecore:7511-7552 *)
  EClass n_CIM15_IEC61970_Informative_InfCommon_ScheduledEvent_ScheduledEvent n_ScheduledEvent (Some n_CIM15_IEC61970_Core_IdentifiedObject_IdentifiedObject)
    [(n_duration, TFloat); (n_category, TText)]
    [ERef n_Document n_CIM15_IEC61968_Common_Document_Document false (Some n_ScheduledEvents); ERef n_ActivityRecord n_CIM15_IEC61968_Common_ActivityRecord_ActivityRecord false (Some n_ScheduledEvent); ERef n_status n_CIM15_IEC61968_Common_Status_Status false None; ERef n_TimePoint n_CIM15_IEC61968_Common_TimePoint_TimePoint false (Some n_ScheduledEvents); ERef n_ScheduleParameterInfo n_CIM15_IEC61970_Informative_InfCommon_ScheduleParameterInfo_ScheduleParameterInfo false (Some n_ScheduledEvents); ERef n_Assets n_CIM15_IEC61968_Assets_Asset_Asset true (Some n_ScheduledEvents)];
(* Model/CIM15/CIM15.ecore:7440-7485 *)
  EClass n_CIM15_IEC61970_Informative_InfCommon_Skill_Skill n_Skill (Some n_CIM15_IEC61968_Common_Document_Document)
    [(n_effectiveDateTime, TDate); (n_level, enum_cim15_IEC61970_Informative_InfCommon_SkillLevelKind)]
    [ERef n_Crafts n_CIM15_IEC61970_Informative_InfCommon_Craft_Craft true (Some n_Skills); ERef n_ErpPerson n_CIM15_IEC61970_Informative_InfERPSupport_ErpPerson_ErpPerson false (Some n_Skills); ERef n_QualificationRequirements n_CIM15_IEC61970_Informative_InfWork_QualificationRequirement_QualificationRequirement true (Some n_Skills); ERef n_certificationPeriod n_CIM15_IEC61970_Domain_DateTimeInterval_DateTimeInterval false None];
(* Model/CIM15/CIM15.ecore:13660-13681 *)
  EClass n_CIM15_IEC61970_Informative_InfCore_ModelingAuthority_ModelingAuthority n_ModelingAuthority (Some n_CIM15_IEC61970_Core_IdentifiedObject_IdentifiedObject)
    []
    [ERef n_ModelingAuthoritySets n_CIM15_IEC61970_Informative_InfCore_ModelingAuthoritySet_ModelingAuthoritySet true (Some n_ModelingAuthority)];
(* Model/CIM15/CIM15.ecore:13682-13711 *)
  EClass n_CIM15_IEC61970_Informative_InfCore_ModelingAuthoritySet_ModelingAuthoritySet n_ModelingAuthoritySet (Some n_CIM15_IEC61970_Core_IdentifiedObject_IdentifiedObject)
    []
    [ERef n_IdentifiedObjects n_CIM15_IEC61970_Core_IdentifiedObject_IdentifiedObject true (Some n_ModelingAuthoritySet); ERef n_ModelingAuthority n_CIM15_IEC61970_Informative_InfCore_ModelingAuthority_ModelingAuthority false (Some n_ModelingAuthoritySets)];
(* Model/CIM15/CIM15.ecore:10673-10693 *)
  EClass n_CIM15_IEC61970_Informative_InfCustomers_ComplianceEvent_ComplianceEvent n_ComplianceEvent (Some n_CIM15_IEC61968_Common_ActivityRecord_ActivityRecord)
    [(n_deadline, TDate)]
    [];
(* Model/CIM15/CIM15.ecore:10694-10782 *)
  EClass n_CIM15_IEC61970_Informative_InfCustomers_CustomerBillingInfo_CustomerBillingInfo n_CustomerBillingInfo (Some n_CIM15_IEC61968_Common_Document_Document)
    [(n_pymtPlanType, TText); (n_kind, enum_cim15_IEC61970_Informative_InfCustomers_CustomerBillingKind); (n_pymtPlanAmt, TFloat); (n_lastPaymentAmt, TFloat); (n_dueDate, TText); (n_outBalance, TFloat); (n_lastPaymentDate, TText); (n_billingDate, TText)]
    [ERef n_ErpInvoiceLineItems n_CIM15_IEC61970_Informative_InfERPSupport_ErpInvoiceLineItem_ErpInvoiceLineItem true (Some n_CustomerBillingInfos); ERef n_CustomerAccount n_CIM15_IEC61968_Customers_CustomerAccount_CustomerAccount false (Some n_CustomerBillingInfos)];
(* Model/CIM15/CIM15.ecore:10844-10855 *)
  EClass n_CIM15_IEC61970_Informative_InfCustomers_ExternalCustomerAgreement_ExternalCustomerAgreement n_ExternalCustomerAgreement (Some n_CIM15_IEC61968_Common_Agreement_Agreement)
    []
    [];
(* Model/CIM15/CIM15.ecore:10646-10666 *)
  EClass n_CIM15_IEC61970_Informative_InfCustomers_OutageHistory_OutageHistory n_OutageHistory (Some n_CIM15_IEC61968_Common_Document_Document)
    []
    [ERef n_OutageReports n_CIM15_IEC61970_Informative_InfOperations_OutageReport_OutageReport true (Some n_OutageHistory)];
(* Model/CIM15/CIM15.ecore:10856-10951 *)
  EClass n_CIM15_IEC61970_Informative_InfCustomers_PowerQualityPricing_PowerQualityPricing n_PowerQualityPricing (Some n_CIM15_IEC61968_Common_Document_Document)
    [(n_normalLowVoltLimit, TFloat); (n_valueUninterruptedServiceEnergy, TFloat); (n_voltLimitViolCost, TFloat); (n_normalHighVoltLimit, TFloat); (n_emergencyHighVoltLimit, TFloat); (n_emergencyLowVoltLimit, TFloat); (n_powerFactorMin, TFloat); (n_voltImbalanceViolCost, TFloat); (n_valueUninterruptedServiceP, TFloat)]
    [];
(* Model/CIM15/CIM15.ecore:10783-10831 *)
  EClass n_CIM15_IEC61970_Informative_InfCustomers_ServiceGuarantee_ServiceGuarantee n_ServiceGuarantee (Some n_CIM15_IEC61968_Common_Document_Document)
    [(n_automaticPay, TBool); (n_payAmount, TFloat); (n_serviceRequirement, TText)]
    [ERef n_applicationPeriod n_CIM15_IEC61970_Domain_DateTimeInterval_DateTimeInterval false None];
(* Model/CIM15/CIM15.ecore:10623-10645 *)
  EClass n_CIM15_IEC61970_Informative_InfCustomers_StandardIndustryCode_StandardIndustryCode n_StandardIndustryCode (Some n_CIM15_IEC61968_Common_Document_Document)
    [(n_code, TText)]
    [ERef n_CustomerAgreements n_CIM15_IEC61968_Customers_CustomerAgreement_CustomerAgreement true (Some n_StandardIndustryCode)];
(* Model/CIM15/CIM15.ecore:10832-10843 *)
  EClass n_CIM15_IEC61970_Informative_InfCustomers_SubscribePowerCurve_SubscribePowerCurve n_SubscribePowerCurve (Some n_CIM15_IEC61970_Core_Curve_Curve)
    []
    [];
(* Model/CIM15/CIM15.ecore:10952-11032 *)
  EClass n_CIM15_IEC61970_Informative_InfCustomers_WorkBillingInfo_WorkBillingInfo n_WorkBillingInfo (Some n_CIM15_IEC61968_Common_Document_Document)
    [(n_issueDateTime, TDate); (n_deposit, TFloat); (n_costEstimate, TFloat); (n_discount, TFloat); (n_dueDateTime, TDate); (n_receivedDateTime, TDate); (n_workPrice, TFloat)]
    [ERef n_Works n_CIM15_IEC61968_Work_Work_Work true (Some n_WorkBillingInfo); ERef n_CustomerAccount n_CIM15_IEC61968_Customers_CustomerAccount_CustomerAccount false (Some n_WorkBillingInfos); ERef n_ErpLineItems n_CIM15_IEC61970_Informative_InfERPSupport_ErpInvoiceLineItem_ErpInvoiceLineItem true (Some n_WorkBillingInfos)];
(* Model/CIM15/CIM15.ecore:6416-6431 *)
  EClass n_CIM15_IEC61970_Informative_InfERPSupport_DocErpPersonRole_DocErpPersonRole n_DocErpPersonRole (Some n_CIM15_IEC61970_Informative_InfCommon_Role_Role)
    []
    [ERef n_Document n_CIM15_IEC61968_Common_Document_Document false (Some n_ErpPersonRoles); ERef n_ErpPerson n_CIM15_IEC61970_Informative_InfERPSupport_ErpPerson_ErpPerson false (Some n_DocumentRoles)];
(* Model/CIM15/CIM15.ecore:6868-6883 *)
  EClass n_CIM15_IEC61970_Informative_InfERPSupport_DocOrgRole_DocOrgRole n_DocOrgRole (Some n_CIM15_IEC61970_Informative_InfCommon_Role_Role)
    []
    [ERef n_Document n_CIM15_IEC61968_Common_Document_Document false (Some n_ErpOrganisationRoles); ERef n_ErpOrganisation n_CIM15_IEC61970_Informative_InfERPSupport_ErpOrganisation_ErpOrganisation false (Some n_DocumentRoles)];
(* Model/CIM15/CIM15.ecore:6647-6663 *)
  EClass n_CIM15_IEC61970_Informative_InfERPSupport_ErpBOM_ErpBOM n_ErpBOM (Some n_CIM15_IEC61968_Common_Document_Document)
    []
    [ERef n_Design n_CIM15_IEC61970_Informative_InfWork_Design_Design false (Some n_ErpBOMs); ERef n_ErpBomItemDatas n_CIM15_IEC61970_Informative_InfERPSupport_ErpBomItemData_ErpBomItemData true (Some n_ErpBOM)];
(* Model/CIM15/CIM15.ecore:6432-6452 *)
  EClass n_CIM15_IEC61970_Informative_InfERPSupport_ErpBankAccount_ErpBankAccount n_ErpBankAccount (Some n_CIM15_IEC61970_Informative_InfCommon_BankAccount_BankAccount)
    [(n_bankABA, TText)]
    [];
(* Model/CIM15/CIM15.ecore:7336-7353 *)
  EClass n_CIM15_IEC61970_Informative_InfERPSupport_ErpBomItemData_ErpBomItemData n_ErpBomItemData (Some n_CIM15_IEC61970_Core_IdentifiedObject_IdentifiedObject)
    []
    [ERef n_TypeAsset n_CIM15_IEC61970_Informative_InfAssets_GenericAssetModelOrMaterial_GenericAssetModelOrMaterial false (Some n_ErpBomItemDatas); ERef n_ErpBOM n_CIM15_IEC61970_Informative_InfERPSupport_ErpBOM_ErpBOM false (Some n_ErpBomItemDatas); ERef n_DesignLocation n_CIM15_IEC61970_Informative_InfWork_DesignLocation_DesignLocation false (Some n_ErpBomItemDatas)];
(* Model/CIM15/CIM15.ecore:6960-6971 *)
  EClass n_CIM15_IEC61970_Informative_InfERPSupport_ErpChartOfAccounts_ErpChartOfAccounts n_ErpChartOfAccounts (Some n_CIM15_IEC61968_Common_Document_Document)
    []
    [];
(* Model/CIM15/CIM15.ecore:6056-6069 *)
  EClass n_CIM15_IEC61970_Informative_InfERPSupport_ErpCompetency_ErpCompetency n_ErpCompetency (Some n_CIM15_IEC61970_Core_IdentifiedObject_IdentifiedObject)
    []
    [ERef n_ErpPersons n_CIM15_IEC61970_Informative_InfERPSupport_ErpPerson_ErpPerson true (Some n_ErpCompetency)];
(* Model/CIM15/CIM15.ecore:6084-6095 *)
  EClass n_CIM15_IEC61970_Informative_InfERPSupport_ErpEngChangeOrder_ErpEngChangeOrder n_ErpEngChangeOrder (Some n_CIM15_IEC61968_Common_Document_Document)
    []
    [];
(* Model/CIM15/CIM15.ecore:6944-6959 *)
  EClass n_CIM15_IEC61970_Informative_InfERPSupport_ErpInventory_ErpInventory n_ErpInventory (Some n_CIM15_IEC61970_Core_IdentifiedObject_IdentifiedObject)
    []
    [ERef n_Asset n_CIM15_IEC61968_Assets_Asset_Asset false (Some n_ErpInventory); ERef n_status n_CIM15_IEC61968_Common_Status_Status false None];
(* Model/CIM15/CIM15.ecore:6664-6681 *)
  EClass n_CIM15_IEC61970_Informative_InfERPSupport_ErpInventoryCount_ErpInventoryCount n_ErpInventoryCount (Some n_CIM15_IEC61970_Core_IdentifiedObject_IdentifiedObject)
    []
    [ERef n_status n_CIM15_IEC61968_Common_Status_Status false None; ERef n_MaterialItem n_CIM15_IEC61970_Informative_InfWork_MaterialItem_MaterialItem false (Some n_ErpInventoryCounts); ERef n_AssetModel n_CIM15_IEC61968_Assets_AssetModel_AssetModel false (Some n_ErpInventoryCounts)];
(* Model/CIM15/CIM15.ecore:6317-6415 *)
  EClass n_CIM15_IEC61970_Informative_InfERPSupport_ErpInvoice_ErpInvoice n_ErpInvoice (Some n_CIM15_IEC61968_Common_Document_Document)
    [(n_mailedDate, TText); (n_transactionDateTime, TDate); (n_amount, TFloat); (n_dueDate, TText); (n_billMediaKind, enum_cim15_IEC61970_Informative_InfERPSupport_BillMediaKind); (n_referenceNumber, TText); (n_kind, enum_cim15_IEC61970_Informative_InfERPSupport_ErpInvoiceKind); (n_transferType, TText); (n_proForma, TBool)]
    [ERef n_ErpInvoiceLineItems n_CIM15_IEC61970_Informative_InfERPSupport_ErpInvoiceLineItem_ErpInvoiceLineItem true (Some n_ErpInvoice); ERef n_CustomerAccount n_CIM15_IEC61968_Customers_CustomerAccount_CustomerAccount false (Some n_ErpInvoicees)];
(* Model/CIM15/CIM15.ecore:7113-7240 *)
  EClass n_CIM15_IEC61970_Informative_InfERPSupport_ErpInvoiceLineItem_ErpInvoiceLineItem n_ErpInvoiceLineItem (Some n_CIM15_IEC61968_Common_Document_Document)
    [(n_lineNumber, TText); (n_glDateTime, TDate); (n_lineAmount, TFloat); (n_netAmount, TFloat); (n_kind, enum_cim15_IEC61970_Informative_InfERPSupport_ErpInvoiceLineItemKind); (n_lineVersion, TText); (n_glAccount, TText); (n_previousAmount, TFloat)]
    [ERef n_ErpPayments n_CIM15_IEC61970_Informative_InfERPSupport_ErpPayment_ErpPayment true (Some n_ErpInvoiceLineItems); ERef n_ContainerErpInvoiceLineItem n_CIM15_IEC61970_Informative_InfERPSupport_ErpInvoiceLineItem_ErpInvoiceLineItem false (Some n_ComponentErpInvoiceLineItems); ERef n_WorkBillingInfos n_CIM15_IEC61970_Informative_InfCustomers_WorkBillingInfo_WorkBillingInfo true (Some n_ErpLineItems); ERef n_ErpQuoteLineItem n_CIM15_IEC61970_Informative_InfERPSupport_ErpQuoteLineItem_ErpQuoteLineItem false (Some n_ErpInvoiceLineItem); ERef n_UserAttributes n_CIM15_IEC61968_Common_UserAttribute_UserAttribute true (Some n_ErpInvoiceLineItems); ERef n_ErpRecDelvLineItem n_CIM15_IEC61970_Informative_InfERPSupport_ErpRecDelvLineItem_ErpRecDelvLineItem false (Some n_ErpInvoiceLineItem); ERef n_ErpPayableLineItem n_CIM15_IEC61970_Informative_InfERPSupport_ErpPayableLineItem_ErpPayableLineItem false (Some n_ErpInvoiceLineItem); ERef n_ComponentErpInvoiceLineItems n_CIM15_IEC61970_Informative_InfERPSupport_ErpInvoiceLineItem_ErpInvoiceLineItem true (Some n_ContainerErpInvoiceLineItem); ERef n_billPeriod n_CIM15_IEC61970_Domain_DateTimeInterval_DateTimeInterval false None; ERef n_ErpInvoice n_CIM15_IEC61970_Informative_InfERPSupport_ErpInvoice_ErpInvoice false (Some n_ErpInvoiceLineItems); ERef n_CustomerBillingInfos n_CIM15_IEC61970_Informative_InfCustomers_CustomerBillingInfo_CustomerBillingInfo true (Some n_ErpInvoiceLineItems); ERef n_ErpRecLineItem n_CIM15_IEC61970_Informative_InfERPSupport_ErpRecLineItem_ErpRecLineItem false (Some n_ErpInvoiceLineItem); ERef n_ErpJournalEntries n_CIM15_IEC61970_Informative_InfERPSupport_ErpJournalEntry_ErpJournalEntry true (Some n_ErpInvoiceLineItem)];
(* Model/CIM15/CIM15.ecore:6682-6699 *)
  EClass n_CIM15_IEC61970_Informative_InfERPSupport_ErpIssueInventory_ErpIssueInventory n_ErpIssueInventory (Some n_CIM15_IEC61970_Core_IdentifiedObject_IdentifiedObject)
    []
    [ERef n_TypeAsset n_CIM15_IEC61970_Informative_InfAssets_GenericAssetModelOrMaterial_GenericAssetModelOrMaterial false (Some n_ErpInventoryIssues); ERef n_status n_CIM15_IEC61968_Common_Status_Status false None; ERef n_TypeMaterial n_CIM15_IEC61970_Informative_InfWork_TypeMaterial_TypeMaterial false (Some n_ErpIssueInventories)];
(* Model/CIM15/CIM15.ecore:6631-6646 *)
  EClass n_CIM15_IEC61970_Informative_InfERPSupport_ErpItemMaster_ErpItemMaster n_ErpItemMaster (Some n_CIM15_IEC61970_Core_IdentifiedObject_IdentifiedObject)
    []
    [ERef n_Asset n_CIM15_IEC61968_Assets_Asset_Asset false (Some n_ErpItemMaster); ERef n_status n_CIM15_IEC61968_Common_Status_Status false None];
(* Model/CIM15/CIM15.ecore:7266-7280 *)
  EClass n_CIM15_IEC61970_Informative_InfERPSupport_ErpJournal_ErpJournal n_ErpJournal (Some n_CIM15_IEC61968_Common_Document_Document)
    []
    [ERef n_ErpJournalEntries n_CIM15_IEC61970_Informative_InfERPSupport_ErpJournalEntry_ErpJournalEntry true (Some n_ErpJournal)];
(* Model/CIM15/CIM15.ecore:7040-7112 *)
  EClass n_CIM15_IEC61970_Informative_InfERPSupport_ErpJournalEntry_ErpJournalEntry n_ErpJournalEntry (Some n_CIM15_IEC61970_Core_IdentifiedObject_IdentifiedObject)
    [(n_transactionDateTime, TDate); (n_sourceID, TText); (n_postingDateTime, TDate); (n_amount, TFloat); (n_accountID, TText)]
    [ERef n_status n_CIM15_IEC61968_Common_Status_Status false None; ERef n_ErpPayableLineItems n_CIM15_IEC61970_Informative_InfERPSupport_ErpPayableLineItem_ErpPayableLineItem true (Some n_ErpJournalEntries); ERef n_ErpInvoiceLineItem n_CIM15_IEC61970_Informative_InfERPSupport_ErpInvoiceLineItem_ErpInvoiceLineItem false (Some n_ErpJournalEntries); ERef n_ErpRecLineItems n_CIM15_IEC61970_Informative_InfERPSupport_ErpRecLineItem_ErpRecLineItem true (Some n_ErpJournalEntries); ERef n_ErpLedgerEntry n_CIM15_IEC61970_Informative_InfERPSupport_ErpLedgerEntry_ErpLedgerEntry false (Some n_ErpJounalEntry); ERef n_CostTypes n_CIM15_IEC61970_Informative_InfWork_CostType_CostType true (Some n_ErpJournalEntries); ERef n_ErpJournal n_CIM15_IEC61970_Informative_InfERPSupport_ErpJournal_ErpJournal false (Some n_ErpJournalEntries)];
(* Model/CIM15/CIM15.ecore:6172-6189 *)
  EClass n_CIM15_IEC61970_Informative_InfERPSupport_ErpLedBudLineItem_ErpLedBudLineItem n_ErpLedBudLineItem (Some n_CIM15_IEC61970_Core_IdentifiedObject_IdentifiedObject)
    []
    [ERef n_ErpLedBudLineItem n_CIM15_IEC61970_Informative_InfERPSupport_ErpLedgerEntry_ErpLedgerEntry false (Some n_ErpLedgerEntry); ERef n_ErpLedgerBudget n_CIM15_IEC61970_Informative_InfERPSupport_ErpLedgerBudget_ErpLedgerBudget false (Some n_ErpLedBudLineItems); ERef n_status n_CIM15_IEC61968_Common_Status_Status false None];
(* Model/CIM15/CIM15.ecore:6718-6732 *)
  EClass n_CIM15_IEC61970_Informative_InfERPSupport_ErpLedger_ErpLedger n_ErpLedger (Some n_CIM15_IEC61968_Common_Document_Document)
    []
    [ERef n_ErpLedgerEntries n_CIM15_IEC61970_Informative_InfERPSupport_ErpLedgerEntry_ErpLedgerEntry true (Some n_ErpLedger)];
(* Model/CIM15/CIM15.ecore:6023-6037 *)
  EClass n_CIM15_IEC61970_Informative_InfERPSupport_ErpLedgerBudget_ErpLedgerBudget n_ErpLedgerBudget (Some n_CIM15_IEC61968_Common_Document_Document)
    []
    [ERef n_ErpLedBudLineItems n_CIM15_IEC61970_Informative_InfERPSupport_ErpLedBudLineItem_ErpLedBudLineItem true (Some n_ErpLedgerBudget)];
(* Model/CIM15/CIM15.ecore:6756-6822 *)
  EClass n_CIM15_IEC61970_Informative_InfERPSupport_ErpLedgerEntry_ErpLedgerEntry n_ErpLedgerEntry (Some n_CIM15_IEC61970_Core_IdentifiedObject_IdentifiedObject)
    [(n_transactionDateTime, TDate); (n_accountKind, enum_cim15_IEC61970_Informative_InfERPSupport_ErpAccountKind); (n_amount, TFloat); (n_postedDateTime, TDate); (n_accountID, TText)]
    [ERef n_ErpLedger n_CIM15_IEC61970_Informative_InfERPSupport_ErpLedger_ErpLedger false (Some n_ErpLedgerEntries); ERef n_status n_CIM15_IEC61968_Common_Status_Status false None; ERef n_ErpLedgerEntry n_CIM15_IEC61970_Informative_InfERPSupport_ErpLedBudLineItem_ErpLedBudLineItem false (Some n_ErpLedBudLineItem); ERef n_UserAttributes n_CIM15_IEC61968_Common_UserAttribute_UserAttribute true (Some n_ErpLedgerEntries); ERef n_ErpJounalEntry n_CIM15_IEC61970_Informative_InfERPSupport_ErpJournalEntry_ErpJournalEntry false (Some n_ErpLedgerEntry)];
(* Model/CIM15/CIM15.ecore:6205-6316 *)
  EClass n_CIM15_IEC61970_Informative_InfERPSupport_ErpOrganisation_ErpOrganisation n_ErpOrganisation (Some n_CIM15_IEC61968_Common_Organisation_Organisation)
    [(n_category, TText); (n_code, TText); (n_industryID, TText); (n_governmentID, TText); (n_optOut, TBool); (n_isCostCenter, TBool); (n_isProfitCenter, TBool); (n_mode, TText)]
    [ERef n_AssetRoles n_CIM15_IEC61970_Informative_InfAssets_OrgAssetRole_OrgAssetRole true (Some n_ErpOrganisation); ERef n_Requests n_CIM15_IEC61970_Informative_InfWork_Request_Request true (Some n_Organisation); ERef n_Crews n_CIM15_IEC61970_Informative_InfWork_Crew_Crew true (Some n_Organisations); ERef n_ChangeItems n_CIM15_IEC61970_Informative_InfOperations_ChangeItem_ChangeItem true (Some n_Organisation); ERef n_ErpPersonRoles n_CIM15_IEC61970_Informative_InfERPSupport_OrgErpPersonRole_OrgErpPersonRole true (Some n_ErpOrganisation); ERef n_ActivityRecords n_CIM15_IEC61968_Common_ActivityRecord_ActivityRecord true (Some n_Organisations); ERef n_ParentOrganisationRoles n_CIM15_IEC61970_Informative_InfERPSupport_OrgOrgRole_OrgOrgRole true (Some n_ChildOrganisation); ERef n_Locations n_CIM15_IEC61968_Common_Location_Location true (Some n_ErpOrganisations); ERef n_ChildOrganisationRoles n_CIM15_IEC61970_Informative_InfERPSupport_OrgOrgRole_OrgOrgRole true (Some n_ParentOrganisation); ERef n_PowerSystemResourceRoles n_CIM15_IEC61970_Informative_InfOperations_OrgPsrRole_OrgPsrRole true (Some n_ErpOrganisation); ERef n_LandPropertyRoles n_CIM15_IEC61970_Informative_InfLocations_OrgPropertyRole_OrgPropertyRole true (Some n_ErpOrganisation); ERef n_DocumentRoles n_CIM15_IEC61970_Informative_InfERPSupport_DocOrgRole_DocOrgRole true (Some n_ErpOrganisation)];
(* Model/CIM15/CIM15.ecore:6733-6755 *)
  EClass n_CIM15_IEC61970_Informative_InfERPSupport_ErpPOLineItem_ErpPOLineItem n_ErpPOLineItem (Some n_CIM15_IEC61968_Common_Document_Document)
    []
    [ERef n_ErpPurchaseOrder n_CIM15_IEC61970_Informative_InfERPSupport_ErpPurchaseOrder_ErpPurchaseOrder false (Some n_ErpPOLineItems); ERef n_ErpRecDelLineItem n_CIM15_IEC61970_Informative_InfERPSupport_ErpRecDelvLineItem_ErpRecDelvLineItem false (Some n_ErpPOLineItem); ERef n_AssetModelCatalogueItem n_CIM15_IEC61970_Informative_InfAssetModels_AssetModelCatalogueItem_AssetModelCatalogueItem false (Some n_ErpPOLineItems); ERef n_MaterialItem n_CIM15_IEC61970_Informative_InfWork_MaterialItem_MaterialItem false (Some n_ErpPOLineItems); ERef n_ErpReqLineItem n_CIM15_IEC61970_Informative_InfERPSupport_ErpReqLineItem_ErpReqLineItem false (Some n_ErpPOLineItem)];
(* Model/CIM15/CIM15.ecore:6700-6717 *)
  EClass n_CIM15_IEC61970_Informative_InfERPSupport_ErpPayable_ErpPayable n_ErpPayable (Some n_CIM15_IEC61968_Common_Document_Document)
    []
    [ERef n_ContractorItems n_CIM15_IEC61970_Informative_InfWork_ContractorItem_ContractorItem true (Some n_ErpPayables); ERef n_ErpPayableLineItems n_CIM15_IEC61970_Informative_InfERPSupport_ErpPayableLineItem_ErpPayableLineItem true (Some n_ErpPayable)];
(* Model/CIM15/CIM15.ecore:6149-6171 *)
  EClass n_CIM15_IEC61970_Informative_InfERPSupport_ErpPayableLineItem_ErpPayableLineItem n_ErpPayableLineItem (Some n_CIM15_IEC61970_Core_IdentifiedObject_IdentifiedObject)
    []
    [ERef n_ErpPayments n_CIM15_IEC61970_Informative_InfERPSupport_ErpPayment_ErpPayment true (Some n_ErpPayableLineItems); ERef n_ErpJournalEntries n_CIM15_IEC61970_Informative_InfERPSupport_ErpJournalEntry_ErpJournalEntry true (Some n_ErpPayableLineItems); ERef n_ErpInvoiceLineItem n_CIM15_IEC61970_Informative_InfERPSupport_ErpInvoiceLineItem_ErpInvoiceLineItem false (Some n_ErpPayableLineItem); ERef n_ErpPayable n_CIM15_IEC61970_Informative_InfERPSupport_ErpPayable_ErpPayable false (Some n_ErpPayableLineItems); ERef n_status n_CIM15_IEC61968_Common_Status_Status false None];
(* Model/CIM15/CIM15.ecore:6823-6852 *)
  EClass n_CIM15_IEC61970_Informative_InfERPSupport_ErpPayment_ErpPayment n_ErpPayment (Some n_CIM15_IEC61968_Common_Document_Document)
    [(n_termsPayment, TText)]
    [ERef n_ErpRecLineItems n_CIM15_IEC61970_Informative_InfERPSupport_ErpRecLineItem_ErpRecLineItem true (Some n_ErpPayments); ERef n_ErpPayableLineItems n_CIM15_IEC61970_Informative_InfERPSupport_ErpPayableLineItem_ErpPayableLineItem true (Some n_ErpPayments); ERef n_ErpInvoiceLineItems n_CIM15_IEC61970_Informative_InfERPSupport_ErpInvoiceLineItem_ErpInvoiceLineItem true (Some n_ErpPayments)];
(* Model/CIM15/CIM15.ecore:6474-6630 *)
  EClass n_CIM15_IEC61970_Informative_InfERPSupport_ErpPerson_ErpPerson n_ErpPerson (Some n_CIM15_IEC61970_Core_IdentifiedObject_IdentifiedObject)
    [(n_category, TText); (n_lastName, TText); (n_firstName, TText); (n_governmentID, TText); (n_mName, TText); (n_suffix, TText); (n_specialNeed, TText); (n_prefix, TText)]
    [ERef n_ServiceLocation n_CIM15_IEC61968_Customers_ServiceLocation_ServiceLocation false (Some n_ErpPersons); ERef n_ErpOrganisationRoles n_CIM15_IEC61970_Informative_InfERPSupport_OrgErpPersonRole_OrgErpPersonRole true (Some n_ErpPerson); ERef n_Appointments n_CIM15_IEC61970_Informative_InfWork_Appointment_Appointment true (Some n_ErpPersons); ERef n_Crews n_CIM15_IEC61970_Informative_InfWork_Crew_Crew true (Some n_CrewMembers); ERef n_LaborItems n_CIM15_IEC61970_Informative_InfWork_LaborItem_LaborItem true (Some n_ErpPersons); ERef n_LandPropertyRoles n_CIM15_IEC61970_Informative_InfLocations_PersonPropertyRole_PersonPropertyRole true (Some n_ErpPerson); ERef n_ActivityRecords n_CIM15_IEC61968_Common_ActivityRecord_ActivityRecord true (Some n_ErpPersons); ERef n_MeasurementValues n_CIM15_IEC61970_Meas_MeasurementValue_MeasurementValue true (Some n_ErpPerson); ERef n_Skills n_CIM15_IEC61970_Informative_InfCommon_Skill_Skill true (Some n_ErpPerson); ERef n_landlinePhone n_CIM15_IEC61968_Common_TelephoneNumber_TelephoneNumber false None; ERef n_mobilePhone n_CIM15_IEC61968_Common_TelephoneNumber_TelephoneNumber false None; ERef n_ChangeItems n_CIM15_IEC61970_Informative_InfOperations_ChangeItem_ChangeItem true (Some n_ErpPerson); ERef n_status n_CIM15_IEC61968_Common_Status_Status false None; ERef n_DocumentRoles n_CIM15_IEC61970_Informative_InfERPSupport_DocErpPersonRole_DocErpPersonRole true (Some n_ErpPerson); ERef n_ErpPersonnel n_CIM15_IEC61970_Informative_InfERPSupport_ErpPersonnel_ErpPersonnel false (Some n_ErpPersons); ERef n_Crafts n_CIM15_IEC61970_Informative_InfCommon_Craft_Craft true (Some n_ErpPersons); ERef n_CustomerData n_CIM15_IEC61968_Customers_Customer_Customer false (Some n_ErpPersons); ERef n_CallBacks n_CIM15_IEC61970_Informative_InfOperations_CallBack_CallBack true (Some n_ErpPersons); ERef n_SwitchingStepRoles n_CIM15_IEC61970_Informative_InfOperations_ErpPersonScheduleStepRole_ErpPersonScheduleStepRole true (Some n_ErpPerson); ERef n_electronicAddress n_CIM15_IEC61968_Common_ElectronicAddress_ElectronicAddress false None; ERef n_ErpCompetency n_CIM15_IEC61970_Informative_InfERPSupport_ErpCompetency_ErpCompetency false (Some n_ErpPersons)];
(* Model/CIM15/CIM15.ecore:7281-7296 *)
  EClass n_CIM15_IEC61970_Informative_InfERPSupport_ErpPersonnel_ErpPersonnel n_ErpPersonnel (Some n_CIM15_IEC61970_Core_IdentifiedObject_IdentifiedObject)
    []
    [ERef n_status n_CIM15_IEC61968_Common_Status_Status false None; ERef n_ErpPersons n_CIM15_IEC61970_Informative_InfERPSupport_ErpPerson_ErpPerson true (Some n_ErpPersonnel)];
(* Model/CIM15/CIM15.ecore:6096-6116 *)
  EClass n_CIM15_IEC61970_Informative_InfERPSupport_ErpProjectAccounting_ErpProjectAccounting n_ErpProjectAccounting (Some n_CIM15_IEC61968_Common_Document_Document)
    []
    [ERef n_Works n_CIM15_IEC61968_Work_Work_Work true (Some n_ErpProjectAccounting); ERef n_Projects n_CIM15_IEC61970_Informative_InfWork_Project_Project true (Some n_ErpProjectAccounting); ERef n_ErpTimeEntries n_CIM15_IEC61970_Informative_InfERPSupport_ErpTimeEntry_ErpTimeEntry true (Some n_ErpProjectAccounting); ERef n_WorkCostDetails n_CIM15_IEC61970_Informative_InfWork_WorkCostDetail_WorkCostDetail true (Some n_ErpProjectAccounting)];
(* Model/CIM15/CIM15.ecore:6070-6083 *)
  EClass n_CIM15_IEC61970_Informative_InfERPSupport_ErpPurchaseOrder_ErpPurchaseOrder n_ErpPurchaseOrder (Some n_CIM15_IEC61968_Common_Document_Document)
    []
    [ERef n_ErpPOLineItems n_CIM15_IEC61970_Informative_InfERPSupport_ErpPOLineItem_ErpPOLineItem true (Some n_ErpPurchaseOrder)];
(* Model/CIM15/CIM15.ecore:6459-6473 *)
  EClass n_CIM15_IEC61970_Informative_InfERPSupport_ErpQuote_ErpQuote n_ErpQuote (Some n_CIM15_IEC61968_Common_Document_Document)
    []
    [ERef n_ErpQuoteLineItems n_CIM15_IEC61970_Informative_InfERPSupport_ErpQuoteLineItem_ErpQuoteLineItem true (Some n_ErpQuote)];
(* Model/CIM15/CIM15.ecore:7302-7335 *)
  EClass n_CIM15_IEC61970_Informative_InfERPSupport_ErpQuoteLineItem_ErpQuoteLineItem n_ErpQuoteLineItem (Some n_CIM15_IEC61970_Core_IdentifiedObject_IdentifiedObject)
    []
    [ERef n_ErpQuote n_CIM15_IEC61970_Informative_InfERPSupport_ErpQuote_ErpQuote false (Some n_ErpQuoteLineItems); ERef n_AssetModelCatalogueItem n_CIM15_IEC61970_Informative_InfAssetModels_AssetModelCatalogueItem_AssetModelCatalogueItem false (Some n_ErpQuoteLineItems); ERef n_status n_CIM15_IEC61968_Common_Status_Status false None; ERef n_Design n_CIM15_IEC61970_Informative_InfWork_Design_Design false (Some n_ErpQuoteLineItem); ERef n_ErpInvoiceLineItem n_CIM15_IEC61970_Informative_InfERPSupport_ErpInvoiceLineItem_ErpInvoiceLineItem false (Some n_ErpQuoteLineItem); ERef n_ErpReqLineItem n_CIM15_IEC61970_Informative_InfERPSupport_ErpReqLineItem_ErpReqLineItem false (Some n_ErpQuoteLineItem); ERef n_Request n_CIM15_IEC61970_Informative_InfWork_Request_Request false (Some n_ErpQuoteLineItem)];
(* Model/CIM15/CIM15.ecore:5999-6022 *)
  EClass n_CIM15_IEC61970_Informative_InfERPSupport_ErpRecDelvLineItem_ErpRecDelvLineItem n_ErpRecDelvLineItem (Some n_CIM15_IEC61970_Core_IdentifiedObject_IdentifiedObject)
    []
    [ERef n_Assets n_CIM15_IEC61968_Assets_Asset_Asset true (Some n_ErpRecDeliveryItems); ERef n_ErpInvoiceLineItem n_CIM15_IEC61970_Informative_InfERPSupport_ErpInvoiceLineItem_ErpInvoiceLineItem false (Some n_ErpRecDelvLineItem); ERef n_status n_CIM15_IEC61968_Common_Status_Status false None; ERef n_ErpReceiveDelivery n_CIM15_IEC61970_Informative_InfERPSupport_ErpReceiveDelivery_ErpReceiveDelivery false (Some n_ErpRecDelvLineItems); ERef n_MaterialItems n_CIM15_IEC61970_Informative_InfWork_MaterialItem_MaterialItem true (Some n_ErpRecDelvLineItems); ERef n_ErpPOLineItem n_CIM15_IEC61970_Informative_InfERPSupport_ErpPOLineItem_ErpPOLineItem false (Some n_ErpRecDelLineItem)];
(* Model/CIM15/CIM15.ecore:6117-6139 *)
  EClass n_CIM15_IEC61970_Informative_InfERPSupport_ErpRecLineItem_ErpRecLineItem n_ErpRecLineItem (Some n_CIM15_IEC61970_Core_IdentifiedObject_IdentifiedObject)
    []
    [ERef n_ErpReceivable n_CIM15_IEC61970_Informative_InfERPSupport_ErpReceivable_ErpReceivable false (Some n_ErpRecLineItems); ERef n_status n_CIM15_IEC61968_Common_Status_Status false None; ERef n_ErpInvoiceLineItem n_CIM15_IEC61970_Informative_InfERPSupport_ErpInvoiceLineItem_ErpInvoiceLineItem false (Some n_ErpRecLineItem); ERef n_ErpPayments n_CIM15_IEC61970_Informative_InfERPSupport_ErpPayment_ErpPayment true (Some n_ErpRecLineItems); ERef n_ErpJournalEntries n_CIM15_IEC61970_Informative_InfERPSupport_ErpJournalEntry_ErpJournalEntry true (Some n_ErpRecLineItems)];
(* Model/CIM15/CIM15.ecore:6853-6867 *)
  EClass n_CIM15_IEC61970_Informative_InfERPSupport_ErpReceivable_ErpReceivable n_ErpReceivable (Some n_CIM15_IEC61968_Common_Document_Document)
    []
    [ERef n_ErpRecLineItems n_CIM15_IEC61970_Informative_InfERPSupport_ErpRecLineItem_ErpRecLineItem true (Some n_ErpReceivable)];
(* Model/CIM15/CIM15.ecore:7013-7027 *)
  EClass n_CIM15_IEC61970_Informative_InfERPSupport_ErpReceiveDelivery_ErpReceiveDelivery n_ErpReceiveDelivery (Some n_CIM15_IEC61968_Common_Document_Document)
    []
    [ERef n_ErpRecDelvLineItems n_CIM15_IEC61970_Informative_InfERPSupport_ErpRecDelvLineItem_ErpRecDelvLineItem true (Some n_ErpReceiveDelivery)];
(* Model/CIM15/CIM15.ecore:6884-6929 *)
  EClass n_CIM15_IEC61970_Informative_InfERPSupport_ErpReqLineItem_ErpReqLineItem n_ErpReqLineItem (Some n_CIM15_IEC61970_Core_IdentifiedObject_IdentifiedObject)
    [(n_cost, TFloat); (n_quantity, TInt); (n_deliveryDate, TText); (n_code, TText)]
    [ERef n_ErpQuoteLineItem n_CIM15_IEC61970_Informative_InfERPSupport_ErpQuoteLineItem_ErpQuoteLineItem false (Some n_ErpReqLineItem); ERef n_status n_CIM15_IEC61968_Common_Status_Status false None; ERef n_ErpRequisition n_CIM15_IEC61970_Informative_InfERPSupport_ErpRequisition_ErpRequisition false (Some n_ErpReqLineItems); ERef n_TypeMaterial n_CIM15_IEC61970_Informative_InfWork_TypeMaterial_TypeMaterial false (Some n_ErpReqLineItems); ERef n_ErpPOLineItem n_CIM15_IEC61970_Informative_InfERPSupport_ErpPOLineItem_ErpPOLineItem false (Some n_ErpReqLineItem); ERef n_TypeAsset n_CIM15_IEC61970_Informative_InfAssets_GenericAssetModelOrMaterial_GenericAssetModelOrMaterial false (Some n_ErpReqLineItems)];
(* Model/CIM15/CIM15.ecore:6190-6204 *)
  EClass n_CIM15_IEC61970_Informative_InfERPSupport_ErpRequisition_ErpRequisition n_ErpRequisition (Some n_CIM15_IEC61968_Common_Document_Document)
    []
    [ERef n_ErpReqLineItems n_CIM15_IEC61970_Informative_InfERPSupport_ErpReqLineItem_ErpReqLineItem true (Some n_ErpRequisition)];
(* Model/CIM15/CIM15.ecore:7028-7039 *)
  EClass n_CIM15_IEC61970_Informative_InfERPSupport_ErpSalesOrder_ErpSalesOrder n_ErpSalesOrder (Some n_CIM15_IEC61968_Common_Document_Document)
    []
    [];
(* Model/CIM15/CIM15.ecore:6972-6987 *)
  EClass n_CIM15_IEC61970_Informative_InfERPSupport_ErpSiteLevelData_ErpSiteLevelData n_ErpSiteLevelData (Some n_CIM15_IEC61970_Core_IdentifiedObject_IdentifiedObject)
    []
    [ERef n_status n_CIM15_IEC61968_Common_Status_Status false None; ERef n_LandProperty n_CIM15_IEC61970_Informative_InfLocations_LandProperty_LandProperty false (Some n_ErpSiteLevelDatas)];
(* Model/CIM15/CIM15.ecore:6038-6055 *)
  EClass n_CIM15_IEC61970_Informative_InfERPSupport_ErpTimeEntry_ErpTimeEntry n_ErpTimeEntry (Some n_CIM15_IEC61970_Core_IdentifiedObject_IdentifiedObject)
    []
    [ERef n_ErpProjectAccounting n_CIM15_IEC61970_Informative_InfERPSupport_ErpProjectAccounting_ErpProjectAccounting false (Some n_ErpTimeEntries); ERef n_status n_CIM15_IEC61968_Common_Status_Status false None; ERef n_ErpTimeSheet n_CIM15_IEC61970_Informative_InfERPSupport_ErpTimeSheet_ErpTimeSheet false (Some n_ErpTimeEntries)];
(* Model/CIM15/CIM15.ecore:6930-6943 *)
  EClass n_CIM15_IEC61970_Informative_InfERPSupport_ErpTimeSheet_ErpTimeSheet n_ErpTimeSheet (Some n_CIM15_IEC61968_Common_Document_Document)
    []
    [ERef n_ErpTimeEntries n_CIM15_IEC61970_Informative_InfERPSupport_ErpTimeEntry_ErpTimeEntry true (Some n_ErpTimeSheet)];
(* Model/CIM15/CIM15.ecore:6988-7012 *)
  EClass n_CIM15_IEC61970_Informative_InfERPSupport_OrgErpPersonRole_OrgErpPersonRole n_OrgErpPersonRole (Some n_CIM15_IEC61970_Informative_InfCommon_Role_Role)
    [(n_clientID, TText)]
    [ERef n_ErpPerson n_CIM15_IEC61970_Informative_InfERPSupport_ErpPerson_ErpPerson false (Some n_ErpOrganisationRoles); ERef n_ErpOrganisation n_CIM15_IEC61970_Informative_InfERPSupport_ErpOrganisation_ErpOrganisation false (Some n_ErpPersonRoles)];
(* Model/CIM15/CIM15.ecore:7241-7265 *)
  EClass n_CIM15_IEC61970_Informative_InfERPSupport_OrgOrgRole_OrgOrgRole n_OrgOrgRole (Some n_CIM15_IEC61970_Informative_InfCommon_Role_Role)
    [(n_clientID, TText)]
    [ERef n_ParentOrganisation n_CIM15_IEC61970_Informative_InfERPSupport_ErpOrganisation_ErpOrganisation false (Some n_ChildOrganisationRoles); ERef n_ChildOrganisation n_CIM15_IEC61970_Informative_InfERPSupport_ErpOrganisation_ErpOrganisation false (Some n_ParentOrganisationRoles)];
(* Model/CIM15/CIM15.ecore:13344-13426 *)
  EClass n_CIM15_IEC61970_Informative_InfGMLSupport_Diagram_Diagram n_Diagram (Some n_CIM15_IEC61968_Common_Document_Document)
    [(n_y1InitialView, TFloat); (n_kind, enum_cim15_IEC61970_Informative_InfGMLSupport_DiagramKind); (n_x2InitialView, TFloat); (n_x1InitialView, TFloat); (n_orientation, enum_cim15_IEC61970_Graphics_OrientationKind); (n_y2InitialView, TFloat)]
    [ERef n_DiagramObjects n_CIM15_IEC61970_Graphics_DiagramObject_DiagramObject true (Some n_Diagram); ERef n_CoordinateSystem n_CIM15_IEC61968_Common_CoordinateSystem_CoordinateSystem false (Some n_Diagrams); ERef n_GmlDiagramObjects n_CIM15_IEC61970_Informative_InfGMLSupport_GmlDiagramObject_GmlDiagramObject true (Some n_Diagrams); ERef n_DesignLocations n_CIM15_IEC61970_Informative_InfWork_DesignLocation_DesignLocation true (Some n_Diagrams)];
(* Model/CIM15/CIM15.ecore:12691-12704 *)
  EClass n_CIM15_IEC61970_Informative_InfGMLSupport_GmlBaseSymbol_GmlBaseSymbol n_GmlBaseSymbol (Some n_CIM15_IEC61970_Core_IdentifiedObject_IdentifiedObject)
    []
    [ERef n_GmlSymbols n_CIM15_IEC61970_Informative_InfGMLSupport_GmlSymbol_GmlSymbol true (Some n_GmlBaseSymbol)];
(* Model/CIM15/CIM15.ecore:12477-12521 *)
  EClass n_CIM15_IEC61970_Informative_InfGMLSupport_GmlColour_GmlColour n_GmlColour (Some n_CIM15_IEC61970_Core_IdentifiedObject_IdentifiedObject)
    [(n_red, TText); (n_green, TText); (n_blue, TText)]
    [ERef n_GmlFills n_CIM15_IEC61970_Informative_InfGMLSupport_GmlFill_GmlFill true (Some n_GmlColour); ERef n_GmlFonts n_CIM15_IEC61970_Informative_InfGMLSupport_GmlFont_GmlFont true (Some n_GmlColour); ERef n_GmlStrokes n_CIM15_IEC61970_Informative_InfGMLSupport_GmlStroke_GmlStroke true (Some n_GmlColour)];
(* Model/CIM15/CIM15.ecore:13145-13177 *)
  EClass n_CIM15_IEC61970_Informative_InfGMLSupport_GmlDiagramObject_GmlDiagramObject n_GmlDiagramObject (Some n_CIM15_IEC61970_Core_IdentifiedObject_IdentifiedObject)
    []
    [ERef n_GmlSelectors n_CIM15_IEC61970_Informative_InfGMLSupport_GmlSelector_GmlSelector true (Some n_GmlDiagramObjects); ERef n_Diagrams n_CIM15_IEC61970_Informative_InfGMLSupport_Diagram_Diagram true (Some n_GmlDiagramObjects); ERef n_CoordinateSystems n_CIM15_IEC61968_Common_CoordinateSystem_CoordinateSystem true (Some n_GmlDiagramObjects); ERef n_GmlPointSymbols n_CIM15_IEC61970_Informative_InfGMLSupport_GmlPointSymbol_GmlPointSymbol true (Some n_GmlDiagramObject); ERef n_GmlLineSymbols n_CIM15_IEC61970_Informative_InfGMLSupport_GmlLineSymbol_GmlLineSymbol true (Some n_GmlDiagramObject); ERef n_GmlRasterSymbols n_CIM15_IEC61970_Informative_InfGMLSupport_GmlRasterSymbol_GmlRasterSymbol true (Some n_GmlDiagramObject); ERef n_GmlObservatins n_CIM15_IEC61970_Informative_InfGMLSupport_GmlObservation_GmlObservation true (Some n_GmlDiagramObjects); ERef n_GmlTextSymbols n_CIM15_IEC61970_Informative_InfGMLSupport_GmlTextSymbol_GmlTextSymbol true (Some n_GmlDiagramObject); ERef n_GmlPolygonSymbols n_CIM15_IEC61970_Informative_InfGMLSupport_GmlPolygonSymbol_GmlPolygonSymbol true (Some n_GmlDiagramObject)];
(* Model/CIM15/CIM15.ecore:13471-13561 *)
  EClass n_CIM15_IEC61970_Informative_InfGMLSupport_GmlFeatureStyle_GmlFeatureStyle n_GmlFeatureStyle (Some n_CIM15_IEC61970_Core_IdentifiedObject_IdentifiedObject)
    [(n_semanticTypeIdentifier, TText); (n_featureType, TText); (n_version, TText); (n_featureTypeName, TText); (n_featureConstraint, TText); (n_baseType, TText); (n_queryGrammar, enum_cim15_IEC61970_Informative_InfGMLSupport_QueryGrammarKind)]
    [ERef n_GmlGeometryStyles n_CIM15_IEC61970_Informative_InfGMLSupport_GmlGeometryStyle_GmlGeometryStyle true (Some n_GmlFeatureStyle); ERef n_GmlSymbols n_CIM15_IEC61970_Informative_InfGMLSupport_GmlSymbol_GmlSymbol true (Some n_GmlFeatureStyles); ERef n_GmlTobologyStyles n_CIM15_IEC61970_Informative_InfGMLSupport_GmlTopologyStyle_GmlTopologyStyle true (Some n_GmlFeatureStyle); ERef n_GmlLabelStyles n_CIM15_IEC61970_Informative_InfGMLSupport_GmlLabelStyle_GmlLabelStyle true (Some n_GmlFeatureStyle); ERef n_GmlFeatureTypes n_CIM15_IEC61970_Informative_InfGMLSupport_GmlFeatureType_GmlFeatureType true (Some n_GmlFeatureStyles)];
(* Model/CIM15/CIM15.ecore:12388-12402 *)
  EClass n_CIM15_IEC61970_Informative_InfGMLSupport_GmlFeatureType_GmlFeatureType n_GmlFeatureType (Some n_CIM15_IEC61970_Core_IdentifiedObject_IdentifiedObject)
    []
    [ERef n_GmlFeatureStyles n_CIM15_IEC61970_Informative_InfGMLSupport_GmlFeatureStyle_GmlFeatureStyle true (Some n_GmlFeatureTypes)];
(* Model/CIM15/CIM15.ecore:13311-13343 *)
  EClass n_CIM15_IEC61970_Informative_InfGMLSupport_GmlFill_GmlFill n_GmlFill (Some n_CIM15_IEC61970_Core_IdentifiedObject_IdentifiedObject)
    [(n_opacity, TFloat)]
    [ERef n_GmlColour n_CIM15_IEC61970_Informative_InfGMLSupport_GmlColour_GmlColour false (Some n_GmlFills); ERef n_GmlMarks n_CIM15_IEC61970_Informative_InfGMLSupport_GmlMark_GmlMark true (Some n_GmlFIlls); ERef n_GmlTextSymbols n_CIM15_IEC61970_Informative_InfGMLSupport_GmlTextSymbol_GmlTextSymbol true (Some n_GmlFill); ERef n_GmlSvgParameters n_CIM15_IEC61970_Informative_InfGMLSupport_GmlSvgParameter_GmlSvgParameter true (Some n_GmlFills); ERef n_GmlPolygonSymbols n_CIM15_IEC61970_Informative_InfGMLSupport_GmlPolygonSymbol_GmlPolygonSymbol true (Some n_GmlFill)];
(* Model/CIM15/CIM15.ecore:12522-12585 *)
  EClass n_CIM15_IEC61970_Informative_InfGMLSupport_GmlFont_GmlFont n_GmlFont (Some n_CIM15_IEC61970_Core_IdentifiedObject_IdentifiedObject)
    [(n_absoluteSize, TBool); (n_size, TText); (n_style, TText); (n_family, TText); (n_weight, TText)]
    [ERef n_GmlTextSymbols n_CIM15_IEC61970_Informative_InfGMLSupport_GmlTextSymbol_GmlTextSymbol true (Some n_GmlFont); ERef n_GmlSvgParameters n_CIM15_IEC61970_Informative_InfGMLSupport_GmlSvgParameter_GmlSvgParameter true (Some n_GmlFonts); ERef n_GmlColour n_CIM15_IEC61970_Informative_InfGMLSupport_GmlColour_GmlColour false (Some n_GmlFonts)];
(* Model/CIM15/CIM15.ecore:13033-13076 *)
  EClass n_CIM15_IEC61970_Informative_InfGMLSupport_GmlGeometryStyle_GmlGeometryStyle n_GmlGeometryStyle (Some n_CIM15_IEC61970_Core_IdentifiedObject_IdentifiedObject)
    [(n_geometryProperty, TText); (n_geometryType, TText); (n_symbol, TText)]
    [ERef n_GmlFeatureStyle n_CIM15_IEC61970_Informative_InfGMLSupport_GmlFeatureStyle_GmlFeatureStyle false (Some n_GmlGeometryStyles); ERef n_GmlLabelStyle n_CIM15_IEC61970_Informative_InfGMLSupport_GmlLabelStyle_GmlLabelStyle false (Some n_GmlGeometryStyles)];
(* Model/CIM15/CIM15.ecore:12876-12955 *)
  EClass n_CIM15_IEC61970_Informative_InfGMLSupport_GmlGraphic_GmlGraphic n_GmlGraphic (Some n_CIM15_IEC61970_Core_IdentifiedObject_IdentifiedObject)
    [(n_rotation, TFloat); (n_size, TInt); (n_symbolID, TText); (n_minSize, TInt); (n_opacity, TFloat); (n_xScale, TFloat); (n_yScale, TFloat)]
    [ERef n_GmlMarks n_CIM15_IEC61970_Informative_InfGMLSupport_GmlMark_GmlMark true (Some n_GmlGraphics); ERef n_GmlPointSymbols n_CIM15_IEC61970_Informative_InfGMLSupport_GmlPointSymbol_GmlPointSymbol true (Some n_GmlGraphic)];
(* Model/CIM15/CIM15.ecore:12445-12476 *)
  EClass n_CIM15_IEC61970_Informative_InfGMLSupport_GmlHalo_GmlHalo n_GmlHalo (Some n_CIM15_IEC61970_Core_IdentifiedObject_IdentifiedObject)
    [(n_radius, TText); (n_opacity, TFloat)]
    [ERef n_GmlTextSymbols n_CIM15_IEC61970_Informative_InfGMLSupport_GmlTextSymbol_GmlTextSymbol true (Some n_GmlHalo)];
(* Model/CIM15/CIM15.ecore:12956-13032 *)
  EClass n_CIM15_IEC61970_Informative_InfGMLSupport_GmlLabelPlacement_GmlLabelPlacement n_GmlLabelPlacement (Some n_CIM15_IEC61970_Core_IdentifiedObject_IdentifiedObject)
    [(n_displacementX, TText); (n_rotation, TText); (n_displacementY, TText); (n_type, TText); (n_anchorX, TText); (n_anchorY, TText); (n_offset, TText)]
    [ERef n_GmlTextSymbols n_CIM15_IEC61970_Informative_InfGMLSupport_GmlTextSymbol_GmlTextSymbol true (Some n_GmlLabelPlacement)];
(* Model/CIM15/CIM15.ecore:13263-13310 *)
  EClass n_CIM15_IEC61970_Informative_InfGMLSupport_GmlLabelStyle_GmlLabelStyle n_GmlLabelStyle (Some n_CIM15_IEC61970_Core_IdentifiedObject_IdentifiedObject)
    [(n_transform, TText); (n_labelExpression, TText); (n_style, TText)]
    [ERef n_GmlTopologyStyles n_CIM15_IEC61970_Informative_InfGMLSupport_GmlTopologyStyle_GmlTopologyStyle true (Some n_GmlLableStyle); ERef n_GmlGeometryStyles n_CIM15_IEC61970_Informative_InfGMLSupport_GmlGeometryStyle_GmlGeometryStyle true (Some n_GmlLabelStyle); ERef n_GmlFeatureStyle n_CIM15_IEC61970_Informative_InfGMLSupport_GmlFeatureStyle_GmlFeatureStyle false (Some n_GmlLabelStyles)];
(* Model/CIM15/CIM15.ecore:13077-13097 *)
  EClass n_CIM15_IEC61970_Informative_InfGMLSupport_GmlLineGeometry_GmlLineGeometry n_GmlLineGeometry (Some n_CIM15_IEC61970_Informative_InfGMLSupport_GmlDiagramObject_GmlDiagramObject)
    [(n_sourceSide, TText)]
    [];
(* Model/CIM15/CIM15.ecore:13120-13144 *)
  EClass n_CIM15_IEC61970_Informative_InfGMLSupport_GmlLineSymbol_GmlLineSymbol n_GmlLineSymbol (Some n_CIM15_IEC61970_Informative_InfGMLSupport_GmlSymbol_GmlSymbol)
    [(n_sourceSide, TText)]
    [ERef n_GmlStroke n_CIM15_IEC61970_Informative_InfGMLSupport_GmlStroke_GmlStroke false (Some n_GmlLineSymbols); ERef n_GmlDiagramObject n_CIM15_IEC61970_Informative_InfGMLSupport_GmlDiagramObject_GmlDiagramObject false (Some n_GmlLineSymbols)];
(* Model/CIM15/CIM15.ecore:12849-12875 *)
  EClass n_CIM15_IEC61970_Informative_InfGMLSupport_GmlMark_GmlMark n_GmlMark (Some n_CIM15_IEC61970_Core_IdentifiedObject_IdentifiedObject)
    [(n_wellKnownName, TText)]
    [ERef n_GmlGraphics n_CIM15_IEC61970_Informative_InfGMLSupport_GmlGraphic_GmlGraphic true (Some n_GmlMarks); ERef n_GmlStrokes n_CIM15_IEC61970_Informative_InfGMLSupport_GmlStroke_GmlStroke true (Some n_GmlMarks); ERef n_GmlFIlls n_CIM15_IEC61970_Informative_InfGMLSupport_GmlFill_GmlFill true (Some n_GmlMarks)];
(* Model/CIM15/CIM15.ecore:12801-12848 *)
  EClass n_CIM15_IEC61970_Informative_InfGMLSupport_GmlObservation_GmlObservation n_GmlObservation (Some n_CIM15_Element_Element)
    [(n_resultOf, TText); (n_target, TText); (n_using, TText); (n_dateTime, TDate)]
    [ERef n_GmlDiagramObjects n_CIM15_IEC61970_Informative_InfGMLSupport_GmlDiagramObject_GmlDiagramObject true (Some n_GmlObservatins); ERef n_ChangeItems n_CIM15_IEC61970_Informative_InfOperations_ChangeItem_ChangeItem true (Some n_GmlObservation); ERef n_GmlValues n_CIM15_IEC61970_Informative_InfGMLSupport_GmlValue_GmlValue true (Some n_GmlObservation)];
(* Model/CIM15/CIM15.ecore:12433-12444 *)
  EClass n_CIM15_IEC61970_Informative_InfGMLSupport_GmlPointGeometry_GmlPointGeometry n_GmlPointGeometry (Some n_CIM15_IEC61970_Informative_InfGMLSupport_GmlDiagramObject_GmlDiagramObject)
    []
    [];
(* Model/CIM15/CIM15.ecore:13178-13193 *)
  EClass n_CIM15_IEC61970_Informative_InfGMLSupport_GmlPointSymbol_GmlPointSymbol n_GmlPointSymbol (Some n_CIM15_IEC61970_Informative_InfGMLSupport_GmlSymbol_GmlSymbol)
    []
    [ERef n_GmlGraphic n_CIM15_IEC61970_Informative_InfGMLSupport_GmlGraphic_GmlGraphic false (Some n_GmlPointSymbols); ERef n_GmlDiagramObject n_CIM15_IEC61970_Informative_InfGMLSupport_GmlDiagramObject_GmlDiagramObject false (Some n_GmlPointSymbols)];
(* Model/CIM15/CIM15.ecore:12784-12795 *)
  EClass n_CIM15_IEC61970_Informative_InfGMLSupport_GmlPolygonGeometry_GmlPolygonGeometry n_GmlPolygonGeometry (Some n_CIM15_IEC61970_Informative_InfGMLSupport_GmlDiagramObject_GmlDiagramObject)
    []
    [];
(* Model/CIM15/CIM15.ecore:12586-12603 *)
  EClass n_CIM15_IEC61970_Informative_InfGMLSupport_GmlPolygonSymbol_GmlPolygonSymbol n_GmlPolygonSymbol (Some n_CIM15_IEC61970_Informative_InfGMLSupport_GmlSymbol_GmlSymbol)
    []
    [ERef n_GmlDiagramObject n_CIM15_IEC61970_Informative_InfGMLSupport_GmlDiagramObject_GmlDiagramObject false (Some n_GmlPolygonSymbols); ERef n_GmlFill n_CIM15_IEC61970_Informative_InfGMLSupport_GmlFill_GmlFill false (Some n_GmlPolygonSymbols); ERef n_GmlStroke n_CIM15_IEC61970_Informative_InfGMLSupport_GmlStroke_GmlStroke false (Some n_GmlPolygonSymbols)];
(* Model/CIM15/CIM15.ecore:12705-12716 *)
  EClass n_CIM15_IEC61970_Informative_InfGMLSupport_GmlPosition_GmlPosition n_GmlPosition (Some n_CIM15_IEC61968_Common_PositionPoint_PositionPoint)
    []
    [];
(* Model/CIM15/CIM15.ecore:13569-13656 *)
  EClass n_CIM15_IEC61970_Informative_InfGMLSupport_GmlRasterSymbol_GmlRasterSymbol n_GmlRasterSymbol (Some n_CIM15_IEC61970_Informative_InfGMLSupport_GmlSymbol_GmlSymbol)
    [(n_graySourcename, TText); (n_greenSourceName, TText); (n_opacity, TFloat); (n_reliefFactor, TText); (n_redSourcename, TText); (n_overlapbehaviour, TText); (n_brighnessOnly, TBool); (n_blueSourcename, TText)]
    [ERef n_GmlDiagramObject n_CIM15_IEC61970_Informative_InfGMLSupport_GmlDiagramObject_GmlDiagramObject false (Some n_GmlRasterSymbols)];
(* Model/CIM15/CIM15.ecore:13210-13226 *)
  EClass n_CIM15_IEC61970_Informative_InfGMLSupport_GmlSelector_GmlSelector n_GmlSelector (Some n_CIM15_IEC61970_Core_IdentifiedObject_IdentifiedObject)
    []
    [ERef n_ChangeItems n_CIM15_IEC61970_Informative_InfOperations_ChangeItem_ChangeItem true (Some n_GmlSelector); ERef n_GmlDiagramObjects n_CIM15_IEC61970_Informative_InfGMLSupport_GmlDiagramObject_GmlDiagramObject true (Some n_GmlSelectors)];
(* Model/CIM15/CIM15.ecore:12604-12690 *)
  EClass n_CIM15_IEC61970_Informative_InfGMLSupport_GmlStroke_GmlStroke n_GmlStroke (Some n_CIM15_IEC61970_Core_IdentifiedObject_IdentifiedObject)
    [(n_lineCap, TText); (n_width, TFloat); (n_linejoin, TText); (n_dashArray, TText); (n_lineStyle, TText); (n_dashOffset, TText); (n_opacity, TFloat)]
    [ERef n_GmlColour n_CIM15_IEC61970_Informative_InfGMLSupport_GmlColour_GmlColour false (Some n_GmlStrokes); ERef n_GmlPolygonSymbols n_CIM15_IEC61970_Informative_InfGMLSupport_GmlPolygonSymbol_GmlPolygonSymbol true (Some n_GmlStroke); ERef n_GmlMarks n_CIM15_IEC61970_Informative_InfGMLSupport_GmlMark_GmlMark true (Some n_GmlStrokes); ERef n_GmlSvgParameters n_CIM15_IEC61970_Informative_InfGMLSupport_GmlSvgParameter_GmlSvgParameter true (Some n_GmlStokes); ERef n_GmlLineSymbols n_CIM15_IEC61970_Informative_InfGMLSupport_GmlLineSymbol_GmlLineSymbol true (Some n_GmlStroke)];
(* Model/CIM15/CIM15.ecore:13227-13262 *)
  EClass n_CIM15_IEC61970_Informative_InfGMLSupport_GmlSvgParameter_GmlSvgParameter n_GmlSvgParameter (Some n_CIM15_IEC61970_Core_IdentifiedObject_IdentifiedObject)
    [(n_attribute, TText); (n_value, TText)]
    [ERef n_GmlStokes n_CIM15_IEC61970_Informative_InfGMLSupport_GmlStroke_GmlStroke true (Some n_GmlSvgParameters); ERef n_GmlFonts n_CIM15_IEC61970_Informative_InfGMLSupport_GmlFont_GmlFont true (Some n_GmlSvgParameters); ERef n_GmlFills n_CIM15_IEC61970_Informative_InfGMLSupport_GmlFill_GmlFill true (Some n_GmlSvgParameters)];
(* Model/CIM15/CIM15.ecore:13427-13470 *)
  EClass n_CIM15_IEC61970_Informative_InfGMLSupport_GmlSymbol_GmlSymbol n_GmlSymbol (Some n_CIM15_IEC61970_Core_IdentifiedObject_IdentifiedObject)
    [(n_version, TText); (n_level, TText); (n_type, TText)]
    [ERef n_GmlFeatureStyles n_CIM15_IEC61970_Informative_InfGMLSupport_GmlFeatureStyle_GmlFeatureStyle true (Some n_GmlSymbols); ERef n_GmlBaseSymbol n_CIM15_IEC61970_Informative_InfGMLSupport_GmlBaseSymbol_GmlBaseSymbol false (Some n_GmlSymbols)];
(* Model/CIM15/CIM15.ecore:12717-12783 *)
  EClass n_CIM15_IEC61970_Informative_InfGMLSupport_GmlTextSymbol_GmlTextSymbol n_GmlTextSymbol (Some n_CIM15_IEC61970_Informative_InfGMLSupport_GmlSymbol_GmlSymbol)
    [(n_label, TText); (n_labelType, TText); (n_fieldID, TText); (n_minFontSize, TInt); (n_property, TText)]
    [ERef n_GmlFill n_CIM15_IEC61970_Informative_InfGMLSupport_GmlFill_GmlFill false (Some n_GmlTextSymbols); ERef n_GmlLabelPlacement n_CIM15_IEC61970_Informative_InfGMLSupport_GmlLabelPlacement_GmlLabelPlacement false (Some n_GmlTextSymbols); ERef n_GmlHalo n_CIM15_IEC61970_Informative_InfGMLSupport_GmlHalo_GmlHalo false (Some n_GmlTextSymbols); ERef n_GmlFont n_CIM15_IEC61970_Informative_InfGMLSupport_GmlFont_GmlFont false (Some n_GmlTextSymbols); ERef n_GmlDiagramObject n_CIM15_IEC61970_Informative_InfGMLSupport_GmlDiagramObject_GmlDiagramObject false (Some n_GmlTextSymbols)];
(* Model/CIM15/CIM15.ecore:13194-13209 *)
  EClass n_CIM15_IEC61970_Informative_InfGMLSupport_GmlTopologyStyle_GmlTopologyStyle n_GmlTopologyStyle (Some n_CIM15_IEC61970_Core_IdentifiedObject_IdentifiedObject)
    []
    [ERef n_GmlLableStyle n_CIM15_IEC61970_Informative_InfGMLSupport_GmlLabelStyle_GmlLabelStyle false (Some n_GmlTopologyStyles); ERef n_GmlFeatureStyle n_CIM15_IEC61970_Informative_InfGMLSupport_GmlFeatureStyle_GmlFeatureStyle false (Some n_GmlTobologyStyles)];
(* Model/CIM15/CIM15.ecore:13098-13119 *)
  EClass n_CIM15_IEC61970_Informative_InfGMLSupport_GmlValue_GmlValue n_GmlValue (Some n_CIM15_IEC61970_Core_IdentifiedObject_IdentifiedObject)
    [(n_dateTime, TDate); (n_timePeriod, TText); (n_value, TFloat)]
    [ERef n_GmlObservation n_CIM15_IEC61970_Informative_InfGMLSupport_GmlObservation_GmlObservation false (Some n_GmlValues); ERef n_MeasurementValue n_CIM15_IEC61970_Meas_MeasurementValue_MeasurementValue false (Some n_GmlValues)];
(* Model/CIM15/CIM15.ecore:12403-12432 *)
  EClass n_CIM15_IEC61970_Informative_InfGMLSupport_Map_Map n_Map (Some n_CIM15_IEC61970_Informative_InfGMLSupport_Diagram_Diagram)
    [(n_pageNumber, TInt); (n_mapLocGrid, TText)]
    [];
(* Model/CIM15/CIM15.ecore:13836-13883 *)
  EClass n_CIM15_IEC61970_Informative_InfLoadControl_LoadLimitFunction_LoadLimitFunction n_LoadLimitFunction (Some n_CIM15_IEC61970_Informative_InfLoadControl_LoadMgmtFunction_LoadMgmtFunction)
    [(n_disconnectTimeDelay, TFloat); (n_isAutoReconOp, TBool); (n_reconnectTimeDelay, TFloat); (n_maximumLoad, TFloat)]
    [];
(* Model/CIM15/CIM15.ecore:13765-13835 *)
  EClass n_CIM15_IEC61970_Informative_InfLoadControl_LoadMgmtFunction_LoadMgmtFunction n_LoadMgmtFunction (Some n_CIM15_IEC61968_Metering_EndDeviceFunction_EndDeviceFunction)
    [(n_schedulingBasis, enum_cim15_IEC61970_Informative_InfLoadControl_LoadMgmtKind); (n_remoteOverRide, TBool); (n_isAutoOp, TBool); (n_loadStatus, enum_cim15_IEC61970_Informative_InfLoadControl_LoadStateKind); (n_manualOverRide, TBool); (n_overRideTimeOut, TFloat)]
    [ERef n_Switches n_CIM15_IEC61970_Wires_Switch_Switch true (Some n_LoadMgmtFunctions); ERef n_LoadMgmtRecords n_CIM15_IEC61970_Informative_InfLoadControl_LoadMgmtRecord_LoadMgmtRecord true (Some n_LoadMgmtFunction)];
(* Model/CIM15/CIM15.ecore:13721-13743 *)
  EClass n_CIM15_IEC61970_Informative_InfLoadControl_LoadMgmtRecord_LoadMgmtRecord n_LoadMgmtRecord (Some n_CIM15_IEC61968_Common_ActivityRecord_ActivityRecord)
    [(n_loadReduction, TFloat)]
    [ERef n_LoadMgmtFunction n_CIM15_IEC61970_Informative_InfLoadControl_LoadMgmtFunction_LoadMgmtFunction false (Some n_LoadMgmtRecords)];
(* Model/CIM15/CIM15.ecore:13744-13764 *)
  EClass n_CIM15_IEC61970_Informative_InfLoadControl_LoadShedFunction_LoadShedFunction n_LoadShedFunction (Some n_CIM15_IEC61970_Informative_InfLoadControl_LoadMgmtFunction_LoadMgmtFunction)
    [(n_switchedLoad, TFloat)]
    [];
(* Model/CIM15/CIM15.ecore:12245-12267 *)
  EClass n_CIM15_IEC61970_Informative_InfLocations_Direction_Direction n_Direction (Some n_CIM15_Element_Element)
    [(n_directionInfo, TText)]
    [ERef n_Location n_CIM15_IEC61968_Common_Location_Location false (Some n_Directions)];
(* Model/CIM15/CIM15.ecore:12347-12378 *)
  EClass n_CIM15_IEC61970_Informative_InfLocations_Hazard_Hazard n_Hazard (Some n_CIM15_IEC61970_Core_IdentifiedObject_IdentifiedObject)
    [(n_category, TText)]
    [ERef n_Locations n_CIM15_IEC61968_Common_Location_Location true (Some n_Hazards); ERef n_status n_CIM15_IEC61968_Common_Status_Status false None];
(* Model/CIM15/CIM15.ecore:12268-12346 *)
  EClass n_CIM15_IEC61970_Informative_InfLocations_LandProperty_LandProperty n_LandProperty (Some n_CIM15_IEC61970_Core_IdentifiedObject_IdentifiedObject)
    [(n_kind, enum_cim15_IEC61970_Informative_InfLocations_LandPropertyKind); (n_externalRecordReference, TText); (n_demographicKind, enum_cim15_IEC61970_Informative_InfLocations_DemographicKind)]
    [ERef n_status n_CIM15_IEC61968_Common_Status_Status false None; ERef n_LocationGrants n_CIM15_IEC61970_Informative_InfLocations_LocationGrant_LocationGrant true (Some n_LandProperty); ERef n_ErpSiteLevelDatas n_CIM15_IEC61970_Informative_InfERPSupport_ErpSiteLevelData_ErpSiteLevelData true (Some n_LandProperty); ERef n_ErpPersonRoles n_CIM15_IEC61970_Informative_InfLocations_PersonPropertyRole_PersonPropertyRole true (Some n_LandProperty); ERef n_ErpOrganisationRoles n_CIM15_IEC61970_Informative_InfLocations_OrgPropertyRole_OrgPropertyRole true (Some n_LandProperty); ERef n_AssetContainers n_CIM15_IEC61968_Assets_AssetContainer_AssetContainer true (Some n_LandProperties); ERef n_Locations n_CIM15_IEC61968_Common_Location_Location true (Some n_LandProperties); ERef n_RightOfWays n_CIM15_IEC61970_Informative_InfLocations_RightOfWay_RightOfWay true (Some n_LandProperties)];
(* Model/CIM15/CIM15.ecore:12069-12098 *)
  EClass n_CIM15_IEC61970_Informative_InfLocations_LocationGrant_LocationGrant n_LocationGrant (Some n_CIM15_IEC61968_Common_Agreement_Agreement)
    [(n_propertyData, TText)]
    [ERef n_LandProperty n_CIM15_IEC61970_Informative_InfLocations_LandProperty_LandProperty false (Some n_LocationGrants)];
(* Model/CIM15/CIM15.ecore:12229-12244 *)
  EClass n_CIM15_IEC61970_Informative_InfLocations_OrgPropertyRole_OrgPropertyRole n_OrgPropertyRole (Some n_CIM15_IEC61970_Informative_InfCommon_Role_Role)
    []
    [ERef n_LandProperty n_CIM15_IEC61970_Informative_InfLocations_LandProperty_LandProperty true (Some n_ErpOrganisationRoles); ERef n_ErpOrganisation n_CIM15_IEC61970_Informative_InfERPSupport_ErpOrganisation_ErpOrganisation false (Some n_LandPropertyRoles)];
(* Model/CIM15/CIM15.ecore:12138-12153 *)
  EClass n_CIM15_IEC61970_Informative_InfLocations_PersonPropertyRole_PersonPropertyRole n_PersonPropertyRole (Some n_CIM15_IEC61970_Informative_InfCommon_Role_Role)
    []
    [ERef n_ErpPerson n_CIM15_IEC61970_Informative_InfERPSupport_ErpPerson_ErpPerson false (Some n_LandPropertyRoles); ERef n_LandProperty n_CIM15_IEC61970_Informative_InfLocations_LandProperty_LandProperty false (Some n_ErpPersonRoles)];
(* Model/CIM15/CIM15.ecore:12186-12201 *)
  EClass n_CIM15_IEC61970_Informative_InfLocations_RedLine_RedLine n_RedLine (Some n_CIM15_IEC61970_Core_IdentifiedObject_IdentifiedObject)
    []
    [ERef n_Locations n_CIM15_IEC61968_Common_Location_Location true (Some n_RedLines); ERef n_status n_CIM15_IEC61968_Common_Status_Status false None];
(* Model/CIM15/CIM15.ecore:12099-12128 *)
  EClass n_CIM15_IEC61970_Informative_InfLocations_RightOfWay_RightOfWay n_RightOfWay (Some n_CIM15_IEC61968_Common_Agreement_Agreement)
    [(n_propertyData, TText)]
    [ERef n_LandProperties n_CIM15_IEC61970_Informative_InfLocations_LandProperty_LandProperty true (Some n_RightOfWays)];
(* Model/CIM15/CIM15.ecore:12202-12228 *)
  EClass n_CIM15_IEC61970_Informative_InfLocations_Route_Route n_Route (Some n_CIM15_IEC61970_Core_IdentifiedObject_IdentifiedObject)
    [(n_category, TText)]
    [ERef n_Crews n_CIM15_IEC61970_Informative_InfWork_Crew_Crew true (Some n_Route); ERef n_status n_CIM15_IEC61968_Common_Status_Status false None; ERef n_Locations n_CIM15_IEC61968_Common_Location_Location true (Some n_Routes)];
(* Model/CIM15/CIM15.ecore:12154-12174 *)
  EClass n_CIM15_IEC61970_Informative_InfLocations_Zone_Zone n_Zone (Some n_CIM15_IEC61968_Common_Location_Location)
    [(n_kind, enum_cim15_IEC61970_Informative_InfLocations_ZoneKind)]
    [];
(* Model/CIM15/CIM15.ecore:13892-13903 *)
  EClass n_CIM15_IEC61970_Informative_InfMetering_GasMeteringFunction_GasMeteringFunction n_GasMeteringFunction (Some n_CIM15_IEC61968_Metering_EndDeviceFunction_EndDeviceFunction)
    []
    [];
(* Model/CIM15/CIM15.ecore:13904-13915 *)
  EClass n_CIM15_IEC61970_Informative_InfMetering_WaterMeteringFunction_WaterMeteringFunction n_WaterMeteringFunction (Some n_CIM15_IEC61968_Metering_EndDeviceFunction_EndDeviceFunction)
    []
    [];
(* Model/CIM15/CIM15.ecore:11808-11872 *)
  EClass n_CIM15_IEC61970_Informative_InfOperations_CallBack_CallBack n_CallBack (Some n_CIM15_IEC61970_Core_IdentifiedObject_IdentifiedObject)
    [(n_dateTime, TDate); (n_comment, TText); (n_advice, TText); (n_contactDetail, TText); (n_problemInfo, TText)]
    [ERef n_Appointments n_CIM15_IEC61970_Informative_InfWork_Appointment_Appointment true (Some n_CallBack); ERef n_ErpPersons n_CIM15_IEC61970_Informative_InfERPSupport_ErpPerson_ErpPerson true (Some n_CallBacks); ERef n_TroubleTickets n_CIM15_IEC61970_Informative_InfOperations_TroubleTicket_TroubleTicket true (Some n_CallBacks); ERef n_status n_CIM15_IEC61968_Common_Status_Status false None];
(* Model/CIM15/CIM15.ecore:11178-11229 *)
  EClass n_CIM15_IEC61970_Informative_InfOperations_ChangeItem_ChangeItem n_ChangeItem (Some n_CIM15_IEC61970_Core_IdentifiedObject_IdentifiedObject)
    [(n_sequenceNumber, TInt); (n_kind, enum_cim15_IEC61970_Informative_InfOperations_ChangeItemKind)]
    [ERef n_GmlSelector n_CIM15_IEC61970_Informative_InfGMLSupport_GmlSelector_GmlSelector false (Some n_ChangeItems); ERef n_Organisation n_CIM15_IEC61970_Informative_InfERPSupport_ErpOrganisation_ErpOrganisation false (Some n_ChangeItems); ERef n_Document n_CIM15_IEC61968_Common_Document_Document false (Some n_ChangeItems); ERef n_Asset n_CIM15_IEC61968_Assets_Asset_Asset false (Some n_ChangeItems); ERef n_status n_CIM15_IEC61968_Common_Status_Status false None; ERef n_GmlObservation n_CIM15_IEC61970_Informative_InfGMLSupport_GmlObservation_GmlObservation false (Some n_ChangeItems); ERef n_ErpPerson n_CIM15_IEC61970_Informative_InfERPSupport_ErpPerson_ErpPerson false (Some n_ChangeItems); ERef n_PowerSystemResource n_CIM15_IEC61970_Core_PowerSystemResource_PowerSystemResource false (Some n_ChangeItems); ERef n_ChangeSet n_CIM15_IEC61970_Informative_InfOperations_ChangeSet_ChangeSet false (Some n_ChangeItems); ERef n_Location n_CIM15_IEC61968_Common_Location_Location false (Some n_ChangeItems); ERef n_NetworkDataSet n_CIM15_IEC61970_Informative_InfOperations_NetworkDataSet_NetworkDataSet false (Some n_ChangeItems)];
(* Model/CIM15/CIM15.ecore:11364-11384 *)
  EClass n_CIM15_IEC61970_Informative_InfOperations_ChangeSet_ChangeSet n_ChangeSet (Some n_CIM15_IEC61970_Core_IdentifiedObject_IdentifiedObject)
    []
    [ERef n_NetworkDataSets n_CIM15_IEC61970_Informative_InfOperations_NetworkDataSet_NetworkDataSet true (Some n_ChangeSets); ERef n_ChangeItems n_CIM15_IEC61970_Informative_InfOperations_ChangeItem_ChangeItem true (Some n_ChangeSet); ERef n_status n_CIM15_IEC61968_Common_Status_Status false None; ERef n_Documents n_CIM15_IEC61968_Common_Document_Document true (Some n_ChangeSets)];
(* Model/CIM15/CIM15.ecore:11443-11457 *)
  EClass n_CIM15_IEC61970_Informative_InfOperations_Circuit_Circuit n_Circuit (Some n_CIM15_IEC61970_Core_EquipmentContainer_EquipmentContainer)
    []
    [ERef n_CircuitSections n_CIM15_IEC61970_Informative_InfOperations_CircuitSection_CircuitSection true (Some n_Circuits)];
(* Model/CIM15/CIM15.ecore:11299-11324 *)
  EClass n_CIM15_IEC61970_Informative_InfOperations_CircuitSection_CircuitSection n_CircuitSection (Some n_CIM15_IEC61970_Core_IdentifiedObject_IdentifiedObject)
    [(n_connectionKind, enum_cim15_IEC61970_Informative_InfOperations_CircuitConnectionKind)]
    [ERef n_ConductorAssets n_CIM15_IEC61970_Informative_InfAssets_ConductorAsset_ConductorAsset true (Some n_CircuitSection); ERef n_Circuits n_CIM15_IEC61970_Informative_InfOperations_Circuit_Circuit true (Some n_CircuitSections)];
(* Model/CIM15/CIM15.ecore:11725-11740 *)
  EClass n_CIM15_IEC61970_Informative_InfOperations_ErpPersonScheduleStepRole_ErpPersonScheduleStepRole n_ErpPersonScheduleStepRole (Some n_CIM15_IEC61970_Informative_InfCommon_Role_Role)
    []
    [ERef n_ErpPerson n_CIM15_IEC61970_Informative_InfERPSupport_ErpPerson_ErpPerson false (Some n_SwitchingStepRoles); ERef n_SwitchingStep n_CIM15_IEC61970_Informative_InfOperations_SwitchingStep_SwitchingStep false (Some n_ErpPersonRole)];
(* Model/CIM15/CIM15.ecore:11679-11702 *)
  EClass n_CIM15_IEC61970_Informative_InfOperations_IncidentCode_IncidentCode n_IncidentCode (Some n_CIM15_IEC61970_Core_IdentifiedObject_IdentifiedObject)
    [(n_subCode, TText)]
    [ERef n_IncidentRecords n_CIM15_IEC61970_Informative_InfOperations_IncidentRecord_IncidentRecord true (Some n_IncidentCodes)];
(* Model/CIM15/CIM15.ecore:11983-12007 *)
  EClass n_CIM15_IEC61970_Informative_InfOperations_IncidentRecord_IncidentRecord n_IncidentRecord (Some n_CIM15_IEC61968_Common_Document_Document)
    []
    [ERef n_TroubleTickets n_CIM15_IEC61970_Informative_InfOperations_TroubleTicket_TroubleTicket true (Some n_IncidentRecord); ERef n_period n_CIM15_IEC61970_Domain_DateTimeInterval_DateTimeInterval false None; ERef n_IncidentCodes n_CIM15_IEC61970_Informative_InfOperations_IncidentCode_IncidentCode true (Some n_IncidentRecords)];
(* Model/CIM15/CIM15.ecore:11703-11714 *)
  EClass n_CIM15_IEC61970_Informative_InfOperations_LandBase_LandBase n_LandBase (Some n_CIM15_IEC61968_Common_Document_Document)
    []
    [];
(* Model/CIM15/CIM15.ecore:11458-11488 *)
  EClass n_CIM15_IEC61970_Informative_InfOperations_NetworkDataSet_NetworkDataSet n_NetworkDataSet (Some n_CIM15_IEC61970_Core_IdentifiedObject_IdentifiedObject)
    [(n_category, TText)]
    [ERef n_status n_CIM15_IEC61968_Common_Status_Status false None; ERef n_Documents n_CIM15_IEC61968_Common_Document_Document true (Some n_NetworkDataSets); ERef n_ChangeItems n_CIM15_IEC61970_Informative_InfOperations_ChangeItem_ChangeItem true (Some n_NetworkDataSet); ERef n_ChangeSets n_CIM15_IEC61970_Informative_InfOperations_ChangeSet_ChangeSet true (Some n_NetworkDataSets); ERef n_PowerSystemResources n_CIM15_IEC61970_Core_PowerSystemResource_PowerSystemResource true (Some n_NetworkDataSets)];
(* Model/CIM15/CIM15.ecore:11343-11363 *)
  EClass n_CIM15_IEC61970_Informative_InfOperations_OperationalRestriction_OperationalRestriction n_OperationalRestriction (Some n_CIM15_IEC61968_Common_Document_Document)
    []
    [ERef n_activePeriod n_CIM15_IEC61970_Domain_DateTimeInterval_DateTimeInterval false None];
(* Model/CIM15/CIM15.ecore:11638-11653 *)
  EClass n_CIM15_IEC61970_Informative_InfOperations_OrgPsrRole_OrgPsrRole n_OrgPsrRole (Some n_CIM15_IEC61970_Informative_InfCommon_Role_Role)
    []
    [ERef n_ErpOrganisation n_CIM15_IEC61970_Informative_InfERPSupport_ErpOrganisation_ErpOrganisation false (Some n_PowerSystemResourceRoles); ERef n_PowerSystemResource n_CIM15_IEC61970_Core_PowerSystemResource_PowerSystemResource false (Some n_ErpOrganisationRoles)];
(* Model/CIM15/CIM15.ecore:11654-11678 *)
  EClass n_CIM15_IEC61970_Informative_InfOperations_OutageCode_OutageCode n_OutageCode (Some n_CIM15_IEC61970_Core_IdentifiedObject_IdentifiedObject)
    [(n_subCode, TText)]
    [ERef n_OutageRecords n_CIM15_IEC61970_Informative_InfOperations_OutageRecord_OutageRecord true (Some n_OutageCodes); ERef n_OutageSteps n_CIM15_IEC61970_Informative_InfOperations_OutageStep_OutageStep true (Some n_OutageCodes)];
(* Model/CIM15/CIM15.ecore:12008-12049 *)
  EClass n_CIM15_IEC61970_Informative_InfOperations_OutageNotification_OutageNotification n_OutageNotification (Some n_CIM15_IEC61968_Common_Document_Document)
    [(n_expectedInterruptionCount, TInt); (n_duration, TFloat); (n_reason, TText)]
    [ERef n_CustomerDatas n_CIM15_IEC61968_Customers_Customer_Customer true (Some n_OutageNotifications)];
(* Model/CIM15/CIM15.ecore:11042-11111 *)
  EClass n_CIM15_IEC61970_Informative_InfOperations_OutageRecord_OutageRecord n_OutageRecord (Some n_CIM15_IEC61968_Common_Document_Document)
    [(n_endDateTime, TDate); (n_isPlanned, TBool); (n_damageCode, TText); (n_actionTaken, TText); (n_mode, TText)]
    [ERef n_OutageCodes n_CIM15_IEC61970_Informative_InfOperations_OutageCode_OutageCode true (Some n_OutageRecords); ERef n_OutageReport n_CIM15_IEC61970_Informative_InfOperations_OutageReport_OutageReport false (Some n_OutageRecord); ERef n_OutageSteps n_CIM15_IEC61970_Informative_InfOperations_OutageStep_OutageStep true (Some n_OutageRecord)];
(* Model/CIM15/CIM15.ecore:11112-11177 *)
  EClass n_CIM15_IEC61970_Informative_InfOperations_OutageReport_OutageReport n_OutageReport (Some n_CIM15_IEC61968_Common_Document_Document)
    [(n_customerCount, TInt); (n_averageCml, TFloat); (n_outageDuration, TFloat); (n_totalCml, TFloat)]
    [ERef n_OutageRecord n_CIM15_IEC61970_Informative_InfOperations_OutageRecord_OutageRecord false (Some n_OutageReport); ERef n_OutageHistory n_CIM15_IEC61970_Informative_InfCustomers_OutageHistory_OutageHistory false (Some n_OutageReports)];
(* Model/CIM15/CIM15.ecore:11489-11631 *)
  EClass n_CIM15_IEC61970_Informative_InfOperations_OutageStep_OutageStep n_OutageStep (Some n_CIM15_IEC61970_Core_IdentifiedObject_IdentifiedObject)
    [(n_averageCml, TFloat); (n_damage, TBool); (n_specialCustomerCount, TInt); (n_criticalCustomerCount, TInt); (n_estimatedRestoreDateTime, TDate); (n_shockReported, TBool); (n_callerCount, TInt); (n_fatality, TBool); (n_jobPriority, TText); (n_totalCustomerCount, TInt); (n_injury, TBool); (n_totalCml, TFloat)]
    [ERef n_Crews n_CIM15_IEC61970_Informative_InfWork_Crew_Crew true (Some n_OutageSteps); ERef n_noPowerInterval n_CIM15_IEC61970_Domain_DateTimeInterval_DateTimeInterval false None; ERef n_ConductingEquipmentRoles n_CIM15_IEC61970_Informative_InfOperations_OutageStepPsrRole_OutageStepPsrRole true (Some n_OutageStep); ERef n_status n_CIM15_IEC61968_Common_Status_Status false None; ERef n_OutageRecord n_CIM15_IEC61970_Informative_InfOperations_OutageRecord_OutageRecord false (Some n_OutageSteps); ERef n_OutageCodes n_CIM15_IEC61970_Informative_InfOperations_OutageCode_OutageCode true (Some n_OutageSteps)];
(* Model/CIM15/CIM15.ecore:12050-12065 *)
  EClass n_CIM15_IEC61970_Informative_InfOperations_OutageStepPsrRole_OutageStepPsrRole n_OutageStepPsrRole (Some n_CIM15_IEC61970_Informative_InfCommon_Role_Role)
    []
    [ERef n_OutageStep n_CIM15_IEC61970_Informative_InfOperations_OutageStep_OutageStep false (Some n_ConductingEquipmentRoles); ERef n_ConductingEquipment n_CIM15_IEC61970_Core_ConductingEquipment_ConductingEquipment false (Some n_OutageStepRoles)];
(* Model/CIM15/CIM15.ecore:11230-11259 *)
  EClass n_CIM15_IEC61970_Informative_InfOperations_PSREvent_PSREvent n_PSREvent (Some n_CIM15_IEC61968_Common_ActivityRecord_ActivityRecord)
    [(n_kind, enum_cim15_IEC61970_Informative_InfOperations_PSREventKind)]
    [ERef n_PowerSystemResource n_CIM15_IEC61970_Core_PowerSystemResource_PowerSystemResource false (Some n_PSREvent)];
(* Model/CIM15/CIM15.ecore:11260-11291 *)
  EClass n_CIM15_IEC61970_Informative_InfOperations_PlannedOutage_PlannedOutage n_PlannedOutage (Some n_CIM15_IEC61968_Common_Document_Document)
    [(n_kind, enum_cim15_IEC61970_Informative_InfOperations_OutageKind)]
    [ERef n_CustomerDatas n_CIM15_IEC61968_Customers_Customer_Customer true (Some n_PlannedOutage); ERef n_OutageSchedules n_CIM15_IEC61970_Outage_OutageSchedule_OutageSchedule true (Some n_PlannedOutage)];
(* Model/CIM15/CIM15.ecore:11325-11342 *)
  EClass n_CIM15_IEC61970_Informative_InfOperations_SafetyDocument_SafetyDocument n_SafetyDocument (Some n_CIM15_IEC61968_Common_Document_Document)
    []
    [ERef n_ClearanceTags n_CIM15_IEC61970_Outage_ClearanceTag_ClearanceTag true (Some n_SafetyDocument); ERef n_ScheduleSteps n_CIM15_IEC61970_Informative_InfOperations_SwitchingStep_SwitchingStep true (Some n_SafetyDocument); ERef n_PowerSystemResource n_CIM15_IEC61970_Core_PowerSystemResource_PowerSystemResource false (Some n_SafetyDocuments)];
(* Model/CIM15/CIM15.ecore:11391-11433 *)
  EClass n_CIM15_IEC61970_Informative_InfOperations_SwitchingSchedule_SwitchingSchedule n_SwitchingSchedule (Some n_CIM15_IEC61968_Common_Document_Document)
    [(n_reason, TText)]
    [ERef n_ScheduleSteps n_CIM15_IEC61970_Informative_InfOperations_SwitchingStep_SwitchingStep true (Some n_SwitchingSchedule); ERef n_WorkTask n_CIM15_IEC61970_Informative_InfWork_WorkTask_WorkTask false (Some n_SwitchingSchedules); ERef n_Crews n_CIM15_IEC61970_Informative_InfWork_Crew_Crew true (Some n_SwitchingSchedules); ERef n_interval n_CIM15_IEC61970_Domain_DateTimeInterval_DateTimeInterval false None];
(* Model/CIM15/CIM15.ecore:11741-11807 *)
  EClass n_CIM15_IEC61970_Informative_InfOperations_SwitchingStep_SwitchingStep n_SwitchingStep (Some n_CIM15_IEC61970_Core_IdentifiedObject_IdentifiedObject)
    [(n_statusKind, enum_cim15_IEC61970_Informative_InfOperations_SwitchingStepStatusKind); (n_text, TText); (n_requiredControlAction, TText); (n_desiredEndState, TText)]
    [ERef n_SafetyDocument n_CIM15_IEC61970_Informative_InfOperations_SafetyDocument_SafetyDocument false (Some n_ScheduleSteps); ERef n_requiredControlActionInterval n_CIM15_IEC61970_Domain_DateTimeInterval_DateTimeInterval false None; ERef n_SwitchingSchedule n_CIM15_IEC61970_Informative_InfOperations_SwitchingSchedule_SwitchingSchedule false (Some n_ScheduleSteps); ERef n_PowerSystemResources n_CIM15_IEC61970_Core_PowerSystemResource_PowerSystemResource true (Some n_ScheduleSteps); ERef n_ErpPersonRole n_CIM15_IEC61970_Informative_InfOperations_ErpPersonScheduleStepRole_ErpPersonScheduleStepRole false (Some n_SwitchingStep)];
(* Model/CIM15/CIM15.ecore:11873-11982 *)
  EClass n_CIM15_IEC61970_Informative_InfOperations_TroubleTicket_TroubleTicket n_TroubleTicket (Some n_CIM15_IEC61968_Common_Document_Document)
    [(n_firstCallDateTime, TDate); (n_estimatedRestoreDateTime, TDate); (n_informBeforeRestored, TBool); (n_reportingKind, enum_cim15_IEC61970_Informative_InfOperations_TroubleReportingKind); (n_priority, TText); (n_informAfterRestored, TBool); (n_advice, TText); (n_hazardCode, TText); (n_callBack, TBool)]
    [ERef n_CallBacks n_CIM15_IEC61970_Informative_InfOperations_CallBack_CallBack true (Some n_TroubleTickets); ERef n_troublePeriod n_CIM15_IEC61970_Domain_DateTimeInterval_DateTimeInterval false None; ERef n_CustomerData n_CIM15_IEC61968_Customers_Customer_Customer false (Some n_TroubleTickets); ERef n_IncidentRecord n_CIM15_IEC61970_Informative_InfOperations_IncidentRecord_IncidentRecord false (Some n_TroubleTickets)];
(* Model/CIM15/CIM15.ecore:14174-14329 *)
  EClass n_CIM15_IEC61970_Informative_InfTypeAsset_GeneratorTypeAsset_GeneratorTypeAsset n_GeneratorTypeAsset (Some n_CIM15_IEC61970_Informative_InfAssets_GenericAssetModelOrMaterial_GenericAssetModelOrMaterial)
    [(n_xDirectSync, TFloat); (n_rQuadSubtrans, TFloat); (n_rDirectSync, TFloat); (n_rDirectSubtrans, TFloat); (n_maxQ, TFloat); (n_xQuadSync, TFloat); (n_minQ, TFloat); (n_minP, TFloat); (n_maxP, TFloat); (n_rQuadSync, TFloat); (n_xQuadSubtrans, TFloat); (n_rDirectTrans, TFloat); (n_rQuadTrans, TFloat); (n_xDirectSubtrans, TFloat); (n_xDirectTrans, TFloat); (n_xQuadTrans, TFloat)]
    [];
(* Model/CIM15/CIM15.ecore:14157-14173 *)
  EClass n_CIM15_IEC61970_Informative_InfTypeAsset_TypeAssetCatalogue_TypeAssetCatalogue n_TypeAssetCatalogue (Some n_CIM15_IEC61970_Core_IdentifiedObject_IdentifiedObject)
    []
    [ERef n_TypeAssets n_CIM15_IEC61970_Informative_InfAssets_GenericAssetModelOrMaterial_GenericAssetModelOrMaterial true (Some n_TypeAssetCatalogue); ERef n_status n_CIM15_IEC61968_Common_Status_Status false None];
(* Model/CIM15/CIM15.ecore:5363-5420 *)
  EClass n_CIM15_IEC61970_Informative_InfWork_AccessPermit_AccessPermit n_AccessPermit (Some n_CIM15_IEC61968_Common_Document_Document)
    [(n_applicationNumber, TText); (n_payment, TFloat); (n_effectiveDate, TText); (n_expirationDate, TText); (n_permitID, TText)]
    [];
(* Model/CIM15/CIM15.ecore:3856-3907 *)
  EClass n_CIM15_IEC61970_Informative_InfWork_Appointment_Appointment n_Appointment (Some n_CIM15_IEC61970_Informative_InfCommon_ScheduledEvent_ScheduledEvent)
    [(n_callAhead, TBool); (n_remark, TText)]
    [ERef n_address n_CIM15_IEC61968_Common_StreetAddress_StreetAddress false None; ERef n_ErpPersons n_CIM15_IEC61970_Informative_InfERPSupport_ErpPerson_ErpPerson true (Some n_Appointments); ERef n_meetingInterval n_CIM15_IEC61970_Domain_DateTimeInterval_DateTimeInterval false None; ERef n_CallBack n_CIM15_IEC61970_Informative_InfOperations_CallBack_CallBack false (Some n_Appointments)];
(* Model/CIM15/CIM15.ecore:5901-5930 *)
  EClass n_CIM15_IEC61970_Informative_InfWork_Assignment_Assignment n_Assignment (Some n_CIM15_IEC61968_Common_Document_Document)
    []
    [ERef n_Crews n_CIM15_IEC61970_Informative_InfWork_Crew_Crew true (Some n_Assignments); ERef n_effectivePeriod n_CIM15_IEC61970_Domain_DateTimeInterval_DateTimeInterval false None];
(* Model/CIM15/CIM15.ecore:3929-3953 *)
  EClass n_CIM15_IEC61970_Informative_InfWork_BusinessCase_BusinessCase n_BusinessCase (Some n_CIM15_IEC61968_Common_Document_Document)
    [(n_corporateCode, TText)]
    [ERef n_Projects n_CIM15_IEC61970_Informative_InfWork_Project_Project true (Some n_BusinessCase); ERef n_Works n_CIM15_IEC61968_Work_Work_Work true (Some n_BusinessCase)];
(* Model/CIM15/CIM15.ecore:5321-5337 *)
  EClass n_CIM15_IEC61970_Informative_InfWork_CUAllowableAction_CUAllowableAction n_CUAllowableAction (Some n_CIM15_IEC61970_Core_IdentifiedObject_IdentifiedObject)
    []
    [ERef n_CompatibleUnits n_CIM15_IEC61970_Informative_InfWork_CompatibleUnit_CompatibleUnit true (Some n_CUAllowableAction); ERef n_status n_CIM15_IEC61968_Common_Status_Status false None];
(* Model/CIM15/CIM15.ecore:4300-4336 *)
  EClass n_CIM15_IEC61970_Informative_InfWork_CUAsset_CUAsset n_CUAsset (Some n_CIM15_IEC61970_Core_IdentifiedObject_IdentifiedObject)
    [(n_quantity, TBig); (n_typeAssetCode, TText)]
    [ERef n_CompatibleUnits n_CIM15_IEC61970_Informative_InfWork_CompatibleUnit_CompatibleUnit true (Some n_CUAssets); ERef n_TypeAsset n_CIM15_IEC61970_Informative_InfAssets_GenericAssetModelOrMaterial_GenericAssetModelOrMaterial false (Some n_CUAsset); ERef n_status n_CIM15_IEC61968_Common_Status_Status false None];
(* Model/CIM15/CIM15.ecore:5931-5965 *)
  EClass n_CIM15_IEC61970_Informative_InfWork_CUContractorItem_CUContractorItem n_CUContractorItem (Some n_CIM15_IEC61970_Core_IdentifiedObject_IdentifiedObject)
    [(n_bidAmount, TFloat); (n_activityCode, TText)]
    [ERef n_CompatibleUnits n_CIM15_IEC61970_Informative_InfWork_CompatibleUnit_CompatibleUnit true (Some n_CUContractorItems); ERef n_status n_CIM15_IEC61968_Common_Status_Status false None];
(* Model/CIM15/CIM15.ecore:5966-5989 *)
  EClass n_CIM15_IEC61970_Informative_InfWork_CUGroup_CUGroup n_CUGroup (Some n_CIM15_IEC61970_Core_IdentifiedObject_IdentifiedObject)
    []
    [ERef n_CompatibleUnits n_CIM15_IEC61970_Informative_InfWork_CompatibleUnit_CompatibleUnit true (Some n_CUGroup); ERef n_ParentCUGroups n_CIM15_IEC61970_Informative_InfWork_CUGroup_CUGroup true (Some n_ChildCUGroups); ERef n_ChildCUGroups n_CIM15_IEC61970_Informative_InfWork_CUGroup_CUGroup true (Some n_ParentCUGroups); ERef n_status n_CIM15_IEC61968_Common_Status_Status false None; ERef n_DesignLocationCUs n_CIM15_IEC61970_Informative_InfWork_DesignLocationCU_DesignLocationCU true (Some n_CUGroups)];
(* Model/CIM15/CIM15.ecore:5338-5362 *)
  EClass n_CIM15_IEC61970_Informative_InfWork_CULaborCode_CULaborCode n_CULaborCode (Some n_CIM15_IEC61970_Core_IdentifiedObject_IdentifiedObject)
    [(n_code, TText)]
    [ERef n_CULaborItems n_CIM15_IEC61970_Informative_InfWork_CULaborItem_CULaborItem true (Some n_CULaborCode); ERef n_status n_CIM15_IEC61968_Common_Status_Status false None];
(* Model/CIM15/CIM15.ecore:4844-4892 *)
  EClass n_CIM15_IEC61970_Informative_InfWork_CULaborItem_CULaborItem n_CULaborItem (Some n_CIM15_IEC61970_Core_IdentifiedObject_IdentifiedObject)
    [(n_laborDuration, TFloat); (n_laborRate, TFloat); (n_activityCode, TText)]
    [ERef n_CompatibleUnits n_CIM15_IEC61970_Informative_InfWork_CompatibleUnit_CompatibleUnit true (Some n_CULaborItems); ERef n_CULaborCode n_CIM15_IEC61970_Informative_InfWork_CULaborCode_CULaborCode false (Some n_CULaborItems); ERef n_status n_CIM15_IEC61968_Common_Status_Status false None; ERef n_QualificationRequirements n_CIM15_IEC61970_Informative_InfWork_QualificationRequirement_QualificationRequirement true (Some n_CULaborItems)];
(* Model/CIM15/CIM15.ecore:4707-4745 *)
  EClass n_CIM15_IEC61970_Informative_InfWork_CUMaterialItem_CUMaterialItem n_CUMaterialItem (Some n_CIM15_IEC61970_Core_IdentifiedObject_IdentifiedObject)
    [(n_quantity, TBig); (n_corporateCode, TText)]
    [ERef n_status n_CIM15_IEC61968_Common_Status_Status false None; ERef n_PropertyUnits n_CIM15_IEC61970_Informative_InfWork_PropertyUnit_PropertyUnit true (Some n_CUMaterialItems); ERef n_CompatibleUnits n_CIM15_IEC61970_Informative_InfWork_CompatibleUnit_CompatibleUnit true (Some n_CUMaterialItems); ERef n_TypeMaterial n_CIM15_IEC61970_Informative_InfWork_TypeMaterial_TypeMaterial false (Some n_CUMaterialItems)];
(* Model/CIM15/CIM15.ecore:5421-5457 *)
  EClass n_CIM15_IEC61970_Informative_InfWork_CUWorkEquipmentItem_CUWorkEquipmentItem n_CUWorkEquipmentItem (Some n_CIM15_IEC61970_Core_IdentifiedObject_IdentifiedObject)
    [(n_rate, TFloat); (n_equipCode, TText)]
    [ERef n_TypeAsset n_CIM15_IEC61970_Informative_InfAssets_GenericAssetModelOrMaterial_GenericAssetModelOrMaterial false (Some n_CUWorkEquipmentAsset); ERef n_status n_CIM15_IEC61968_Common_Status_Status false None; ERef n_CompatibleUnits n_CIM15_IEC61970_Informative_InfWork_CompatibleUnit_CompatibleUnit true (Some n_CUWorkEquipmentItems)];
(* Model/CIM15/CIM15.ecore:5790-5837 *)
  EClass n_CIM15_IEC61970_Informative_InfWork_Capability_Capability n_Capability (Some n_CIM15_IEC61970_Core_IdentifiedObject_IdentifiedObject)
    [(n_category, TText); (n_performanceFactor, TText)]
    [ERef n_Crew n_CIM15_IEC61970_Informative_InfWork_Crew_Crew false (Some n_Capabilities); ERef n_WorkTasks n_CIM15_IEC61970_Informative_InfWork_WorkTask_WorkTask true (Some n_Capabilities); ERef n_status n_CIM15_IEC61968_Common_Status_Status false None; ERef n_Crafts n_CIM15_IEC61970_Informative_InfCommon_Craft_Craft true (Some n_Capabilities); ERef n_validityInterval n_CIM15_IEC61970_Domain_DateTimeInterval_DateTimeInterval false None];
(* Model/CIM15/CIM15.ecore:5076-5131 *)
  EClass n_CIM15_IEC61970_Informative_InfWork_CompatibleUnit_CompatibleUnit n_CompatibleUnit (Some n_CIM15_IEC61968_Common_Document_Document)
    [(n_quantity, TText); (n_estCost, TFloat)]
    [ERef n_CUWorkEquipmentItems n_CIM15_IEC61970_Informative_InfWork_CUWorkEquipmentItem_CUWorkEquipmentItem true (Some n_CompatibleUnits); ERef n_DesignLocationCUs n_CIM15_IEC61970_Informative_InfWork_DesignLocationCU_DesignLocationCU true (Some n_CompatibleUnits); ERef n_CUGroup n_CIM15_IEC61970_Informative_InfWork_CUGroup_CUGroup false (Some n_CompatibleUnits); ERef n_CUAssets n_CIM15_IEC61970_Informative_InfWork_CUAsset_CUAsset true (Some n_CompatibleUnits); ERef n_PropertyUnit n_CIM15_IEC61970_Informative_InfWork_PropertyUnit_PropertyUnit false (Some n_CompatibleUnits); ERef n_CostType n_CIM15_IEC61970_Informative_InfWork_CostType_CostType false (Some n_CompatibleUnits); ERef n_CUAllowableAction n_CIM15_IEC61970_Informative_InfWork_CUAllowableAction_CUAllowableAction false (Some n_CompatibleUnits); ERef n_Procedures n_CIM15_IEC61970_Informative_InfAssets_Procedure_Procedure true (Some n_CompatibleUnits); ERef n_CUContractorItems n_CIM15_IEC61970_Informative_InfWork_CUContractorItem_CUContractorItem true (Some n_CompatibleUnits); ERef n_CUMaterialItems n_CIM15_IEC61970_Informative_InfWork_CUMaterialItem_CUMaterialItem true (Some n_CompatibleUnits); ERef n_CULaborItems n_CIM15_IEC61970_Informative_InfWork_CULaborItem_CULaborItem true (Some n_CompatibleUnits)];
(* Model/CIM15/CIM15.ecore:4519-4558 *)
  EClass n_CIM15_IEC61970_Informative_InfWork_ConditionFactor_ConditionFactor n_ConditionFactor (Some n_CIM15_IEC61970_Core_IdentifiedObject_IdentifiedObject)
    [(n_kind, enum_cim15_IEC61970_Informative_InfWork_ConditionFactorKind); (n_cfValue, TText)]
    [ERef n_Designs n_CIM15_IEC61970_Informative_InfWork_Design_Design true (Some n_ConditionFactors); ERef n_DesignLocations n_CIM15_IEC61970_Informative_InfWork_DesignLocation_DesignLocation true (Some n_ConditionFactors); ERef n_status n_CIM15_IEC61968_Common_Status_Status false None; ERef n_DesignLocationCUs n_CIM15_IEC61970_Informative_InfWork_DesignLocationCU_DesignLocationCU true (Some n_ConditionFactors)];
(* Model/CIM15/CIM15.ecore:5274-5320 *)
  EClass n_CIM15_IEC61970_Informative_InfWork_ContractorItem_ContractorItem n_ContractorItem (Some n_CIM15_IEC61970_Core_IdentifiedObject_IdentifiedObject)
    [(n_bidAmount, TFloat); (n_activityCode, TText); (n_cost, TFloat)]
    [ERef n_WorkTask n_CIM15_IEC61970_Informative_InfWork_WorkTask_WorkTask false (Some n_ContractorItems); ERef n_ErpPayables n_CIM15_IEC61970_Informative_InfERPSupport_ErpPayable_ErpPayable true (Some n_ContractorItems); ERef n_status n_CIM15_IEC61968_Common_Status_Status false None; ERef n_WorkCostDetail n_CIM15_IEC61970_Informative_InfWork_WorkCostDetail_WorkCostDetail false (Some n_ContractorItems)];
(* Model/CIM15/CIM15.ecore:4643-4706 *)
  EClass n_CIM15_IEC61970_Informative_InfWork_CostType_CostType n_CostType (Some n_CIM15_IEC61970_Core_IdentifiedObject_IdentifiedObject)
    [(n_stage, TText); (n_code, TText); (n_level, TText); (n_amountAssignable, TBool)]
    [ERef n_ErpJournalEntries n_CIM15_IEC61970_Informative_InfERPSupport_ErpJournalEntry_ErpJournalEntry true (Some n_CostTypes); ERef n_ParentCostType n_CIM15_IEC61970_Informative_InfWork_CostType_CostType false (Some n_ChildCostTypes); ERef n_ChildCostTypes n_CIM15_IEC61970_Informative_InfWork_CostType_CostType true (Some n_ParentCostType); ERef n_WorkCostDetails n_CIM15_IEC61970_Informative_InfWork_WorkCostDetail_WorkCostDetail true (Some n_CostType); ERef n_CompatibleUnits n_CIM15_IEC61970_Informative_InfWork_CompatibleUnit_CompatibleUnit true (Some n_CostType); ERef n_status n_CIM15_IEC61968_Common_Status_Status false None];
(* Model/CIM15/CIM15.ecore:4092-4168 *)
  EClass n_CIM15_IEC61970_Informative_InfWork_Crew_Crew n_Crew (Some n_CIM15_IEC61970_Core_IdentifiedObject_IdentifiedObject)
    [(n_category, TText)]
    [ERef n_Tools n_CIM15_IEC61970_Informative_InfAssets_Tool_Tool true (Some n_Crew); ERef n_SwitchingSchedules n_CIM15_IEC61970_Informative_InfOperations_SwitchingSchedule_SwitchingSchedule true (Some n_Crews); ERef n_Route n_CIM15_IEC61970_Informative_InfLocations_Route_Route false (Some n_Crews); ERef n_Capabilities n_CIM15_IEC61970_Informative_InfWork_Capability_Capability true (Some n_Crew); ERef n_CrewMembers n_CIM15_IEC61970_Informative_InfERPSupport_ErpPerson_ErpPerson true (Some n_Crews); ERef n_OutageSteps n_CIM15_IEC61970_Informative_InfOperations_OutageStep_OutageStep true (Some n_Crews); ERef n_WorkEquipmentAssets n_CIM15_IEC61970_Informative_InfAssets_WorkEquipment_WorkEquipment true (Some n_Crew); ERef n_Assignments n_CIM15_IEC61970_Informative_InfWork_Assignment_Assignment true (Some n_Crews); ERef n_Locations n_CIM15_IEC61968_Common_Location_Location true (Some n_Crews); ERef n_WorkTasks n_CIM15_IEC61970_Informative_InfWork_WorkTask_WorkTask true (Some n_Crews); ERef n_Organisations n_CIM15_IEC61970_Informative_InfERPSupport_ErpOrganisation_ErpOrganisation true (Some n_Crews); ERef n_ShiftPatterns n_CIM15_IEC61970_Informative_InfWork_ShiftPattern_ShiftPattern true (Some n_Crews); ERef n_Vehicles n_CIM15_IEC61970_Informative_InfAssets_Vehicle_Vehicle true (Some n_Crew)];
(* Model/CIM15/CIM15.ecore:4384-4442 *)
  EClass n_CIM15_IEC61970_Informative_InfWork_Design_Design n_Design (Some n_CIM15_IEC61968_Common_Document_Document)
    [(n_costEstimate, TFloat); (n_kind, enum_cim15_IEC61970_Informative_InfWork_DesignKind); (n_price, TFloat)]
    [ERef n_DesignLocations n_CIM15_IEC61970_Informative_InfWork_DesignLocation_DesignLocation true (Some n_Designs); ERef n_WorkCostDetails n_CIM15_IEC61970_Informative_InfWork_WorkCostDetail_WorkCostDetail true (Some n_Design); ERef n_ConditionFactors n_CIM15_IEC61970_Informative_InfWork_ConditionFactor_ConditionFactor true (Some n_Designs); ERef n_WorkTasks n_CIM15_IEC61970_Informative_InfWork_WorkTask_WorkTask true (Some n_Design); ERef n_ErpBOMs n_CIM15_IEC61970_Informative_InfERPSupport_ErpBOM_ErpBOM true (Some n_Design); ERef n_Work n_CIM15_IEC61968_Work_Work_Work false (Some n_Designs); ERef n_DesignLocationsCUs n_CIM15_IEC61970_Informative_InfWork_DesignLocationCU_DesignLocationCU true (Some n_Designs); ERef n_ErpQuoteLineItem n_CIM15_IEC61970_Informative_InfERPSupport_ErpQuoteLineItem_ErpQuoteLineItem false (Some n_Design)];
(* Model/CIM15/CIM15.ecore:4013-4054 *)
  EClass n_CIM15_IEC61970_Informative_InfWork_DesignLocation_DesignLocation n_DesignLocation (Some n_CIM15_IEC61970_Core_IdentifiedObject_IdentifiedObject)
    [(n_spanLength, TFloat)]
    [ERef n_status n_CIM15_IEC61968_Common_Status_Status false None; ERef n_MaterialItems n_CIM15_IEC61970_Informative_InfWork_MaterialItem_MaterialItem true (Some n_DesignLocation); ERef n_Designs n_CIM15_IEC61970_Informative_InfWork_Design_Design true (Some n_DesignLocations); ERef n_DesignLocationCUs n_CIM15_IEC61970_Informative_InfWork_DesignLocationCU_DesignLocationCU true (Some n_DesignLocation); ERef n_WorkLocations n_CIM15_IEC61970_Informative_InfWork_WorkLocation_WorkLocation true (Some n_DesignLocations); ERef n_Diagrams n_CIM15_IEC61970_Informative_InfGMLSupport_Diagram_Diagram true (Some n_DesignLocations); ERef n_MiscCostItems n_CIM15_IEC61970_Informative_InfWork_MiscCostItem_MiscCostItem true (Some n_DesignLocation); ERef n_ErpBomItemDatas n_CIM15_IEC61970_Informative_InfERPSupport_ErpBomItemData_ErpBomItemData true (Some n_DesignLocation); ERef n_ConditionFactors n_CIM15_IEC61970_Informative_InfWork_ConditionFactor_ConditionFactor true (Some n_DesignLocations)];
(* Model/CIM15/CIM15.ecore:5458-5540 *)
  EClass n_CIM15_IEC61970_Informative_InfWork_DesignLocationCU_DesignLocationCU n_DesignLocationCU (Some n_CIM15_IEC61970_Core_IdentifiedObject_IdentifiedObject)
    [(n_energizationFlag, TBool); (n_cuUsage, TText); (n_removalDate, TText); (n_cuAction, enum_cim15_IEC61970_Informative_InfWork_WorkActionKind); (n_cuAccount, TText); (n_cuQuantity, TBig)]
    [ERef n_ConditionFactors n_CIM15_IEC61970_Informative_InfWork_ConditionFactor_ConditionFactor true (Some n_DesignLocationCUs); ERef n_CompatibleUnits n_CIM15_IEC61970_Informative_InfWork_CompatibleUnit_CompatibleUnit true (Some n_DesignLocationCUs); ERef n_WorkTasks n_CIM15_IEC61970_Informative_InfWork_WorkTask_WorkTask true (Some n_DesignLocationCUs); ERef n_Designs n_CIM15_IEC61970_Informative_InfWork_Design_Design true (Some n_DesignLocationsCUs); ERef n_CUGroups n_CIM15_IEC61970_Informative_InfWork_CUGroup_CUGroup true (Some n_DesignLocationCUs); ERef n_DesignLocation n_CIM15_IEC61970_Informative_InfWork_DesignLocation_DesignLocation false (Some n_DesignLocationCUs); ERef n_status n_CIM15_IEC61968_Common_Status_Status false None];
(* Model/CIM15/CIM15.ecore:4169-4299 *)
  EClass n_CIM15_IEC61970_Informative_InfWork_DiagnosisDataSet_DiagnosisDataSet n_DiagnosisDataSet (Some n_CIM15_IEC61970_Informative_InfAssets_ProcedureDataSet_ProcedureDataSet)
    [(n_finalCause, TText); (n_finalRemark, TText); (n_phaseCode, enum_cim15_IEC61970_Core_PhaseCode); (n_preliminaryDateTime, TDate); (n_preliminaryCode, TText); (n_rootRemark, TText); (n_rootCause, TText); (n_preliminaryRemark, TText); (n_effect, TText); (n_finalOrigin, TText); (n_finalCode, TText); (n_rootOrigin, TText); (n_failureMode, TText)]
    [];
(* Model/CIM15/CIM15.ecore:3820-3855 *)
  EClass n_CIM15_IEC61970_Informative_InfWork_EquipmentItem_EquipmentItem n_EquipmentItem (Some n_CIM15_IEC61970_Core_IdentifiedObject_IdentifiedObject)
    [(n_code, TText); (n_cost, TFloat)]
    [ERef n_WorkTask n_CIM15_IEC61970_Informative_InfWork_WorkTask_WorkTask false (Some n_EquipmentItems); ERef n_WorkCostDetail n_CIM15_IEC61970_Informative_InfWork_WorkCostDetail_WorkCostDetail false (Some n_EquipmentItems); ERef n_status n_CIM15_IEC61968_Common_Status_Status false None];
(* Model/CIM15/CIM15.ecore:5176-5251 *)
  EClass n_CIM15_IEC61970_Informative_InfWork_InfoQuestion_InfoQuestion n_InfoQuestion (Some n_CIM15_IEC61968_Common_Document_Document)
    [(n_answer, TText); (n_answerRemark, TText); (n_questionText, TText); (n_answerDateTime, TDate); (n_questionCode, TText); (n_questionRemark, TText); (n_questionCategory, TText)]
    [];
(* Model/CIM15/CIM15.ecore:4976-5000 *)
  EClass n_CIM15_IEC61970_Informative_InfWork_InspectionDataSet_InspectionDataSet n_InspectionDataSet (Some n_CIM15_IEC61970_Informative_InfAssets_ProcedureDataSet_ProcedureDataSet)
    [(n_locationCondition, TText)]
    [ERef n_AccordingToSchedules n_CIM15_IEC61970_Informative_InfCommon_ScheduleParameterInfo_ScheduleParameterInfo true (Some n_ForInspectionDataSet)];
(* Model/CIM15/CIM15.ecore:4893-4948 *)
  EClass n_CIM15_IEC61970_Informative_InfWork_LaborItem_LaborItem n_LaborItem (Some n_CIM15_IEC61970_Core_IdentifiedObject_IdentifiedObject)
    [(n_cost, TFloat); (n_laborRate, TFloat); (n_laborDuration, TFloat); (n_activityCode, TText)]
    [ERef n_ErpPersons n_CIM15_IEC61970_Informative_InfERPSupport_ErpPerson_ErpPerson true (Some n_LaborItems); ERef n_WorkTask n_CIM15_IEC61970_Informative_InfWork_WorkTask_WorkTask false (Some n_LaborItems); ERef n_status n_CIM15_IEC61968_Common_Status_Status false None; ERef n_WorkCostDetail n_CIM15_IEC61970_Informative_InfWork_WorkCostDetail_WorkCostDetail false (Some n_LaborItems)];
(* Model/CIM15/CIM15.ecore:5541-5580 *)
  EClass n_CIM15_IEC61970_Informative_InfWork_MaintenanceDataSet_MaintenanceDataSet n_MaintenanceDataSet (Some n_CIM15_IEC61970_Informative_InfAssets_ProcedureDataSet_ProcedureDataSet)
    [(n_conditionAfter, TText); (n_conditionBefore, TText); (n_maintCode, TText)]
    [];
(* Model/CIM15/CIM15.ecore:5646-5741 *)
  EClass n_CIM15_IEC61970_Informative_InfWork_MaterialItem_MaterialItem n_MaterialItem (Some n_CIM15_IEC61970_Core_IdentifiedObject_IdentifiedObject)
    [(n_costDescription, TText); (n_quantity, TBig); (n_materialCode, TText); (n_externalRefID, TText); (n_costType, TText); (n_account, TText); (n_actualCost, TFloat)]
    [ERef n_ErpInventoryCounts n_CIM15_IEC61970_Informative_InfERPSupport_ErpInventoryCount_ErpInventoryCount true (Some n_MaterialItem); ERef n_Usages n_CIM15_IEC61970_Informative_InfWork_Usage_Usage true (Some n_MaterialItem); ERef n_ErpPOLineItems n_CIM15_IEC61970_Informative_InfERPSupport_ErpPOLineItem_ErpPOLineItem true (Some n_MaterialItem); ERef n_ErpRecDelvLineItems n_CIM15_IEC61970_Informative_InfERPSupport_ErpRecDelvLineItem_ErpRecDelvLineItem true (Some n_MaterialItems); ERef n_DesignLocation n_CIM15_IEC61970_Informative_InfWork_DesignLocation_DesignLocation false (Some n_MaterialItems); ERef n_status n_CIM15_IEC61968_Common_Status_Status false None; ERef n_TypeMaterial n_CIM15_IEC61970_Informative_InfWork_TypeMaterial_TypeMaterial false (Some n_MaterialItems); ERef n_WorkCostDetail n_CIM15_IEC61970_Informative_InfWork_WorkCostDetail_WorkCostDetail false (Some n_MaterialItems); ERef n_WorkTask n_CIM15_IEC61970_Informative_InfWork_WorkTask_WorkTask false (Some n_MaterialItems)];
(* Model/CIM15/CIM15.ecore:5581-5645 *)
  EClass n_CIM15_IEC61970_Informative_InfWork_MiscCostItem_MiscCostItem n_MiscCostItem (Some n_CIM15_IEC61970_Core_IdentifiedObject_IdentifiedObject)
    [(n_quantity, TBig); (n_costPerUnit, TFloat); (n_externalRefID, TText); (n_account, TText); (n_costType, TText)]
    [ERef n_DesignLocation n_CIM15_IEC61970_Informative_InfWork_DesignLocation_DesignLocation false (Some n_MiscCostItems); ERef n_status n_CIM15_IEC61968_Common_Status_Status false None; ERef n_WorkTask n_CIM15_IEC61970_Informative_InfWork_WorkTask_WorkTask false (Some n_MiscCostItems); ERef n_WorkCostDetail n_CIM15_IEC61970_Informative_InfWork_WorkCostDetail_WorkCostDetail false (Some n_MiscCostItems)];
(* Model/CIM15/CIM15.ecore:5146-5175 *)
  EClass n_CIM15_IEC61970_Informative_InfWork_NonStandardItem_NonStandardItem n_NonStandardItem (Some n_CIM15_IEC61968_Common_Document_Document)
    [(n_code, TText); (n_amount, TFloat)]
    [];
(* Model/CIM15/CIM15.ecore:5858-5900 *)
  EClass n_CIM15_IEC61970_Informative_InfWork_OneCallRequest_OneCallRequest n_OneCallRequest (Some n_CIM15_IEC61968_Common_Document_Document)
    [(n_markedIndicator, TBool); (n_explosivesUsed, TBool); (n_markingInstruction, TText)]
    [ERef n_WorkLocations n_CIM15_IEC61970_Informative_InfWork_WorkLocation_WorkLocation true (Some n_OneCallRequest)];
(* Model/CIM15/CIM15.ecore:4055-4091 *)
  EClass n_CIM15_IEC61970_Informative_InfWork_OverheadCost_OverheadCost n_OverheadCost (Some n_CIM15_IEC61970_Core_IdentifiedObject_IdentifiedObject)
    [(n_code, TText); (n_cost, TFloat)]
    [ERef n_status n_CIM15_IEC61968_Common_Status_Status false None; ERef n_WorkCostDetails n_CIM15_IEC61970_Informative_InfWork_WorkCostDetail_WorkCostDetail true (Some n_OverheadCost); ERef n_WorkTasks n_CIM15_IEC61970_Informative_InfWork_WorkTask_WorkTask true (Some n_OverheadCost)];
(* Model/CIM15/CIM15.ecore:4805-4837 *)
  EClass n_CIM15_IEC61970_Informative_InfWork_Project_Project n_Project (Some n_CIM15_IEC61968_Common_Document_Document)
    [(n_budget, TFloat)]
    [ERef n_BusinessCase n_CIM15_IEC61970_Informative_InfWork_BusinessCase_BusinessCase false (Some n_Projects); ERef n_SubProjects n_CIM15_IEC61970_Informative_InfWork_Project_Project true (Some n_ParentProject); ERef n_ErpProjectAccounting n_CIM15_IEC61970_Informative_InfERPSupport_ErpProjectAccounting_ErpProjectAccounting false (Some n_Projects); ERef n_Requests n_CIM15_IEC61970_Informative_InfWork_Request_Request true (Some n_Projects); ERef n_Works n_CIM15_IEC61968_Work_Work_Work true (Some n_Project); ERef n_ParentProject n_CIM15_IEC61970_Informative_InfWork_Project_Project false (Some n_SubProjects)];
(* Model/CIM15/CIM15.ecore:4746-4797 *)
  EClass n_CIM15_IEC61970_Informative_InfWork_PropertyUnit_PropertyUnit n_PropertyUnit (Some n_CIM15_IEC61970_Core_IdentifiedObject_IdentifiedObject)
    [(n_accountingUsage, TText); (n_propertyAccount, TText); (n_activityCode, enum_cim15_IEC61970_Informative_InfWork_WorkActionKind)]
    [ERef n_status n_CIM15_IEC61968_Common_Status_Status false None; ERef n_CompatibleUnits n_CIM15_IEC61970_Informative_InfWork_CompatibleUnit_CompatibleUnit true (Some n_PropertyUnit); ERef n_CUMaterialItems n_CIM15_IEC61970_Informative_InfWork_CUMaterialItem_CUMaterialItem true (Some n_PropertyUnits); ERef n_WorkCostDetails n_CIM15_IEC61970_Informative_InfWork_WorkCostDetail_WorkCostDetail true (Some n_PropertyUnits)];
(* Model/CIM15/CIM15.ecore:4559-4588 *)
  EClass n_CIM15_IEC61970_Informative_InfWork_QualificationRequirement_QualificationRequirement n_QualificationRequirement (Some n_CIM15_IEC61970_Core_IdentifiedObject_IdentifiedObject)
    [(n_qualificationID, TText)]
    [ERef n_WorkTasks n_CIM15_IEC61970_Informative_InfWork_WorkTask_WorkTask true (Some n_QualificationRequirements); ERef n_Skills n_CIM15_IEC61970_Informative_InfCommon_Skill_Skill true (Some n_QualificationRequirements); ERef n_CULaborItems n_CIM15_IEC61970_Informative_InfWork_CULaborItem_CULaborItem true (Some n_QualificationRequirements); ERef n_Specifications n_CIM15_IEC61970_Informative_InfAssets_Specification_Specification true (Some n_QualificationRequirements)];
(* Model/CIM15/CIM15.ecore:5252-5273 *)
  EClass n_CIM15_IEC61970_Informative_InfWork_Regulation_Regulation n_Regulation (Some n_CIM15_IEC61968_Common_Document_Document)
    [(n_referenceNumber, TText)]
    [];
(* Model/CIM15/CIM15.ecore:4337-4383 *)
  EClass n_CIM15_IEC61970_Informative_InfWork_Request_Request n_Request (Some n_CIM15_IEC61968_Common_Document_Document)
    [(n_actionNeeded, TText); (n_priority, TText); (n_corporateCode, TText)]
    [ERef n_ErpQuoteLineItem n_CIM15_IEC61970_Informative_InfERPSupport_ErpQuoteLineItem_ErpQuoteLineItem false (Some n_Request); ERef n_Projects n_CIM15_IEC61970_Informative_InfWork_Project_Project true (Some n_Requests); ERef n_Organisation n_CIM15_IEC61970_Informative_InfERPSupport_ErpOrganisation_ErpOrganisation false (Some n_Requests); ERef n_Works n_CIM15_IEC61968_Work_Work_Work true (Some n_Request)];
(* Model/CIM15/CIM15.ecore:5742-5784 *)
  EClass n_CIM15_IEC61970_Informative_InfWork_ShiftPattern_ShiftPattern n_ShiftPattern (Some n_CIM15_IEC61970_Core_IdentifiedObject_IdentifiedObject)
    [(n_cycleCount, TInt); (n_assignmentType, TText)]
    [ERef n_Crews n_CIM15_IEC61970_Informative_InfWork_Crew_Crew true (Some n_ShiftPatterns); ERef n_status n_CIM15_IEC61968_Common_Status_Status false None; ERef n_validityInterval n_CIM15_IEC61970_Domain_DateTimeInterval_DateTimeInterval false None];
(* Model/CIM15/CIM15.ecore:3954-4012 *)
  EClass n_CIM15_IEC61970_Informative_InfWork_TypeMaterial_TypeMaterial n_TypeMaterial (Some n_CIM15_IEC61968_Common_Document_Document)
    [(n_stockItem, TBool); (n_costType, TText); (n_quantity, TText); (n_estUnitCost, TFloat)]
    [ERef n_ErpIssueInventories n_CIM15_IEC61970_Informative_InfERPSupport_ErpIssueInventory_ErpIssueInventory true (Some n_TypeMaterial); ERef n_MaterialItems n_CIM15_IEC61970_Informative_InfWork_MaterialItem_MaterialItem true (Some n_TypeMaterial); ERef n_CUMaterialItems n_CIM15_IEC61970_Informative_InfWork_CUMaterialItem_CUMaterialItem true (Some n_TypeMaterial); ERef n_ErpReqLineItems n_CIM15_IEC61970_Informative_InfERPSupport_ErpReqLineItem_ErpReqLineItem true (Some n_TypeMaterial)];
(* Model/CIM15/CIM15.ecore:5838-5857 *)
  EClass n_CIM15_IEC61970_Informative_InfWork_Usage_Usage n_Usage (Some n_CIM15_IEC61970_Core_IdentifiedObject_IdentifiedObject)
    []
    [ERef n_WorkTask n_CIM15_IEC61970_Informative_InfWork_WorkTask_WorkTask false (Some n_Usages); ERef n_WorkEquipmentAsset n_CIM15_IEC61970_Informative_InfAssets_WorkEquipment_WorkEquipment false (Some n_Usages); ERef n_status n_CIM15_IEC61968_Common_Status_Status false None; ERef n_MaterialItem n_CIM15_IEC61970_Informative_InfWork_MaterialItem_MaterialItem false (Some n_Usages)];
(* Model/CIM15/CIM15.ecore:5001-5075 *)
  EClass n_CIM15_IEC61970_Informative_InfWork_WorkCostDetail_WorkCostDetail n_WorkCostDetail (Some n_CIM15_IEC61968_Common_Document_Document)
    [(n_type, TText); (n_isDebit, TBool); (n_transactionDateTime, TDate); (n_amount, TFloat)]
    [ERef n_WorkTask n_CIM15_IEC61970_Informative_InfWork_WorkTask_WorkTask false (Some n_WorkCostDetails); ERef n_Works n_CIM15_IEC61968_Work_Work_Work true (Some n_WorkCostDetails); ERef n_Design n_CIM15_IEC61970_Informative_InfWork_Design_Design false (Some n_WorkCostDetails); ERef n_MiscCostItems n_CIM15_IEC61970_Informative_InfWork_MiscCostItem_MiscCostItem true (Some n_WorkCostDetail); ERef n_WorkCostSummary n_CIM15_IEC61970_Informative_InfWork_WorkCostSummary_WorkCostSummary false (Some n_WorkCostDetail); ERef n_PropertyUnits n_CIM15_IEC61970_Informative_InfWork_PropertyUnit_PropertyUnit true (Some n_WorkCostDetails); ERef n_ErpProjectAccounting n_CIM15_IEC61970_Informative_InfERPSupport_ErpProjectAccounting_ErpProjectAccounting false (Some n_WorkCostDetails); ERef n_LaborItems n_CIM15_IEC61970_Informative_InfWork_LaborItem_LaborItem true (Some n_WorkCostDetail); ERef n_MaterialItems n_CIM15_IEC61970_Informative_InfWork_MaterialItem_MaterialItem true (Some n_WorkCostDetail); ERef n_EquipmentItems n_CIM15_IEC61970_Informative_InfWork_EquipmentItem_EquipmentItem true (Some n_WorkCostDetail); ERef n_ContractorItems n_CIM15_IEC61970_Informative_InfWork_ContractorItem_ContractorItem true (Some n_WorkCostDetail); ERef n_OverheadCost n_CIM15_IEC61970_Informative_InfWork_OverheadCost_OverheadCost false (Some n_WorkCostDetails); ERef n_CostType n_CIM15_IEC61970_Informative_InfWork_CostType_CostType false (Some n_WorkCostDetails)];
(* Model/CIM15/CIM15.ecore:5132-5145 *)
  EClass n_CIM15_IEC61970_Informative_InfWork_WorkCostSummary_WorkCostSummary n_WorkCostSummary (Some n_CIM15_IEC61968_Common_Document_Document)
    []
    [ERef n_WorkCostDetail n_CIM15_IEC61970_Informative_InfWork_WorkCostDetail_WorkCostDetail false (Some n_WorkCostSummary)];
(* Model/CIM15/CIM15.ecore:4949-4975 *)
  EClass n_CIM15_IEC61970_Informative_InfWork_WorkFlowStep_WorkFlowStep n_WorkFlowStep (Some n_CIM15_IEC61970_Core_IdentifiedObject_IdentifiedObject)
    [(n_sequenceNumber, TInt)]
    [ERef n_WorkTasks n_CIM15_IEC61970_Informative_InfWork_WorkTask_WorkTask true (Some n_WorkFlowStep); ERef n_status n_CIM15_IEC61968_Common_Status_Status false None; ERef n_Work n_CIM15_IEC61968_Work_Work_Work false (Some n_WorkFlowSteps)];
(* Model/CIM15/CIM15.ecore:4589-4642 *)
  EClass n_CIM15_IEC61970_Informative_InfWork_WorkLocation_WorkLocation n_WorkLocation (Some n_CIM15_IEC61968_Common_Location_Location)
    [(n_subdivision, TText); (n_nearestIntersection, TText); (n_block, TText); (n_lot, TText)]
    [ERef n_OneCallRequest n_CIM15_IEC61970_Informative_InfWork_OneCallRequest_OneCallRequest false (Some n_WorkLocations); ERef n_DesignLocations n_CIM15_IEC61970_Informative_InfWork_DesignLocation_DesignLocation true (Some n_WorkLocations)];
(* Model/CIM15/CIM15.ecore:3908-3928 *)
  EClass n_CIM15_IEC61970_Informative_InfWork_WorkStatusEntry_WorkStatusEntry n_WorkStatusEntry (Some n_CIM15_IEC61968_Common_ActivityRecord_ActivityRecord)
    [(n_percentComplete, TFloat)]
    [];
(* Model/CIM15/CIM15.ecore:4443-4518 *)
  EClass n_CIM15_IEC61970_Informative_InfWork_WorkTask_WorkTask n_WorkTask (Some n_CIM15_IEC61968_Common_Document_Document)
    [(n_priority, TText); (n_schedOverride, TText)]
    [ERef n_EquipmentItems n_CIM15_IEC61970_Informative_InfWork_EquipmentItem_EquipmentItem true (Some n_WorkTask); ERef n_Usages n_CIM15_IEC61970_Informative_InfWork_Usage_Usage true (Some n_WorkTask); ERef n_MiscCostItems n_CIM15_IEC61970_Informative_InfWork_MiscCostItem_MiscCostItem true (Some n_WorkTask); ERef n_Crews n_CIM15_IEC61970_Informative_InfWork_Crew_Crew true (Some n_WorkTasks); ERef n_Work n_CIM15_IEC61968_Work_Work_Work false (Some n_WorkTasks); ERef n_OverheadCost n_CIM15_IEC61970_Informative_InfWork_OverheadCost_OverheadCost false (Some n_WorkTasks); ERef n_DesignLocationCUs n_CIM15_IEC61970_Informative_InfWork_DesignLocationCU_DesignLocationCU true (Some n_WorkTasks); ERef n_ContractorItems n_CIM15_IEC61970_Informative_InfWork_ContractorItem_ContractorItem true (Some n_WorkTask); ERef n_SwitchingSchedules n_CIM15_IEC61970_Informative_InfOperations_SwitchingSchedule_SwitchingSchedule true (Some n_WorkTask); ERef n_WorkFlowStep n_CIM15_IEC61970_Informative_InfWork_WorkFlowStep_WorkFlowStep false (Some n_WorkTasks); ERef n_Design n_CIM15_IEC61970_Informative_InfWork_Design_Design false (Some n_WorkTasks); ERef n_QualificationRequirements n_CIM15_IEC61970_Informative_InfWork_QualificationRequirement_QualificationRequirement true (Some n_WorkTasks); ERef n_Capabilities n_CIM15_IEC61970_Informative_InfWork_Capability_Capability true (Some n_WorkTasks); ERef n_WorkCostDetails n_CIM15_IEC61970_Informative_InfWork_WorkCostDetail_WorkCostDetail true (Some n_WorkTask); ERef n_Assets n_CIM15_IEC61968_Assets_Asset_Asset true (Some n_WorkTask); ERef n_LaborItems n_CIM15_IEC61970_Informative_InfWork_LaborItem_LaborItem true (Some n_WorkTask); ERef n_MaterialItems n_CIM15_IEC61970_Informative_InfWork_MaterialItem_MaterialItem true (Some n_WorkTask)];
(* Model/CIM15/CIM15.ecore:18924-18944 *)
  EClass n_CIM15_IEC61970_LoadModel_ConformLoad_ConformLoad n_ConformLoad (Some n_CIM15_IEC61970_Wires_EnergyConsumer_EnergyConsumer)
    []
    [ERef n_LoadGroup n_CIM15_IEC61970_LoadModel_ConformLoadGroup_ConformLoadGroup false (Some n_EnergyConsumers)];
(* Model/CIM15/CIM15.ecore:18945-18974 *)
  EClass n_CIM15_IEC61970_LoadModel_ConformLoadGroup_ConformLoadGroup n_ConformLoadGroup (Some n_CIM15_IEC61970_LoadModel_LoadGroup_LoadGroup)
    []
    [ERef n_ConformLoadSchedules n_CIM15_IEC61970_LoadModel_ConformLoadSchedule_ConformLoadSchedule true (Some n_ConformLoadGroup); ERef n_EnergyConsumers n_CIM15_IEC61970_LoadModel_ConformLoad_ConformLoad true (Some n_LoadGroup)];
(* Model/CIM15/CIM15.ecore:19026-19046 *)
  EClass n_CIM15_IEC61970_LoadModel_ConformLoadSchedule_ConformLoadSchedule n_ConformLoadSchedule (Some n_CIM15_IEC61970_LoadModel_SeasonDayTypeSchedule_SeasonDayTypeSchedule)
    []
    [ERef n_ConformLoadGroup n_CIM15_IEC61970_LoadModel_ConformLoadGroup_ConformLoadGroup false (Some n_ConformLoadSchedules)];
(* Model/CIM15/CIM15.ecore:19336-19356 *)
  EClass n_CIM15_IEC61970_LoadModel_DayType_DayType n_DayType (Some n_CIM15_IEC61970_Core_IdentifiedObject_IdentifiedObject)
    []
    [ERef n_SeasonDayTypeSchedules n_CIM15_IEC61970_LoadModel_SeasonDayTypeSchedule_SeasonDayTypeSchedule true (Some n_DayType)];
(* Model/CIM15/CIM15.ecore:19264-19284 *)
  EClass n_CIM15_IEC61970_LoadModel_EnergyArea_EnergyArea n_EnergyArea (Some n_CIM15_IEC61970_Core_IdentifiedObject_IdentifiedObject)
    []
    [ERef n_ControlArea n_CIM15_IEC61970_ControlArea_ControlArea_ControlArea false (Some n_EnergyArea)];
(* Model/CIM15/CIM15.ecore:19047-19067 *)
  EClass n_CIM15_IEC61970_LoadModel_LoadArea_LoadArea n_LoadArea (Some n_CIM15_IEC61970_LoadModel_EnergyArea_EnergyArea)
    []
    [ERef n_SubLoadAreas n_CIM15_IEC61970_LoadModel_SubLoadArea_SubLoadArea true (Some n_LoadArea)];
(* Model/CIM15/CIM15.ecore:19005-19025 *)
  EClass n_CIM15_IEC61970_LoadModel_LoadGroup_LoadGroup n_LoadGroup (Some n_CIM15_IEC61970_Core_IdentifiedObject_IdentifiedObject)
    []
    [ERef n_SubLoadArea n_CIM15_IEC61970_LoadModel_SubLoadArea_SubLoadArea false (Some n_LoadGroups)];
(* Model/CIM15/CIM15.ecore:19107-19230 *)
  EClass n_CIM15_IEC61970_LoadModel_LoadResponseCharacteristic_LoadResponseCharacteristic n_LoadResponseCharacteristic (Some n_CIM15_IEC61970_Core_IdentifiedObject_IdentifiedObject)
    [(n_pFrequencyExponent, TFloat); (n_pConstantPower, TFloat); (n_exponentModel, TBool); (n_qFrequencyExponent, TFloat); (n_pVoltageExponent, TFloat); (n_qConstantImpedance, TFloat); (n_qConstantPower, TFloat); (n_pConstantImpedance, TFloat); (n_pConstantCurrent, TFloat); (n_qVoltageExponent, TFloat); (n_qConstantCurrent, TFloat)]
    [ERef n_EnergyConsumer n_CIM15_IEC61970_Wires_EnergyConsumer_EnergyConsumer true (Some n_LoadResponse)];
(* Model/CIM15/CIM15.ecore:19231-19251 *)
  EClass n_CIM15_IEC61970_LoadModel_NonConformLoad_NonConformLoad n_NonConformLoad (Some n_CIM15_IEC61970_Wires_EnergyConsumer_EnergyConsumer)
    []
    [ERef n_LoadGroup n_CIM15_IEC61970_LoadModel_NonConformLoadGroup_NonConformLoadGroup false (Some n_EnergyConsumers)];
(* Model/CIM15/CIM15.ecore:19306-19335 *)
  EClass n_CIM15_IEC61970_LoadModel_NonConformLoadGroup_NonConformLoadGroup n_NonConformLoadGroup (Some n_CIM15_IEC61970_LoadModel_LoadGroup_LoadGroup)
    []
    [ERef n_NonConformLoadSchedules n_CIM15_IEC61970_LoadModel_NonConformLoadSchedule_NonConformLoadSchedule true (Some n_NonConformLoadGroup); ERef n_EnergyConsumers n_CIM15_IEC61970_LoadModel_NonConformLoad_NonConformLoad true (Some n_LoadGroup)];
(* Model/CIM15/CIM15.ecore:19285-19305 *)
  EClass n_CIM15_IEC61970_LoadModel_NonConformLoadSchedule_NonConformLoadSchedule n_NonConformLoadSchedule (Some n_CIM15_IEC61970_LoadModel_SeasonDayTypeSchedule_SeasonDayTypeSchedule)
    []
    [ERef n_NonConformLoadGroup n_CIM15_IEC61970_LoadModel_NonConformLoadGroup_NonConformLoadGroup false (Some n_NonConformLoadSchedules)];
(* Model/CIM15/CIM15.ecore:19068-19106 *)
  EClass n_CIM15_IEC61970_LoadModel_PowerCutZone_PowerCutZone n_PowerCutZone (Some n_CIM15_IEC61970_Core_PowerSystemResource_PowerSystemResource)
    [(n_cutLevel2, TFloat); (n_cutLevel1, TFloat)]
    [ERef n_EnergyConsumers n_CIM15_IEC61970_Wires_EnergyConsumer_EnergyConsumer true (Some n_PowerCutZone)];
(* Model/CIM15/CIM15.ecore:19387-19434 *)
  EClass n_CIM15_IEC61970_LoadModel_Season_Season n_Season (Some n_CIM15_Element_Element)
    [(n_name, enum_cim15_IEC61970_LoadModel_SeasonName); (n_startDate, TDate); (n_endDate, TDate)]
    [ERef n_SeasonDayTypeSchedules n_CIM15_IEC61970_LoadModel_SeasonDayTypeSchedule_SeasonDayTypeSchedule true (Some n_Season)];
(* Model/CIM15/CIM15.ecore:18975-19004 *)
  EClass n_CIM15_IEC61970_LoadModel_SeasonDayTypeSchedule_SeasonDayTypeSchedule n_SeasonDayTypeSchedule (Some n_CIM15_IEC61970_Core_RegularIntervalSchedule_RegularIntervalSchedule)
    []
    [ERef n_Season n_CIM15_IEC61970_LoadModel_Season_Season false (Some n_SeasonDayTypeSchedules); ERef n_DayType n_CIM15_IEC61970_LoadModel_DayType_DayType false (Some n_SeasonDayTypeSchedules)];
(* Model/CIM15/CIM15.ecore:19252-19263 *)
  EClass n_CIM15_IEC61970_LoadModel_StationSupply_StationSupply n_StationSupply (Some n_CIM15_IEC61970_Wires_EnergyConsumer_EnergyConsumer)
    []
    [];
(* Model/CIM15/CIM15.ecore:19357-19386 *)
  EClass n_CIM15_IEC61970_LoadModel_SubLoadArea_SubLoadArea n_SubLoadArea (Some n_CIM15_IEC61970_LoadModel_EnergyArea_EnergyArea)
    []
    [ERef n_LoadGroups n_CIM15_IEC61970_LoadModel_LoadGroup_LoadGroup true (Some n_SubLoadArea); ERef n_LoadArea n_CIM15_IEC61970_LoadModel_LoadArea_LoadArea false (Some n_SubLoadAreas)];
(* Model/CIM15/CIM15.ecore:18598-18636 *)
  EClass n_CIM15_IEC61970_Meas_Accumulator_Accumulator n_Accumulator (Some n_CIM15_IEC61970_Meas_Measurement_Measurement)
    [(n_maxValue, TInt)]
    [ERef n_LimitSets n_CIM15_IEC61970_Meas_AccumulatorLimitSet_AccumulatorLimitSet true (Some n_Measurements); ERef n_AccumulatorValues n_CIM15_IEC61970_Meas_AccumulatorValue_AccumulatorValue true (Some n_Accumulator)];
(* Model/CIM15/CIM15.ecore:17837-17866 *)
  EClass n_CIM15_IEC61970_Meas_AccumulatorLimit_AccumulatorLimit n_AccumulatorLimit (Some n_CIM15_IEC61970_Meas_Limit_Limit)
    [(n_value, TInt)]
    [ERef n_LimitSet n_CIM15_IEC61970_Meas_AccumulatorLimitSet_AccumulatorLimitSet false (Some n_Limits)];
(* Model/CIM15/CIM15.ecore:18809-18838 *)
  EClass n_CIM15_IEC61970_Meas_AccumulatorLimitSet_AccumulatorLimitSet n_AccumulatorLimitSet (Some n_CIM15_IEC61970_Meas_LimitSet_LimitSet)
    []
    [ERef n_Limits n_CIM15_IEC61970_Meas_AccumulatorLimit_AccumulatorLimit true (Some n_LimitSet); ERef n_Measurements n_CIM15_IEC61970_Meas_Accumulator_Accumulator true (Some n_LimitSets)];
(* Model/CIM15/CIM15.ecore:18520-18549 *)
  EClass n_CIM15_IEC61970_Meas_AccumulatorValue_AccumulatorValue n_AccumulatorValue (Some n_CIM15_IEC61970_Meas_MeasurementValue_MeasurementValue)
    [(n_value, TInt)]
    [ERef n_Accumulator n_CIM15_IEC61970_Meas_Accumulator_Accumulator false (Some n_AccumulatorValues)];
(* Model/CIM15/CIM15.ecore:17918-17992 *)
  EClass n_CIM15_IEC61970_Meas_Analog_Analog n_Analog (Some n_CIM15_IEC61970_Meas_Measurement_Measurement)
    [(n_maxValue, TFloat); (n_normalValue, TFloat); (n_positiveFlowIn, TBool); (n_minValue, TFloat)]
    [ERef n_LimitSets n_CIM15_IEC61970_Meas_AnalogLimitSet_AnalogLimitSet true (Some n_Measurements); ERef n_AnalogValues n_CIM15_IEC61970_Meas_AnalogValue_AnalogValue true (Some n_Analog); ERef n_SetPoint n_CIM15_IEC61970_Meas_SetPoint_SetPoint false (Some n_Analog)];
(* Model/CIM15/CIM15.ecore:18193-18222 *)
  EClass n_CIM15_IEC61970_Meas_AnalogLimit_AnalogLimit n_AnalogLimit (Some n_CIM15_IEC61970_Meas_Limit_Limit)
    [(n_value, TFloat)]
    [ERef n_LimitSet n_CIM15_IEC61970_Meas_AnalogLimitSet_AnalogLimitSet false (Some n_Limits)];
(* Model/CIM15/CIM15.ecore:18757-18786 *)
  EClass n_CIM15_IEC61970_Meas_AnalogLimitSet_AnalogLimitSet n_AnalogLimitSet (Some n_CIM15_IEC61970_Meas_LimitSet_LimitSet)
    []
    [ERef n_Limits n_CIM15_IEC61970_Meas_AnalogLimit_AnalogLimit true (Some n_LimitSet); ERef n_Measurements n_CIM15_IEC61970_Meas_Analog_Analog true (Some n_LimitSets)];
(* Model/CIM15/CIM15.ecore:17993-18041 *)
  EClass n_CIM15_IEC61970_Meas_AnalogValue_AnalogValue n_AnalogValue (Some n_CIM15_IEC61970_Meas_MeasurementValue_MeasurementValue)
    [(n_value, TFloat)]
    [ERef n_AltTieMeas n_CIM15_IEC61970_ControlArea_AltTieMeas_AltTieMeas true (Some n_AnalogValue); ERef n_Analog n_CIM15_IEC61970_Meas_Analog_Analog false (Some n_AnalogValues); ERef n_AltGeneratingUnit n_CIM15_IEC61970_ControlArea_AltGeneratingUnitMeas_AltGeneratingUnitMeas true (Some n_AnalogValue)];
(* Model/CIM15/CIM15.ecore:18550-18597 *)
  EClass n_CIM15_IEC61970_Meas_Command_Command n_Command (Some n_CIM15_IEC61970_Meas_Control_Control)
    [(n_value, TInt); (n_normalValue, TInt)]
    [ERef n_Discrete n_CIM15_IEC61970_Meas_Discrete_Discrete false (Some n_Command); ERef n_ValueAliasSet n_CIM15_IEC61970_Meas_ValueAliasSet_ValueAliasSet false (Some n_Commands)];
(* Model/CIM15/CIM15.ecore:18839-18914 *)
  EClass n_CIM15_IEC61970_Meas_Control_Control n_Control (Some n_CIM15_IEC61970_Core_IdentifiedObject_IdentifiedObject)
    [(n_unitSymbol, enum_cim15_IEC61970_Domain_UnitSymbol); (n_unitMultiplier, enum_cim15_IEC61970_Domain_UnitMultiplier); (n_operationInProgress, TBool); (n_timeStamp, TDate)]
    [ERef n_RemoteControl n_CIM15_IEC61970_SCADA_RemoteControl_RemoteControl false (Some n_Control); ERef n_RegulatingCondEq n_CIM15_IEC61970_Wires_RegulatingCondEq_RegulatingCondEq false (Some n_Controls); ERef n_ControlType n_CIM15_IEC61970_Meas_ControlType_ControlType false (Some n_Controls)];
(* Model/CIM15/CIM15.ecore:18121-18141 *)
  EClass n_CIM15_IEC61970_Meas_ControlType_ControlType n_ControlType (Some n_CIM15_IEC61970_Core_IdentifiedObject_IdentifiedObject)
    []
    [ERef n_Controls n_CIM15_IEC61970_Meas_Control_Control true (Some n_ControlType)];
(* Model/CIM15/CIM15.ecore:18294-18359 *)
  EClass n_CIM15_IEC61970_Meas_Discrete_Discrete n_Discrete (Some n_CIM15_IEC61970_Meas_Measurement_Measurement)
    [(n_normalValue, TInt); (n_minValue, TInt); (n_maxValue, TInt)]
    [ERef n_Command n_CIM15_IEC61970_Meas_Command_Command false (Some n_Discrete); ERef n_DiscreteValues n_CIM15_IEC61970_Meas_DiscreteValue_DiscreteValue true (Some n_Discrete); ERef n_ValueAliasSet n_CIM15_IEC61970_Meas_ValueAliasSet_ValueAliasSet false (Some n_Discretes)];
(* Model/CIM15/CIM15.ecore:18727-18756 *)
  EClass n_CIM15_IEC61970_Meas_DiscreteValue_DiscreteValue n_DiscreteValue (Some n_CIM15_IEC61970_Meas_MeasurementValue_MeasurementValue)
    [(n_value, TInt)]
    [ERef n_Discrete n_CIM15_IEC61970_Meas_Discrete_Discrete false (Some n_DiscreteValues)];
(* Model/CIM15/CIM15.ecore:18280-18293 *)
  EClass n_CIM15_IEC61970_Meas_Limit_Limit n_Limit (Some n_CIM15_IEC61970_Core_IdentifiedObject_IdentifiedObject)
    []
    [ERef n_Procedures n_CIM15_IEC61970_Informative_InfAssets_Procedure_Procedure true (Some n_Limits)];
(* Model/CIM15/CIM15.ecore:18787-18808 *)
  EClass n_CIM15_IEC61970_Meas_LimitSet_LimitSet n_LimitSet (Some n_CIM15_IEC61970_Core_IdentifiedObject_IdentifiedObject)
    [(n_isPercentageLimits, TBool)]
    [];
(* Model/CIM15/CIM15.ecore:18042-18120 *)
  EClass n_CIM15_IEC61970_Meas_Measurement_Measurement n_Measurement (Some n_CIM15_IEC61970_Core_IdentifiedObject_IdentifiedObject)
    [(n_phases, enum_cim15_IEC61970_Core_PhaseCode); (n_measurementType, TText); (n_unitMultiplier, enum_cim15_IEC61970_Domain_UnitMultiplier); (n_unitSymbol, enum_cim15_IEC61970_Domain_UnitSymbol)]
    [ERef n_Terminal n_CIM15_IEC61970_Core_Terminal_Terminal false (Some n_Measurements); ERef n_PowerSystemResource n_CIM15_IEC61970_Core_PowerSystemResource_PowerSystemResource false (Some n_Measurements); ERef n_Locations n_CIM15_IEC61968_Common_Location_Location true (Some n_Measurements); ERef n_Asset n_CIM15_IEC61968_Assets_Asset_Asset false (Some n_Measurements); ERef n_Documents n_CIM15_IEC61968_Common_Document_Document true (Some n_Measurements)];
(* Model/CIM15/CIM15.ecore:18663-18726 *)
  EClass n_CIM15_IEC61970_Meas_MeasurementValue_MeasurementValue n_MeasurementValue (Some n_CIM15_IEC61970_Core_IdentifiedObject_IdentifiedObject)
    [(n_sensorAccuracy, TFloat); (n_timeStamp, TDate)]
    [ERef n_GmlValues n_CIM15_IEC61970_Informative_InfGMLSupport_GmlValue_GmlValue true (Some n_MeasurementValue); ERef n_MeasurementValueQuality n_CIM15_IEC61970_Meas_MeasurementValueQuality_MeasurementValueQuality false (Some n_MeasurementValue); ERef n_ProcedureDataSets n_CIM15_IEC61970_Informative_InfAssets_ProcedureDataSet_ProcedureDataSet true (Some n_MeasurementValues); ERef n_MeasurementValueSource n_CIM15_IEC61970_Meas_MeasurementValueSource_MeasurementValueSource false (Some n_MeasurementValues); ERef n_ErpPerson n_CIM15_IEC61970_Informative_InfERPSupport_ErpPerson_ErpPerson false (Some n_MeasurementValues); ERef n_RemoteSource n_CIM15_IEC61970_SCADA_RemoteSource_RemoteSource false (Some n_MeasurementValue)];
(* Model/CIM15/CIM15.ecore:18637-18657 *)
  EClass n_CIM15_IEC61970_Meas_MeasurementValueQuality_MeasurementValueQuality n_MeasurementValueQuality (Some n_CIM15_IEC61970_Meas_Quality61850_Quality61850)
    []
    [ERef n_MeasurementValue n_CIM15_IEC61970_Meas_MeasurementValue_MeasurementValue false (Some n_MeasurementValueQuality)];
(* Model/CIM15/CIM15.ecore:17897-17917 *)
  EClass n_CIM15_IEC61970_Meas_MeasurementValueSource_MeasurementValueSource n_MeasurementValueSource (Some n_CIM15_IEC61970_Core_IdentifiedObject_IdentifiedObject)
    []
    [ERef n_MeasurementValues n_CIM15_IEC61970_Meas_MeasurementValue_MeasurementValue true (Some n_MeasurementValueSource)];
(* Model/CIM15/CIM15.ecore:18399-18519 *)
  EClass n_CIM15_IEC61970_Meas_Quality61850_Quality61850 n_Quality61850 (Some n_CIM15_Element_Element)
    [(n_overFlow, TBool); (n_estimatorReplaced, TBool); (n_validity, enum_cim15_IEC61970_Meas_Validity); (n_operatorBlocked, TBool); (n_oldData, TBool); (n_failure, TBool); (n_source, enum_cim15_IEC61970_SCADA_Source); (n_outOfRange, TBool); (n_badReference, TBool); (n_suspect, TBool); (n_test, TBool); (n_oscillatory, TBool)]
    [];
(* Model/CIM15/CIM15.ecore:18223-18279 *)
  EClass n_CIM15_IEC61970_Meas_SetPoint_SetPoint n_SetPoint (Some n_CIM15_IEC61970_Meas_Control_Control)
    [(n_maxValue, TFloat); (n_minValue, TFloat); (n_normalValue, TFloat); (n_value, TFloat)]
    [ERef n_Analog n_CIM15_IEC61970_Meas_Analog_Analog false (Some n_SetPoint)];
(* Model/CIM15/CIM15.ecore:18172-18192 *)
  EClass n_CIM15_IEC61970_Meas_StringMeasurement_StringMeasurement n_StringMeasurement (Some n_CIM15_IEC61970_Meas_Measurement_Measurement)
    []
    [ERef n_StringMeasurementValues n_CIM15_IEC61970_Meas_StringMeasurementValue_StringMeasurementValue true (Some n_StringMeasurement)];
(* Model/CIM15/CIM15.ecore:18142-18171 *)
  EClass n_CIM15_IEC61970_Meas_StringMeasurementValue_StringMeasurementValue n_StringMeasurementValue (Some n_CIM15_IEC61970_Meas_MeasurementValue_MeasurementValue)
    [(n_value, TText)]
    [ERef n_StringMeasurement n_CIM15_IEC61970_Meas_StringMeasurement_StringMeasurement false (Some n_StringMeasurementValues)];
(* Model/CIM15/CIM15.ecore:18360-18398 *)
  EClass n_CIM15_IEC61970_Meas_ValueAliasSet_ValueAliasSet n_ValueAliasSet (Some n_CIM15_IEC61970_Core_IdentifiedObject_IdentifiedObject)
    []
    [ERef n_Discretes n_CIM15_IEC61970_Meas_Discrete_Discrete true (Some n_ValueAliasSet); ERef n_Commands n_CIM15_IEC61970_Meas_Command_Command true (Some n_ValueAliasSet); ERef n_Values n_CIM15_IEC61970_Meas_ValueToAlias_ValueToAlias true (Some n_ValueAliasSet)];
(* Model/CIM15/CIM15.ecore:17867-17896 *)
  EClass n_CIM15_IEC61970_Meas_ValueToAlias_ValueToAlias n_ValueToAlias (Some n_CIM15_IEC61970_Core_IdentifiedObject_IdentifiedObject)
    [(n_value, TInt)]
    [ERef n_ValueAliasSet n_CIM15_IEC61970_Meas_ValueAliasSet_ValueAliasSet false (Some n_Values)];
(* Model/CIM15/CIM15.ecore:22402-22424 *)
  EClass n_CIM15_IEC61970_OperationalLimits_ActivePowerLimit_ActivePowerLimit n_ActivePowerLimit (Some n_CIM15_IEC61970_OperationalLimits_OperationalLimit_OperationalLimit)
    [(n_value, TFloat)]
    [ERef n_ActivePowerLimitSet n_CIM15_IEC61970_OperationalLimits_ActivePowerLimitSet_ActivePowerLimitSet false (Some n_ActivePowerLimits)];
(* Model/CIM15/CIM15.ecore:22573-22577 *)
  EClass n_CIM15_IEC61970_OperationalLimits_ActivePowerLimitSet_ActivePowerLimitSet n_ActivePowerLimitSet (Some n_CIM15_IEC61970_OperationalLimits_OperationalLimitSet_OperationalLimitSet)
    []
    [ERef n_ActivePowerLimits n_CIM15_IEC61970_OperationalLimits_ActivePowerLimit_ActivePowerLimit true (Some n_ActivePowerLimitSet)];
(* Model/CIM15/CIM15.ecore:22379-22401 *)
  EClass n_CIM15_IEC61970_OperationalLimits_ApparentPowerLimit_ApparentPowerLimit n_ApparentPowerLimit (Some n_CIM15_IEC61970_OperationalLimits_OperationalLimit_OperationalLimit)
    [(n_value, TFloat)]
    [ERef n_ApparentPowerLimitSet n_CIM15_IEC61970_OperationalLimits_ApparentPowerLimitSet_ApparentPowerLimitSet false (Some n_ApparentPowerLimits)];
(* Model/CIM15/CIM15.ecore:22605-22609 *)
  EClass n_CIM15_IEC61970_OperationalLimits_ApparentPowerLimitSet_ApparentPowerLimitSet n_ApparentPowerLimitSet (Some n_CIM15_IEC61970_OperationalLimits_OperationalLimitSet_OperationalLimitSet)
    []
    [ERef n_ApparentPowerLimits n_CIM15_IEC61970_OperationalLimits_ApparentPowerLimit_ApparentPowerLimit true (Some n_ApparentPowerLimitSet)];
(* Model/CIM15/CIM15.ecore:22464-22541 *)
  EClass n_CIM15_IEC61970_OperationalLimits_BranchGroup_BranchGroup n_BranchGroup (Some n_CIM15_IEC61970_Core_IdentifiedObject_IdentifiedObject)
    [(n_minimumReactivePower, TFloat); (n_maximumReactivePower, TFloat); (n_maximumActivePower, TFloat); (n_minimumActivePower, TFloat); (n_monitorActivePower, TBool); (n_monitorReactivePower, TBool)]
    [ERef n_BranchGroupTerminal n_CIM15_IEC61970_OperationalLimits_BranchGroupTerminal_BranchGroupTerminal true (Some n_BranchGroup)];
(* Model/CIM15/CIM15.ecore:22610-22648 *)
  EClass n_CIM15_IEC61970_OperationalLimits_BranchGroupTerminal_BranchGroupTerminal n_BranchGroupTerminal (Some n_CIM15_Element_Element)
    [(n_positiveFlowIn, TBool)]
    [ERef n_BranchGroup n_CIM15_IEC61970_OperationalLimits_BranchGroup_BranchGroup false (Some n_BranchGroupTerminal); ERef n_Terminal n_CIM15_IEC61970_Core_Terminal_Terminal false (Some n_BranchGroupTerminal)];
(* Model/CIM15/CIM15.ecore:22578-22600 *)
  EClass n_CIM15_IEC61970_OperationalLimits_CurrentLimit_CurrentLimit n_CurrentLimit (Some n_CIM15_IEC61970_OperationalLimits_OperationalLimit_OperationalLimit)
    [(n_value, TFloat)]
    [ERef n_CurrentLimitSet n_CIM15_IEC61970_OperationalLimits_CurrentLimitSet_CurrentLimitSet false (Some n_CurrentLimits)];
(* Model/CIM15/CIM15.ecore:22601-22604 *)
  EClass n_CIM15_IEC61970_OperationalLimits_CurrentLimitSet_CurrentLimitSet n_CurrentLimitSet (Some n_CIM15_IEC61970_OperationalLimits_OperationalLimitSet_OperationalLimitSet)
    []
    [ERef n_CurrentLimits n_CIM15_IEC61970_OperationalLimits_CurrentLimit_CurrentLimit true (Some n_CurrentLimitSet)];
(* Model/CIM15/CIM15.ecore:22676-22705 *)
  EClass n_CIM15_IEC61970_OperationalLimits_OperationalLimit_OperationalLimit n_OperationalLimit (Some n_CIM15_IEC61970_Core_IdentifiedObject_IdentifiedObject)
    []
    [ERef n_OperationalLimitType n_CIM15_IEC61970_OperationalLimits_OperationalLimitType_OperationalLimitType false (Some n_OperationalLimit); ERef n_OperationalLimitSet n_CIM15_IEC61970_OperationalLimits_OperationalLimitSet_OperationalLimitSet false (Some n_OperationalLimitValue)];
(* Model/CIM15/CIM15.ecore:22542-22572 *)
  EClass n_CIM15_IEC61970_OperationalLimits_OperationalLimitSet_OperationalLimitSet n_OperationalLimitSet (Some n_CIM15_IEC61970_Core_IdentifiedObject_IdentifiedObject)
    []
    [ERef n_Terminal n_CIM15_IEC61970_Core_Terminal_Terminal false (Some n_OperationalLimitSet); ERef n_OperationalLimitValue n_CIM15_IEC61970_OperationalLimits_OperationalLimit_OperationalLimit true (Some n_OperationalLimitSet)];
(* Model/CIM15/CIM15.ecore:22425-22463 *)
  EClass n_CIM15_IEC61970_OperationalLimits_OperationalLimitType_OperationalLimitType n_OperationalLimitType (Some n_CIM15_IEC61970_Core_IdentifiedObject_IdentifiedObject)
    [(n_direction, enum_cim15_IEC61970_OperationalLimits_OperationalLimitDirectionKind); (n_acceptableDuration, TFloat)]
    [ERef n_OperationalLimit n_CIM15_IEC61970_OperationalLimits_OperationalLimit_OperationalLimit true (Some n_OperationalLimitType)];
(* Model/CIM15/CIM15.ecore:22653-22675 *)
  EClass n_CIM15_IEC61970_OperationalLimits_VoltageLimit_VoltageLimit n_VoltageLimit (Some n_CIM15_IEC61970_OperationalLimits_OperationalLimit_OperationalLimit)
    [(n_value, TFloat)]
    [ERef n_VoltageLimitSet n_CIM15_IEC61970_OperationalLimits_VoltageLimitSet_VoltageLimitSet false (Some n_VoltageLimits)];
(* Model/CIM15/CIM15.ecore:22649-22652 *)
  EClass n_CIM15_IEC61970_OperationalLimits_VoltageLimitSet_VoltageLimitSet n_VoltageLimitSet (Some n_CIM15_IEC61970_OperationalLimits_OperationalLimitSet_OperationalLimitSet)
    []
    [ERef n_VoltageLimits n_CIM15_IEC61970_OperationalLimits_VoltageLimit_VoltageLimit true (Some n_VoltageLimitSet)];
(* Model/CIM15/CIM15.ecore:22820-22925 *)
  EClass n_CIM15_IEC61970_Outage_ClearanceTag_ClearanceTag n_ClearanceTag (Some n_CIM15_IEC61970_Core_IdentifiedObject_IdentifiedObject)
    [(n_workStartTime, TDate); (n_phaseCheckReqFlag, TBool); (n_deenergizeReqFlag, TBool); (n_authorityName, TText); (n_tagIssueTime, TDate); (n_groundReqFlag, TBool); (n_workDescription, TText); (n_workEndTime, TDate)]
    [ERef n_ConductingEquipment n_CIM15_IEC61970_Core_ConductingEquipment_ConductingEquipment false (Some n_ClearanceTags); ERef n_SafetyDocument n_CIM15_IEC61970_Informative_InfOperations_SafetyDocument_SafetyDocument false (Some n_ClearanceTags); ERef n_ClearanceTagType n_CIM15_IEC61970_Outage_ClearanceTagType_ClearanceTagType false (Some n_ClearanceTags)];
(* Model/CIM15/CIM15.ecore:22795-22815 *)
  EClass n_CIM15_IEC61970_Outage_ClearanceTagType_ClearanceTagType n_ClearanceTagType (Some n_CIM15_IEC61970_Core_IdentifiedObject_IdentifiedObject)
    []
    [ERef n_ClearanceTags n_CIM15_IEC61970_Outage_ClearanceTag_ClearanceTag true (Some n_ClearanceTagType)];
(* Model/CIM15/CIM15.ecore:22763-22794 *)
  EClass n_CIM15_IEC61970_Outage_OutageSchedule_OutageSchedule n_OutageSchedule (Some n_CIM15_IEC61970_Core_IrregularIntervalSchedule_IrregularIntervalSchedule)
    []
    [ERef n_PlannedOutage n_CIM15_IEC61970_Informative_InfOperations_PlannedOutage_PlannedOutage false (Some n_OutageSchedules); ERef n_SwitchingOperations n_CIM15_IEC61970_Outage_SwitchingOperation_SwitchingOperation true (Some n_OutageSchedule); ERef n_PowerSystemResource n_CIM15_IEC61970_Core_PowerSystemResource_PowerSystemResource false (Some n_OutageSchedule)];
(* Model/CIM15/CIM15.ecore:22715-22762 *)
  EClass n_CIM15_IEC61970_Outage_SwitchingOperation_SwitchingOperation n_SwitchingOperation (Some n_CIM15_IEC61970_Core_IdentifiedObject_IdentifiedObject)
    [(n_operationTime, TDate); (n_newState, enum_cim15_IEC61970_Outage_SwitchState)]
    [ERef n_OutageSchedule n_CIM15_IEC61970_Outage_OutageSchedule_OutageSchedule false (Some n_SwitchingOperations); ERef n_Switches n_CIM15_IEC61970_Wires_Switch_Switch true (Some n_SwitchingOperations)];
(* Model/CIM15/CIM15.ecore:23062-23136 *)
  EClass n_CIM15_IEC61970_Protection_CurrentRelay_CurrentRelay n_CurrentRelay (Some n_CIM15_IEC61970_Protection_ProtectionEquipment_ProtectionEquipment)
    [(n_currentLimit3, TFloat); (n_currentLimit2, TFloat); (n_currentLimit1, TFloat); (n_inverseTimeFlag, TBool); (n_timeDelay3, TFloat); (n_timeDelay2, TFloat); (n_timeDelay1, TFloat)]
    [];
(* Model/CIM15/CIM15.ecore:23137-23221 *)
  EClass n_CIM15_IEC61970_Protection_ProtectionEquipment_ProtectionEquipment n_ProtectionEquipment (Some n_CIM15_IEC61970_Core_Equipment_Equipment)
    [(n_highLimit, TFloat); (n_powerDirectionFlag, TBool); (n_lowLimit, TFloat); (n_unitSymbol, enum_cim15_IEC61970_Domain_UnitSymbol); (n_relayDelayTime, TFloat); (n_unitMultiplier, enum_cim15_IEC61970_Domain_UnitMultiplier)]
    [ERef n_ConductingEquipments n_CIM15_IEC61970_Core_ConductingEquipment_ConductingEquipment true (Some n_ProtectionEquipments); ERef n_ProtectedSwitches n_CIM15_IEC61970_Wires_ProtectedSwitch_ProtectedSwitch true (Some n_ProtectionEquipments)];
(* Model/CIM15/CIM15.ecore:22984-23022 *)
  EClass n_CIM15_IEC61970_Protection_RecloseSequence_RecloseSequence n_RecloseSequence (Some n_CIM15_IEC61970_Core_IdentifiedObject_IdentifiedObject)
    [(n_recloseStep, TInt); (n_recloseDelay, TFloat)]
    [ERef n_ProtectedSwitch n_CIM15_IEC61970_Wires_ProtectedSwitch_ProtectedSwitch false (Some n_RecloseSequences)];
(* Model/CIM15/CIM15.ecore:23023-23061 *)
  EClass n_CIM15_IEC61970_Protection_SynchrocheckRelay_SynchrocheckRelay n_SynchrocheckRelay (Some n_CIM15_IEC61970_Protection_ProtectionEquipment_ProtectionEquipment)
    [(n_maxFreqDiff, TFloat); (n_maxAngleDiff, TFloat); (n_maxVoltDiff, TFloat)]
    [];
(* Model/CIM15/CIM15.ecore:334-354 *)
  EClass n_CIM15_IEC61970_SCADA_CommunicationLink_CommunicationLink n_CommunicationLink (Some n_CIM15_IEC61970_Core_PowerSystemResource_PowerSystemResource)
    []
    [ERef n_RemoteUnits n_CIM15_IEC61970_SCADA_RemoteUnit_RemoteUnit true (Some n_CommunicationLinks)];
(* Model/CIM15/CIM15.ecore:286-333 *)
  EClass n_CIM15_IEC61970_SCADA_RemoteControl_RemoteControl n_RemoteControl (Some n_CIM15_IEC61970_SCADA_RemotePoint_RemotePoint)
    [(n_actuatorMaximum, TFloat); (n_actuatorMinimum, TFloat); (n_remoteControlled, TBool)]
    [ERef n_Control n_CIM15_IEC61970_Meas_Control_Control false (Some n_RemoteControl)];
(* Model/CIM15/CIM15.ecore:226-246 *)
  EClass n_CIM15_IEC61970_SCADA_RemotePoint_RemotePoint n_RemotePoint (Some n_CIM15_IEC61970_Core_IdentifiedObject_IdentifiedObject)
    []
    [ERef n_RemoteUnit n_CIM15_IEC61970_SCADA_RemoteUnit_RemoteUnit false (Some n_RemotePoints)];
(* Model/CIM15/CIM15.ecore:169-225 *)
  EClass n_CIM15_IEC61970_SCADA_RemoteSource_RemoteSource n_RemoteSource (Some n_CIM15_IEC61970_SCADA_RemotePoint_RemotePoint)
    [(n_sensorMinimum, TFloat); (n_deadband, TFloat); (n_sensorMaximum, TFloat); (n_scanInterval, TFloat)]
    [ERef n_MeasurementValue n_CIM15_IEC61970_Meas_MeasurementValue_MeasurementValue false (Some n_RemoteSource)];
(* Model/CIM15/CIM15.ecore:247-285 *)
  EClass n_CIM15_IEC61970_SCADA_RemoteUnit_RemoteUnit n_RemoteUnit (Some n_CIM15_IEC61970_Core_PowerSystemResource_PowerSystemResource)
    [(n_remoteUnitType, enum_cim15_IEC61970_SCADA_RemoteUnitType)]
    [ERef n_RemotePoints n_CIM15_IEC61970_SCADA_RemotePoint_RemotePoint true (Some n_RemoteUnit); ERef n_CommunicationLinks n_CIM15_IEC61970_SCADA_CommunicationLink_CommunicationLink true (Some n_RemoteUnits)];
(* Model/CIM15/CIM15.ecore:14466-14477 *)
  EClass n_CIM15_IEC61970_StateVariables_StateVariable_StateVariable n_StateVariable (Some n_CIM15_Element_Element)
    []
    [];
(* Model/CIM15/CIM15.ecore:14538-14576 *)
  EClass n_CIM15_IEC61970_StateVariables_SvInjection_SvInjection n_SvInjection (Some n_CIM15_IEC61970_StateVariables_StateVariable_StateVariable)
    [(n_pNetInjection, TFloat); (n_qNetInjection, TFloat)]
    [ERef n_TopologicalNode n_CIM15_IEC61970_Topology_TopologicalNode_TopologicalNode false (Some n_SvInjection)];
(* Model/CIM15/CIM15.ecore:14577-14615 *)
  EClass n_CIM15_IEC61970_StateVariables_SvPowerFlow_SvPowerFlow n_SvPowerFlow (Some n_CIM15_IEC61970_StateVariables_StateVariable_StateVariable)
    [(n_p, TFloat); (n_q, TFloat)]
    [ERef n_Terminal n_CIM15_IEC61970_Core_Terminal_Terminal false (Some n_SvPowerFlow)];
(* Model/CIM15/CIM15.ecore:14379-14435 *)
  EClass n_CIM15_IEC61970_StateVariables_SvShortCircuit_SvShortCircuit n_SvShortCircuit (Some n_CIM15_IEC61970_StateVariables_StateVariable_StateVariable)
    [(n_sShortCircuit, TFloat); (n_r0PerR, TFloat); (n_x0PerX, TFloat); (n_xPerR, TFloat)]
    [ERef n_TopologicalNode n_CIM15_IEC61970_Topology_TopologicalNode_TopologicalNode false (Some n_SvShortCircuit)];
(* Model/CIM15/CIM15.ecore:14436-14465 *)
  EClass n_CIM15_IEC61970_StateVariables_SvShuntCompensatorSections_SvShuntCompensatorSections n_SvShuntCompensatorSections (Some n_CIM15_IEC61970_StateVariables_StateVariable_StateVariable)
    [(n_sections, TFloat)]
    [ERef n_ShuntCompensator n_CIM15_IEC61970_Wires_ShuntCompensator_ShuntCompensator false (Some n_SvShuntCompensatorSections)];
(* Model/CIM15/CIM15.ecore:14508-14537 *)
  EClass n_CIM15_IEC61970_StateVariables_SvStatus_SvStatus n_SvStatus (Some n_CIM15_IEC61970_StateVariables_StateVariable_StateVariable)
    [(n_inService, TBool)]
    [ERef n_ConductingEquipment n_CIM15_IEC61970_Core_ConductingEquipment_ConductingEquipment false (Some n_SvStatus)];
(* Model/CIM15/CIM15.ecore:14478-14507 *)
  EClass n_CIM15_IEC61970_StateVariables_SvTapStep_SvTapStep n_SvTapStep (Some n_CIM15_IEC61970_StateVariables_StateVariable_StateVariable)
    [(n_position, TFloat)]
    [ERef n_TapChanger n_CIM15_IEC61970_Wires_TapChanger_TapChanger false (Some n_SvTapStep)];
(* Model/CIM15/CIM15.ecore:14340-14378 *)
  EClass n_CIM15_IEC61970_StateVariables_SvVoltage_SvVoltage n_SvVoltage (Some n_CIM15_IEC61970_StateVariables_StateVariable_StateVariable)
    [(n_angle, TFloat); (n_v, TFloat)]
    [ERef n_TopologicalNode n_CIM15_IEC61970_Topology_TopologicalNode_TopologicalNode false (Some n_SvVoltage)];
(* Model/CIM15/CIM15.ecore:14616-14645 *)
  EClass n_CIM15_IEC61970_StateVariables_TopologicalIsland_TopologicalIsland n_TopologicalIsland (Some n_CIM15_IEC61970_Core_IdentifiedObject_IdentifiedObject)
    []
    [ERef n_AngleRef_TopologicalNode n_CIM15_IEC61970_Topology_TopologicalNode_TopologicalNode false (Some n_AngleRef_TopologicalIsland); ERef n_TopologicalNodes n_CIM15_IEC61970_Topology_TopologicalNode_TopologicalNode true (Some n_TopologicalIsland)];
(* Model/CIM15/CIM15.ecore:23494-23523 *)
  EClass n_CIM15_IEC61970_Topology_BusNameMarker_BusNameMarker n_BusNameMarker (Some n_CIM15_IEC61970_Core_IdentifiedObject_IdentifiedObject)
    []
    [ERef n_Terminal n_CIM15_IEC61970_Core_Terminal_Terminal true (Some n_BusNameMarker); ERef n_ReportingGroup n_CIM15_IEC61970_Core_ReportingGroup_ReportingGroup false (Some n_BusNameMarker)];
(* Model/CIM15/CIM15.ecore:23524-23625 *)
  EClass n_CIM15_IEC61970_Topology_TopologicalNode_TopologicalNode n_TopologicalNode (Some n_CIM15_IEC61970_Core_IdentifiedObject_IdentifiedObject)
    []
    [ERef n_SvShortCircuit n_CIM15_IEC61970_StateVariables_SvShortCircuit_SvShortCircuit false (Some n_TopologicalNode); ERef n_ConnectivityNodeContainer n_CIM15_IEC61970_Core_ConnectivityNodeContainer_ConnectivityNodeContainer false (Some n_TopologicalNode); ERef n_SvInjection n_CIM15_IEC61970_StateVariables_SvInjection_SvInjection false (Some n_TopologicalNode); ERef n_ConnectivityNodes n_CIM15_IEC61970_Core_ConnectivityNode_ConnectivityNode true (Some n_TopologicalNode); ERef n_SvVoltage n_CIM15_IEC61970_StateVariables_SvVoltage_SvVoltage false (Some n_TopologicalNode); ERef n_BaseVoltage n_CIM15_IEC61970_Core_BaseVoltage_BaseVoltage false (Some n_TopologicalNode); ERef n_TopologicalIsland n_CIM15_IEC61970_StateVariables_TopologicalIsland_TopologicalIsland false (Some n_TopologicalNodes); ERef n_ReportingGroup n_CIM15_IEC61970_Core_ReportingGroup_ReportingGroup false (Some n_TopologicalNode); ERef n_Terminal n_CIM15_IEC61970_Core_Terminal_Terminal true (Some n_TopologicalNode); ERef n_AngleRef_TopologicalIsland n_CIM15_IEC61970_StateVariables_TopologicalIsland_TopologicalIsland false (Some n_AngleRef_TopologicalNode)];
(* Model/CIM15/CIM15.ecore:14938-15054 *)
  EClass n_CIM15_IEC61970_Wires_ACLineSegment_ACLineSegment n_ACLineSegment (Some n_CIM15_IEC61970_Wires_Conductor_Conductor)
    [(n_g0ch, TFloat); (n_r, TFloat); (n_x, TFloat); (n_gch, TFloat); (n_r0, TFloat); (n_bch, TFloat); (n_b0ch, TFloat); (n_x0, TFloat)]
    [ERef n_SequenceImpedance n_CIM15_IEC61970_Wires_PerLengthSequenceImpedance_PerLengthSequenceImpedance false (Some n_LineSegments); ERef n_ConductorAssets n_CIM15_IEC61970_Informative_InfAssets_ConductorAsset_ConductorAsset true (Some n_ConductorSegment); ERef n_ConductorInfo n_CIM15_IEC61968_AssetModels_ConductorInfo_ConductorInfo false (Some n_LineSegments); ERef n_Cut n_CIM15_IEC61970_CutsJumpers_Cut_Cut true (Some n_ACLineSegment); ERef n_PhaseImpedance n_CIM15_IEC61970_Wires_PerLengthPhaseImpedance_PerLengthPhaseImpedance false (Some n_LineSegments); ERef n_Clamp n_CIM15_IEC61970_CutsJumpers_Clamp_Clamp true (Some n_ACLineSegment)];
(* Model/CIM15/CIM15.ecore:16329-16349 *)
  EClass n_CIM15_IEC61970_Wires_Breaker_Breaker n_Breaker (Some n_CIM15_IEC61970_Wires_ProtectedSwitch_ProtectedSwitch)
    [(n_inTransitTime, TFloat)]
    [];
(* Model/CIM15/CIM15.ecore:16779-16799 *)
  EClass n_CIM15_IEC61970_Wires_BusbarSection_BusbarSection n_BusbarSection (Some n_CIM15_IEC61970_Wires_Connector_Connector)
    []
    [ERef n_VoltageControlZone n_CIM15_IEC61970_Wires_VoltageControlZone_VoltageControlZone false (Some n_BusbarSection)];
(* Model/CIM15/CIM15.ecore:16239-16268 *)
  EClass n_CIM15_IEC61970_Wires_CompositeSwitch_CompositeSwitch n_CompositeSwitch (Some n_CIM15_IEC61970_Core_Equipment_Equipment)
    [(n_compositeSwitchType, TText)]
    [ERef n_Switches n_CIM15_IEC61970_Wires_Switch_Switch true (Some n_CompositeSwitch)];
(* Model/CIM15/CIM15.ecore:17713-17733 *)
  EClass n_CIM15_IEC61970_Wires_Conductor_Conductor n_Conductor (Some n_CIM15_IEC61970_Core_ConductingEquipment_ConductingEquipment)
    [(n_length, TFloat)]
    [];
(* Model/CIM15/CIM15.ecore:15384-15395 *)
  EClass n_CIM15_IEC61970_Wires_Connector_Connector n_Connector (Some n_CIM15_IEC61970_Core_ConductingEquipment_ConductingEquipment)
    []
    [];
(* Model/CIM15/CIM15.ecore:17561-17590 *)
  EClass n_CIM15_IEC61970_Wires_DCLineSegment_DCLineSegment n_DCLineSegment (Some n_CIM15_IEC61970_Wires_Conductor_Conductor)
    [(n_dcSegmentInductance, TFloat); (n_dcSegmentResistance, TFloat)]
    [];
(* Model/CIM15/CIM15.ecore:15372-15383 *)
  EClass n_CIM15_IEC61970_Wires_Disconnector_Disconnector n_Disconnector (Some n_CIM15_IEC61970_Wires_Switch_Switch)
    []
    [];
(* Model/CIM15/CIM15.ecore:15292-15371 *)
  EClass n_CIM15_IEC61970_Wires_EnergyConsumer_EnergyConsumer n_EnergyConsumer (Some n_CIM15_IEC61970_Core_ConductingEquipment_ConductingEquipment)
    [(n_qfixedPct, TFloat); (n_customerCount, TInt); (n_pfixedPct, TFloat); (n_pfixed, TFloat); (n_qfixed, TFloat)]
    [ERef n_ServiceDeliveryPoints n_CIM15_IEC61968_Metering_ServiceDeliveryPoint_ServiceDeliveryPoint true (Some n_EnergyConsumer); ERef n_LoadResponse n_CIM15_IEC61970_LoadModel_LoadResponseCharacteristic_LoadResponseCharacteristic false (Some n_EnergyConsumer); ERef n_PowerCutZone n_CIM15_IEC61970_LoadModel_PowerCutZone_PowerCutZone false (Some n_EnergyConsumers); ERef n_EnergyConsumerPhases n_CIM15_IEC61970_WiresPhaseModel_EnergyConsumerPhase_EnergyConsumerPhase true (Some n_EnergyConsumer)];
(* Model/CIM15/CIM15.ecore:17367-17468 *)
  EClass n_CIM15_IEC61970_Wires_EnergySource_EnergySource n_EnergySource (Some n_CIM15_IEC61970_Core_ConductingEquipment_ConductingEquipment)
    [(n_r0, TFloat); (n_voltageMagnitude, TFloat); (n_xn, TFloat); (n_nominalVoltage, TFloat); (n_x, TFloat); (n_r, TFloat); (n_voltageAngle, TFloat); (n_rn, TFloat); (n_x0, TFloat); (n_activePower, TFloat)]
    [];
(* Model/CIM15/CIM15.ecore:16512-16577 *)
  EClass n_CIM15_IEC61970_Wires_FrequencyConverter_FrequencyConverter n_FrequencyConverter (Some n_CIM15_IEC61970_Wires_RegulatingCondEq_RegulatingCondEq)
    [(n_maxU, TFloat); (n_maxP, TFloat); (n_frequency, TFloat); (n_minP, TFloat); (n_minU, TFloat); (n_operatingMode, TText)]
    [];
(* Model/CIM15/CIM15.ecore:15280-15291 *)
  EClass n_CIM15_IEC61970_Wires_Fuse_Fuse n_Fuse (Some n_CIM15_IEC61970_Wires_Switch_Switch)
    []
    [];
(* Model/CIM15/CIM15.ecore:16224-16238 *)
  EClass n_CIM15_IEC61970_Wires_Ground_Ground n_Ground (Some n_CIM15_IEC61970_Core_ConductingEquipment_ConductingEquipment)
    []
    [ERef n_WindingInsulations n_CIM15_IEC61970_Informative_InfAssets_WindingInsulation_WindingInsulation true (Some n_Ground)];
(* Model/CIM15/CIM15.ecore:15465-15476 *)
  EClass n_CIM15_IEC61970_Wires_GroundDisconnector_GroundDisconnector n_GroundDisconnector (Some n_CIM15_IEC61970_Wires_Switch_Switch)
    []
    [];
(* Model/CIM15/CIM15.ecore:17794-17805 *)
  EClass n_CIM15_IEC61970_Wires_Jumper_Jumper n_Jumper (Some n_CIM15_IEC61970_Wires_Switch_Switch)
    []
    [];
(* Model/CIM15/CIM15.ecore:15168-15179 *)
  EClass n_CIM15_IEC61970_Wires_Junction_Junction n_Junction (Some n_CIM15_IEC61970_Wires_Connector_Connector)
    []
    [];
(* Model/CIM15/CIM15.ecore:16452-16472 *)
  EClass n_CIM15_IEC61970_Wires_Line_Line n_Line (Some n_CIM15_IEC61970_Core_EquipmentContainer_EquipmentContainer)
    []
    [ERef n_Region n_CIM15_IEC61970_Core_SubGeographicalRegion_SubGeographicalRegion false (Some n_Lines)];
(* Model/CIM15/CIM15.ecore:16767-16778 *)
  EClass n_CIM15_IEC61970_Wires_LoadBreakSwitch_LoadBreakSwitch n_LoadBreakSwitch (Some n_CIM15_IEC61970_Wires_ProtectedSwitch_ProtectedSwitch)
    []
    [];
(* Model/CIM15/CIM15.ecore:16350-16451 *)
  EClass n_CIM15_IEC61970_Wires_MutualCoupling_MutualCoupling n_MutualCoupling (Some n_CIM15_IEC61970_Core_IdentifiedObject_IdentifiedObject)
    [(n_distance12, TFloat); (n_distance11, TFloat); (n_r0, TFloat); (n_distance22, TFloat); (n_distance21, TFloat); (n_b0ch, TFloat); (n_x0, TFloat); (n_g0ch, TFloat)]
    [ERef n_First_Terminal n_CIM15_IEC61970_Core_Terminal_Terminal false (Some n_HasFirst_MutualCoupling); ERef n_Second_Terminal n_CIM15_IEC61970_Core_Terminal_Terminal false (Some n_HasSecond_MutualCoupling)];
(* Model/CIM15/CIM15.ecore:16473-16511 *)
  EClass n_CIM15_IEC61970_Wires_PerLengthPhaseImpedance_PerLengthPhaseImpedance n_PerLengthPhaseImpedance (Some n_CIM15_IEC61970_Core_IdentifiedObject_IdentifiedObject)
    [(n_conductorCount, TInt)]
    [ERef n_LineSegments n_CIM15_IEC61970_Wires_ACLineSegment_ACLineSegment true (Some n_PhaseImpedance); ERef n_PhaseImpedanceData n_CIM15_IEC61970_Wires_PhaseImpedanceData_PhaseImpedanceData true (Some n_PhaseImpedance)];
(* Model/CIM15/CIM15.ecore:17169-17261 *)
  EClass n_CIM15_IEC61970_Wires_PerLengthSequenceImpedance_PerLengthSequenceImpedance n_PerLengthSequenceImpedance (Some n_CIM15_IEC61970_Core_IdentifiedObject_IdentifiedObject)
    [(n_x, TFloat); (n_r, TFloat); (n_bch, TFloat); (n_r0, TFloat); (n_g0ch, TFloat); (n_b0ch, TFloat); (n_gch, TFloat); (n_x0, TFloat)]
    [ERef n_LineSegments n_CIM15_IEC61970_Wires_ACLineSegment_ACLineSegment true (Some n_SequenceImpedance)];
(* Model/CIM15/CIM15.ecore:14655-14711 *)
  EClass n_CIM15_IEC61970_Wires_PhaseImpedanceData_PhaseImpedanceData n_PhaseImpedanceData (Some n_CIM15_Element_Element)
    [(n_r, TFloat); (n_x, TFloat); (n_b, TFloat); (n_sequenceNumber, TInt)]
    [ERef n_PhaseImpedance n_CIM15_IEC61970_Wires_PerLengthPhaseImpedance_PerLengthPhaseImpedance false (Some n_PhaseImpedanceData)];
(* Model/CIM15/CIM15.ecore:16196-16218 *)
  EClass n_CIM15_IEC61970_Wires_PhaseTapChanger_PhaseTapChanger n_PhaseTapChanger (Some n_CIM15_IEC61970_Wires_TapChanger_TapChanger)
    []
    [ERef n_PhaseTapChangerTabular n_CIM15_IEC61970_Wires_PhaseTapChangerTabular_PhaseTapChangerTabular false (Some n_PhaseTapChanger); ERef n_TransformerEnd n_CIM15_IEC61970_Wires_TransformerEnd_TransformerEnd false (Some n_PhaseTapChanger)];
(* Model/CIM15/CIM15.ecore:15816-15836 *)
  EClass n_CIM15_IEC61970_Wires_PhaseTapChangerAsymetrical_PhaseTapChangerAsymetrical n_PhaseTapChangerAsymetrical (Some n_CIM15_IEC61970_Wires_PhaseTapChangerNonLinear_PhaseTapChangerNonLinear)
    [(n_windingConnectionAngle, TFloat)]
    [];
(* Model/CIM15/CIM15.ecore:14917-14937 *)
  EClass n_CIM15_IEC61970_Wires_PhaseTapChangerLinear_PhaseTapChangerLinear n_PhaseTapChangerLinear (Some n_CIM15_IEC61970_Wires_PhaseTapChanger_PhaseTapChanger)
    [(n_stepPhaseShiftIncrement, TFloat)]
    [];
(* Model/CIM15/CIM15.ecore:17734-17772 *)
  EClass n_CIM15_IEC61970_Wires_PhaseTapChangerNonLinear_PhaseTapChangerNonLinear n_PhaseTapChangerNonLinear (Some n_CIM15_IEC61970_Wires_PhaseTapChanger_PhaseTapChanger)
    [(n_xMedian, TFloat); (n_voltageStepIncrement, TFloat); (n_xMax, TFloat)]
    [];
(* Model/CIM15/CIM15.ecore:17782-17793 *)
  EClass n_CIM15_IEC61970_Wires_PhaseTapChangerSymetrical_PhaseTapChangerSymetrical n_PhaseTapChangerSymetrical (Some n_CIM15_IEC61970_Wires_PhaseTapChangerNonLinear_PhaseTapChangerNonLinear)
    []
    [];
(* Model/CIM15/CIM15.ecore:14855-14871 *)
  EClass n_CIM15_IEC61970_Wires_PhaseTapChangerTabular_PhaseTapChangerTabular n_PhaseTapChangerTabular (Some n_CIM15_Element_Element)
    []
    [ERef n_PhaseTapChangerTabularPoint n_CIM15_IEC61970_Wires_PhaseTapChangerTabularPoint_PhaseTapChangerTabularPoint true (Some n_PhaseTapChangerTabular); ERef n_PhaseTapChanger n_CIM15_IEC61970_Wires_PhaseTapChanger_PhaseTapChanger true (Some n_PhaseTapChangerTabular)];
(* Model/CIM15/CIM15.ecore:17520-17560 *)
  EClass n_CIM15_IEC61970_Wires_PhaseTapChangerTabularPoint_PhaseTapChangerTabularPoint n_PhaseTapChangerTabularPoint (Some n_CIM15_Element_Element)
    [(n_x, TFloat); (n_step, TInt); (n_angle, TFloat)]
    [ERef n_PhaseTapChangerTabular n_CIM15_IEC61970_Wires_PhaseTapChangerTabular_PhaseTapChangerTabular false (Some n_PhaseTapChangerTabularPoint)];
(* Model/CIM15/CIM15.ecore:15448-15459 *)
  EClass n_CIM15_IEC61970_Wires_Plant_Plant n_Plant (Some n_CIM15_IEC61970_Core_EquipmentContainer_EquipmentContainer)
    []
    [];
(* Model/CIM15/CIM15.ecore:15239-15279 *)
  EClass n_CIM15_IEC61970_Wires_PowerTransformer_PowerTransformer n_PowerTransformer (Some n_CIM15_IEC61970_Core_ConductingEquipment_ConductingEquipment)
    [(n_vectorGroup, TText)]
    [ERef n_TransformerTanks n_CIM15_IEC61970_Wires_TransformerTank_TransformerTank true (Some n_PowerTransformer); ERef n_PowerTransformerInfo n_CIM15_IEC61968_AssetModels_PowerTransformerInfo_PowerTransformerInfo false (Some n_PowerTransformers); ERef n_PowerTransformerEnd n_CIM15_IEC61970_Wires_PowerTransformerEnd_PowerTransformerEnd true (Some n_PowerTransformer)];
(* Model/CIM15/CIM15.ecore:15055-15167 *)
  EClass n_CIM15_IEC61970_Wires_PowerTransformerEnd_PowerTransformerEnd n_PowerTransformerEnd (Some n_CIM15_IEC61970_Wires_TransformerEnd_TransformerEnd)
    [(n_x0, TFloat); (n_b0, TFloat); (n_g0, TFloat); (n_ratedS, TFloat); (n_b, TFloat); (n_ratedU, TFloat); (n_g, TFloat); (n_r, TFloat); (n_x, TFloat); (n_r0, TFloat); (n_connectionKind, enum_cim15_IEC61970_Wires_WindingConnection)]
    [ERef n_PowerTransformer n_CIM15_IEC61970_Wires_PowerTransformer_PowerTransformer false (Some n_PowerTransformerEnd)];
(* Model/CIM15/CIM15.ecore:16157-16195 *)
  EClass n_CIM15_IEC61970_Wires_ProtectedSwitch_ProtectedSwitch n_ProtectedSwitch (Some n_CIM15_IEC61970_Wires_Switch_Switch)
    [(n_breakingCapacity, TFloat)]
    [ERef n_ProtectionEquipments n_CIM15_IEC61970_Protection_ProtectionEquipment_ProtectionEquipment true (Some n_ProtectedSwitches); ERef n_RecloseSequences n_CIM15_IEC61970_Protection_RecloseSequence_RecloseSequence true (Some n_ProtectedSwitch)];
(* Model/CIM15/CIM15.ecore:14876-14916 *)
  EClass n_CIM15_IEC61970_Wires_RatioTapChanger_RatioTapChanger n_RatioTapChanger (Some n_CIM15_IEC61970_Wires_TapChanger_TapChanger)
    [(n_stepVoltageIncrement, TFloat); (n_tculControlMode, enum_cim15_IEC61970_Wires_TransformerControlMode)]
    [ERef n_RatioTapChangerTabular n_CIM15_IEC61970_Wires_RatioTapChangerTabular_RatioTapChangerTabular false (Some n_RatioTapChanger); ERef n_TransformerEnd n_CIM15_IEC61970_Wires_TransformerEnd_TransformerEnd false (Some n_RatioTapChanger)];
(* Model/CIM15/CIM15.ecore:15222-15238 *)
  EClass n_CIM15_IEC61970_Wires_RatioTapChangerTabular_RatioTapChangerTabular n_RatioTapChangerTabular (Some n_CIM15_Element_Element)
    []
    [ERef n_RatioTapChangerTabularPoint n_CIM15_IEC61970_Wires_RatioTapChangerTabularPoint_RatioTapChangerTabularPoint true (Some n_RatioTapChangerTabular); ERef n_RatioTapChanger n_CIM15_IEC61970_Wires_RatioTapChanger_RatioTapChanger true (Some n_RatioTapChangerTabular)];
(* Model/CIM15/CIM15.ecore:14814-14854 *)
  EClass n_CIM15_IEC61970_Wires_RatioTapChangerTabularPoint_RatioTapChangerTabularPoint n_RatioTapChangerTabularPoint (Some n_CIM15_Element_Element)
    [(n_x, TFloat); (n_ratio, TFloat); (n_step, TInt)]
    [ERef n_RatioTapChangerTabular n_CIM15_IEC61970_Wires_RatioTapChangerTabular_RatioTapChangerTabular false (Some n_RatioTapChangerTabularPoint)];
(* Model/CIM15/CIM15.ecore:15396-15443 *)
  EClass n_CIM15_IEC61970_Wires_ReactiveCapabilityCurve_ReactiveCapabilityCurve n_ReactiveCapabilityCurve (Some n_CIM15_IEC61970_Core_Curve_Curve)
    [(n_hydrogenPressure, TFloat); (n_coolantTemperature, TFloat)]
    [ERef n_InitiallyUsedBySynchronousMachines n_CIM15_IEC61970_Wires_SynchronousMachine_SynchronousMachine true (Some n_InitialReactiveCapabilityCurve); ERef n_SynchronousMachines n_CIM15_IEC61970_Wires_SynchronousMachine_SynchronousMachine true (Some n_ReactiveCapabilityCurves)];
(* Model/CIM15/CIM15.ecore:14802-14813 *)
  EClass n_CIM15_IEC61970_Wires_Recloser_Recloser n_Recloser (Some n_CIM15_IEC61970_Wires_ProtectedSwitch_ProtectedSwitch)
    []
    [];
(* Model/CIM15/CIM15.ecore:15837-15956 *)
  EClass n_CIM15_IEC61970_Wires_RectifierInverter_RectifierInverter n_RectifierInverter (Some n_CIM15_IEC61970_Core_ConductingEquipment_ConductingEquipment)
    [(n_ratedU, TFloat); (n_maxU, TFloat); (n_bridges, TInt); (n_compoundResistance, TFloat); (n_commutatingResistance, TFloat); (n_minP, TFloat); (n_operatingMode, TText); (n_minU, TFloat); (n_commutatingReactance, TFloat); (n_maxP, TFloat); (n_frequency, TFloat); (n_minCompoundVoltage, TFloat)]
    [];
(* Model/CIM15/CIM15.ecore:15180-15209 *)
  EClass n_CIM15_IEC61970_Wires_RegulatingCondEq_RegulatingCondEq n_RegulatingCondEq (Some n_CIM15_IEC61970_Core_ConductingEquipment_ConductingEquipment)
    []
    [ERef n_Controls n_CIM15_IEC61970_Meas_Control_Control true (Some n_RegulatingCondEq); ERef n_RegulatingControl n_CIM15_IEC61970_Wires_RegulatingControl_RegulatingControl false (Some n_RegulatingCondEq)];
(* Model/CIM15/CIM15.ecore:16063-16146 *)
  EClass n_CIM15_IEC61970_Wires_RegulatingControl_RegulatingControl n_RegulatingControl (Some n_CIM15_IEC61970_Core_PowerSystemResource_PowerSystemResource)
    [(n_mode, enum_cim15_IEC61970_Wires_RegulatingControlModeKind); (n_targetRange, TFloat); (n_discrete, TBool); (n_targetValue, TFloat); (n_monitoredPhase, enum_cim15_IEC61970_Core_PhaseCode)]
    [ERef n_RegulatingCondEq n_CIM15_IEC61970_Wires_RegulatingCondEq_RegulatingCondEq true (Some n_RegulatingControl); ERef n_Terminal n_CIM15_IEC61970_Core_Terminal_Terminal false (Some n_RegulatingControl); ERef n_RegulationSchedule n_CIM15_IEC61970_Wires_RegulationSchedule_RegulationSchedule true (Some n_RegulatingControl)];
(* Model/CIM15/CIM15.ecore:16269-16298 *)
  EClass n_CIM15_IEC61970_Wires_RegulationSchedule_RegulationSchedule n_RegulationSchedule (Some n_CIM15_IEC61970_LoadModel_SeasonDayTypeSchedule_SeasonDayTypeSchedule)
    []
    [ERef n_RegulatingControl n_CIM15_IEC61970_Wires_RegulatingControl_RegulatingControl false (Some n_RegulationSchedule); ERef n_VoltageControlZones n_CIM15_IEC61970_Wires_VoltageControlZone_VoltageControlZone true (Some n_RegulationSchedule)];
(* Model/CIM15/CIM15.ecore:15477-15488 *)
  EClass n_CIM15_IEC61970_Wires_Resistor_Resistor n_Resistor (Some n_CIM15_IEC61970_Core_ConductingEquipment_ConductingEquipment)
    []
    [];
(* Model/CIM15/CIM15.ecore:15210-15221 *)
  EClass n_CIM15_IEC61970_Wires_Sectionaliser_Sectionaliser n_Sectionaliser (Some n_CIM15_IEC61970_Wires_Switch_Switch)
    []
    [];
(* Model/CIM15/CIM15.ecore:15957-15986 *)
  EClass n_CIM15_IEC61970_Wires_SeriesCompensator_SeriesCompensator n_SeriesCompensator (Some n_CIM15_IEC61970_Core_ConductingEquipment_ConductingEquipment)
    [(n_x, TFloat); (n_r, TFloat)]
    [];
(* Model/CIM15/CIM15.ecore:16578-16736 *)
  EClass n_CIM15_IEC61970_Wires_ShuntCompensator_ShuntCompensator n_ShuntCompensator (Some n_CIM15_IEC61970_Wires_RegulatingCondEq_RegulatingCondEq)
    [(n_nomQ, TFloat); (n_maxU, TFloat); (n_gPerSection, TFloat); (n_voltageSensitivity, TFloat); (n_nomU, TFloat); (n_b0PerSection, TFloat); (n_maximumSections, TInt); (n_bPerSection, TFloat); (n_aVRDelay, TFloat); (n_minU, TFloat); (n_normalSections, TInt); (n_reactivePerSection, TFloat); (n_switchOnCount, TInt); (n_switchOnDate, TDate); (n_g0PerSection, TFloat)]
    [ERef n_SvShuntCompensatorSections n_CIM15_IEC61970_StateVariables_SvShuntCompensatorSections_SvShuntCompensatorSections false (Some n_ShuntCompensator); ERef n_ShuntCompensatorPhases n_CIM15_IEC61970_WiresPhaseModel_ShuntCompensatorPhase_ShuntCompensatorPhase true (Some n_ShuntCompensator)];
(* Model/CIM15/CIM15.ecore:17020-17076 *)
  EClass n_CIM15_IEC61970_Wires_StaticVarCompensator_StaticVarCompensator n_StaticVarCompensator (Some n_CIM15_IEC61970_Wires_RegulatingCondEq_RegulatingCondEq)
    [(n_slope, TFloat); (n_sVCControlMode, enum_cim15_IEC61970_Wires_SVCControlMode); (n_capacitiveRating, TFloat); (n_voltageSetPoint, TFloat); (n_inductiveRating, TFloat)]
    [];
(* Model/CIM15/CIM15.ecore:17077-17168 *)
  EClass n_CIM15_IEC61970_Wires_Switch_Switch n_Switch (Some n_CIM15_IEC61970_Core_ConductingEquipment_ConductingEquipment)
    [(n_switchOnDate, TDate); (n_normalOpen, TBool); (n_ratedCurrent, TFloat); (n_retained, TBool); (n_switchOnCount, TInt)]
    [ERef n_SwitchingOperations n_CIM15_IEC61970_Outage_SwitchingOperation_SwitchingOperation true (Some n_Switches); ERef n_LoadMgmtFunctions n_CIM15_IEC61970_Informative_InfLoadControl_LoadMgmtFunction_LoadMgmtFunction true (Some n_Switches); ERef n_ConnectDisconnectFunctions n_CIM15_IEC61968_LoadControl_ConnectDisconnectFunction_ConnectDisconnectFunction true (Some n_Switches); ERef n_SwitchSchedules n_CIM15_IEC61970_Wires_SwitchSchedule_SwitchSchedule true (Some n_Switch); ERef n_SwitchPhases n_CIM15_IEC61970_WiresPhaseModel_SwitchPhase_SwitchPhase true (Some n_Switch); ERef n_CompositeSwitch n_CIM15_IEC61970_Wires_CompositeSwitch_CompositeSwitch false (Some n_Switches)];
(* Model/CIM15/CIM15.ecore:17346-17366 *)
  EClass n_CIM15_IEC61970_Wires_SwitchSchedule_SwitchSchedule n_SwitchSchedule (Some n_CIM15_IEC61970_LoadModel_SeasonDayTypeSchedule_SeasonDayTypeSchedule)
    []
    [ERef n_Switch n_CIM15_IEC61970_Wires_Switch_Switch false (Some n_SwitchSchedules)];
(* Model/CIM15/CIM15.ecore:15489-15815 *)
  EClass n_CIM15_IEC61970_Wires_SynchronousMachine_SynchronousMachine n_SynchronousMachine (Some n_CIM15_IEC61970_Wires_RegulatingCondEq_RegulatingCondEq)
    [(n_ratedS, TFloat); (n_r2, TFloat); (n_r0, TFloat); (n_manualToAVR, TFloat); (n_qPercent, TFloat); (n_coolantCondition, TFloat); (n_condenserP, TFloat); (n_xQuadTrans, TFloat); (n_xQuadSubtrans, TFloat); (n_xQuadSync, TFloat); (n_xDirectSync, TFloat); (n_minQ, TFloat); (n_aVRToManualLag, TFloat); (n_damping, TFloat); (n_operatingMode, enum_cim15_IEC61970_Wires_SynchronousMachineOperatingMode); (n_xDirectSubtrans, TFloat); (n_coolantType, enum_cim15_IEC61970_Wires_CoolantType); (n_aVRToManualLead, TFloat); (n_minU, TFloat); (n_maxQ, TFloat); (n_referencePriority, TInt); (n_maxU, TFloat); (n_xDirectTrans, TFloat); (n_inertia, TFloat); (n_baseQ, TFloat); (n_type, enum_cim15_IEC61970_Wires_SynchronousMachineType); (n_r, TFloat); (n_x0, TFloat); (n_x2, TFloat); (n_x, TFloat)]
    [ERef n_PrimeMovers n_CIM15_IEC61970_Generation_GenerationDynamics_PrimeMover_PrimeMover true (Some n_SynchronousMachines); ERef n_GeneratingUnit n_CIM15_IEC61970_Generation_Production_GeneratingUnit_GeneratingUnit false (Some n_SynchronousMachines); ERef n_ReactiveCapabilityCurves n_CIM15_IEC61970_Wires_ReactiveCapabilityCurve_ReactiveCapabilityCurve true (Some n_SynchronousMachines); ERef n_HydroPump n_CIM15_IEC61970_Generation_Production_HydroPump_HydroPump false (Some n_SynchronousMachine); ERef n_InitialReactiveCapabilityCurve n_CIM15_IEC61970_Wires_ReactiveCapabilityCurve_ReactiveCapabilityCurve false (Some n_InitiallyUsedBySynchronousMachines)];
(* Model/CIM15/CIM15.ecore:17591-17712 *)
  EClass n_CIM15_IEC61970_Wires_TapChanger_TapChanger n_TapChanger (Some n_CIM15_IEC61970_Core_PowerSystemResource_PowerSystemResource)
    [(n_neutralU, TFloat); (n_regulationStatus, TBool); (n_subsequentDelay, TFloat); (n_normalStep, TInt); (n_ltcFlag, TBool); (n_lowStep, TInt); (n_neutralStep, TInt); (n_initialDelay, TFloat); (n_highStep, TInt)]
    [ERef n_TapChangerInfo n_CIM15_IEC61968_AssetModels_TapChangerInfo_TapChangerInfo false (Some n_TapChangers); ERef n_TapSchedules n_CIM15_IEC61970_Wires_TapSchedule_TapSchedule true (Some n_TapChanger); ERef n_TapChangerControl n_CIM15_IEC61970_Wires_TapChangerControl_TapChangerControl false (Some n_TapChanger); ERef n_SvTapStep n_CIM15_IEC61970_StateVariables_SvTapStep_SvTapStep false (Some n_TapChanger)];
(* Model/CIM15/CIM15.ecore:15987-16062 *)
  EClass n_CIM15_IEC61970_Wires_TapChangerControl_TapChangerControl n_TapChangerControl (Some n_CIM15_IEC61970_Wires_RegulatingControl_RegulatingControl)
    [(n_lineDropR, TFloat); (n_lineDropX, TFloat); (n_reverseLineDropX, TFloat); (n_reverseLineDropR, TFloat); (n_lineDropCompensation, TBool); (n_limitVoltage, TFloat)]
    [ERef n_TapChanger n_CIM15_IEC61970_Wires_TapChanger_TapChanger true (Some n_TapChangerControl)];
(* Model/CIM15/CIM15.ecore:14712-14732 *)
  EClass n_CIM15_IEC61970_Wires_TapSchedule_TapSchedule n_TapSchedule (Some n_CIM15_IEC61970_LoadModel_SeasonDayTypeSchedule_SeasonDayTypeSchedule)
    []
    [ERef n_TapChanger n_CIM15_IEC61970_Wires_TapChanger_TapChanger false (Some n_TapSchedules)];
(* Model/CIM15/CIM15.ecore:16964-17019 *)
  EClass n_CIM15_IEC61970_Wires_TransformerCoreAdmittance_TransformerCoreAdmittance n_TransformerCoreAdmittance (Some n_CIM15_IEC61970_Core_IdentifiedObject_IdentifiedObject)
    [(n_g0, TFloat); (n_b0, TFloat); (n_g, TFloat); (n_b, TFloat)]
    [ERef n_TransformerEndInfo n_CIM15_IEC61968_AssetModels_TransformerEndInfo_TransformerEndInfo false (Some n_CoreAdmittance); ERef n_TransformerEnd n_CIM15_IEC61970_Wires_TransformerEnd_TransformerEnd true (Some n_CoreAdmittance)];
(* Model/CIM15/CIM15.ecore:16811-16963 *)
  EClass n_CIM15_IEC61970_Wires_TransformerEnd_TransformerEnd n_TransformerEnd (Some n_CIM15_IEC61970_Core_IdentifiedObject_IdentifiedObject)
    [(n_endNumber, TInt); (n_rground, TFloat); (n_grounded, TBool); (n_magBaseU, TFloat); (n_magSatFlux, TFloat); (n_bmagSat, TFloat); (n_xground, TFloat)]
    [ERef n_Terminal n_CIM15_IEC61970_Core_Terminal_Terminal false (Some n_TransformerEnd); ERef n_FromWindingInsulations n_CIM15_IEC61970_Informative_InfAssets_WindingInsulation_WindingInsulation true (Some n_FromWinding); ERef n_CoreAdmittance n_CIM15_IEC61970_Wires_TransformerCoreAdmittance_TransformerCoreAdmittance false (Some n_TransformerEnd); ERef n_TransformerEndInfo n_CIM15_IEC61968_AssetModels_TransformerEndInfo_TransformerEndInfo false (Some n_TransformerEnd); ERef n_PhaseTapChanger n_CIM15_IEC61970_Wires_PhaseTapChanger_PhaseTapChanger false (Some n_TransformerEnd); ERef n_RatioTapChanger n_CIM15_IEC61970_Wires_RatioTapChanger_RatioTapChanger false (Some n_TransformerEnd); ERef n_FromMeshImpedance n_CIM15_IEC61970_Wires_TransformerMeshImpedance_TransformerMeshImpedance true (Some n_FromTransformerEnd); ERef n_ToWindingInsulations n_CIM15_IEC61970_Informative_InfAssets_WindingInsulation_WindingInsulation true (Some n_ToWinding); ERef n_ToMeshImpedance n_CIM15_IEC61970_Wires_TransformerMeshImpedance_TransformerMeshImpedance true (Some n_ToTransformerEnd); ERef n_StarImpedance n_CIM15_IEC61970_Wires_TransformerStarImpedance_TransformerStarImpedance false (Some n_TransformerEnd)];
(* Model/CIM15/CIM15.ecore:17262-17345 *)
  EClass n_CIM15_IEC61970_Wires_TransformerMeshImpedance_TransformerMeshImpedance n_TransformerMeshImpedance (Some n_CIM15_IEC61970_Core_IdentifiedObject_IdentifiedObject)
    [(n_r, TFloat); (n_x, TFloat); (n_x0, TFloat); (n_r0, TFloat)]
    [ERef n_FromTransformerEndInfo n_CIM15_IEC61968_AssetModels_TransformerEndInfo_TransformerEndInfo false (Some n_FromMeshImpedance); ERef n_ToTransformerEnd n_CIM15_IEC61970_Wires_TransformerEnd_TransformerEnd true (Some n_ToMeshImpedance); ERef n_ToTransformerEndInfo n_CIM15_IEC61968_AssetModels_TransformerEndInfo_TransformerEndInfo true (Some n_ToMeshImpedance); ERef n_FromTransformerEnd n_CIM15_IEC61970_Wires_TransformerEnd_TransformerEnd false (Some n_FromMeshImpedance)];
(* Model/CIM15/CIM15.ecore:14739-14795 *)
  EClass n_CIM15_IEC61970_Wires_TransformerStarImpedance_TransformerStarImpedance n_TransformerStarImpedance (Some n_CIM15_IEC61970_Core_IdentifiedObject_IdentifiedObject)
    [(n_x0, TFloat); (n_x, TFloat); (n_r, TFloat); (n_r0, TFloat)]
    [ERef n_TransformerEnd n_CIM15_IEC61970_Wires_TransformerEnd_TransformerEnd true (Some n_StarImpedance)];
(* Model/CIM15/CIM15.ecore:17469-17519 *)
  EClass n_CIM15_IEC61970_Wires_TransformerTank_TransformerTank n_TransformerTank (Some n_CIM15_IEC61970_Core_Equipment_Equipment)
    []
    [ERef n_ServiceDeliveryPoints n_CIM15_IEC61968_Metering_ServiceDeliveryPoint_ServiceDeliveryPoint true (Some n_TransformerTanks); ERef n_TransformerTankEnds n_CIM15_IEC61970_Wires_TransformerTankEnd_TransformerTankEnd true (Some n_TransformerTank); ERef n_PowerTransformer n_CIM15_IEC61970_Wires_PowerTransformer_PowerTransformer false (Some n_TransformerTanks); ERef n_TransformerTankInfo n_CIM15_IEC61968_AssetModels_TransformerTankInfo_TransformerTankInfo false (Some n_TransformerTanks); ERef n_TransformerObservations n_CIM15_IEC61970_Informative_InfAssets_TransformerObservation_TransformerObservation true (Some n_Transformer)];
(* Model/CIM15/CIM15.ecore:16299-16328 *)
  EClass n_CIM15_IEC61970_Wires_TransformerTankEnd_TransformerTankEnd n_TransformerTankEnd (Some n_CIM15_IEC61970_Wires_TransformerEnd_TransformerEnd)
    [(n_phases, enum_cim15_IEC61970_Core_PhaseCode)]
    [ERef n_TransformerTank n_CIM15_IEC61970_Wires_TransformerTank_TransformerTank false (Some n_TransformerTankEnds)];
(* Model/CIM15/CIM15.ecore:16737-16766 *)
  EClass n_CIM15_IEC61970_Wires_VoltageControlZone_VoltageControlZone n_VoltageControlZone (Some n_CIM15_IEC61970_Core_PowerSystemResource_PowerSystemResource)
    []
    [ERef n_RegulationSchedule n_CIM15_IEC61970_Wires_RegulationSchedule_RegulationSchedule false (Some n_VoltageControlZones); ERef n_BusbarSection n_CIM15_IEC61970_Wires_BusbarSection_BusbarSection false (Some n_VoltageControlZone)];
(* Model/CIM15/CIM15.ecore:19507-19510 *)
  EClass n_CIM15_IEC61970_WiresPhaseModel_EnergyConsumerPhase_EnergyConsumerPhase n_EnergyConsumerPhase (Some n_CIM15_IEC61970_Core_PowerSystemResource_PowerSystemResource)
    []
    [ERef n_EnergyConsumer n_CIM15_IEC61970_Wires_EnergyConsumer_EnergyConsumer false (Some n_EnergyConsumerPhases)];
(* Model/CIM15/CIM15.ecore:19485-19498 *)
  EClass n_CIM15_IEC61970_WiresPhaseModel_ShuntCompensatorPhase_ShuntCompensatorPhase n_ShuntCompensatorPhase (Some n_CIM15_IEC61970_Core_PowerSystemResource_PowerSystemResource)
    []
    [ERef n_ShuntCompensator n_CIM15_IEC61970_Wires_ShuntCompensator_ShuntCompensator false (Some n_ShuntCompensatorPhases)];
(* Model/CIM15/CIM15.ecore:19444-19484 *)
  EClass n_CIM15_IEC61970_WiresPhaseModel_SwitchPhase_SwitchPhase n_SwitchPhase (Some n_CIM15_IEC61970_Core_PowerSystemResource_PowerSystemResource)
    [(n_phaseSide1, enum_cim15_IEC61970_WiresPhaseModel_SinglePhaseKind); (n_phaseSide2, enum_cim15_IEC61970_WiresPhaseModel_SinglePhaseKind); (n_normalOpen, TBool)]
    [ERef n_Switch n_CIM15_IEC61970_Wires_Switch_Switch false (Some n_SwitchPhases)];
(* Model/CIM15/CIM15.ecore:30689-30718 *)
  EClass n_CIM15_IEC62325_IEC62325CIMVersion_IEC62325CIMVersion n_IEC62325CIMVersion (Some n_CIM15_Element_Element)
    [(n_date, TText); (n_version, TText)]
    [];
(* Model/CIM15/CIM15.ecore:30678-30688 *)
  EClass n_CIM15_IEC62325_MarketParticipant_MarketParticipant n_MarketParticipant (Some n_CIM15_IEC61968_Common_Organisation_Organisation)
    []
    [ERef n_MarketRoles n_CIM15_IEC62325_MarketRole_MarketRole true (Some n_MarketParticipants)];
(* Model/CIM15/CIM15.ecore:30719-30750 *)
  EClass n_CIM15_IEC62325_MarketRole_MarketRole n_MarketRole (Some n_CIM15_IEC61970_Core_IdentifiedObject_IdentifiedObject)
    [(n_kind, enum_cim15_IEC62325_MarketRoleKind)]
    [ERef n_status n_CIM15_IEC61968_Common_Status_Status false None; ERef n_MarketParticipants n_CIM15_IEC62325_MarketParticipant_MarketParticipant true (Some n_MarketRoles)];
(* Model/CIM15/CIM15.ecore:50-50 *)
  EClass n_CIM15_Package_Package n_Package (Some n_CIM15_Element_Element)
    []
    [];
(* Model/CIM15/CIM15.ecore:30781-30810 *)
  EClass n_CIM15_PackageDependencies_PackageDependenciesCIMVeresion_PackageDependenciesCIMVeresion n_PackageDependenciesCIMVeresion (Some n_CIM15_Element_Element)
    [(n_vesion, TText); (n_date, TText)]
    [];
(* Model/CIM15/CIM15.ecore:49-49 *)
  EClass n_CIM15_Stereotype_Stereotype n_Stereotype (Some n_CIM15_Element_Element)
    []
    []].

(** Classes of Model/CIM14/CDPSM/Balanced.ecore: 61. *)
Definition ecore_cim14_cdpsm_balanced : list eclass := [
(* Model/CIM14/CDPSM/Balanced.ecore:14-17 *)
  EClass n_CIM14_CDPSM_Balanced_Element_Element n_Element None
    [(n_UUID, TText)]
    [];
(* Model/CIM14/CDPSM/Balanced.ecore:1028-1130 *)
  EClass n_CIM14_CDPSM_Balanced_IEC61968_AssetModels_CableInfo_CableInfo n_CableInfo (Some n_CIM14_CDPSM_Balanced_IEC61968_AssetModels_ConductorInfo_ConductorInfo)
    [(n_nominalTemperature, TFloat); (n_diameterOverScreen, TFloat); (n_sheathAsNeutral, TBool); (n_diameterOverJacket, TFloat); (n_diameterOverCore, TFloat); (n_constructionKind, enum_cim14_cdpsm_balanced_CDPSM_Balanced_IEC61968_AssetModels_CableConstructionKind); (n_outerJacketKind, enum_cim14_cdpsm_balanced_CDPSM_Balanced_IEC61968_AssetModels_CableOuterJacketKind); (n_isStrandFill, TBool); (n_shieldMaterial, enum_cim14_cdpsm_balanced_CDPSM_Balanced_IEC61968_AssetModels_CableShieldMaterialKind); (n_diameterOverInsulation, TFloat)]
    [];
(* Model/CIM14/CDPSM/Balanced.ecore:1205-1241 *)
  EClass n_CIM14_CDPSM_Balanced_IEC61968_AssetModels_ConcentricNeutralCableInfo_ConcentricNeutralCableInfo n_ConcentricNeutralCableInfo (Some n_CIM14_CDPSM_Balanced_IEC61968_AssetModels_CableInfo_CableInfo)
    [(n_neutralStrandCount, TInt); (n_diameterOverNeutral, TFloat)]
    [ERef n_WireType n_CIM14_CDPSM_Balanced_IEC61968_AssetModels_WireType_WireType false (Some n_ConcentricNeutralCableInfos)];
(* Model/CIM14/CDPSM/Balanced.ecore:1242-1315 *)
  EClass n_CIM14_CDPSM_Balanced_IEC61968_AssetModels_ConductorInfo_ConductorInfo n_ConductorInfo (Some n_CIM14_CDPSM_Balanced_IEC61970_Core_IdentifiedObject_IdentifiedObject)
    [(n_phaseCount, TInt); (n_insulationMaterial, enum_cim14_cdpsm_balanced_CDPSM_Balanced_IEC61968_AssetModels_ConductorInsulationKind); (n_insulationThickness, TFloat); (n_insulated, TBool); (n_usage, enum_cim14_cdpsm_balanced_CDPSM_Balanced_IEC61968_AssetModels_ConductorUsageKind)]
    [ERef n_WireArrangements n_CIM14_CDPSM_Balanced_IEC61968_AssetModels_WireArrangement_WireArrangement true (Some n_ConductorInfo); ERef n_ConductorSegments n_CIM14_CDPSM_Balanced_IEC61968_WiresExt_DistributionLineSegment_DistributionLineSegment true (Some n_ConductorInfo)];
(* Model/CIM14/CDPSM/Balanced.ecore:1323-1350 *)
  EClass n_CIM14_CDPSM_Balanced_IEC61968_AssetModels_DistributionWindingTest_DistributionWindingTest n_DistributionWindingTest (Some n_CIM14_CDPSM_Balanced_IEC61970_Core_IdentifiedObject_IdentifiedObject)
    [(n_fromTapStep, TInt)]
    [ERef n_FromWinding n_CIM14_CDPSM_Balanced_IEC61968_AssetModels_WindingInfo_WindingInfo false (Some n_WindingTests)];
(* Model/CIM14/CDPSM/Balanced.ecore:1151-1204 *)
  EClass n_CIM14_CDPSM_Balanced_IEC61968_AssetModels_OpenCircuitTest_OpenCircuitTest n_OpenCircuitTest (Some n_CIM14_CDPSM_Balanced_IEC61968_AssetModels_DistributionWindingTest_DistributionWindingTest)
    [(n_noLoadLossZero, TFloat); (n_noLoadLoss, TFloat); (n_excitingCurrent, TFloat); (n_excitingCurrentZero, TFloat)]
    [ERef n_MeasuredWindingSpecs n_CIM14_CDPSM_Balanced_IEC61968_AssetModels_ToWindingSpec_ToWindingSpec true (Some n_OpenCircuitTests)];
(* Model/CIM14/CDPSM/Balanced.ecore:1624-1659 *)
  EClass n_CIM14_CDPSM_Balanced_IEC61968_AssetModels_OverheadConductorInfo_OverheadConductorInfo n_OverheadConductorInfo (Some n_CIM14_CDPSM_Balanced_IEC61968_AssetModels_ConductorInfo_ConductorInfo)
    [(n_neutralInsulationThickness, TFloat); (n_phaseConductorCount, TInt); (n_phaseConductorSpacing, TFloat)]
    [];
(* Model/CIM14/CDPSM/Balanced.ecore:1695-1748 *)
  EClass n_CIM14_CDPSM_Balanced_IEC61968_AssetModels_ShortCircuitTest_ShortCircuitTest n_ShortCircuitTest (Some n_CIM14_CDPSM_Balanced_IEC61968_AssetModels_DistributionWindingTest_DistributionWindingTest)
    [(n_loadLossZero, TFloat); (n_leakageImpedanceZero, TFloat); (n_leakageImpedance, TFloat); (n_loadLoss, TFloat)]
    [ERef n_ShortedWindingSpecs n_CIM14_CDPSM_Balanced_IEC61968_AssetModels_ToWindingSpec_ToWindingSpec true (Some n_ShortCircuitTests)];
(* Model/CIM14/CDPSM/Balanced.ecore:1660-1685 *)
  EClass n_CIM14_CDPSM_Balanced_IEC61968_AssetModels_TapeShieldCableInfo_TapeShieldCableInfo n_TapeShieldCableInfo (Some n_CIM14_CDPSM_Balanced_IEC61968_AssetModels_CableInfo_CableInfo)
    [(n_tapeThickness, TFloat); (n_tapeLap, TFloat)]
    [];
(* Model/CIM14/CDPSM/Balanced.ecore:903-967 *)
  EClass n_CIM14_CDPSM_Balanced_IEC61968_AssetModels_ToWindingSpec_ToWindingSpec n_ToWindingSpec (Some n_CIM14_CDPSM_Balanced_IEC61970_Core_IdentifiedObject_IdentifiedObject)
    [(n_toTapStep, TInt); (n_voltage, TFloat); (n_phaseShift, TFloat)]
    [ERef n_OpenCircuitTests n_CIM14_CDPSM_Balanced_IEC61968_AssetModels_OpenCircuitTest_OpenCircuitTest true (Some n_MeasuredWindingSpecs); ERef n_ShortCircuitTests n_CIM14_CDPSM_Balanced_IEC61968_AssetModels_ShortCircuitTest_ShortCircuitTest true (Some n_ShortedWindingSpecs); ERef n_ToWinding n_CIM14_CDPSM_Balanced_IEC61968_AssetModels_WindingInfo_WindingInfo false (Some n_ToWindingSpecs)];
(* Model/CIM14/CDPSM/Balanced.ecore:867-893 *)
  EClass n_CIM14_CDPSM_Balanced_IEC61968_AssetModels_TransformerInfo_TransformerInfo n_TransformerInfo (Some n_CIM14_CDPSM_Balanced_IEC61970_Core_IdentifiedObject_IdentifiedObject)
    []
    [ERef n_Transformers n_CIM14_CDPSM_Balanced_IEC61968_WiresExt_DistributionTransformer_DistributionTransformer true (Some n_TransformerInfo); ERef n_WindingInfos n_CIM14_CDPSM_Balanced_IEC61968_AssetModels_WindingInfo_WindingInfo true (Some n_TransformerInfo)];
(* Model/CIM14/CDPSM/Balanced.ecore:1489-1617 *)
  EClass n_CIM14_CDPSM_Balanced_IEC61968_AssetModels_WindingInfo_WindingInfo n_WindingInfo (Some n_CIM14_CDPSM_Balanced_IEC61970_Core_IdentifiedObject_IdentifiedObject)
    [(n_sequenceNumber, TInt); (n_ratedS, TFloat); (n_ratedU, TFloat); (n_connectionKind, enum_cim14_cdpsm_balanced_CDPSM_Balanced_IEC61970_Wires_WindingConnection); (n_emergencyS, TFloat); (n_r, TFloat); (n_phaseAngle, TInt); (n_insulationU, TFloat); (n_shortTermS, TFloat)]
    [ERef n_WindingTests n_CIM14_CDPSM_Balanced_IEC61968_AssetModels_DistributionWindingTest_DistributionWindingTest true (Some n_FromWinding); ERef n_ToWindingSpecs n_CIM14_CDPSM_Balanced_IEC61968_AssetModels_ToWindingSpec_ToWindingSpec true (Some n_ToWinding); ERef n_TransformerInfo n_CIM14_CDPSM_Balanced_IEC61968_AssetModels_TransformerInfo_TransformerInfo false (Some n_WindingInfos); ERef n_Windings n_CIM14_CDPSM_Balanced_IEC61968_WiresExt_DistributionTransformerWinding_DistributionTransformerWinding true (Some n_WindingInfo)];
(* Model/CIM14/CDPSM/Balanced.ecore:975-1027 *)
  EClass n_CIM14_CDPSM_Balanced_IEC61968_AssetModels_WireArrangement_WireArrangement n_WireArrangement (Some n_CIM14_CDPSM_Balanced_IEC61970_Core_IdentifiedObject_IdentifiedObject)
    [(n_mountingPointX, TFloat); (n_mountingPointY, TFloat); (n_position, TInt)]
    [ERef n_ConductorInfo n_CIM14_CDPSM_Balanced_IEC61968_AssetModels_ConductorInfo_ConductorInfo false (Some n_WireArrangements); ERef n_WireType n_CIM14_CDPSM_Balanced_IEC61968_AssetModels_WireType_WireType false (Some n_WireArrangements)];
(* Model/CIM14/CDPSM/Balanced.ecore:1351-1488 *)
  EClass n_CIM14_CDPSM_Balanced_IEC61968_AssetModels_WireType_WireType n_WireType (Some n_CIM14_CDPSM_Balanced_IEC61970_Core_IdentifiedObject_IdentifiedObject)
    [(n_rAC75, TFloat); (n_coreRadius, TFloat); (n_coreStrandCount, TInt); (n_rAC25, TFloat); (n_radius, TFloat); (n_gmr, TFloat); (n_rDC20, TFloat); (n_rAC50, TFloat); (n_material, enum_cim14_cdpsm_balanced_CDPSM_Balanced_IEC61968_AssetModels_ConductorMaterialKind); (n_sizeDescription, TText); (n_strandCount, TInt); (n_ratedCurrent, TFloat)]
    [ERef n_ConcentricNeutralCableInfos n_CIM14_CDPSM_Balanced_IEC61968_AssetModels_ConcentricNeutralCableInfo_ConcentricNeutralCableInfo true (Some n_WireType); ERef n_WireArrangements n_CIM14_CDPSM_Balanced_IEC61968_AssetModels_WireArrangement_WireArrangement true (Some n_WireType)];
(* Model/CIM14/CDPSM/Balanced.ecore:1758-1779 *)
  EClass n_CIM14_CDPSM_Balanced_IEC61968_Common_GeoLocation_GeoLocation n_GeoLocation (Some n_CIM14_CDPSM_Balanced_IEC61968_Common_Location_Location)
    []
    [ERef n_PowerSystemResources n_CIM14_CDPSM_Balanced_IEC61970_Core_PowerSystemResource_PowerSystemResource true (Some n_GeoLocation)];
(* Model/CIM14/CDPSM/Balanced.ecore:1780-1801 *)
  EClass n_CIM14_CDPSM_Balanced_IEC61968_Common_Location_Location n_Location (Some n_CIM14_CDPSM_Balanced_IEC61970_Core_IdentifiedObject_IdentifiedObject)
    []
    [ERef n_PositionPoints n_CIM14_CDPSM_Balanced_IEC61968_Common_PositionPoint_PositionPoint true (Some n_Location)];
(* Model/CIM14/CDPSM/Balanced.ecore:1802-1848 *)
  EClass n_CIM14_CDPSM_Balanced_IEC61968_Common_PositionPoint_PositionPoint n_PositionPoint (Some n_CIM14_CDPSM_Balanced_Element_Element)
    [(n_xPosition, TText); (n_sequenceNumber, TInt); (n_yPosition, TText)]
    [ERef n_Location n_CIM14_CDPSM_Balanced_IEC61968_Common_Location_Location false (Some n_PositionPoints)];
(* Model/CIM14/CDPSM/Balanced.ecore:365-405 *)
  EClass n_CIM14_CDPSM_Balanced_IEC61968_WiresExt_DistributionLineSegment_DistributionLineSegment n_DistributionLineSegment (Some n_CIM14_CDPSM_Balanced_IEC61970_Wires_ACLineSegment_ACLineSegment)
    []
    [ERef n_ConductorInfo n_CIM14_CDPSM_Balanced_IEC61968_AssetModels_ConductorInfo_ConductorInfo false (Some n_ConductorSegments); ERef n_SequenceImpedance n_CIM14_CDPSM_Balanced_IEC61968_WiresExt_PerLengthSequenceImpedance_PerLengthSequenceImpedance false (Some n_ConductorSegments); ERef n_PhaseImpedance n_CIM14_CDPSM_Balanced_IEC61968_WiresExt_PerLengthPhaseImpedance_PerLengthPhaseImpedance false (Some n_ConductorSegments)];
(* Model/CIM14/CDPSM/Balanced.ecore:496-605 *)
  EClass n_CIM14_CDPSM_Balanced_IEC61968_WiresExt_DistributionTapChanger_DistributionTapChanger n_DistributionTapChanger (Some n_CIM14_CDPSM_Balanced_IEC61970_Wires_RatioTapChanger_RatioTapChanger)
    [(n_lineDropR, TFloat); (n_monitoredPhase, enum_cim14_cdpsm_balanced_CDPSM_Balanced_IEC61970_Core_PhaseCode); (n_lineDropCompensation, TBool); (n_ptRatio, TFloat); (n_ctRatio, TFloat); (n_reverseLineDropR, TFloat); (n_limitVoltage, TFloat); (n_reverseLineDropX, TFloat); (n_bandVoltage, TFloat); (n_targetVoltage, TFloat); (n_lineDropX, TFloat)]
    [];
(* Model/CIM14/CDPSM/Balanced.ecore:767-802 *)
  EClass n_CIM14_CDPSM_Balanced_IEC61968_WiresExt_DistributionTransformer_DistributionTransformer n_DistributionTransformer (Some n_CIM14_CDPSM_Balanced_IEC61970_Core_Equipment_Equipment)
    []
    [ERef n_TransformerInfo n_CIM14_CDPSM_Balanced_IEC61968_AssetModels_TransformerInfo_TransformerInfo false (Some n_Transformers); ERef n_Windings n_CIM14_CDPSM_Balanced_IEC61968_WiresExt_DistributionTransformerWinding_DistributionTransformerWinding true (Some n_Transformer); ERef n_TransformerBank n_CIM14_CDPSM_Balanced_IEC61968_WiresExt_TransformerBank_TransformerBank false (Some n_Transformers)];
(* Model/CIM14/CDPSM/Balanced.ecore:293-364 *)
  EClass n_CIM14_CDPSM_Balanced_IEC61968_WiresExt_DistributionTransformerWinding_DistributionTransformerWinding n_DistributionTransformerWinding (Some n_CIM14_CDPSM_Balanced_IEC61970_Core_ConductingEquipment_ConductingEquipment)
    [(n_rground, TFloat); (n_xground, TFloat); (n_grounded, TBool)]
    [ERef n_WindingInfo n_CIM14_CDPSM_Balanced_IEC61968_AssetModels_WindingInfo_WindingInfo false (Some n_Windings); ERef n_Transformer n_CIM14_CDPSM_Balanced_IEC61968_WiresExt_DistributionTransformer_DistributionTransformer false (Some n_Windings); ERef n_RatioTapChanger n_CIM14_CDPSM_Balanced_IEC61970_Wires_RatioTapChanger_RatioTapChanger false (Some n_Winding); ERef n_PiImpedance n_CIM14_CDPSM_Balanced_IEC61968_WiresExt_WindingPiImpedance_WindingPiImpedance false (Some n_Windings)];
(* Model/CIM14/CDPSM/Balanced.ecore:725-766 *)
  EClass n_CIM14_CDPSM_Balanced_IEC61968_WiresExt_PerLengthPhaseImpedance_PerLengthPhaseImpedance n_PerLengthPhaseImpedance (Some n_CIM14_CDPSM_Balanced_IEC61970_Core_IdentifiedObject_IdentifiedObject)
    [(n_conductorCount, TInt)]
    [ERef n_PhaseImpedanceData n_CIM14_CDPSM_Balanced_IEC61968_WiresExt_PhaseImpedanceData_PhaseImpedanceData true (Some n_PhaseImpedance); ERef n_ConductorSegments n_CIM14_CDPSM_Balanced_IEC61968_WiresExt_DistributionLineSegment_DistributionLineSegment true (Some n_PhaseImpedance)];
(* Model/CIM14/CDPSM/Balanced.ecore:606-696 *)
  EClass n_CIM14_CDPSM_Balanced_IEC61968_WiresExt_PerLengthSequenceImpedance_PerLengthSequenceImpedance n_PerLengthSequenceImpedance (Some n_CIM14_CDPSM_Balanced_IEC61970_Core_IdentifiedObject_IdentifiedObject)
    [(n_x, TFloat); (n_gch, TFloat); (n_r0, TFloat); (n_x0, TFloat); (n_g0ch, TFloat); (n_b0ch, TFloat); (n_r, TFloat); (n_bch, TFloat)]
    [ERef n_ConductorSegments n_CIM14_CDPSM_Balanced_IEC61968_WiresExt_DistributionLineSegment_DistributionLineSegment true (Some n_SequenceImpedance)];
(* Model/CIM14/CDPSM/Balanced.ecore:803-857 *)
  EClass n_CIM14_CDPSM_Balanced_IEC61968_WiresExt_PhaseImpedanceData_PhaseImpedanceData n_PhaseImpedanceData (Some n_CIM14_CDPSM_Balanced_Element_Element)
    [(n_x, TFloat); (n_sequenceNumber, TInt); (n_b, TFloat); (n_r, TFloat)]
    [ERef n_PhaseImpedance n_CIM14_CDPSM_Balanced_IEC61968_WiresExt_PerLengthPhaseImpedance_PerLengthPhaseImpedance false (Some n_PhaseImpedanceData)];
(* Model/CIM14/CDPSM/Balanced.ecore:697-724 *)
  EClass n_CIM14_CDPSM_Balanced_IEC61968_WiresExt_TransformerBank_TransformerBank n_TransformerBank (Some n_CIM14_CDPSM_Balanced_IEC61970_Core_Equipment_Equipment)
    [(n_vectorGroup, TText)]
    [ERef n_Transformers n_CIM14_CDPSM_Balanced_IEC61968_WiresExt_DistributionTransformer_DistributionTransformer true (Some n_TransformerBank)];
(* Model/CIM14/CDPSM/Balanced.ecore:406-495 *)
  EClass n_CIM14_CDPSM_Balanced_IEC61968_WiresExt_WindingPiImpedance_WindingPiImpedance n_WindingPiImpedance (Some n_CIM14_CDPSM_Balanced_IEC61970_Core_IdentifiedObject_IdentifiedObject)
    [(n_x, TFloat); (n_g, TFloat); (n_r0, TFloat); (n_r, TFloat); (n_b, TFloat); (n_g0, TFloat); (n_x0, TFloat); (n_b0, TFloat)]
    [ERef n_Windings n_CIM14_CDPSM_Balanced_IEC61968_WiresExt_DistributionTransformerWinding_DistributionTransformerWinding true (Some n_PiImpedance)];
(* Model/CIM14/CDPSM/Balanced.ecore:2605-2648 *)
  EClass n_CIM14_CDPSM_Balanced_IEC61970_Core_BaseVoltage_BaseVoltage n_BaseVoltage (Some n_CIM14_CDPSM_Balanced_IEC61970_Core_IdentifiedObject_IdentifiedObject)
    [(n_nominalVoltage, TFloat)]
    [ERef n_ConductingEquipment n_CIM14_CDPSM_Balanced_IEC61970_Core_ConductingEquipment_ConductingEquipment true (Some n_BaseVoltage); ERef n_VoltageLevel n_CIM14_CDPSM_Balanced_IEC61970_Core_VoltageLevel_VoltageLevel true (Some n_BaseVoltage)];
(* Model/CIM14/CDPSM/Balanced.ecore:2561-2577 *)
  EClass n_CIM14_CDPSM_Balanced_IEC61970_Core_Bay_Bay n_Bay (Some n_CIM14_CDPSM_Balanced_IEC61970_Core_EquipmentContainer_EquipmentContainer)
    []
    [ERef n_VoltageLevel n_CIM14_CDPSM_Balanced_IEC61970_Core_VoltageLevel_VoltageLevel false (Some n_Bays)];
(* Model/CIM14/CDPSM/Balanced.ecore:2798-2833 *)
  EClass n_CIM14_CDPSM_Balanced_IEC61970_Core_ConductingEquipment_ConductingEquipment n_ConductingEquipment (Some n_CIM14_CDPSM_Balanced_IEC61970_Core_Equipment_Equipment)
    [(n_phases, enum_cim14_cdpsm_balanced_CDPSM_Balanced_IEC61970_Core_PhaseCode)]
    [ERef n_Terminals n_CIM14_CDPSM_Balanced_IEC61970_Core_Terminal_Terminal true (Some n_ConductingEquipment); ERef n_BaseVoltage n_CIM14_CDPSM_Balanced_IEC61970_Core_BaseVoltage_BaseVoltage false (Some n_ConductingEquipment)];
(* Model/CIM14/CDPSM/Balanced.ecore:2481-2503 *)
  EClass n_CIM14_CDPSM_Balanced_IEC61970_Core_ConnectivityNodeContainer_ConnectivityNodeContainer n_ConnectivityNodeContainer (Some n_CIM14_CDPSM_Balanced_IEC61970_Core_PowerSystemResource_PowerSystemResource)
    []
    [ERef n_ConnectivityNodes n_CIM14_CDPSM_Balanced_IEC61970_Topology_ConnectivityNode_ConnectivityNode true (Some n_ConnectivityNodeContainer)];
(* Model/CIM14/CDPSM/Balanced.ecore:2578-2604 *)
  EClass n_CIM14_CDPSM_Balanced_IEC61970_Core_Equipment_Equipment n_Equipment (Some n_CIM14_CDPSM_Balanced_IEC61970_Core_PowerSystemResource_PowerSystemResource)
    [(n_normaIlyInService, TBool)]
    [ERef n_EquipmentContainer n_CIM14_CDPSM_Balanced_IEC61970_Core_EquipmentContainer_EquipmentContainer false (Some n_Equipments)];
(* Model/CIM14/CDPSM/Balanced.ecore:2671-2688 *)
  EClass n_CIM14_CDPSM_Balanced_IEC61970_Core_EquipmentContainer_EquipmentContainer n_EquipmentContainer (Some n_CIM14_CDPSM_Balanced_IEC61970_Core_ConnectivityNodeContainer_ConnectivityNodeContainer)
    []
    [ERef n_Equipments n_CIM14_CDPSM_Balanced_IEC61970_Core_Equipment_Equipment true (Some n_EquipmentContainer)];
(* Model/CIM14/CDPSM/Balanced.ecore:2920-2940 *)
  EClass n_CIM14_CDPSM_Balanced_IEC61970_Core_GeographicalRegion_GeographicalRegion n_GeographicalRegion (Some n_CIM14_CDPSM_Balanced_IEC61970_Core_IdentifiedObject_IdentifiedObject)
    []
    [ERef n_Regions n_CIM14_CDPSM_Balanced_IEC61970_Core_SubGeographicalRegion_SubGeographicalRegion true (Some n_Region)];
(* Model/CIM14/CDPSM/Balanced.ecore:2689-2746 *)
  EClass n_CIM14_CDPSM_Balanced_IEC61970_Core_IdentifiedObject_IdentifiedObject n_IdentifiedObject (Some n_CIM14_CDPSM_Balanced_Element_Element)
    [(n_mRID, TText); (n_description, TText); (n_name, TText); (n_localName, TText); (n_aliasName, TText)]
    [];
(* Model/CIM14/CDPSM/Balanced.ecore:2649-2670 *)
  EClass n_CIM14_CDPSM_Balanced_IEC61970_Core_PSRType_PSRType n_PSRType (Some n_CIM14_CDPSM_Balanced_IEC61970_Core_IdentifiedObject_IdentifiedObject)
    []
    [ERef n_PowerSystemResources n_CIM14_CDPSM_Balanced_IEC61970_Core_PowerSystemResource_PowerSystemResource true (Some n_PSRType)];
(* Model/CIM14/CDPSM/Balanced.ecore:2941-2967 *)
  EClass n_CIM14_CDPSM_Balanced_IEC61970_Core_PowerSystemResource_PowerSystemResource n_PowerSystemResource (Some n_CIM14_CDPSM_Balanced_IEC61970_Core_IdentifiedObject_IdentifiedObject)
    []
    [ERef n_GeoLocation n_CIM14_CDPSM_Balanced_IEC61968_Common_GeoLocation_GeoLocation false (Some n_PowerSystemResources); ERef n_PSRType n_CIM14_CDPSM_Balanced_IEC61970_Core_PSRType_PSRType false (Some n_PowerSystemResources)];
(* Model/CIM14/CDPSM/Balanced.ecore:2834-2872 *)
  EClass n_CIM14_CDPSM_Balanced_IEC61970_Core_SubGeographicalRegion_SubGeographicalRegion n_SubGeographicalRegion (Some n_CIM14_CDPSM_Balanced_IEC61970_Core_IdentifiedObject_IdentifiedObject)
    []
    [ERef n_Region n_CIM14_CDPSM_Balanced_IEC61970_Core_GeographicalRegion_GeographicalRegion false (Some n_Regions); ERef n_Lines n_CIM14_CDPSM_Balanced_IEC61970_Wires_Line_Line true (Some n_Region); ERef n_Substations n_CIM14_CDPSM_Balanced_IEC61970_Core_Substation_Substation true (Some n_Region)];
(* Model/CIM14/CDPSM/Balanced.ecore:2747-2777 *)
  EClass n_CIM14_CDPSM_Balanced_IEC61970_Core_Substation_Substation n_Substation (Some n_CIM14_CDPSM_Balanced_IEC61970_Core_EquipmentContainer_EquipmentContainer)
    []
    [ERef n_Region n_CIM14_CDPSM_Balanced_IEC61970_Core_SubGeographicalRegion_SubGeographicalRegion false (Some n_Substations); ERef n_VoltageLevels n_CIM14_CDPSM_Balanced_IEC61970_Core_VoltageLevel_VoltageLevel true (Some n_Substation)];
(* Model/CIM14/CDPSM/Balanced.ecore:2873-2919 *)
  EClass n_CIM14_CDPSM_Balanced_IEC61970_Core_Terminal_Terminal n_Terminal (Some n_CIM14_CDPSM_Balanced_IEC61970_Core_IdentifiedObject_IdentifiedObject)
    [(n_sequenceNumber, TInt); (n_connected, TBool)]
    [ERef n_ConductingEquipment n_CIM14_CDPSM_Balanced_IEC61970_Core_ConductingEquipment_ConductingEquipment false (Some n_Terminals); ERef n_ConnectivityNode n_CIM14_CDPSM_Balanced_IEC61970_Topology_ConnectivityNode_ConnectivityNode false (Some n_Terminals)];
(* Model/CIM14/CDPSM/Balanced.ecore:2504-2560 *)
  EClass n_CIM14_CDPSM_Balanced_IEC61970_Core_VoltageLevel_VoltageLevel n_VoltageLevel (Some n_CIM14_CDPSM_Balanced_IEC61970_Core_EquipmentContainer_EquipmentContainer)
    [(n_lowVoltageLimit, TFloat); (n_highVoltageLimit, TFloat)]
    [ERef n_BaseVoltage n_CIM14_CDPSM_Balanced_IEC61970_Core_BaseVoltage_BaseVoltage false (Some n_VoltageLevel); ERef n_Bays n_CIM14_CDPSM_Balanced_IEC61970_Core_Bay_Bay true (Some n_VoltageLevel); ERef n_Substation n_CIM14_CDPSM_Balanced_IEC61970_Core_Substation_Substation false (Some n_VoltageLevels)];
(* Model/CIM14/CDPSM/Balanced.ecore:2985-3034 *)
  EClass n_CIM14_CDPSM_Balanced_IEC61970_Generation_Production_GeneratingUnit_GeneratingUnit n_GeneratingUnit (Some n_CIM14_CDPSM_Balanced_IEC61970_Core_Equipment_Equipment)
    [(n_ratedNetMaxP, TFloat); (n_genControlSource, enum_cim14_cdpsm_balanced_CDPSM_Balanced_IEC61970_Generation_Production_GeneratorControlSource); (n_initialP, TFloat)]
    [ERef n_SynchronousMachines n_CIM14_CDPSM_Balanced_IEC61970_Wires_SynchronousMachine_SynchronousMachine true (Some n_GeneratingUnit)];
(* Model/CIM14/CDPSM/Balanced.ecore:1853-1879 *)
  EClass n_CIM14_CDPSM_Balanced_IEC61970_IEC61970CIMVersion_IEC61970CIMVersion n_IEC61970CIMVersion (Some n_CIM14_CDPSM_Balanced_Element_Element)
    [(n_date, TDate); (n_version, TText)]
    [];
(* Model/CIM14/CDPSM/Balanced.ecore:3051-3179 *)
  EClass n_CIM14_CDPSM_Balanced_IEC61970_LoadModel_LoadResponseCharacteristic_LoadResponseCharacteristic n_LoadResponseCharacteristic (Some n_CIM14_CDPSM_Balanced_IEC61970_Core_IdentifiedObject_IdentifiedObject)
    [(n_pVoltageExponent, TFloat); (n_qConstantCurrent, TFloat); (n_pFrequencyExponent, TFloat); (n_exponentModel, TBool); (n_qConstantImpedance, TFloat); (n_pConstantCurrent, TFloat); (n_qFrequencyExponent, TFloat); (n_pConstantPower, TFloat); (n_qVoltageExponent, TFloat); (n_qConstantPower, TFloat); (n_pConstantImpedance, TFloat)]
    [ERef n_EnergyConsumer n_CIM14_CDPSM_Balanced_IEC61970_Wires_EnergyConsumer_EnergyConsumer true (Some n_LoadResponse)];
(* Model/CIM14/CDPSM/Balanced.ecore:3189-3225 *)
  EClass n_CIM14_CDPSM_Balanced_IEC61970_StateVariables_SvTapStep_SvTapStep n_SvTapStep (Some n_CIM14_CDPSM_Balanced_Element_Element)
    [(n_continuousPosition, TFloat); (n_position, TInt)]
    [ERef n_TapChanger n_CIM14_CDPSM_Balanced_IEC61970_Wires_TapChanger_TapChanger false (Some n_SvTapStep)];
(* Model/CIM14/CDPSM/Balanced.ecore:3235-3265 *)
  EClass n_CIM14_CDPSM_Balanced_IEC61970_Topology_ConnectivityNode_ConnectivityNode n_ConnectivityNode (Some n_CIM14_CDPSM_Balanced_IEC61970_Core_IdentifiedObject_IdentifiedObject)
    []
    [ERef n_Terminals n_CIM14_CDPSM_Balanced_IEC61970_Core_Terminal_Terminal true (Some n_ConnectivityNode); ERef n_ConnectivityNodeContainer n_CIM14_CDPSM_Balanced_IEC61970_Core_ConnectivityNodeContainer_ConnectivityNodeContainer false (Some n_ConnectivityNodes)];
(* Model/CIM14/CDPSM/Balanced.ecore:2065-2130 *)
  EClass n_CIM14_CDPSM_Balanced_IEC61970_Wires_ACLineSegment_ACLineSegment n_ACLineSegment (Some n_CIM14_CDPSM_Balanced_IEC61970_Wires_Conductor_Conductor)
    [(n_r, TFloat); (n_x0, TFloat); (n_bch, TFloat); (n_x, TFloat); (n_b0ch, TFloat); (n_r0, TFloat)]
    [];
(* Model/CIM14/CDPSM/Balanced.ecore:2438-2454 *)
  EClass n_CIM14_CDPSM_Balanced_IEC61970_Wires_Breaker_Breaker n_Breaker (Some n_CIM14_CDPSM_Balanced_IEC61970_Wires_Switch_Switch)
    [(n_ratedCurrent, TFloat)]
    [];
(* Model/CIM14/CDPSM/Balanced.ecore:1888-1895 *)
  EClass n_CIM14_CDPSM_Balanced_IEC61970_Wires_BusbarSection_BusbarSection n_BusbarSection (Some n_CIM14_CDPSM_Balanced_IEC61970_Core_ConductingEquipment_ConductingEquipment)
    []
    [];
(* Model/CIM14/CDPSM/Balanced.ecore:2455-2471 *)
  EClass n_CIM14_CDPSM_Balanced_IEC61970_Wires_Conductor_Conductor n_Conductor (Some n_CIM14_CDPSM_Balanced_IEC61970_Core_ConductingEquipment_ConductingEquipment)
    [(n_length, TFloat)]
    [];
(* Model/CIM14/CDPSM/Balanced.ecore:2131-2138 *)
  EClass n_CIM14_CDPSM_Balanced_IEC61970_Wires_Disconnector_Disconnector n_Disconnector (Some n_CIM14_CDPSM_Balanced_IEC61970_Wires_Switch_Switch)
    []
    [];
(* Model/CIM14/CDPSM/Balanced.ecore:2281-2343 *)
  EClass n_CIM14_CDPSM_Balanced_IEC61970_Wires_EnergyConsumer_EnergyConsumer n_EnergyConsumer (Some n_CIM14_CDPSM_Balanced_IEC61970_Core_ConductingEquipment_ConductingEquipment)
    [(n_pfixed, TFloat); (n_pfixedPct, TFloat); (n_qfixedPct, TFloat); (n_qfixed, TFloat); (n_customerCount, TInt)]
    [ERef n_LoadResponse n_CIM14_CDPSM_Balanced_IEC61970_LoadModel_LoadResponseCharacteristic_LoadResponseCharacteristic false (Some n_EnergyConsumer)];
(* Model/CIM14/CDPSM/Balanced.ecore:2139-2182 *)
  EClass n_CIM14_CDPSM_Balanced_IEC61970_Wires_EnergySource_EnergySource n_EnergySource (Some n_CIM14_CDPSM_Balanced_IEC61970_Core_ConductingEquipment_ConductingEquipment)
    [(n_x, TFloat); (n_voltageMagnitude, TFloat); (n_voltageAngle, TFloat); (n_nominalVoltage, TFloat)]
    [];
(* Model/CIM14/CDPSM/Balanced.ecore:2027-2043 *)
  EClass n_CIM14_CDPSM_Balanced_IEC61970_Wires_Fuse_Fuse n_Fuse (Some n_CIM14_CDPSM_Balanced_IEC61970_Wires_Switch_Switch)
    [(n_ratingCurrent, TFloat)]
    [];
(* Model/CIM14/CDPSM/Balanced.ecore:2044-2051 *)
  EClass n_CIM14_CDPSM_Balanced_IEC61970_Wires_Junction_Junction n_Junction (Some n_CIM14_CDPSM_Balanced_IEC61970_Core_ConductingEquipment_ConductingEquipment)
    []
    [];
(* Model/CIM14/CDPSM/Balanced.ecore:2366-2382 *)
  EClass n_CIM14_CDPSM_Balanced_IEC61970_Wires_Line_Line n_Line (Some n_CIM14_CDPSM_Balanced_IEC61970_Core_EquipmentContainer_EquipmentContainer)
    []
    [ERef n_Region n_CIM14_CDPSM_Balanced_IEC61970_Core_SubGeographicalRegion_SubGeographicalRegion false (Some n_Lines)];
(* Model/CIM14/CDPSM/Balanced.ecore:1896-1912 *)
  EClass n_CIM14_CDPSM_Balanced_IEC61970_Wires_LoadBreakSwitch_LoadBreakSwitch n_LoadBreakSwitch (Some n_CIM14_CDPSM_Balanced_IEC61970_Wires_Switch_Switch)
    [(n_ratedCurrent, TFloat)]
    [];
(* Model/CIM14/CDPSM/Balanced.ecore:2252-2280 *)
  EClass n_CIM14_CDPSM_Balanced_IEC61970_Wires_RatioTapChanger_RatioTapChanger n_RatioTapChanger (Some n_CIM14_CDPSM_Balanced_IEC61970_Wires_TapChanger_TapChanger)
    [(n_tculControlMode, enum_cim14_cdpsm_balanced_CDPSM_Balanced_IEC61970_Wires_TransformerControlMode)]
    [ERef n_Winding n_CIM14_CDPSM_Balanced_IEC61968_WiresExt_DistributionTransformerWinding_DistributionTransformerWinding false (Some n_RatioTapChanger)];
(* Model/CIM14/CDPSM/Balanced.ecore:2383-2437 *)
  EClass n_CIM14_CDPSM_Balanced_IEC61970_Wires_ShuntCompensator_ShuntCompensator n_ShuntCompensator (Some n_CIM14_CDPSM_Balanced_IEC61970_Core_ConductingEquipment_ConductingEquipment)
    [(n_nomQ, TFloat); (n_nomU, TFloat); (n_normalSections, TInt); (n_maximumSections, TInt); (n_reactivePerSection, TFloat)]
    [];
(* Model/CIM14/CDPSM/Balanced.ecore:2348-2365 *)
  EClass n_CIM14_CDPSM_Balanced_IEC61970_Wires_Switch_Switch n_Switch (Some n_CIM14_CDPSM_Balanced_IEC61970_Core_ConductingEquipment_ConductingEquipment)
    [(n_normalOpen, TBool)]
    [];
(* Model/CIM14/CDPSM/Balanced.ecore:2183-2246 *)
  EClass n_CIM14_CDPSM_Balanced_IEC61970_Wires_SynchronousMachine_SynchronousMachine n_SynchronousMachine (Some n_CIM14_CDPSM_Balanced_IEC61970_Core_ConductingEquipment_ConductingEquipment)
    [(n_baseQ, TFloat); (n_operatingMode, enum_cim14_cdpsm_balanced_CDPSM_Balanced_IEC61970_Wires_SynchronousMachineOperatingMode); (n_type, enum_cim14_cdpsm_balanced_CDPSM_Balanced_IEC61970_Wires_SynchronousMachineType); (n_maxQ, TFloat); (n_minQ, TFloat)]
    [ERef n_GeneratingUnit n_CIM14_CDPSM_Balanced_IEC61970_Generation_Production_GeneratingUnit_GeneratingUnit false (Some n_SynchronousMachines)];
(* Model/CIM14/CDPSM/Balanced.ecore:1913-2026 *)
  EClass n_CIM14_CDPSM_Balanced_IEC61970_Wires_TapChanger_TapChanger n_TapChanger (Some n_CIM14_CDPSM_Balanced_IEC61970_Core_PowerSystemResource_PowerSystemResource)
    [(n_stepVoltageIncrement, TFloat); (n_subsequentDelay, TFloat); (n_neutralStep, TInt); (n_normalStep, TInt); (n_ltcFlag, TBool); (n_neutralU, TFloat); (n_lowStep, TInt); (n_initialDelay, TFloat); (n_regulationStatus, TBool); (n_highStep, TInt)]
    [ERef n_SvTapStep n_CIM14_CDPSM_Balanced_IEC61970_StateVariables_SvTapStep_SvTapStep false (Some n_TapChanger)]].

(** Classes of Model/CIM14/CDPSM/GIS_Connectivity.ecore: 61. *)
Definition ecore_cim14_cdpsm_gis_connectivity : list eclass := [
(* Model/CIM14/CDPSM/GIS_Connectivity.ecore:14-17 *)
  EClass n_CIM14_CDPSM_GIS_Connectivity_Element_Element n_Element None
    [(n_UUID, TText)]
    [];
(* Model/CIM14/CDPSM/GIS_Connectivity.ecore:879-981 *)
  EClass n_CIM14_CDPSM_GIS_Connectivity_IEC61968_AssetModels_CableInfo_CableInfo n_CableInfo (Some n_CIM14_CDPSM_GIS_Connectivity_IEC61968_AssetModels_ConductorInfo_ConductorInfo)
    [(n_nominalTemperature, TFloat); (n_diameterOverScreen, TFloat); (n_sheathAsNeutral, TBool); (n_diameterOverJacket, TFloat); (n_diameterOverCore, TFloat); (n_constructionKind, enum_cim14_cdpsm_gis_connectivity_CDPSM_GIS_Connectivity_IEC61968_AssetModels_CableConstructionKind); (n_outerJacketKind, enum_cim14_cdpsm_gis_connectivity_CDPSM_GIS_Connectivity_IEC61968_AssetModels_CableOuterJacketKind); (n_isStrandFill, TBool); (n_shieldMaterial, enum_cim14_cdpsm_gis_connectivity_CDPSM_GIS_Connectivity_IEC61968_AssetModels_CableShieldMaterialKind); (n_diameterOverInsulation, TFloat)]
    [];
(* Model/CIM14/CDPSM/GIS_Connectivity.ecore:1056-1092 *)
  EClass n_CIM14_CDPSM_GIS_Connectivity_IEC61968_AssetModels_ConcentricNeutralCableInfo_ConcentricNeutralCableInfo n_ConcentricNeutralCableInfo (Some n_CIM14_CDPSM_GIS_Connectivity_IEC61968_AssetModels_CableInfo_CableInfo)
    [(n_neutralStrandCount, TInt); (n_diameterOverNeutral, TFloat)]
    [ERef n_WireType n_CIM14_CDPSM_GIS_Connectivity_IEC61968_AssetModels_WireType_WireType false (Some n_ConcentricNeutralCableInfos)];
(* Model/CIM14/CDPSM/GIS_Connectivity.ecore:1093-1177 *)
  EClass n_CIM14_CDPSM_GIS_Connectivity_IEC61968_AssetModels_ConductorInfo_ConductorInfo n_ConductorInfo (Some n_CIM14_CDPSM_GIS_Connectivity_IEC61970_Core_IdentifiedObject_IdentifiedObject)
    [(n_phaseCount, TInt); (n_insulationMaterial, enum_cim14_cdpsm_gis_connectivity_CDPSM_GIS_Connectivity_IEC61968_AssetModels_ConductorInsulationKind); (n_insulationThickness, TFloat); (n_insulated, TBool); (n_usage, enum_cim14_cdpsm_gis_connectivity_CDPSM_GIS_Connectivity_IEC61968_AssetModels_ConductorUsageKind)]
    [ERef n_WireArrangements n_CIM14_CDPSM_GIS_Connectivity_IEC61968_AssetModels_WireArrangement_WireArrangement true (Some n_ConductorInfo); ERef n_ConductorSegments n_CIM14_CDPSM_GIS_Connectivity_IEC61968_WiresExt_DistributionLineSegment_DistributionLineSegment true (Some n_ConductorInfo)];
(* Model/CIM14/CDPSM/GIS_Connectivity.ecore:1185-1213 *)
  EClass n_CIM14_CDPSM_GIS_Connectivity_IEC61968_AssetModels_DistributionWindingTest_DistributionWindingTest n_DistributionWindingTest (Some n_CIM14_CDPSM_GIS_Connectivity_IEC61970_Core_IdentifiedObject_IdentifiedObject)
    [(n_fromTapStep, TInt)]
    [ERef n_FromWinding n_CIM14_CDPSM_GIS_Connectivity_IEC61968_AssetModels_WindingInfo_WindingInfo false (Some n_WindingTests)];
(* Model/CIM14/CDPSM/GIS_Connectivity.ecore:1002-1055 *)
  EClass n_CIM14_CDPSM_GIS_Connectivity_IEC61968_AssetModels_OpenCircuitTest_OpenCircuitTest n_OpenCircuitTest (Some n_CIM14_CDPSM_GIS_Connectivity_IEC61968_AssetModels_DistributionWindingTest_DistributionWindingTest)
    [(n_noLoadLossZero, TFloat); (n_noLoadLoss, TFloat); (n_excitingCurrent, TFloat); (n_excitingCurrentZero, TFloat)]
    [ERef n_MeasuredWindingSpecs n_CIM14_CDPSM_GIS_Connectivity_IEC61968_AssetModels_ToWindingSpec_ToWindingSpec true (Some n_OpenCircuitTests)];
(* Model/CIM14/CDPSM/GIS_Connectivity.ecore:1446-1481 *)
  EClass n_CIM14_CDPSM_GIS_Connectivity_IEC61968_AssetModels_OverheadConductorInfo_OverheadConductorInfo n_OverheadConductorInfo (Some n_CIM14_CDPSM_GIS_Connectivity_IEC61968_AssetModels_ConductorInfo_ConductorInfo)
    [(n_neutralInsulationThickness, TFloat); (n_phaseConductorCount, TInt); (n_phaseConductorSpacing, TFloat)]
    [];
(* Model/CIM14/CDPSM/GIS_Connectivity.ecore:1517-1570 *)
  EClass n_CIM14_CDPSM_GIS_Connectivity_IEC61968_AssetModels_ShortCircuitTest_ShortCircuitTest n_ShortCircuitTest (Some n_CIM14_CDPSM_GIS_Connectivity_IEC61968_AssetModels_DistributionWindingTest_DistributionWindingTest)
    [(n_loadLossZero, TFloat); (n_leakageImpedanceZero, TFloat); (n_leakageImpedance, TFloat); (n_loadLoss, TFloat)]
    [ERef n_ShortedWindingSpecs n_CIM14_CDPSM_GIS_Connectivity_IEC61968_AssetModels_ToWindingSpec_ToWindingSpec true (Some n_ShortCircuitTests)];
(* Model/CIM14/CDPSM/GIS_Connectivity.ecore:1482-1507 *)
  EClass n_CIM14_CDPSM_GIS_Connectivity_IEC61968_AssetModels_TapeShieldCableInfo_TapeShieldCableInfo n_TapeShieldCableInfo (Some n_CIM14_CDPSM_GIS_Connectivity_IEC61968_AssetModels_CableInfo_CableInfo)
    [(n_tapeThickness, TFloat); (n_tapeLap, TFloat)]
    [];
(* Model/CIM14/CDPSM/GIS_Connectivity.ecore:743-816 *)
  EClass n_CIM14_CDPSM_GIS_Connectivity_IEC61968_AssetModels_ToWindingSpec_ToWindingSpec n_ToWindingSpec (Some n_CIM14_CDPSM_GIS_Connectivity_IEC61970_Core_IdentifiedObject_IdentifiedObject)
    [(n_toTapStep, TInt); (n_voltage, TFloat); (n_phaseShift, TFloat)]
    [ERef n_OpenCircuitTests n_CIM14_CDPSM_GIS_Connectivity_IEC61968_AssetModels_OpenCircuitTest_OpenCircuitTest true (Some n_MeasuredWindingSpecs); ERef n_ShortCircuitTests n_CIM14_CDPSM_GIS_Connectivity_IEC61968_AssetModels_ShortCircuitTest_ShortCircuitTest true (Some n_ShortedWindingSpecs); ERef n_ToWinding n_CIM14_CDPSM_GIS_Connectivity_IEC61968_AssetModels_WindingInfo_WindingInfo false (Some n_ToWindingSpecs)];
(* Model/CIM14/CDPSM/GIS_Connectivity.ecore:712-733 *)
  EClass n_CIM14_CDPSM_GIS_Connectivity_IEC61968_AssetModels_TransformerInfo_TransformerInfo n_TransformerInfo (Some n_CIM14_CDPSM_GIS_Connectivity_IEC61970_Core_IdentifiedObject_IdentifiedObject)
    []
    [ERef n_Transformers n_CIM14_CDPSM_GIS_Connectivity_IEC61968_WiresExt_DistributionTransformer_DistributionTransformer true (Some n_TransformerInfo)];
(* Model/CIM14/CDPSM/GIS_Connectivity.ecore:1362-1439 *)
  EClass n_CIM14_CDPSM_GIS_Connectivity_IEC61968_AssetModels_WindingInfo_WindingInfo n_WindingInfo (Some n_CIM14_CDPSM_GIS_Connectivity_IEC61970_Core_IdentifiedObject_IdentifiedObject)
    [(n_ratedS, TFloat); (n_ratedU, TFloat); (n_connectionKind, enum_cim14_cdpsm_gis_connectivity_CDPSM_GIS_Connectivity_IEC61970_Wires_WindingConnection)]
    [ERef n_WindingTests n_CIM14_CDPSM_GIS_Connectivity_IEC61968_AssetModels_DistributionWindingTest_DistributionWindingTest true (Some n_FromWinding); ERef n_ToWindingSpecs n_CIM14_CDPSM_GIS_Connectivity_IEC61968_AssetModels_ToWindingSpec_ToWindingSpec true (Some n_ToWinding); ERef n_Windings n_CIM14_CDPSM_GIS_Connectivity_IEC61968_WiresExt_DistributionTransformerWinding_DistributionTransformerWinding true (Some n_WindingInfo)];
(* Model/CIM14/CDPSM/GIS_Connectivity.ecore:824-878 *)
  EClass n_CIM14_CDPSM_GIS_Connectivity_IEC61968_AssetModels_WireArrangement_WireArrangement n_WireArrangement (Some n_CIM14_CDPSM_GIS_Connectivity_IEC61970_Core_IdentifiedObject_IdentifiedObject)
    [(n_mountingPointX, TFloat); (n_mountingPointY, TFloat); (n_position, TInt)]
    [ERef n_ConductorInfo n_CIM14_CDPSM_GIS_Connectivity_IEC61968_AssetModels_ConductorInfo_ConductorInfo false (Some n_WireArrangements); ERef n_WireType n_CIM14_CDPSM_GIS_Connectivity_IEC61968_AssetModels_WireType_WireType false (Some n_WireArrangements)];
(* Model/CIM14/CDPSM/GIS_Connectivity.ecore:1214-1361 *)
  EClass n_CIM14_CDPSM_GIS_Connectivity_IEC61968_AssetModels_WireType_WireType n_WireType (Some n_CIM14_CDPSM_GIS_Connectivity_IEC61970_Core_IdentifiedObject_IdentifiedObject)
    [(n_rAC75, TFloat); (n_coreRadius, TFloat); (n_coreStrandCount, TInt); (n_rAC25, TFloat); (n_radius, TFloat); (n_gmr, TFloat); (n_rDC20, TFloat); (n_rAC50, TFloat); (n_material, enum_cim14_cdpsm_gis_connectivity_CDPSM_GIS_Connectivity_IEC61968_AssetModels_ConductorMaterialKind); (n_sizeDescription, TText); (n_strandCount, TInt); (n_ratedCurrent, TFloat)]
    [ERef n_ConcentricNeutralCableInfos n_CIM14_CDPSM_GIS_Connectivity_IEC61968_AssetModels_ConcentricNeutralCableInfo_ConcentricNeutralCableInfo true (Some n_WireType); ERef n_WireArrangements n_CIM14_CDPSM_GIS_Connectivity_IEC61968_AssetModels_WireArrangement_WireArrangement true (Some n_WireType)];
(* Model/CIM14/CDPSM/GIS_Connectivity.ecore:1580-1601 *)
  EClass n_CIM14_CDPSM_GIS_Connectivity_IEC61968_Common_GeoLocation_GeoLocation n_GeoLocation (Some n_CIM14_CDPSM_GIS_Connectivity_IEC61968_Common_Location_Location)
    []
    [ERef n_PowerSystemResources n_CIM14_CDPSM_GIS_Connectivity_IEC61970_Core_PowerSystemResource_PowerSystemResource true (Some n_GeoLocation)];
(* Model/CIM14/CDPSM/GIS_Connectivity.ecore:1602-1623 *)
  EClass n_CIM14_CDPSM_GIS_Connectivity_IEC61968_Common_Location_Location n_Location (Some n_CIM14_CDPSM_GIS_Connectivity_IEC61970_Core_IdentifiedObject_IdentifiedObject)
    []
    [ERef n_PositionPoints n_CIM14_CDPSM_GIS_Connectivity_IEC61968_Common_PositionPoint_PositionPoint true (Some n_Location)];
(* Model/CIM14/CDPSM/GIS_Connectivity.ecore:1624-1670 *)
  EClass n_CIM14_CDPSM_GIS_Connectivity_IEC61968_Common_PositionPoint_PositionPoint n_PositionPoint (Some n_CIM14_CDPSM_GIS_Connectivity_Element_Element)
    [(n_xPosition, TText); (n_sequenceNumber, TInt); (n_yPosition, TText)]
    [ERef n_Location n_CIM14_CDPSM_GIS_Connectivity_IEC61968_Common_Location_Location false (Some n_PositionPoints)];
(* Model/CIM14/CDPSM/GIS_Connectivity.ecore:331-372 *)
  EClass n_CIM14_CDPSM_GIS_Connectivity_IEC61968_WiresExt_DistributionLineSegment_DistributionLineSegment n_DistributionLineSegment (Some n_CIM14_CDPSM_GIS_Connectivity_IEC61970_Wires_ACLineSegment_ACLineSegment)
    []
    [ERef n_ConductorInfo n_CIM14_CDPSM_GIS_Connectivity_IEC61968_AssetModels_ConductorInfo_ConductorInfo false (Some n_ConductorSegments); ERef n_SequenceImpedance n_CIM14_CDPSM_GIS_Connectivity_IEC61968_WiresExt_PerLengthSequenceImpedance_PerLengthSequenceImpedance false (Some n_ConductorSegments); ERef n_PhaseImpedance n_CIM14_CDPSM_GIS_Connectivity_IEC61968_WiresExt_PerLengthPhaseImpedance_PerLengthPhaseImpedance false (Some n_ConductorSegments)];
(* Model/CIM14/CDPSM/GIS_Connectivity.ecore:453-460 *)
  EClass n_CIM14_CDPSM_GIS_Connectivity_IEC61968_WiresExt_DistributionTapChanger_DistributionTapChanger n_DistributionTapChanger (Some n_CIM14_CDPSM_GIS_Connectivity_IEC61970_Wires_RatioTapChanger_RatioTapChanger)
    []
    [];
(* Model/CIM14/CDPSM/GIS_Connectivity.ecore:606-647 *)
  EClass n_CIM14_CDPSM_GIS_Connectivity_IEC61968_WiresExt_DistributionTransformer_DistributionTransformer n_DistributionTransformer (Some n_CIM14_CDPSM_GIS_Connectivity_IEC61970_Core_Equipment_Equipment)
    []
    [ERef n_TransformerInfo n_CIM14_CDPSM_GIS_Connectivity_IEC61968_AssetModels_TransformerInfo_TransformerInfo false (Some n_Transformers); ERef n_Windings n_CIM14_CDPSM_GIS_Connectivity_IEC61968_WiresExt_DistributionTransformerWinding_DistributionTransformerWinding true (Some n_Transformer); ERef n_TransformerBank n_CIM14_CDPSM_GIS_Connectivity_IEC61968_WiresExt_TransformerBank_TransformerBank false (Some n_Transformers)];
(* Model/CIM14/CDPSM/GIS_Connectivity.ecore:293-330 *)
  EClass n_CIM14_CDPSM_GIS_Connectivity_IEC61968_WiresExt_DistributionTransformerWinding_DistributionTransformerWinding n_DistributionTransformerWinding (Some n_CIM14_CDPSM_GIS_Connectivity_IEC61970_Core_ConductingEquipment_ConductingEquipment)
    []
    [ERef n_WindingInfo n_CIM14_CDPSM_GIS_Connectivity_IEC61968_AssetModels_WindingInfo_WindingInfo false (Some n_Windings); ERef n_Transformer n_CIM14_CDPSM_GIS_Connectivity_IEC61968_WiresExt_DistributionTransformer_DistributionTransformer false (Some n_Windings); ERef n_RatioTapChanger n_CIM14_CDPSM_GIS_Connectivity_IEC61970_Wires_RatioTapChanger_RatioTapChanger false (Some n_Winding)];
(* Model/CIM14/CDPSM/GIS_Connectivity.ecore:560-605 *)
  EClass n_CIM14_CDPSM_GIS_Connectivity_IEC61968_WiresExt_PerLengthPhaseImpedance_PerLengthPhaseImpedance n_PerLengthPhaseImpedance (Some n_CIM14_CDPSM_GIS_Connectivity_IEC61970_Core_IdentifiedObject_IdentifiedObject)
    [(n_conductorCount, TInt)]
    [ERef n_PhaseImpedanceData n_CIM14_CDPSM_GIS_Connectivity_IEC61968_WiresExt_PhaseImpedanceData_PhaseImpedanceData true (Some n_PhaseImpedance); ERef n_ConductorSegments n_CIM14_CDPSM_GIS_Connectivity_IEC61968_WiresExt_DistributionLineSegment_DistributionLineSegment true (Some n_PhaseImpedance)];
(* Model/CIM14/CDPSM/GIS_Connectivity.ecore:461-537 *)
  EClass n_CIM14_CDPSM_GIS_Connectivity_IEC61968_WiresExt_PerLengthSequenceImpedance_PerLengthSequenceImpedance n_PerLengthSequenceImpedance (Some n_CIM14_CDPSM_GIS_Connectivity_IEC61970_Core_IdentifiedObject_IdentifiedObject)
    [(n_x, TFloat); (n_r0, TFloat); (n_x0, TFloat); (n_b0ch, TFloat); (n_r, TFloat); (n_bch, TFloat)]
    [ERef n_ConductorSegments n_CIM14_CDPSM_GIS_Connectivity_IEC61968_WiresExt_DistributionLineSegment_DistributionLineSegment true (Some n_SequenceImpedance)];
(* Model/CIM14/CDPSM/GIS_Connectivity.ecore:648-702 *)
  EClass n_CIM14_CDPSM_GIS_Connectivity_IEC61968_WiresExt_PhaseImpedanceData_PhaseImpedanceData n_PhaseImpedanceData (Some n_CIM14_CDPSM_GIS_Connectivity_Element_Element)
    [(n_x, TFloat); (n_sequenceNumber, TInt); (n_b, TFloat); (n_r, TFloat)]
    [ERef n_PhaseImpedance n_CIM14_CDPSM_GIS_Connectivity_IEC61968_WiresExt_PerLengthPhaseImpedance_PerLengthPhaseImpedance false (Some n_PhaseImpedanceData)];
(* Model/CIM14/CDPSM/GIS_Connectivity.ecore:538-559 *)
  EClass n_CIM14_CDPSM_GIS_Connectivity_IEC61968_WiresExt_TransformerBank_TransformerBank n_TransformerBank (Some n_CIM14_CDPSM_GIS_Connectivity_IEC61970_Core_Equipment_Equipment)
    []
    [ERef n_Transformers n_CIM14_CDPSM_GIS_Connectivity_IEC61968_WiresExt_DistributionTransformer_DistributionTransformer true (Some n_TransformerBank)];
(* Model/CIM14/CDPSM/GIS_Connectivity.ecore:373-452 *)
  EClass n_CIM14_CDPSM_GIS_Connectivity_IEC61968_WiresExt_WindingPiImpedance_WindingPiImpedance n_WindingPiImpedance (Some n_CIM14_CDPSM_GIS_Connectivity_IEC61970_Core_IdentifiedObject_IdentifiedObject)
    [(n_x, TFloat); (n_g, TFloat); (n_r0, TFloat); (n_r, TFloat); (n_b, TFloat); (n_g0, TFloat); (n_x0, TFloat); (n_b0, TFloat)]
    [];
(* Model/CIM14/CDPSM/GIS_Connectivity.ecore:2374-2417 *)
  EClass n_CIM14_CDPSM_GIS_Connectivity_IEC61970_Core_BaseVoltage_BaseVoltage n_BaseVoltage (Some n_CIM14_CDPSM_GIS_Connectivity_IEC61970_Core_IdentifiedObject_IdentifiedObject)
    [(n_nominalVoltage, TFloat)]
    [ERef n_ConductingEquipment n_CIM14_CDPSM_GIS_Connectivity_IEC61970_Core_ConductingEquipment_ConductingEquipment true (Some n_BaseVoltage); ERef n_VoltageLevel n_CIM14_CDPSM_GIS_Connectivity_IEC61970_Core_VoltageLevel_VoltageLevel true (Some n_BaseVoltage)];
(* Model/CIM14/CDPSM/GIS_Connectivity.ecore:2329-2345 *)
  EClass n_CIM14_CDPSM_GIS_Connectivity_IEC61970_Core_Bay_Bay n_Bay (Some n_CIM14_CDPSM_GIS_Connectivity_IEC61970_Core_EquipmentContainer_EquipmentContainer)
    []
    [ERef n_VoltageLevel n_CIM14_CDPSM_GIS_Connectivity_IEC61970_Core_VoltageLevel_VoltageLevel false (Some n_Bays)];
(* Model/CIM14/CDPSM/GIS_Connectivity.ecore:2571-2619 *)
  EClass n_CIM14_CDPSM_GIS_Connectivity_IEC61970_Core_ConductingEquipment_ConductingEquipment n_ConductingEquipment (Some n_CIM14_CDPSM_GIS_Connectivity_IEC61970_Core_Equipment_Equipment)
    [(n_phases, enum_cim14_cdpsm_gis_connectivity_CDPSM_GIS_Connectivity_IEC61970_Core_PhaseCode)]
    [ERef n_Terminals n_CIM14_CDPSM_GIS_Connectivity_IEC61970_Core_Terminal_Terminal true (Some n_ConductingEquipment); ERef n_BaseVoltage n_CIM14_CDPSM_GIS_Connectivity_IEC61970_Core_BaseVoltage_BaseVoltage false (Some n_ConductingEquipment)];
(* Model/CIM14/CDPSM/GIS_Connectivity.ecore:2249-2271 *)
  EClass n_CIM14_CDPSM_GIS_Connectivity_IEC61970_Core_ConnectivityNodeContainer_ConnectivityNodeContainer n_ConnectivityNodeContainer (Some n_CIM14_CDPSM_GIS_Connectivity_IEC61970_Core_PowerSystemResource_PowerSystemResource)
    []
    [ERef n_ConnectivityNodes n_CIM14_CDPSM_GIS_Connectivity_IEC61970_Topology_ConnectivityNode_ConnectivityNode true (Some n_ConnectivityNodeContainer)];
(* Model/CIM14/CDPSM/GIS_Connectivity.ecore:2346-2373 *)
  EClass n_CIM14_CDPSM_GIS_Connectivity_IEC61970_Core_Equipment_Equipment n_Equipment (Some n_CIM14_CDPSM_GIS_Connectivity_IEC61970_Core_PowerSystemResource_PowerSystemResource)
    [(n_normaIlyInService, TBool)]
    [ERef n_EquipmentContainer n_CIM14_CDPSM_GIS_Connectivity_IEC61970_Core_EquipmentContainer_EquipmentContainer false (Some n_Equipments)];
(* Model/CIM14/CDPSM/GIS_Connectivity.ecore:2440-2461 *)
  EClass n_CIM14_CDPSM_GIS_Connectivity_IEC61970_Core_EquipmentContainer_EquipmentContainer n_EquipmentContainer (Some n_CIM14_CDPSM_GIS_Connectivity_IEC61970_Core_ConnectivityNodeContainer_ConnectivityNodeContainer)
    []
    [ERef n_Equipments n_CIM14_CDPSM_GIS_Connectivity_IEC61970_Core_Equipment_Equipment true (Some n_EquipmentContainer)];
(* Model/CIM14/CDPSM/GIS_Connectivity.ecore:2711-2732 *)
  EClass n_CIM14_CDPSM_GIS_Connectivity_IEC61970_Core_GeographicalRegion_GeographicalRegion n_GeographicalRegion (Some n_CIM14_CDPSM_GIS_Connectivity_IEC61970_Core_IdentifiedObject_IdentifiedObject)
    []
    [ERef n_Regions n_CIM14_CDPSM_GIS_Connectivity_IEC61970_Core_SubGeographicalRegion_SubGeographicalRegion true (Some n_Region)];
(* Model/CIM14/CDPSM/GIS_Connectivity.ecore:2462-2519 *)
  EClass n_CIM14_CDPSM_GIS_Connectivity_IEC61970_Core_IdentifiedObject_IdentifiedObject n_IdentifiedObject (Some n_CIM14_CDPSM_GIS_Connectivity_Element_Element)
    [(n_mRID, TText); (n_description, TText); (n_name, TText); (n_localName, TText); (n_aliasName, TText)]
    [];
(* Model/CIM14/CDPSM/GIS_Connectivity.ecore:2418-2439 *)
  EClass n_CIM14_CDPSM_GIS_Connectivity_IEC61970_Core_PSRType_PSRType n_PSRType (Some n_CIM14_CDPSM_GIS_Connectivity_IEC61970_Core_IdentifiedObject_IdentifiedObject)
    []
    [ERef n_PowerSystemResources n_CIM14_CDPSM_GIS_Connectivity_IEC61970_Core_PowerSystemResource_PowerSystemResource true (Some n_PSRType)];
(* Model/CIM14/CDPSM/GIS_Connectivity.ecore:2733-2759 *)
  EClass n_CIM14_CDPSM_GIS_Connectivity_IEC61970_Core_PowerSystemResource_PowerSystemResource n_PowerSystemResource (Some n_CIM14_CDPSM_GIS_Connectivity_IEC61970_Core_IdentifiedObject_IdentifiedObject)
    []
    [ERef n_GeoLocation n_CIM14_CDPSM_GIS_Connectivity_IEC61968_Common_GeoLocation_GeoLocation false (Some n_PowerSystemResources); ERef n_PSRType n_CIM14_CDPSM_GIS_Connectivity_IEC61970_Core_PSRType_PSRType false (Some n_PowerSystemResources)];
(* Model/CIM14/CDPSM/GIS_Connectivity.ecore:2620-2663 *)
  EClass n_CIM14_CDPSM_GIS_Connectivity_IEC61970_Core_SubGeographicalRegion_SubGeographicalRegion n_SubGeographicalRegion (Some n_CIM14_CDPSM_GIS_Connectivity_IEC61970_Core_IdentifiedObject_IdentifiedObject)
    []
    [ERef n_Region n_CIM14_CDPSM_GIS_Connectivity_IEC61970_Core_GeographicalRegion_GeographicalRegion false (Some n_Regions); ERef n_Lines n_CIM14_CDPSM_GIS_Connectivity_IEC61970_Wires_Line_Line true (Some n_Region); ERef n_Substations n_CIM14_CDPSM_GIS_Connectivity_IEC61970_Core_Substation_Substation true (Some n_Region)];
(* Model/CIM14/CDPSM/GIS_Connectivity.ecore:2520-2550 *)
  EClass n_CIM14_CDPSM_GIS_Connectivity_IEC61970_Core_Substation_Substation n_Substation (Some n_CIM14_CDPSM_GIS_Connectivity_IEC61970_Core_EquipmentContainer_EquipmentContainer)
    []
    [ERef n_Region n_CIM14_CDPSM_GIS_Connectivity_IEC61970_Core_SubGeographicalRegion_SubGeographicalRegion false (Some n_Substations); ERef n_VoltageLevels n_CIM14_CDPSM_GIS_Connectivity_IEC61970_Core_VoltageLevel_VoltageLevel true (Some n_Substation)];
(* Model/CIM14/CDPSM/GIS_Connectivity.ecore:2664-2710 *)
  EClass n_CIM14_CDPSM_GIS_Connectivity_IEC61970_Core_Terminal_Terminal n_Terminal (Some n_CIM14_CDPSM_GIS_Connectivity_IEC61970_Core_IdentifiedObject_IdentifiedObject)
    [(n_sequenceNumber, TInt); (n_connected, TBool)]
    [ERef n_ConductingEquipment n_CIM14_CDPSM_GIS_Connectivity_IEC61970_Core_ConductingEquipment_ConductingEquipment false (Some n_Terminals); ERef n_ConnectivityNode n_CIM14_CDPSM_GIS_Connectivity_IEC61970_Topology_ConnectivityNode_ConnectivityNode false (Some n_Terminals)];
(* Model/CIM14/CDPSM/GIS_Connectivity.ecore:2272-2328 *)
  EClass n_CIM14_CDPSM_GIS_Connectivity_IEC61970_Core_VoltageLevel_VoltageLevel n_VoltageLevel (Some n_CIM14_CDPSM_GIS_Connectivity_IEC61970_Core_EquipmentContainer_EquipmentContainer)
    [(n_lowVoltageLimit, TFloat); (n_highVoltageLimit, TFloat)]
    [ERef n_BaseVoltage n_CIM14_CDPSM_GIS_Connectivity_IEC61970_Core_BaseVoltage_BaseVoltage false (Some n_VoltageLevel); ERef n_Bays n_CIM14_CDPSM_GIS_Connectivity_IEC61970_Core_Bay_Bay true (Some n_VoltageLevel); ERef n_Substation n_CIM14_CDPSM_GIS_Connectivity_IEC61970_Core_Substation_Substation false (Some n_VoltageLevels)];
(* Model/CIM14/CDPSM/GIS_Connectivity.ecore:2777-2826 *)
  EClass n_CIM14_CDPSM_GIS_Connectivity_IEC61970_Generation_Production_GeneratingUnit_GeneratingUnit n_GeneratingUnit (Some n_CIM14_CDPSM_GIS_Connectivity_IEC61970_Core_Equipment_Equipment)
    [(n_ratedNetMaxP, TFloat); (n_genControlSource, enum_cim14_cdpsm_gis_connectivity_CDPSM_GIS_Connectivity_IEC61970_Generation_Production_GeneratorControlSource); (n_initialP, TFloat)]
    [ERef n_SynchronousMachines n_CIM14_CDPSM_GIS_Connectivity_IEC61970_Wires_SynchronousMachine_SynchronousMachine true (Some n_GeneratingUnit)];
(* Model/CIM14/CDPSM/GIS_Connectivity.ecore:1675-1701 *)
  EClass n_CIM14_CDPSM_GIS_Connectivity_IEC61970_IEC61970CIMVersion_IEC61970CIMVersion n_IEC61970CIMVersion (Some n_CIM14_CDPSM_GIS_Connectivity_Element_Element)
    [(n_date, TDate); (n_version, TText)]
    [];
(* Model/CIM14/CDPSM/GIS_Connectivity.ecore:2843-2961 *)
  EClass n_CIM14_CDPSM_GIS_Connectivity_IEC61970_LoadModel_LoadResponseCharacteristic_LoadResponseCharacteristic n_LoadResponseCharacteristic (Some n_CIM14_CDPSM_GIS_Connectivity_IEC61970_Core_IdentifiedObject_IdentifiedObject)
    [(n_pVoltageExponent, TFloat); (n_qConstantCurrent, TFloat); (n_pFrequencyExponent, TFloat); (n_exponentModel, TBool); (n_qConstantImpedance, TFloat); (n_pConstantCurrent, TFloat); (n_qFrequencyExponent, TFloat); (n_pConstantPower, TFloat); (n_qVoltageExponent, TFloat); (n_qConstantPower, TFloat); (n_pConstantImpedance, TFloat)]
    [];
(* Model/CIM14/CDPSM/GIS_Connectivity.ecore:2971-3007 *)
  EClass n_CIM14_CDPSM_GIS_Connectivity_IEC61970_StateVariables_SvTapStep_SvTapStep n_SvTapStep (Some n_CIM14_CDPSM_GIS_Connectivity_Element_Element)
    [(n_continuousPosition, TFloat); (n_position, TInt)]
    [ERef n_TapChanger n_CIM14_CDPSM_GIS_Connectivity_IEC61970_Wires_TapChanger_TapChanger false (Some n_SvTapStep)];
(* Model/CIM14/CDPSM/GIS_Connectivity.ecore:3017-3047 *)
  EClass n_CIM14_CDPSM_GIS_Connectivity_IEC61970_Topology_ConnectivityNode_ConnectivityNode n_ConnectivityNode (Some n_CIM14_CDPSM_GIS_Connectivity_IEC61970_Core_IdentifiedObject_IdentifiedObject)
    []
    [ERef n_Terminals n_CIM14_CDPSM_GIS_Connectivity_IEC61970_Core_Terminal_Terminal true (Some n_ConnectivityNode); ERef n_ConnectivityNodeContainer n_CIM14_CDPSM_GIS_Connectivity_IEC61970_Core_ConnectivityNodeContainer_ConnectivityNodeContainer false (Some n_ConnectivityNodes)];
(* Model/CIM14/CDPSM/GIS_Connectivity.ecore:1888-1953 *)
  EClass n_CIM14_CDPSM_GIS_Connectivity_IEC61970_Wires_ACLineSegment_ACLineSegment n_ACLineSegment (Some n_CIM14_CDPSM_GIS_Connectivity_IEC61970_Wires_Conductor_Conductor)
    [(n_r, TFloat); (n_x0, TFloat); (n_bch, TFloat); (n_x, TFloat); (n_b0ch, TFloat); (n_r0, TFloat)]
    [];
(* Model/CIM14/CDPSM/GIS_Connectivity.ecore:2206-2222 *)
  EClass n_CIM14_CDPSM_GIS_Connectivity_IEC61970_Wires_Breaker_Breaker n_Breaker (Some n_CIM14_CDPSM_GIS_Connectivity_IEC61970_Wires_Switch_Switch)
    [(n_ratedCurrent, TFloat)]
    [];
(* Model/CIM14/CDPSM/GIS_Connectivity.ecore:1710-1717 *)
  EClass n_CIM14_CDPSM_GIS_Connectivity_IEC61970_Wires_BusbarSection_BusbarSection n_BusbarSection (Some n_CIM14_CDPSM_GIS_Connectivity_IEC61970_Core_ConductingEquipment_ConductingEquipment)
    []
    [];
(* Model/CIM14/CDPSM/GIS_Connectivity.ecore:2223-2239 *)
  EClass n_CIM14_CDPSM_GIS_Connectivity_IEC61970_Wires_Conductor_Conductor n_Conductor (Some n_CIM14_CDPSM_GIS_Connectivity_IEC61970_Core_ConductingEquipment_ConductingEquipment)
    [(n_length, TFloat)]
    [];
(* Model/CIM14/CDPSM/GIS_Connectivity.ecore:1954-1961 *)
  EClass n_CIM14_CDPSM_GIS_Connectivity_IEC61970_Wires_Disconnector_Disconnector n_Disconnector (Some n_CIM14_CDPSM_GIS_Connectivity_IEC61970_Wires_Switch_Switch)
    []
    [];
(* Model/CIM14/CDPSM/GIS_Connectivity.ecore:2105-2140 *)
  EClass n_CIM14_CDPSM_GIS_Connectivity_IEC61970_Wires_EnergyConsumer_EnergyConsumer n_EnergyConsumer (Some n_CIM14_CDPSM_GIS_Connectivity_IEC61970_Core_ConductingEquipment_ConductingEquipment)
    [(n_pfixed, TFloat); (n_qfixed, TFloat); (n_customerCount, TInt)]
    [];
(* Model/CIM14/CDPSM/GIS_Connectivity.ecore:1962-2005 *)
  EClass n_CIM14_CDPSM_GIS_Connectivity_IEC61970_Wires_EnergySource_EnergySource n_EnergySource (Some n_CIM14_CDPSM_GIS_Connectivity_IEC61970_Core_ConductingEquipment_ConductingEquipment)
    [(n_x, TFloat); (n_voltageMagnitude, TFloat); (n_voltageAngle, TFloat); (n_nominalVoltage, TFloat)]
    [];
(* Model/CIM14/CDPSM/GIS_Connectivity.ecore:1850-1866 *)
  EClass n_CIM14_CDPSM_GIS_Connectivity_IEC61970_Wires_Fuse_Fuse n_Fuse (Some n_CIM14_CDPSM_GIS_Connectivity_IEC61970_Wires_Switch_Switch)
    [(n_ratingCurrent, TFloat)]
    [];
(* Model/CIM14/CDPSM/GIS_Connectivity.ecore:1867-1874 *)
  EClass n_CIM14_CDPSM_GIS_Connectivity_IEC61970_Wires_Junction_Junction n_Junction (Some n_CIM14_CDPSM_GIS_Connectivity_IEC61970_Core_ConductingEquipment_ConductingEquipment)
    []
    [];
(* Model/CIM14/CDPSM/GIS_Connectivity.ecore:2163-2179 *)
  EClass n_CIM14_CDPSM_GIS_Connectivity_IEC61970_Wires_Line_Line n_Line (Some n_CIM14_CDPSM_GIS_Connectivity_IEC61970_Core_EquipmentContainer_EquipmentContainer)
    []
    [ERef n_Region n_CIM14_CDPSM_GIS_Connectivity_IEC61970_Core_SubGeographicalRegion_SubGeographicalRegion false (Some n_Lines)];
(* Model/CIM14/CDPSM/GIS_Connectivity.ecore:1718-1734 *)
  EClass n_CIM14_CDPSM_GIS_Connectivity_IEC61970_Wires_LoadBreakSwitch_LoadBreakSwitch n_LoadBreakSwitch (Some n_CIM14_CDPSM_GIS_Connectivity_IEC61970_Wires_Switch_Switch)
    [(n_ratedCurrent, TFloat)]
    [];
(* Model/CIM14/CDPSM/GIS_Connectivity.ecore:2076-2104 *)
  EClass n_CIM14_CDPSM_GIS_Connectivity_IEC61970_Wires_RatioTapChanger_RatioTapChanger n_RatioTapChanger (Some n_CIM14_CDPSM_GIS_Connectivity_IEC61970_Wires_TapChanger_TapChanger)
    [(n_tculControlMode, enum_cim14_cdpsm_gis_connectivity_CDPSM_GIS_Connectivity_IEC61970_Wires_TransformerControlMode)]
    [ERef n_Winding n_CIM14_CDPSM_GIS_Connectivity_IEC61968_WiresExt_DistributionTransformerWinding_DistributionTransformerWinding false (Some n_RatioTapChanger)];
(* Model/CIM14/CDPSM/GIS_Connectivity.ecore:2180-2205 *)
  EClass n_CIM14_CDPSM_GIS_Connectivity_IEC61970_Wires_ShuntCompensator_ShuntCompensator n_ShuntCompensator (Some n_CIM14_CDPSM_GIS_Connectivity_IEC61970_Core_ConductingEquipment_ConductingEquipment)
    [(n_nomQ, TFloat); (n_nomU, TFloat)]
    [];
(* Model/CIM14/CDPSM/GIS_Connectivity.ecore:2145-2162 *)
  EClass n_CIM14_CDPSM_GIS_Connectivity_IEC61970_Wires_Switch_Switch n_Switch (Some n_CIM14_CDPSM_GIS_Connectivity_IEC61970_Core_ConductingEquipment_ConductingEquipment)
    [(n_normalOpen, TBool)]
    [];
(* Model/CIM14/CDPSM/GIS_Connectivity.ecore:2006-2070 *)
  EClass n_CIM14_CDPSM_GIS_Connectivity_IEC61970_Wires_SynchronousMachine_SynchronousMachine n_SynchronousMachine (Some n_CIM14_CDPSM_GIS_Connectivity_IEC61970_Core_ConductingEquipment_ConductingEquipment)
    [(n_baseQ, TFloat); (n_operatingMode, enum_cim14_cdpsm_gis_connectivity_CDPSM_GIS_Connectivity_IEC61970_Wires_SynchronousMachineOperatingMode); (n_type, enum_cim14_cdpsm_gis_connectivity_CDPSM_GIS_Connectivity_IEC61970_Wires_SynchronousMachineType); (n_maxQ, TFloat); (n_minQ, TFloat)]
    [ERef n_GeneratingUnit n_CIM14_CDPSM_GIS_Connectivity_IEC61970_Generation_Production_GeneratingUnit_GeneratingUnit false (Some n_SynchronousMachines)];
(* Model/CIM14/CDPSM/GIS_Connectivity.ecore:1735-1849 *)
  EClass n_CIM14_CDPSM_GIS_Connectivity_IEC61970_Wires_TapChanger_TapChanger n_TapChanger (Some n_CIM14_CDPSM_GIS_Connectivity_IEC61970_Core_PowerSystemResource_PowerSystemResource)
    [(n_stepVoltageIncrement, TFloat); (n_subsequentDelay, TFloat); (n_neutralStep, TInt); (n_normalStep, TInt); (n_ltcFlag, TBool); (n_neutralU, TFloat); (n_lowStep, TInt); (n_initialDelay, TFloat); (n_regulationStatus, TBool); (n_highStep, TInt)]
    [ERef n_SvTapStep n_CIM14_CDPSM_GIS_Connectivity_IEC61970_StateVariables_SvTapStep_SvTapStep false (Some n_TapChanger)]].

(** Classes of Model/CIM14/CDPSM/Unbalanced.ecore: 61. *)
Definition ecore_cim14_cdpsm_unbalanced : list eclass := [
(* Model/CIM14/CDPSM/Unbalanced.ecore:14-17 *)
  EClass n_CIM14_CDPSM_Unbalanced_Element_Element n_Element None
    [(n_UUID, TText)]
    [];
(* Model/CIM14/CDPSM/Unbalanced.ecore:1053-1155 *)
  EClass n_CIM14_CDPSM_Unbalanced_IEC61968_AssetModels_CableInfo_CableInfo n_CableInfo (Some n_CIM14_CDPSM_Unbalanced_IEC61968_AssetModels_ConductorInfo_ConductorInfo)
    [(n_nominalTemperature, TFloat); (n_diameterOverScreen, TFloat); (n_sheathAsNeutral, TBool); (n_diameterOverJacket, TFloat); (n_diameterOverCore, TFloat); (n_constructionKind, enum_cim14_cdpsm_unbalanced_CDPSM_Unbalanced_IEC61968_AssetModels_CableConstructionKind); (n_outerJacketKind, enum_cim14_cdpsm_unbalanced_CDPSM_Unbalanced_IEC61968_AssetModels_CableOuterJacketKind); (n_isStrandFill, TBool); (n_shieldMaterial, enum_cim14_cdpsm_unbalanced_CDPSM_Unbalanced_IEC61968_AssetModels_CableShieldMaterialKind); (n_diameterOverInsulation, TFloat)]
    [];
(* Model/CIM14/CDPSM/Unbalanced.ecore:1230-1266 *)
  EClass n_CIM14_CDPSM_Unbalanced_IEC61968_AssetModels_ConcentricNeutralCableInfo_ConcentricNeutralCableInfo n_ConcentricNeutralCableInfo (Some n_CIM14_CDPSM_Unbalanced_IEC61968_AssetModels_CableInfo_CableInfo)
    [(n_neutralStrandCount, TInt); (n_diameterOverNeutral, TFloat)]
    [ERef n_WireType n_CIM14_CDPSM_Unbalanced_IEC61968_AssetModels_WireType_WireType false (Some n_ConcentricNeutralCableInfos)];
(* Model/CIM14/CDPSM/Unbalanced.ecore:1267-1359 *)
  EClass n_CIM14_CDPSM_Unbalanced_IEC61968_AssetModels_ConductorInfo_ConductorInfo n_ConductorInfo (Some n_CIM14_CDPSM_Unbalanced_IEC61970_Core_IdentifiedObject_IdentifiedObject)
    [(n_phaseCount, TInt); (n_insulationMaterial, enum_cim14_cdpsm_unbalanced_CDPSM_Unbalanced_IEC61968_AssetModels_ConductorInsulationKind); (n_insulationThickness, TFloat); (n_insulated, TBool); (n_usage, enum_cim14_cdpsm_unbalanced_CDPSM_Unbalanced_IEC61968_AssetModels_ConductorUsageKind)]
    [ERef n_WireArrangements n_CIM14_CDPSM_Unbalanced_IEC61968_AssetModels_WireArrangement_WireArrangement true (Some n_ConductorInfo); ERef n_ConductorSegments n_CIM14_CDPSM_Unbalanced_IEC61968_WiresExt_DistributionLineSegment_DistributionLineSegment true (Some n_ConductorInfo)];
(* Model/CIM14/CDPSM/Unbalanced.ecore:1360-1387 *)
  EClass n_CIM14_CDPSM_Unbalanced_IEC61968_AssetModels_DistributionWindingTest_DistributionWindingTest n_DistributionWindingTest (Some n_CIM14_CDPSM_Unbalanced_IEC61970_Core_IdentifiedObject_IdentifiedObject)
    [(n_fromTapStep, TInt)]
    [ERef n_FromWinding n_CIM14_CDPSM_Unbalanced_IEC61968_AssetModels_WindingInfo_WindingInfo false (Some n_WindingTests)];
(* Model/CIM14/CDPSM/Unbalanced.ecore:1176-1229 *)
  EClass n_CIM14_CDPSM_Unbalanced_IEC61968_AssetModels_OpenCircuitTest_OpenCircuitTest n_OpenCircuitTest (Some n_CIM14_CDPSM_Unbalanced_IEC61968_AssetModels_DistributionWindingTest_DistributionWindingTest)
    [(n_noLoadLossZero, TFloat); (n_noLoadLoss, TFloat); (n_excitingCurrent, TFloat); (n_excitingCurrentZero, TFloat)]
    [ERef n_MeasuredWindingSpecs n_CIM14_CDPSM_Unbalanced_IEC61968_AssetModels_ToWindingSpec_ToWindingSpec true (Some n_OpenCircuitTests)];
(* Model/CIM14/CDPSM/Unbalanced.ecore:1693-1728 *)
  EClass n_CIM14_CDPSM_Unbalanced_IEC61968_AssetModels_OverheadConductorInfo_OverheadConductorInfo n_OverheadConductorInfo (Some n_CIM14_CDPSM_Unbalanced_IEC61968_AssetModels_ConductorInfo_ConductorInfo)
    [(n_neutralInsulationThickness, TFloat); (n_phaseConductorCount, TInt); (n_phaseConductorSpacing, TFloat)]
    [];
(* Model/CIM14/CDPSM/Unbalanced.ecore:1764-1817 *)
  EClass n_CIM14_CDPSM_Unbalanced_IEC61968_AssetModels_ShortCircuitTest_ShortCircuitTest n_ShortCircuitTest (Some n_CIM14_CDPSM_Unbalanced_IEC61968_AssetModels_DistributionWindingTest_DistributionWindingTest)
    [(n_loadLossZero, TFloat); (n_leakageImpedanceZero, TFloat); (n_leakageImpedance, TFloat); (n_loadLoss, TFloat)]
    [ERef n_ShortedWindingSpecs n_CIM14_CDPSM_Unbalanced_IEC61968_AssetModels_ToWindingSpec_ToWindingSpec true (Some n_ShortCircuitTests)];
(* Model/CIM14/CDPSM/Unbalanced.ecore:1729-1754 *)
  EClass n_CIM14_CDPSM_Unbalanced_IEC61968_AssetModels_TapeShieldCableInfo_TapeShieldCableInfo n_TapeShieldCableInfo (Some n_CIM14_CDPSM_Unbalanced_IEC61968_AssetModels_CableInfo_CableInfo)
    [(n_tapeThickness, TFloat); (n_tapeLap, TFloat)]
    [];
(* Model/CIM14/CDPSM/Unbalanced.ecore:918-990 *)
  EClass n_CIM14_CDPSM_Unbalanced_IEC61968_AssetModels_ToWindingSpec_ToWindingSpec n_ToWindingSpec (Some n_CIM14_CDPSM_Unbalanced_IEC61970_Core_IdentifiedObject_IdentifiedObject)
    [(n_toTapStep, TInt); (n_voltage, TFloat); (n_phaseShift, TFloat)]
    [ERef n_OpenCircuitTests n_CIM14_CDPSM_Unbalanced_IEC61968_AssetModels_OpenCircuitTest_OpenCircuitTest true (Some n_MeasuredWindingSpecs); ERef n_ShortCircuitTests n_CIM14_CDPSM_Unbalanced_IEC61968_AssetModels_ShortCircuitTest_ShortCircuitTest true (Some n_ShortedWindingSpecs); ERef n_ToWinding n_CIM14_CDPSM_Unbalanced_IEC61968_AssetModels_WindingInfo_WindingInfo false (Some n_ToWindingSpecs)];
(* Model/CIM14/CDPSM/Unbalanced.ecore:874-908 *)
  EClass n_CIM14_CDPSM_Unbalanced_IEC61968_AssetModels_TransformerInfo_TransformerInfo n_TransformerInfo (Some n_CIM14_CDPSM_Unbalanced_IEC61970_Core_IdentifiedObject_IdentifiedObject)
    []
    [ERef n_Transformers n_CIM14_CDPSM_Unbalanced_IEC61968_WiresExt_DistributionTransformer_DistributionTransformer true (Some n_TransformerInfo); ERef n_WindingInfos n_CIM14_CDPSM_Unbalanced_IEC61968_AssetModels_WindingInfo_WindingInfo true (Some n_TransformerInfo)];
(* Model/CIM14/CDPSM/Unbalanced.ecore:1549-1692 *)
  EClass n_CIM14_CDPSM_Unbalanced_IEC61968_AssetModels_WindingInfo_WindingInfo n_WindingInfo (Some n_CIM14_CDPSM_Unbalanced_IEC61970_Core_IdentifiedObject_IdentifiedObject)
    [(n_sequenceNumber, TInt); (n_ratedS, TFloat); (n_ratedU, TFloat); (n_connectionKind, enum_cim14_cdpsm_unbalanced_CDPSM_Unbalanced_IEC61970_Wires_WindingConnection); (n_emergencyS, TFloat); (n_r, TFloat); (n_phaseAngle, TInt); (n_insulationU, TFloat); (n_shortTermS, TFloat)]
    [ERef n_WindingTests n_CIM14_CDPSM_Unbalanced_IEC61968_AssetModels_DistributionWindingTest_DistributionWindingTest true (Some n_FromWinding); ERef n_ToWindingSpecs n_CIM14_CDPSM_Unbalanced_IEC61968_AssetModels_ToWindingSpec_ToWindingSpec true (Some n_ToWinding); ERef n_TransformerInfo n_CIM14_CDPSM_Unbalanced_IEC61968_AssetModels_TransformerInfo_TransformerInfo false (Some n_WindingInfos); ERef n_Windings n_CIM14_CDPSM_Unbalanced_IEC61968_WiresExt_DistributionTransformerWinding_DistributionTransformerWinding true (Some n_WindingInfo)];
(* Model/CIM14/CDPSM/Unbalanced.ecore:998-1052 *)
  EClass n_CIM14_CDPSM_Unbalanced_IEC61968_AssetModels_WireArrangement_WireArrangement n_WireArrangement (Some n_CIM14_CDPSM_Unbalanced_IEC61970_Core_IdentifiedObject_IdentifiedObject)
    [(n_mountingPointX, TFloat); (n_mountingPointY, TFloat); (n_position, TInt)]
    [ERef n_ConductorInfo n_CIM14_CDPSM_Unbalanced_IEC61968_AssetModels_ConductorInfo_ConductorInfo false (Some n_WireArrangements); ERef n_WireType n_CIM14_CDPSM_Unbalanced_IEC61968_AssetModels_WireType_WireType false (Some n_WireArrangements)];
(* Model/CIM14/CDPSM/Unbalanced.ecore:1395-1542 *)
  EClass n_CIM14_CDPSM_Unbalanced_IEC61968_AssetModels_WireType_WireType n_WireType (Some n_CIM14_CDPSM_Unbalanced_IEC61970_Core_IdentifiedObject_IdentifiedObject)
    [(n_rAC75, TFloat); (n_coreRadius, TFloat); (n_coreStrandCount, TInt); (n_rAC25, TFloat); (n_radius, TFloat); (n_gmr, TFloat); (n_rDC20, TFloat); (n_rAC50, TFloat); (n_material, enum_cim14_cdpsm_unbalanced_CDPSM_Unbalanced_IEC61968_AssetModels_ConductorMaterialKind); (n_sizeDescription, TText); (n_strandCount, TInt); (n_ratedCurrent, TFloat)]
    [ERef n_ConcentricNeutralCableInfos n_CIM14_CDPSM_Unbalanced_IEC61968_AssetModels_ConcentricNeutralCableInfo_ConcentricNeutralCableInfo true (Some n_WireType); ERef n_WireArrangements n_CIM14_CDPSM_Unbalanced_IEC61968_AssetModels_WireArrangement_WireArrangement true (Some n_WireType)];
(* Model/CIM14/CDPSM/Unbalanced.ecore:1827-1848 *)
  EClass n_CIM14_CDPSM_Unbalanced_IEC61968_Common_GeoLocation_GeoLocation n_GeoLocation (Some n_CIM14_CDPSM_Unbalanced_IEC61968_Common_Location_Location)
    []
    [ERef n_PowerSystemResources n_CIM14_CDPSM_Unbalanced_IEC61970_Core_PowerSystemResource_PowerSystemResource true (Some n_GeoLocation)];
(* Model/CIM14/CDPSM/Unbalanced.ecore:1849-1870 *)
  EClass n_CIM14_CDPSM_Unbalanced_IEC61968_Common_Location_Location n_Location (Some n_CIM14_CDPSM_Unbalanced_IEC61970_Core_IdentifiedObject_IdentifiedObject)
    []
    [ERef n_PositionPoints n_CIM14_CDPSM_Unbalanced_IEC61968_Common_PositionPoint_PositionPoint true (Some n_Location)];
(* Model/CIM14/CDPSM/Unbalanced.ecore:1871-1917 *)
  EClass n_CIM14_CDPSM_Unbalanced_IEC61968_Common_PositionPoint_PositionPoint n_PositionPoint (Some n_CIM14_CDPSM_Unbalanced_Element_Element)
    [(n_sequenceNumber, TInt); (n_xPosition, TText); (n_yPosition, TText)]
    [ERef n_Location n_CIM14_CDPSM_Unbalanced_IEC61968_Common_Location_Location false (Some n_PositionPoints)];
(* Model/CIM14/CDPSM/Unbalanced.ecore:367-407 *)
  EClass n_CIM14_CDPSM_Unbalanced_IEC61968_WiresExt_DistributionLineSegment_DistributionLineSegment n_DistributionLineSegment (Some n_CIM14_CDPSM_Unbalanced_IEC61970_Wires_ACLineSegment_ACLineSegment)
    []
    [ERef n_ConductorInfo n_CIM14_CDPSM_Unbalanced_IEC61968_AssetModels_ConductorInfo_ConductorInfo false (Some n_ConductorSegments); ERef n_SequenceImpedance n_CIM14_CDPSM_Unbalanced_IEC61968_WiresExt_PerLengthSequenceImpedance_PerLengthSequenceImpedance false (Some n_ConductorSegments); ERef n_PhaseImpedance n_CIM14_CDPSM_Unbalanced_IEC61968_WiresExt_PerLengthPhaseImpedance_PerLengthPhaseImpedance false (Some n_ConductorSegments)];
(* Model/CIM14/CDPSM/Unbalanced.ecore:502-612 *)
  EClass n_CIM14_CDPSM_Unbalanced_IEC61968_WiresExt_DistributionTapChanger_DistributionTapChanger n_DistributionTapChanger (Some n_CIM14_CDPSM_Unbalanced_IEC61970_Wires_RatioTapChanger_RatioTapChanger)
    [(n_lineDropR, TFloat); (n_monitoredPhase, enum_cim14_cdpsm_unbalanced_CDPSM_Unbalanced_IEC61970_Core_PhaseCode); (n_lineDropCompensation, TBool); (n_ptRatio, TFloat); (n_ctRatio, TFloat); (n_reverseLineDropR, TFloat); (n_limitVoltage, TFloat); (n_reverseLineDropX, TFloat); (n_bandVoltage, TFloat); (n_targetVoltage, TFloat); (n_lineDropX, TFloat)]
    [];
(* Model/CIM14/CDPSM/Unbalanced.ecore:768-809 *)
  EClass n_CIM14_CDPSM_Unbalanced_IEC61968_WiresExt_DistributionTransformer_DistributionTransformer n_DistributionTransformer (Some n_CIM14_CDPSM_Unbalanced_IEC61970_Core_Equipment_Equipment)
    []
    [ERef n_TransformerInfo n_CIM14_CDPSM_Unbalanced_IEC61968_AssetModels_TransformerInfo_TransformerInfo false (Some n_Transformers); ERef n_Windings n_CIM14_CDPSM_Unbalanced_IEC61968_WiresExt_DistributionTransformerWinding_DistributionTransformerWinding true (Some n_Transformer); ERef n_TransformerBank n_CIM14_CDPSM_Unbalanced_IEC61968_WiresExt_TransformerBank_TransformerBank false (Some n_Transformers)];
(* Model/CIM14/CDPSM/Unbalanced.ecore:293-366 *)
  EClass n_CIM14_CDPSM_Unbalanced_IEC61968_WiresExt_DistributionTransformerWinding_DistributionTransformerWinding n_DistributionTransformerWinding (Some n_CIM14_CDPSM_Unbalanced_IEC61970_Core_ConductingEquipment_ConductingEquipment)
    [(n_rground, TFloat); (n_xground, TFloat); (n_grounded, TBool)]
    [ERef n_WindingInfo n_CIM14_CDPSM_Unbalanced_IEC61968_AssetModels_WindingInfo_WindingInfo false (Some n_Windings); ERef n_Transformer n_CIM14_CDPSM_Unbalanced_IEC61968_WiresExt_DistributionTransformer_DistributionTransformer false (Some n_Windings); ERef n_RatioTapChanger n_CIM14_CDPSM_Unbalanced_IEC61970_Wires_RatioTapChanger_RatioTapChanger false (Some n_Winding); ERef n_PiImpedance n_CIM14_CDPSM_Unbalanced_IEC61968_WiresExt_WindingPiImpedance_WindingPiImpedance false (Some n_Windings)];
(* Model/CIM14/CDPSM/Unbalanced.ecore:722-767 *)
  EClass n_CIM14_CDPSM_Unbalanced_IEC61968_WiresExt_PerLengthPhaseImpedance_PerLengthPhaseImpedance n_PerLengthPhaseImpedance (Some n_CIM14_CDPSM_Unbalanced_IEC61970_Core_IdentifiedObject_IdentifiedObject)
    [(n_conductorCount, TInt)]
    [ERef n_PhaseImpedanceData n_CIM14_CDPSM_Unbalanced_IEC61968_WiresExt_PhaseImpedanceData_PhaseImpedanceData true (Some n_PhaseImpedance); ERef n_ConductorSegments n_CIM14_CDPSM_Unbalanced_IEC61968_WiresExt_DistributionLineSegment_DistributionLineSegment true (Some n_PhaseImpedance)];
(* Model/CIM14/CDPSM/Unbalanced.ecore:613-689 *)
  EClass n_CIM14_CDPSM_Unbalanced_IEC61968_WiresExt_PerLengthSequenceImpedance_PerLengthSequenceImpedance n_PerLengthSequenceImpedance (Some n_CIM14_CDPSM_Unbalanced_IEC61970_Core_IdentifiedObject_IdentifiedObject)
    [(n_x, TFloat); (n_r0, TFloat); (n_x0, TFloat); (n_b0ch, TFloat); (n_r, TFloat); (n_bch, TFloat)]
    [ERef n_ConductorSegments n_CIM14_CDPSM_Unbalanced_IEC61968_WiresExt_DistributionLineSegment_DistributionLineSegment true (Some n_SequenceImpedance)];
(* Model/CIM14/CDPSM/Unbalanced.ecore:810-864 *)
  EClass n_CIM14_CDPSM_Unbalanced_IEC61968_WiresExt_PhaseImpedanceData_PhaseImpedanceData n_PhaseImpedanceData (Some n_CIM14_CDPSM_Unbalanced_Element_Element)
    [(n_x, TFloat); (n_sequenceNumber, TInt); (n_b, TFloat); (n_r, TFloat)]
    [ERef n_PhaseImpedance n_CIM14_CDPSM_Unbalanced_IEC61968_WiresExt_PerLengthPhaseImpedance_PerLengthPhaseImpedance false (Some n_PhaseImpedanceData)];
(* Model/CIM14/CDPSM/Unbalanced.ecore:690-721 *)
  EClass n_CIM14_CDPSM_Unbalanced_IEC61968_WiresExt_TransformerBank_TransformerBank n_TransformerBank (Some n_CIM14_CDPSM_Unbalanced_IEC61970_Core_Equipment_Equipment)
    [(n_vectorGroup, TText)]
    [ERef n_Transformers n_CIM14_CDPSM_Unbalanced_IEC61968_WiresExt_DistributionTransformer_DistributionTransformer true (Some n_TransformerBank)];
(* Model/CIM14/CDPSM/Unbalanced.ecore:408-501 *)
  EClass n_CIM14_CDPSM_Unbalanced_IEC61968_WiresExt_WindingPiImpedance_WindingPiImpedance n_WindingPiImpedance (Some n_CIM14_CDPSM_Unbalanced_IEC61970_Core_IdentifiedObject_IdentifiedObject)
    [(n_x, TFloat); (n_g, TFloat); (n_r0, TFloat); (n_r, TFloat); (n_b, TFloat); (n_g0, TFloat); (n_x0, TFloat); (n_b0, TFloat)]
    [ERef n_Windings n_CIM14_CDPSM_Unbalanced_IEC61968_WiresExt_DistributionTransformerWinding_DistributionTransformerWinding true (Some n_PiImpedance)];
(* Model/CIM14/CDPSM/Unbalanced.ecore:2676-2719 *)
  EClass n_CIM14_CDPSM_Unbalanced_IEC61970_Core_BaseVoltage_BaseVoltage n_BaseVoltage (Some n_CIM14_CDPSM_Unbalanced_IEC61970_Core_IdentifiedObject_IdentifiedObject)
    [(n_nominalVoltage, TFloat)]
    [ERef n_ConductingEquipment n_CIM14_CDPSM_Unbalanced_IEC61970_Core_ConductingEquipment_ConductingEquipment true (Some n_BaseVoltage); ERef n_VoltageLevel n_CIM14_CDPSM_Unbalanced_IEC61970_Core_VoltageLevel_VoltageLevel true (Some n_BaseVoltage)];
(* Model/CIM14/CDPSM/Unbalanced.ecore:2632-2648 *)
  EClass n_CIM14_CDPSM_Unbalanced_IEC61970_Core_Bay_Bay n_Bay (Some n_CIM14_CDPSM_Unbalanced_IEC61970_Core_EquipmentContainer_EquipmentContainer)
    []
    [ERef n_VoltageLevel n_CIM14_CDPSM_Unbalanced_IEC61970_Core_VoltageLevel_VoltageLevel false (Some n_Bays)];
(* Model/CIM14/CDPSM/Unbalanced.ecore:2873-2917 *)
  EClass n_CIM14_CDPSM_Unbalanced_IEC61970_Core_ConductingEquipment_ConductingEquipment n_ConductingEquipment (Some n_CIM14_CDPSM_Unbalanced_IEC61970_Core_Equipment_Equipment)
    [(n_phases, enum_cim14_cdpsm_unbalanced_CDPSM_Unbalanced_IEC61970_Core_PhaseCode)]
    [ERef n_Terminals n_CIM14_CDPSM_Unbalanced_IEC61970_Core_Terminal_Terminal true (Some n_ConductingEquipment); ERef n_BaseVoltage n_CIM14_CDPSM_Unbalanced_IEC61970_Core_BaseVoltage_BaseVoltage false (Some n_ConductingEquipment)];
(* Model/CIM14/CDPSM/Unbalanced.ecore:2552-2574 *)
  EClass n_CIM14_CDPSM_Unbalanced_IEC61970_Core_ConnectivityNodeContainer_ConnectivityNodeContainer n_ConnectivityNodeContainer (Some n_CIM14_CDPSM_Unbalanced_IEC61970_Core_PowerSystemResource_PowerSystemResource)
    []
    [ERef n_ConnectivityNodes n_CIM14_CDPSM_Unbalanced_IEC61970_Topology_ConnectivityNode_ConnectivityNode true (Some n_ConnectivityNodeContainer)];
(* Model/CIM14/CDPSM/Unbalanced.ecore:2649-2675 *)
  EClass n_CIM14_CDPSM_Unbalanced_IEC61970_Core_Equipment_Equipment n_Equipment (Some n_CIM14_CDPSM_Unbalanced_IEC61970_Core_PowerSystemResource_PowerSystemResource)
    [(n_normaIlyInService, TBool)]
    [ERef n_EquipmentContainer n_CIM14_CDPSM_Unbalanced_IEC61970_Core_EquipmentContainer_EquipmentContainer false (Some n_Equipments)];
(* Model/CIM14/CDPSM/Unbalanced.ecore:2742-2763 *)
  EClass n_CIM14_CDPSM_Unbalanced_IEC61970_Core_EquipmentContainer_EquipmentContainer n_EquipmentContainer (Some n_CIM14_CDPSM_Unbalanced_IEC61970_Core_ConnectivityNodeContainer_ConnectivityNodeContainer)
    []
    [ERef n_Equipments n_CIM14_CDPSM_Unbalanced_IEC61970_Core_Equipment_Equipment true (Some n_EquipmentContainer)];
(* Model/CIM14/CDPSM/Unbalanced.ecore:3008-3028 *)
  EClass n_CIM14_CDPSM_Unbalanced_IEC61970_Core_GeographicalRegion_GeographicalRegion n_GeographicalRegion (Some n_CIM14_CDPSM_Unbalanced_IEC61970_Core_IdentifiedObject_IdentifiedObject)
    []
    [ERef n_Regions n_CIM14_CDPSM_Unbalanced_IEC61970_Core_SubGeographicalRegion_SubGeographicalRegion true (Some n_Region)];
(* Model/CIM14/CDPSM/Unbalanced.ecore:2764-2821 *)
  EClass n_CIM14_CDPSM_Unbalanced_IEC61970_Core_IdentifiedObject_IdentifiedObject n_IdentifiedObject (Some n_CIM14_CDPSM_Unbalanced_Element_Element)
    [(n_mRID, TText); (n_description, TText); (n_name, TText); (n_localName, TText); (n_aliasName, TText)]
    [];
(* Model/CIM14/CDPSM/Unbalanced.ecore:2720-2741 *)
  EClass n_CIM14_CDPSM_Unbalanced_IEC61970_Core_PSRType_PSRType n_PSRType (Some n_CIM14_CDPSM_Unbalanced_IEC61970_Core_IdentifiedObject_IdentifiedObject)
    []
    [ERef n_PowerSystemResources n_CIM14_CDPSM_Unbalanced_IEC61970_Core_PowerSystemResource_PowerSystemResource true (Some n_PSRType)];
(* Model/CIM14/CDPSM/Unbalanced.ecore:3029-3055 *)
  EClass n_CIM14_CDPSM_Unbalanced_IEC61970_Core_PowerSystemResource_PowerSystemResource n_PowerSystemResource (Some n_CIM14_CDPSM_Unbalanced_IEC61970_Core_IdentifiedObject_IdentifiedObject)
    []
    [ERef n_GeoLocation n_CIM14_CDPSM_Unbalanced_IEC61968_Common_GeoLocation_GeoLocation false (Some n_PowerSystemResources); ERef n_PSRType n_CIM14_CDPSM_Unbalanced_IEC61970_Core_PSRType_PSRType false (Some n_PowerSystemResources)];
(* Model/CIM14/CDPSM/Unbalanced.ecore:2918-2960 *)
  EClass n_CIM14_CDPSM_Unbalanced_IEC61970_Core_SubGeographicalRegion_SubGeographicalRegion n_SubGeographicalRegion (Some n_CIM14_CDPSM_Unbalanced_IEC61970_Core_IdentifiedObject_IdentifiedObject)
    []
    [ERef n_Region n_CIM14_CDPSM_Unbalanced_IEC61970_Core_GeographicalRegion_GeographicalRegion false (Some n_Regions); ERef n_Lines n_CIM14_CDPSM_Unbalanced_IEC61970_Wires_Line_Line true (Some n_Region); ERef n_Substations n_CIM14_CDPSM_Unbalanced_IEC61970_Core_Substation_Substation true (Some n_Region)];
(* Model/CIM14/CDPSM/Unbalanced.ecore:2822-2852 *)
  EClass n_CIM14_CDPSM_Unbalanced_IEC61970_Core_Substation_Substation n_Substation (Some n_CIM14_CDPSM_Unbalanced_IEC61970_Core_EquipmentContainer_EquipmentContainer)
    []
    [ERef n_Region n_CIM14_CDPSM_Unbalanced_IEC61970_Core_SubGeographicalRegion_SubGeographicalRegion false (Some n_Substations); ERef n_VoltageLevels n_CIM14_CDPSM_Unbalanced_IEC61970_Core_VoltageLevel_VoltageLevel true (Some n_Substation)];
(* Model/CIM14/CDPSM/Unbalanced.ecore:2961-3007 *)
  EClass n_CIM14_CDPSM_Unbalanced_IEC61970_Core_Terminal_Terminal n_Terminal (Some n_CIM14_CDPSM_Unbalanced_IEC61970_Core_IdentifiedObject_IdentifiedObject)
    [(n_sequenceNumber, TInt); (n_connected, TBool)]
    [ERef n_ConductingEquipment n_CIM14_CDPSM_Unbalanced_IEC61970_Core_ConductingEquipment_ConductingEquipment false (Some n_Terminals); ERef n_ConnectivityNode n_CIM14_CDPSM_Unbalanced_IEC61970_Topology_ConnectivityNode_ConnectivityNode false (Some n_Terminals)];
(* Model/CIM14/CDPSM/Unbalanced.ecore:2575-2631 *)
  EClass n_CIM14_CDPSM_Unbalanced_IEC61970_Core_VoltageLevel_VoltageLevel n_VoltageLevel (Some n_CIM14_CDPSM_Unbalanced_IEC61970_Core_EquipmentContainer_EquipmentContainer)
    [(n_lowVoltageLimit, TFloat); (n_highVoltageLimit, TFloat)]
    [ERef n_BaseVoltage n_CIM14_CDPSM_Unbalanced_IEC61970_Core_BaseVoltage_BaseVoltage false (Some n_VoltageLevel); ERef n_Bays n_CIM14_CDPSM_Unbalanced_IEC61970_Core_Bay_Bay true (Some n_VoltageLevel); ERef n_Substation n_CIM14_CDPSM_Unbalanced_IEC61970_Core_Substation_Substation false (Some n_VoltageLevels)];
(* Model/CIM14/CDPSM/Unbalanced.ecore:3073-3122 *)
  EClass n_CIM14_CDPSM_Unbalanced_IEC61970_Generation_Production_GeneratingUnit_GeneratingUnit n_GeneratingUnit (Some n_CIM14_CDPSM_Unbalanced_IEC61970_Core_Equipment_Equipment)
    [(n_ratedNetMaxP, TFloat); (n_genControlSource, enum_cim14_cdpsm_unbalanced_CDPSM_Unbalanced_IEC61970_Generation_Production_GeneratorControlSource); (n_initialP, TFloat)]
    [ERef n_SynchronousMachines n_CIM14_CDPSM_Unbalanced_IEC61970_Wires_SynchronousMachine_SynchronousMachine true (Some n_GeneratingUnit)];
(* Model/CIM14/CDPSM/Unbalanced.ecore:1922-1948 *)
  EClass n_CIM14_CDPSM_Unbalanced_IEC61970_IEC61970CIMVersion_IEC61970CIMVersion n_IEC61970CIMVersion (Some n_CIM14_CDPSM_Unbalanced_Element_Element)
    [(n_date, TDate); (n_version, TText)]
    [];
(* Model/CIM14/CDPSM/Unbalanced.ecore:3139-3271 *)
  EClass n_CIM14_CDPSM_Unbalanced_IEC61970_LoadModel_LoadResponseCharacteristic_LoadResponseCharacteristic n_LoadResponseCharacteristic (Some n_CIM14_CDPSM_Unbalanced_IEC61970_Core_IdentifiedObject_IdentifiedObject)
    [(n_pVoltageExponent, TFloat); (n_qConstantCurrent, TFloat); (n_pFrequencyExponent, TFloat); (n_exponentModel, TBool); (n_qConstantImpedance, TFloat); (n_pConstantCurrent, TFloat); (n_qFrequencyExponent, TFloat); (n_pConstantPower, TFloat); (n_qVoltageExponent, TFloat); (n_qConstantPower, TFloat); (n_pConstantImpedance, TFloat)]
    [ERef n_EnergyConsumer n_CIM14_CDPSM_Unbalanced_IEC61970_Wires_EnergyConsumer_EnergyConsumer true (Some n_LoadResponse)];
(* Model/CIM14/CDPSM/Unbalanced.ecore:3281-3317 *)
  EClass n_CIM14_CDPSM_Unbalanced_IEC61970_StateVariables_SvTapStep_SvTapStep n_SvTapStep (Some n_CIM14_CDPSM_Unbalanced_Element_Element)
    [(n_continuousPosition, TFloat); (n_position, TInt)]
    [ERef n_TapChanger n_CIM14_CDPSM_Unbalanced_IEC61970_Wires_TapChanger_TapChanger false (Some n_SvTapStep)];
(* Model/CIM14/CDPSM/Unbalanced.ecore:3327-3357 *)
  EClass n_CIM14_CDPSM_Unbalanced_IEC61970_Topology_ConnectivityNode_ConnectivityNode n_ConnectivityNode (Some n_CIM14_CDPSM_Unbalanced_IEC61970_Core_IdentifiedObject_IdentifiedObject)
    []
    [ERef n_Terminals n_CIM14_CDPSM_Unbalanced_IEC61970_Core_Terminal_Terminal true (Some n_ConnectivityNode); ERef n_ConnectivityNodeContainer n_CIM14_CDPSM_Unbalanced_IEC61970_Core_ConnectivityNodeContainer_ConnectivityNodeContainer false (Some n_ConnectivityNodes)];
(* Model/CIM14/CDPSM/Unbalanced.ecore:2134-2199 *)
  EClass n_CIM14_CDPSM_Unbalanced_IEC61970_Wires_ACLineSegment_ACLineSegment n_ACLineSegment (Some n_CIM14_CDPSM_Unbalanced_IEC61970_Wires_Conductor_Conductor)
    [(n_r, TFloat); (n_x0, TFloat); (n_bch, TFloat); (n_x, TFloat); (n_b0ch, TFloat); (n_r0, TFloat)]
    [];
(* Model/CIM14/CDPSM/Unbalanced.ecore:2509-2525 *)
  EClass n_CIM14_CDPSM_Unbalanced_IEC61970_Wires_Breaker_Breaker n_Breaker (Some n_CIM14_CDPSM_Unbalanced_IEC61970_Wires_Switch_Switch)
    [(n_ratedCurrent, TFloat)]
    [];
(* Model/CIM14/CDPSM/Unbalanced.ecore:1957-1964 *)
  EClass n_CIM14_CDPSM_Unbalanced_IEC61970_Wires_BusbarSection_BusbarSection n_BusbarSection (Some n_CIM14_CDPSM_Unbalanced_IEC61970_Core_ConductingEquipment_ConductingEquipment)
    []
    [];
(* Model/CIM14/CDPSM/Unbalanced.ecore:2526-2542 *)
  EClass n_CIM14_CDPSM_Unbalanced_IEC61970_Wires_Conductor_Conductor n_Conductor (Some n_CIM14_CDPSM_Unbalanced_IEC61970_Core_ConductingEquipment_ConductingEquipment)
    [(n_length, TFloat)]
    [];
(* Model/CIM14/CDPSM/Unbalanced.ecore:2200-2207 *)
  EClass n_CIM14_CDPSM_Unbalanced_IEC61970_Wires_Disconnector_Disconnector n_Disconnector (Some n_CIM14_CDPSM_Unbalanced_IEC61970_Wires_Switch_Switch)
    []
    [];
(* Model/CIM14/CDPSM/Unbalanced.ecore:2351-2414 *)
  EClass n_CIM14_CDPSM_Unbalanced_IEC61970_Wires_EnergyConsumer_EnergyConsumer n_EnergyConsumer (Some n_CIM14_CDPSM_Unbalanced_IEC61970_Core_ConductingEquipment_ConductingEquipment)
    [(n_pfixed, TFloat); (n_pfixedPct, TFloat); (n_qfixedPct, TFloat); (n_qfixed, TFloat); (n_customerCount, TInt)]
    [ERef n_LoadResponse n_CIM14_CDPSM_Unbalanced_IEC61970_LoadModel_LoadResponseCharacteristic_LoadResponseCharacteristic false (Some n_EnergyConsumer)];
(* Model/CIM14/CDPSM/Unbalanced.ecore:2208-2251 *)
  EClass n_CIM14_CDPSM_Unbalanced_IEC61970_Wires_EnergySource_EnergySource n_EnergySource (Some n_CIM14_CDPSM_Unbalanced_IEC61970_Core_ConductingEquipment_ConductingEquipment)
    [(n_x, TFloat); (n_voltageMagnitude, TFloat); (n_voltageAngle, TFloat); (n_nominalVoltage, TFloat)]
    [];
(* Model/CIM14/CDPSM/Unbalanced.ecore:2096-2112 *)
  EClass n_CIM14_CDPSM_Unbalanced_IEC61970_Wires_Fuse_Fuse n_Fuse (Some n_CIM14_CDPSM_Unbalanced_IEC61970_Wires_Switch_Switch)
    [(n_ratingCurrent, TFloat)]
    [];
(* Model/CIM14/CDPSM/Unbalanced.ecore:2117-2124 *)
  EClass n_CIM14_CDPSM_Unbalanced_IEC61970_Wires_Junction_Junction n_Junction (Some n_CIM14_CDPSM_Unbalanced_IEC61970_Core_ConductingEquipment_ConductingEquipment)
    []
    [];
(* Model/CIM14/CDPSM/Unbalanced.ecore:2437-2453 *)
  EClass n_CIM14_CDPSM_Unbalanced_IEC61970_Wires_Line_Line n_Line (Some n_CIM14_CDPSM_Unbalanced_IEC61970_Core_EquipmentContainer_EquipmentContainer)
    []
    [ERef n_Region n_CIM14_CDPSM_Unbalanced_IEC61970_Core_SubGeographicalRegion_SubGeographicalRegion false (Some n_Lines)];
(* Model/CIM14/CDPSM/Unbalanced.ecore:1965-1981 *)
  EClass n_CIM14_CDPSM_Unbalanced_IEC61970_Wires_LoadBreakSwitch_LoadBreakSwitch n_LoadBreakSwitch (Some n_CIM14_CDPSM_Unbalanced_IEC61970_Wires_Switch_Switch)
    [(n_ratedCurrent, TFloat)]
    [];
(* Model/CIM14/CDPSM/Unbalanced.ecore:2322-2350 *)
  EClass n_CIM14_CDPSM_Unbalanced_IEC61970_Wires_RatioTapChanger_RatioTapChanger n_RatioTapChanger (Some n_CIM14_CDPSM_Unbalanced_IEC61970_Wires_TapChanger_TapChanger)
    [(n_tculControlMode, enum_cim14_cdpsm_unbalanced_CDPSM_Unbalanced_IEC61970_Wires_TransformerControlMode)]
    [ERef n_Winding n_CIM14_CDPSM_Unbalanced_IEC61968_WiresExt_DistributionTransformerWinding_DistributionTransformerWinding false (Some n_RatioTapChanger)];
(* Model/CIM14/CDPSM/Unbalanced.ecore:2454-2508 *)
  EClass n_CIM14_CDPSM_Unbalanced_IEC61970_Wires_ShuntCompensator_ShuntCompensator n_ShuntCompensator (Some n_CIM14_CDPSM_Unbalanced_IEC61970_Core_ConductingEquipment_ConductingEquipment)
    [(n_nomQ, TFloat); (n_nomU, TFloat); (n_normalSections, TInt); (n_maximumSections, TInt); (n_reactivePerSection, TFloat)]
    [];
(* Model/CIM14/CDPSM/Unbalanced.ecore:2419-2436 *)
  EClass n_CIM14_CDPSM_Unbalanced_IEC61970_Wires_Switch_Switch n_Switch (Some n_CIM14_CDPSM_Unbalanced_IEC61970_Core_ConductingEquipment_ConductingEquipment)
    [(n_normalOpen, TBool)]
    [];
(* Model/CIM14/CDPSM/Unbalanced.ecore:2252-2316 *)
  EClass n_CIM14_CDPSM_Unbalanced_IEC61970_Wires_SynchronousMachine_SynchronousMachine n_SynchronousMachine (Some n_CIM14_CDPSM_Unbalanced_IEC61970_Core_ConductingEquipment_ConductingEquipment)
    [(n_baseQ, TFloat); (n_operatingMode, enum_cim14_cdpsm_unbalanced_CDPSM_Unbalanced_IEC61970_Wires_SynchronousMachineOperatingMode); (n_type, enum_cim14_cdpsm_unbalanced_CDPSM_Unbalanced_IEC61970_Wires_SynchronousMachineType); (n_maxQ, TFloat); (n_minQ, TFloat)]
    [ERef n_GeneratingUnit n_CIM14_CDPSM_Unbalanced_IEC61970_Generation_Production_GeneratingUnit_GeneratingUnit false (Some n_SynchronousMachines)];
(* Model/CIM14/CDPSM/Unbalanced.ecore:1982-2095 *)
  EClass n_CIM14_CDPSM_Unbalanced_IEC61970_Wires_TapChanger_TapChanger n_TapChanger (Some n_CIM14_CDPSM_Unbalanced_IEC61970_Core_PowerSystemResource_PowerSystemResource)
    [(n_stepVoltageIncrement, TFloat); (n_subsequentDelay, TFloat); (n_neutralStep, TInt); (n_normalStep, TInt); (n_ltcFlag, TBool); (n_neutralU, TFloat); (n_lowStep, TInt); (n_initialDelay, TFloat); (n_regulationStatus, TBool); (n_highStep, TInt)]
    [ERef n_SvTapStep n_CIM14_CDPSM_Unbalanced_IEC61970_StateVariables_SvTapStep_SvTapStep false (Some n_TapChanger)]].

(** Classes of Model/CIM14/CPSM/Equipment.ecore: 97. *)
Definition ecore_cim14_cpsm_equipment : list eclass := [
(* Model/CIM14/CPSM/Equipment.ecore:1585-1655 *)
  EClass n_CIM14_CPSM_Equipment_ControlArea_ControlArea_ControlArea n_ControlArea (Some n_CIM14_CPSM_Equipment_Core_PowerSystemResource_PowerSystemResource)
    [(n_netInterchange, TFloat); (n_type, enum_cim14_cpsm_equipment_CPSM_Equipment_ControlArea_ControlAreaTypeKind); (n_pTolerance, TFloat)]
    [ERef n_ControlAreaGeneratingUnit n_CIM14_CPSM_Equipment_ControlArea_ControlAreaGeneratingUnit_ControlAreaGeneratingUnit true (Some n_ControlArea); ERef n_EnergyArea n_CIM14_CPSM_Equipment_LoadModel_EnergyArea_EnergyArea false (Some n_ControlArea); ERef n_TieFlow n_CIM14_CPSM_Equipment_ControlArea_TieFlow_TieFlow true (Some n_ControlArea)];
(* Model/CIM14/CPSM/Equipment.ecore:1523-1548 *)
  EClass n_CIM14_CPSM_Equipment_ControlArea_ControlAreaGeneratingUnit_ControlAreaGeneratingUnit n_ControlAreaGeneratingUnit (Some n_CIM14_CPSM_Equipment_Element_Element)
    []
    [ERef n_ControlArea n_CIM14_CPSM_Equipment_ControlArea_ControlArea_ControlArea false (Some n_ControlAreaGeneratingUnit); ERef n_GeneratingUnit n_CIM14_CPSM_Equipment_Generation_Production_GeneratingUnit_GeneratingUnit false (Some n_ControlAreaGeneratingUnit)];
(* Model/CIM14/CPSM/Equipment.ecore:1549-1584 *)
  EClass n_CIM14_CPSM_Equipment_ControlArea_TieFlow_TieFlow n_TieFlow (Some n_CIM14_CPSM_Equipment_Element_Element)
    [(n_positiveFlowIn, TBool)]
    [ERef n_ControlArea n_CIM14_CPSM_Equipment_ControlArea_ControlArea_ControlArea false (Some n_TieFlow); ERef n_Terminal n_CIM14_CPSM_Equipment_Core_Terminal_Terminal false (Some n_TieFlow)];
(* Model/CIM14/CPSM/Equipment.ecore:3863-3905 *)
  EClass n_CIM14_CPSM_Equipment_Core_BaseVoltage_BaseVoltage n_BaseVoltage (Some n_CIM14_CPSM_Equipment_Core_IdentifiedObject_IdentifiedObject)
    [(n_nominalVoltage, TFloat)]
    [ERef n_ConductingEquipment n_CIM14_CPSM_Equipment_Core_ConductingEquipment_ConductingEquipment true (Some n_BaseVoltage); ERef n_VoltageLevel n_CIM14_CPSM_Equipment_Core_VoltageLevel_VoltageLevel true (Some n_BaseVoltage)];
(* Model/CIM14/CPSM/Equipment.ecore:3671-3706 *)
  EClass n_CIM14_CPSM_Equipment_Core_BasicIntervalSchedule_BasicIntervalSchedule n_BasicIntervalSchedule (Some n_CIM14_CPSM_Equipment_Core_IdentifiedObject_IdentifiedObject)
    [(n_startTime, TDate); (n_value1Unit, enum_cim14_cpsm_equipment_CPSM_Equipment_Domain_UnitSymbol); (n_value2Unit, enum_cim14_cpsm_equipment_CPSM_Equipment_Domain_UnitSymbol)]
    [];
(* Model/CIM14/CPSM/Equipment.ecore:3477-3497 *)
  EClass n_CIM14_CPSM_Equipment_Core_Bay_Bay n_Bay (Some n_CIM14_CPSM_Equipment_Core_EquipmentContainer_EquipmentContainer)
    []
    [ERef n_VoltageLevel n_CIM14_CPSM_Equipment_Core_VoltageLevel_VoltageLevel false (Some n_Bays)];
(* Model/CIM14/CPSM/Equipment.ecore:3971-4001 *)
  EClass n_CIM14_CPSM_Equipment_Core_ConductingEquipment_ConductingEquipment n_ConductingEquipment (Some n_CIM14_CPSM_Equipment_Core_Equipment_Equipment)
    []
    [ERef n_Terminals n_CIM14_CPSM_Equipment_Core_Terminal_Terminal true (Some n_ConductingEquipment); ERef n_BaseVoltage n_CIM14_CPSM_Equipment_Core_BaseVoltage_BaseVoltage false (Some n_ConductingEquipment)];
(* Model/CIM14/CPSM/Equipment.ecore:3906-3940 *)
  EClass n_CIM14_CPSM_Equipment_Core_ConnectivityNode_ConnectivityNode n_ConnectivityNode (Some n_CIM14_CPSM_Equipment_Core_IdentifiedObject_IdentifiedObject)
    []
    [ERef n_Terminals n_CIM14_CPSM_Equipment_Core_Terminal_Terminal true (Some n_ConnectivityNode); ERef n_ConnectivityNodeContainer n_CIM14_CPSM_Equipment_Core_ConnectivityNodeContainer_ConnectivityNodeContainer false (Some n_ConnectivityNodes)];
(* Model/CIM14/CPSM/Equipment.ecore:3357-3378 *)
  EClass n_CIM14_CPSM_Equipment_Core_ConnectivityNodeContainer_ConnectivityNodeContainer n_ConnectivityNodeContainer (Some n_CIM14_CPSM_Equipment_Core_PowerSystemResource_PowerSystemResource)
    []
    [ERef n_ConnectivityNodes n_CIM14_CPSM_Equipment_Core_ConnectivityNode_ConnectivityNode true (Some n_ConnectivityNodeContainer)];
(* Model/CIM14/CPSM/Equipment.ecore:3707-3776 *)
  EClass n_CIM14_CPSM_Equipment_Core_Curve_Curve n_Curve (Some n_CIM14_CPSM_Equipment_Core_IdentifiedObject_IdentifiedObject)
    [(n_y1Unit, enum_cim14_cpsm_equipment_CPSM_Equipment_Domain_UnitSymbol); (n_y2Unit, enum_cim14_cpsm_equipment_CPSM_Equipment_Domain_UnitSymbol); (n_y3Unit, enum_cim14_cpsm_equipment_CPSM_Equipment_Domain_UnitSymbol); (n_curveStyle, enum_cim14_cpsm_equipment_CPSM_Equipment_Core_CurveStyle); (n_xUnit, enum_cim14_cpsm_equipment_CPSM_Equipment_Domain_UnitSymbol)]
    [ERef n_CurveDatas n_CIM14_CPSM_Equipment_Core_CurveData_CurveData true (Some n_Curve)];
(* Model/CIM14/CPSM/Equipment.ecore:4138-4196 *)
  EClass n_CIM14_CPSM_Equipment_Core_CurveData_CurveData n_CurveData (Some n_CIM14_CPSM_Equipment_Element_Element)
    [(n_y1value, TFloat); (n_xvalue, TFloat); (n_y3value, TFloat); (n_y2value, TFloat)]
    [ERef n_Curve n_CIM14_CPSM_Equipment_Core_Curve_Curve false (Some n_CurveDatas)];
(* Model/CIM14/CPSM/Equipment.ecore:3498-3537 *)
  EClass n_CIM14_CPSM_Equipment_Core_Equipment_Equipment n_Equipment (Some n_CIM14_CPSM_Equipment_Core_PowerSystemResource_PowerSystemResource)
    [(n_aggregate, TBool)]
    [ERef n_OperationalLimitSet n_CIM14_CPSM_Equipment_OperationalLimits_OperationalLimitSet_OperationalLimitSet true (Some n_Equipment); ERef n_EquipmentContainer n_CIM14_CPSM_Equipment_Core_EquipmentContainer_EquipmentContainer false (Some n_Equipments)];
(* Model/CIM14/CPSM/Equipment.ecore:3538-3559 *)
  EClass n_CIM14_CPSM_Equipment_Core_EquipmentContainer_EquipmentContainer n_EquipmentContainer (Some n_CIM14_CPSM_Equipment_Core_ConnectivityNodeContainer_ConnectivityNodeContainer)
    []
    [ERef n_Equipments n_CIM14_CPSM_Equipment_Core_Equipment_Equipment true (Some n_EquipmentContainer)];
(* Model/CIM14/CPSM/Equipment.ecore:4117-4137 *)
  EClass n_CIM14_CPSM_Equipment_Core_GeographicalRegion_GeographicalRegion n_GeographicalRegion (Some n_CIM14_CPSM_Equipment_Core_IdentifiedObject_IdentifiedObject)
    []
    [ERef n_Regions n_CIM14_CPSM_Equipment_Core_SubGeographicalRegion_SubGeographicalRegion true (Some n_Region)];
(* Model/CIM14/CPSM/Equipment.ecore:3560-3605 *)
  EClass n_CIM14_CPSM_Equipment_Core_IdentifiedObject_IdentifiedObject n_IdentifiedObject (Some n_CIM14_CPSM_Equipment_Element_Element)
    [(n_description, TText); (n_name, TText); (n_aliasName, TText); (n_pathName, TText)]
    [];
(* Model/CIM14/CPSM/Equipment.ecore:3649-3670 *)
  EClass n_CIM14_CPSM_Equipment_Core_PowerSystemResource_PowerSystemResource n_PowerSystemResource (Some n_CIM14_CPSM_Equipment_Core_IdentifiedObject_IdentifiedObject)
    []
    [ERef n_Measurements n_CIM14_CPSM_Equipment_Meas_Measurement_Measurement true (Some n_PowerSystemResource)];
(* Model/CIM14/CPSM/Equipment.ecore:3385-3424 *)
  EClass n_CIM14_CPSM_Equipment_Core_RegularIntervalSchedule_RegularIntervalSchedule n_RegularIntervalSchedule (Some n_CIM14_CPSM_Equipment_Core_BasicIntervalSchedule_BasicIntervalSchedule)
    [(n_timeStep, TFloat); (n_endTime, TDate)]
    [ERef n_TimePoints n_CIM14_CPSM_Equipment_Core_RegularTimePoint_RegularTimePoint true (Some n_IntervalSchedule)];
(* Model/CIM14/CPSM/Equipment.ecore:3425-3476 *)
  EClass n_CIM14_CPSM_Equipment_Core_RegularTimePoint_RegularTimePoint n_RegularTimePoint (Some n_CIM14_CPSM_Equipment_Element_Element)
    [(n_sequenceNumber, TInt); (n_value1, TFloat); (n_value2, TFloat)]
    [ERef n_IntervalSchedule n_CIM14_CPSM_Equipment_Core_RegularIntervalSchedule_RegularIntervalSchedule false (Some n_TimePoints)];
(* Model/CIM14/CPSM/Equipment.ecore:3606-3648 *)
  EClass n_CIM14_CPSM_Equipment_Core_SubGeographicalRegion_SubGeographicalRegion n_SubGeographicalRegion (Some n_CIM14_CPSM_Equipment_Core_IdentifiedObject_IdentifiedObject)
    []
    [ERef n_Region n_CIM14_CPSM_Equipment_Core_GeographicalRegion_GeographicalRegion false (Some n_Regions); ERef n_Lines n_CIM14_CPSM_Equipment_Wires_Line_Line true (Some n_Region); ERef n_Substations n_CIM14_CPSM_Equipment_Core_Substation_Substation true (Some n_Region)];
(* Model/CIM14/CPSM/Equipment.ecore:3941-3970 *)
  EClass n_CIM14_CPSM_Equipment_Core_Substation_Substation n_Substation (Some n_CIM14_CPSM_Equipment_Core_EquipmentContainer_EquipmentContainer)
    []
    [ERef n_Region n_CIM14_CPSM_Equipment_Core_SubGeographicalRegion_SubGeographicalRegion false (Some n_Substations); ERef n_VoltageLevels n_CIM14_CPSM_Equipment_Core_VoltageLevel_VoltageLevel true (Some n_Substation)];
(* Model/CIM14/CPSM/Equipment.ecore:4002-4116 *)
  EClass n_CIM14_CPSM_Equipment_Core_Terminal_Terminal n_Terminal (Some n_CIM14_CPSM_Equipment_Core_IdentifiedObject_IdentifiedObject)
    [(n_sequenceNumber, TInt)]
    [ERef n_OperationalLimitSet n_CIM14_CPSM_Equipment_OperationalLimits_OperationalLimitSet_OperationalLimitSet true (Some n_Terminal); ERef n_ConductingEquipment n_CIM14_CPSM_Equipment_Core_ConductingEquipment_ConductingEquipment false (Some n_Terminals); ERef n_HasFirst_MutualCoupling n_CIM14_CPSM_Equipment_Wires_MutualCoupling_MutualCoupling true (Some n_First_Terminal); ERef n_Measurements n_CIM14_CPSM_Equipment_Meas_Measurement_Measurement true (Some n_Terminal); ERef n_ConnectivityNode n_CIM14_CPSM_Equipment_Core_ConnectivityNode_ConnectivityNode false (Some n_Terminals); ERef n_RegulatingControl n_CIM14_CPSM_Equipment_Wires_RegulatingControl_RegulatingControl true (Some n_Terminal); ERef n_TieFlow n_CIM14_CPSM_Equipment_ControlArea_TieFlow_TieFlow true (Some n_Terminal); ERef n_HasSecond_MutualCoupling n_CIM14_CPSM_Equipment_Wires_MutualCoupling_MutualCoupling true (Some n_Second_Terminal)];
(* Model/CIM14/CPSM/Equipment.ecore:3838-3862 *)
  EClass n_CIM14_CPSM_Equipment_Core_Unit_Unit n_Unit (Some n_CIM14_CPSM_Equipment_Core_IdentifiedObject_IdentifiedObject)
    []
    [ERef n_Measurements n_CIM14_CPSM_Equipment_Meas_Measurement_Measurement true (Some n_Unit)];
(* Model/CIM14/CPSM/Equipment.ecore:3777-3837 *)
  EClass n_CIM14_CPSM_Equipment_Core_VoltageLevel_VoltageLevel n_VoltageLevel (Some n_CIM14_CPSM_Equipment_Core_EquipmentContainer_EquipmentContainer)
    [(n_lowVoltageLimit, TFloat); (n_highVoltageLimit, TFloat)]
    [ERef n_BaseVoltage n_CIM14_CPSM_Equipment_Core_BaseVoltage_BaseVoltage false (Some n_VoltageLevel); ERef n_Bays n_CIM14_CPSM_Equipment_Core_Bay_Bay true (Some n_VoltageLevel); ERef n_Substation n_CIM14_CPSM_Equipment_Core_Substation_Substation false (Some n_VoltageLevels)];
(* Model/CIM14/CPSM/Equipment.ecore:14-17 *)
  EClass n_CIM14_CPSM_Equipment_Element_Element n_Element None
    [(n_UUID, TText)]
    [];
(* Model/CIM14/CPSM/Equipment.ecore:707-732 *)
  EClass n_CIM14_CPSM_Equipment_Equivalents_EquivalentBranch_EquivalentBranch n_EquivalentBranch (Some n_CIM14_CPSM_Equipment_Equivalents_EquivalentEquipment_EquivalentEquipment)
    [(n_r, TFloat); (n_x, TFloat)]
    [];
(* Model/CIM14/CPSM/Equipment.ecore:788-806 *)
  EClass n_CIM14_CPSM_Equipment_Equivalents_EquivalentEquipment_EquivalentEquipment n_EquivalentEquipment (Some n_CIM14_CPSM_Equipment_Core_ConductingEquipment_ConductingEquipment)
    []
    [ERef n_EquivalentNetwork n_CIM14_CPSM_Equipment_Equivalents_EquivalentNetwork_EquivalentNetwork false (Some n_EquivalentEquipments)];
(* Model/CIM14/CPSM/Equipment.ecore:733-787 *)
  EClass n_CIM14_CPSM_Equipment_Equivalents_EquivalentInjection_EquivalentInjection n_EquivalentInjection (Some n_CIM14_CPSM_Equipment_Equivalents_EquivalentEquipment_EquivalentEquipment)
    [(n_regulationCapability, TBool); (n_maxP, TFloat); (n_regulationStatus, TBool); (n_minP, TFloat); (n_regulationTarget, TFloat)]
    [];
(* Model/CIM14/CPSM/Equipment.ecore:807-828 *)
  EClass n_CIM14_CPSM_Equipment_Equivalents_EquivalentNetwork_EquivalentNetwork n_EquivalentNetwork (Some n_CIM14_CPSM_Equipment_Core_ConnectivityNodeContainer_ConnectivityNodeContainer)
    []
    [ERef n_EquivalentEquipments n_CIM14_CPSM_Equipment_Equivalents_EquivalentEquipment_EquivalentEquipment true (Some n_EquivalentNetwork)];
(* Model/CIM14/CPSM/Equipment.ecore:681-706 *)
  EClass n_CIM14_CPSM_Equipment_Equivalents_EquivalentShunt_EquivalentShunt n_EquivalentShunt (Some n_CIM14_CPSM_Equipment_Equivalents_EquivalentEquipment_EquivalentEquipment)
    [(n_b, TFloat); (n_g, TFloat)]
    [];
(* Model/CIM14/CPSM/Equipment.ecore:353-384 *)
  EClass n_CIM14_CPSM_Equipment_Generation_Production_FossilFuel_FossilFuel n_FossilFuel (Some n_CIM14_CPSM_Equipment_Core_IdentifiedObject_IdentifiedObject)
    [(n_fossilFuelType, enum_cim14_cpsm_equipment_CPSM_Equipment_Generation_Production_FuelType)]
    [ERef n_ThermalGeneratingUnit n_CIM14_CPSM_Equipment_Generation_Production_ThermalGeneratingUnit_ThermalGeneratingUnit false (Some n_FossilFuels)];
(* Model/CIM14/CPSM/Equipment.ecore:473-662 *)
  EClass n_CIM14_CPSM_Equipment_Generation_Production_GeneratingUnit_GeneratingUnit n_GeneratingUnit (Some n_CIM14_CPSM_Equipment_Core_Equipment_Equipment)
    [(n_maxOperatingP, TFloat); (n_ratedGrossMaxP, TFloat); (n_variableCost, TFloat); (n_minOperatingP, TFloat); (n_ratedGrossMinP, TFloat); (n_shortPF, TFloat); (n_ratedNetMaxP, TFloat); (n_longPF, TFloat); (n_startupCost, TFloat); (n_genControlSource, enum_cim14_cpsm_equipment_CPSM_Equipment_Generation_Production_GeneratorControlSource); (n_nominalP, TFloat); (n_governorSCD, TFloat); (n_maximumAllowableSpinningReserve, TFloat); (n_initialP, TFloat); (n_normalPF, TFloat)]
    [ERef n_SynchronousMachines n_CIM14_CPSM_Equipment_Wires_SynchronousMachine_SynchronousMachine true (Some n_GeneratingUnit); ERef n_ControlAreaGeneratingUnit n_CIM14_CPSM_Equipment_ControlArea_ControlAreaGeneratingUnit_ControlAreaGeneratingUnit true (Some n_GeneratingUnit); ERef n_GrossToNetActivePowerCurves n_CIM14_CPSM_Equipment_Generation_Production_GrossToNetActivePowerCurve_GrossToNetActivePowerCurve true (Some n_GeneratingUnit)];
(* Model/CIM14/CPSM/Equipment.ecore:403-425 *)
  EClass n_CIM14_CPSM_Equipment_Generation_Production_GrossToNetActivePowerCurve_GrossToNetActivePowerCurve n_GrossToNetActivePowerCurve (Some n_CIM14_CPSM_Equipment_Core_Curve_Curve)
    []
    [ERef n_GeneratingUnit n_CIM14_CPSM_Equipment_Generation_Production_GeneratingUnit_GeneratingUnit false (Some n_GrossToNetActivePowerCurves)];
(* Model/CIM14/CPSM/Equipment.ecore:391-402 *)
  EClass n_CIM14_CPSM_Equipment_Generation_Production_HydroGeneratingUnit_HydroGeneratingUnit n_HydroGeneratingUnit (Some n_CIM14_CPSM_Equipment_Generation_Production_GeneratingUnit_GeneratingUnit)
    []
    [];
(* Model/CIM14/CPSM/Equipment.ecore:447-464 *)
  EClass n_CIM14_CPSM_Equipment_Generation_Production_HydroPump_HydroPump n_HydroPump (Some n_CIM14_CPSM_Equipment_Core_PowerSystemResource_PowerSystemResource)
    []
    [ERef n_SynchronousMachine n_CIM14_CPSM_Equipment_Wires_SynchronousMachine_SynchronousMachine false (Some n_HydroPump)];
(* Model/CIM14/CPSM/Equipment.ecore:663-670 *)
  EClass n_CIM14_CPSM_Equipment_Generation_Production_NuclearGeneratingUnit_NuclearGeneratingUnit n_NuclearGeneratingUnit (Some n_CIM14_CPSM_Equipment_Generation_Production_GeneratingUnit_GeneratingUnit)
    []
    [];
(* Model/CIM14/CPSM/Equipment.ecore:426-446 *)
  EClass n_CIM14_CPSM_Equipment_Generation_Production_ThermalGeneratingUnit_ThermalGeneratingUnit n_ThermalGeneratingUnit (Some n_CIM14_CPSM_Equipment_Generation_Production_GeneratingUnit_GeneratingUnit)
    []
    [ERef n_FossilFuels n_CIM14_CPSM_Equipment_Generation_Production_FossilFuel_FossilFuel false (Some n_ThermalGeneratingUnit)];
(* Model/CIM14/CPSM/Equipment.ecore:465-472 *)
  EClass n_CIM14_CPSM_Equipment_Generation_Production_WindGeneratingUnit_WindGeneratingUnit n_WindGeneratingUnit (Some n_CIM14_CPSM_Equipment_Generation_Production_GeneratingUnit_GeneratingUnit)
    []
    [];
(* Model/CIM14/CPSM/Equipment.ecore:18-48 *)
  EClass n_CIM14_CPSM_Equipment_IEC61970CIMVersion_IEC61970CIMVersion n_IEC61970CIMVersion (Some n_CIM14_CPSM_Equipment_Element_Element)
    [(n_date, TDate); (n_version, TText)]
    [];
(* Model/CIM14/CPSM/Equipment.ecore:1363-1383 *)
  EClass n_CIM14_CPSM_Equipment_LoadModel_ConformLoad_ConformLoad n_ConformLoad (Some n_CIM14_CPSM_Equipment_Wires_EnergyConsumer_EnergyConsumer)
    []
    [ERef n_LoadGroup n_CIM14_CPSM_Equipment_LoadModel_ConformLoadGroup_ConformLoadGroup false (Some n_EnergyConsumers)];
(* Model/CIM14/CPSM/Equipment.ecore:1328-1362 *)
  EClass n_CIM14_CPSM_Equipment_LoadModel_ConformLoadGroup_ConformLoadGroup n_ConformLoadGroup (Some n_CIM14_CPSM_Equipment_LoadModel_LoadGroup_LoadGroup)
    []
    [ERef n_EnergyConsumers n_CIM14_CPSM_Equipment_LoadModel_ConformLoad_ConformLoad true (Some n_LoadGroup); ERef n_ConformLoadSchedules n_CIM14_CPSM_Equipment_LoadModel_ConformLoadSchedule_ConformLoadSchedule true (Some n_ConformLoadGroup)];
(* Model/CIM14/CPSM/Equipment.ecore:1271-1292 *)
  EClass n_CIM14_CPSM_Equipment_LoadModel_ConformLoadSchedule_ConformLoadSchedule n_ConformLoadSchedule (Some n_CIM14_CPSM_Equipment_LoadModel_SeasonDayTypeSchedule_SeasonDayTypeSchedule)
    []
    [ERef n_ConformLoadGroup n_CIM14_CPSM_Equipment_LoadModel_ConformLoadGroup_ConformLoadGroup false (Some n_ConformLoadSchedules)];
(* Model/CIM14/CPSM/Equipment.ecore:1465-1490 *)
  EClass n_CIM14_CPSM_Equipment_LoadModel_DayType_DayType n_DayType (Some n_CIM14_CPSM_Equipment_Core_IdentifiedObject_IdentifiedObject)
    []
    [ERef n_SeasonDayTypeSchedules n_CIM14_CPSM_Equipment_LoadModel_SeasonDayTypeSchedule_SeasonDayTypeSchedule true (Some n_DayType)];
(* Model/CIM14/CPSM/Equipment.ecore:1016-1036 *)
  EClass n_CIM14_CPSM_Equipment_LoadModel_EnergyArea_EnergyArea n_EnergyArea (Some n_CIM14_CPSM_Equipment_Core_IdentifiedObject_IdentifiedObject)
    []
    [ERef n_ControlArea n_CIM14_CPSM_Equipment_ControlArea_ControlArea_ControlArea false (Some n_EnergyArea)];
(* Model/CIM14/CPSM/Equipment.ecore:1444-1464 *)
  EClass n_CIM14_CPSM_Equipment_LoadModel_LoadArea_LoadArea n_LoadArea (Some n_CIM14_CPSM_Equipment_LoadModel_EnergyArea_EnergyArea)
    []
    [ERef n_SubLoadAreas n_CIM14_CPSM_Equipment_LoadModel_SubLoadArea_SubLoadArea true (Some n_LoadArea)];
(* Model/CIM14/CPSM/Equipment.ecore:1497-1513 *)
  EClass n_CIM14_CPSM_Equipment_LoadModel_LoadGroup_LoadGroup n_LoadGroup (Some n_CIM14_CPSM_Equipment_Core_IdentifiedObject_IdentifiedObject)
    []
    [ERef n_SubLoadArea n_CIM14_CPSM_Equipment_LoadModel_SubLoadArea_SubLoadArea false (Some n_LoadGroups)];
(* Model/CIM14/CPSM/Equipment.ecore:1142-1270 *)
  EClass n_CIM14_CPSM_Equipment_LoadModel_LoadResponseCharacteristic_LoadResponseCharacteristic n_LoadResponseCharacteristic (Some n_CIM14_CPSM_Equipment_Core_IdentifiedObject_IdentifiedObject)
    [(n_pVoltageExponent, TFloat); (n_qConstantCurrent, TFloat); (n_pFrequencyExponent, TFloat); (n_exponentModel, TBool); (n_qConstantImpedance, TFloat); (n_pConstantCurrent, TFloat); (n_qFrequencyExponent, TFloat); (n_pConstantPower, TFloat); (n_qVoltageExponent, TFloat); (n_qConstantPower, TFloat); (n_pConstantImpedance, TFloat)]
    [ERef n_EnergyConsumer n_CIM14_CPSM_Equipment_Wires_EnergyConsumer_EnergyConsumer true (Some n_LoadResponse)];
(* Model/CIM14/CPSM/Equipment.ecore:1384-1404 *)
  EClass n_CIM14_CPSM_Equipment_LoadModel_NonConformLoad_NonConformLoad n_NonConformLoad (Some n_CIM14_CPSM_Equipment_Wires_EnergyConsumer_EnergyConsumer)
    []
    [ERef n_LoadGroup n_CIM14_CPSM_Equipment_LoadModel_NonConformLoadGroup_NonConformLoadGroup false (Some n_EnergyConsumers)];
(* Model/CIM14/CPSM/Equipment.ecore:1293-1327 *)
  EClass n_CIM14_CPSM_Equipment_LoadModel_NonConformLoadGroup_NonConformLoadGroup n_NonConformLoadGroup (Some n_CIM14_CPSM_Equipment_LoadModel_LoadGroup_LoadGroup)
    []
    [ERef n_NonConformLoadSchedules n_CIM14_CPSM_Equipment_LoadModel_NonConformLoadSchedule_NonConformLoadSchedule true (Some n_NonConformLoadGroup); ERef n_EnergyConsumers n_CIM14_CPSM_Equipment_LoadModel_NonConformLoad_NonConformLoad true (Some n_LoadGroup)];
(* Model/CIM14/CPSM/Equipment.ecore:1120-1141 *)
  EClass n_CIM14_CPSM_Equipment_LoadModel_NonConformLoadSchedule_NonConformLoadSchedule n_NonConformLoadSchedule (Some n_CIM14_CPSM_Equipment_LoadModel_SeasonDayTypeSchedule_SeasonDayTypeSchedule)
    []
    [ERef n_NonConformLoadGroup n_CIM14_CPSM_Equipment_LoadModel_NonConformLoadGroup_NonConformLoadGroup false (Some n_NonConformLoadSchedules)];
(* Model/CIM14/CPSM/Equipment.ecore:1037-1089 *)
  EClass n_CIM14_CPSM_Equipment_LoadModel_Season_Season n_Season (Some n_CIM14_CPSM_Equipment_Element_Element)
    [(n_startDate, TDate); (n_endDate, TDate); (n_name, enum_cim14_cpsm_equipment_CPSM_Equipment_LoadModel_SeasonName)]
    [ERef n_SeasonDayTypeSchedules n_CIM14_CPSM_Equipment_LoadModel_SeasonDayTypeSchedule_SeasonDayTypeSchedule true (Some n_Season)];
(* Model/CIM14/CPSM/Equipment.ecore:1417-1443 *)
  EClass n_CIM14_CPSM_Equipment_LoadModel_SeasonDayTypeSchedule_SeasonDayTypeSchedule n_SeasonDayTypeSchedule (Some n_CIM14_CPSM_Equipment_Core_RegularIntervalSchedule_RegularIntervalSchedule)
    []
    [ERef n_DayType n_CIM14_CPSM_Equipment_LoadModel_DayType_DayType false (Some n_SeasonDayTypeSchedules); ERef n_Season n_CIM14_CPSM_Equipment_LoadModel_Season_Season false (Some n_SeasonDayTypeSchedules)];
(* Model/CIM14/CPSM/Equipment.ecore:1405-1416 *)
  EClass n_CIM14_CPSM_Equipment_LoadModel_StationSupply_StationSupply n_StationSupply (Some n_CIM14_CPSM_Equipment_Wires_EnergyConsumer_EnergyConsumer)
    []
    [];
(* Model/CIM14/CPSM/Equipment.ecore:1090-1119 *)
  EClass n_CIM14_CPSM_Equipment_LoadModel_SubLoadArea_SubLoadArea n_SubLoadArea (Some n_CIM14_CPSM_Equipment_LoadModel_EnergyArea_EnergyArea)
    []
    [ERef n_LoadGroups n_CIM14_CPSM_Equipment_LoadModel_LoadGroup_LoadGroup true (Some n_SubLoadArea); ERef n_LoadArea n_CIM14_CPSM_Equipment_LoadModel_LoadArea_LoadArea false (Some n_SubLoadAreas)];
(* Model/CIM14/CPSM/Equipment.ecore:1687-1711 *)
  EClass n_CIM14_CPSM_Equipment_Meas_Accumulator_Accumulator n_Accumulator (Some n_CIM14_CPSM_Equipment_Meas_Measurement_Measurement)
    []
    [ERef n_AccumulatorValues n_CIM14_CPSM_Equipment_Meas_AccumulatorValue_AccumulatorValue true (Some n_Accumulator)];
(* Model/CIM14/CPSM/Equipment.ecore:1670-1686 *)
  EClass n_CIM14_CPSM_Equipment_Meas_AccumulatorValue_AccumulatorValue n_AccumulatorValue (Some n_CIM14_CPSM_Equipment_Meas_MeasurementValue_MeasurementValue)
    []
    [ERef n_Accumulator n_CIM14_CPSM_Equipment_Meas_Accumulator_Accumulator false (Some n_AccumulatorValues)];
(* Model/CIM14/CPSM/Equipment.ecore:1754-1787 *)
  EClass n_CIM14_CPSM_Equipment_Meas_Analog_Analog n_Analog (Some n_CIM14_CPSM_Equipment_Meas_Measurement_Measurement)
    [(n_positiveFlowIn, TBool)]
    [ERef n_AnalogValues n_CIM14_CPSM_Equipment_Meas_AnalogValue_AnalogValue true (Some n_Analog)];
(* Model/CIM14/CPSM/Equipment.ecore:1737-1753 *)
  EClass n_CIM14_CPSM_Equipment_Meas_AnalogValue_AnalogValue n_AnalogValue (Some n_CIM14_CPSM_Equipment_Meas_MeasurementValue_MeasurementValue)
    []
    [ERef n_Analog n_CIM14_CPSM_Equipment_Meas_Analog_Analog false (Some n_AnalogValues)];
(* Model/CIM14/CPSM/Equipment.ecore:1712-1736 *)
  EClass n_CIM14_CPSM_Equipment_Meas_Discrete_Discrete n_Discrete (Some n_CIM14_CPSM_Equipment_Meas_Measurement_Measurement)
    []
    [ERef n_DiscreteValues n_CIM14_CPSM_Equipment_Meas_DiscreteValue_DiscreteValue true (Some n_Discrete)];
(* Model/CIM14/CPSM/Equipment.ecore:1854-1870 *)
  EClass n_CIM14_CPSM_Equipment_Meas_DiscreteValue_DiscreteValue n_DiscreteValue (Some n_CIM14_CPSM_Equipment_Meas_MeasurementValue_MeasurementValue)
    []
    [ERef n_Discrete n_CIM14_CPSM_Equipment_Meas_Discrete_Discrete false (Some n_DiscreteValues)];
(* Model/CIM14/CPSM/Equipment.ecore:1809-1853 *)
  EClass n_CIM14_CPSM_Equipment_Meas_Measurement_Measurement n_Measurement (Some n_CIM14_CPSM_Equipment_Core_IdentifiedObject_IdentifiedObject)
    [(n_measurementType, TText)]
    [ERef n_Unit n_CIM14_CPSM_Equipment_Core_Unit_Unit false (Some n_Measurements); ERef n_Terminal n_CIM14_CPSM_Equipment_Core_Terminal_Terminal false (Some n_Measurements); ERef n_PowerSystemResource n_CIM14_CPSM_Equipment_Core_PowerSystemResource_PowerSystemResource false (Some n_Measurements)];
(* Model/CIM14/CPSM/Equipment.ecore:1871-1889 *)
  EClass n_CIM14_CPSM_Equipment_Meas_MeasurementValue_MeasurementValue n_MeasurementValue (Some n_CIM14_CPSM_Equipment_Core_IdentifiedObject_IdentifiedObject)
    []
    [ERef n_MeasurementValueSource n_CIM14_CPSM_Equipment_Meas_MeasurementValueSource_MeasurementValueSource false (Some n_MeasurementValues)];
(* Model/CIM14/CPSM/Equipment.ecore:1788-1808 *)
  EClass n_CIM14_CPSM_Equipment_Meas_MeasurementValueSource_MeasurementValueSource n_MeasurementValueSource (Some n_CIM14_CPSM_Equipment_Core_IdentifiedObject_IdentifiedObject)
    []
    [ERef n_MeasurementValues n_CIM14_CPSM_Equipment_Meas_MeasurementValue_MeasurementValue true (Some n_MeasurementValueSource)];
(* Model/CIM14/CPSM/Equipment.ecore:923-939 *)
  EClass n_CIM14_CPSM_Equipment_OperationalLimits_ActivePowerLimit_ActivePowerLimit n_ActivePowerLimit (Some n_CIM14_CPSM_Equipment_OperationalLimits_OperationalLimit_OperationalLimit)
    [(n_value, TFloat)]
    [];
(* Model/CIM14/CPSM/Equipment.ecore:838-854 *)
  EClass n_CIM14_CPSM_Equipment_OperationalLimits_ApparentPowerLimit_ApparentPowerLimit n_ApparentPowerLimit (Some n_CIM14_CPSM_Equipment_OperationalLimits_OperationalLimit_OperationalLimit)
    [(n_value, TFloat)]
    [];
(* Model/CIM14/CPSM/Equipment.ecore:884-900 *)
  EClass n_CIM14_CPSM_Equipment_OperationalLimits_CurrentLimit_CurrentLimit n_CurrentLimit (Some n_CIM14_CPSM_Equipment_OperationalLimits_OperationalLimit_OperationalLimit)
    [(n_value, TFloat)]
    [];
(* Model/CIM14/CPSM/Equipment.ecore:855-883 *)
  EClass n_CIM14_CPSM_Equipment_OperationalLimits_OperationalLimit_OperationalLimit n_OperationalLimit (Some n_CIM14_CPSM_Equipment_Core_IdentifiedObject_IdentifiedObject)
    [(n_type, TText)]
    [ERef n_OperationalLimitSet n_CIM14_CPSM_Equipment_OperationalLimits_OperationalLimitSet_OperationalLimitSet false (Some n_OperationalLimitValue)];
(* Model/CIM14/CPSM/Equipment.ecore:940-979 *)
  EClass n_CIM14_CPSM_Equipment_OperationalLimits_OperationalLimitSet_OperationalLimitSet n_OperationalLimitSet (Some n_CIM14_CPSM_Equipment_Core_IdentifiedObject_IdentifiedObject)
    []
    [ERef n_Terminal n_CIM14_CPSM_Equipment_Core_Terminal_Terminal false (Some n_OperationalLimitSet); ERef n_Equipment n_CIM14_CPSM_Equipment_Core_Equipment_Equipment false (Some n_OperationalLimitSet); ERef n_OperationalLimitValue n_CIM14_CPSM_Equipment_OperationalLimits_OperationalLimit_OperationalLimit true (Some n_OperationalLimitSet)];
(* Model/CIM14/CPSM/Equipment.ecore:980-1006 *)
  EClass n_CIM14_CPSM_Equipment_OperationalLimits_OperationalLimitType_OperationalLimitType n_OperationalLimitType (Some n_CIM14_CPSM_Equipment_Core_IdentifiedObject_IdentifiedObject)
    [(n_direction, enum_cim14_cpsm_equipment_CPSM_Equipment_OperationalLimits_OperationalLimitDirectionKind); (n_acceptableDuration, TFloat)]
    [];
(* Model/CIM14/CPSM/Equipment.ecore:901-917 *)
  EClass n_CIM14_CPSM_Equipment_OperationalLimits_VoltageLimit_VoltageLimit n_VoltageLimit (Some n_CIM14_CPSM_Equipment_OperationalLimits_OperationalLimit_OperationalLimit)
    [(n_value, TFloat)]
    [];
(* Model/CIM14/CPSM/Equipment.ecore:2237-2320 *)
  EClass n_CIM14_CPSM_Equipment_Wires_ACLineSegment_ACLineSegment n_ACLineSegment (Some n_CIM14_CPSM_Equipment_Wires_Conductor_Conductor)
    [(n_g0ch, TFloat); (n_r, TFloat); (n_x0, TFloat); (n_bch, TFloat); (n_x, TFloat); (n_b0ch, TFloat); (n_gch, TFloat); (n_r0, TFloat)]
    [];
(* Model/CIM14/CPSM/Equipment.ecore:3327-3347 *)
  EClass n_CIM14_CPSM_Equipment_Wires_Breaker_Breaker n_Breaker (Some n_CIM14_CPSM_Equipment_Wires_Switch_Switch)
    [(n_ratedCurrent, TFloat)]
    [];
(* Model/CIM14/CPSM/Equipment.ecore:2680-2687 *)
  EClass n_CIM14_CPSM_Equipment_Wires_BusbarSection_BusbarSection n_BusbarSection (Some n_CIM14_CPSM_Equipment_Core_ConductingEquipment_ConductingEquipment)
    []
    [];
(* Model/CIM14/CPSM/Equipment.ecore:2663-2679 *)
  EClass n_CIM14_CPSM_Equipment_Wires_Conductor_Conductor n_Conductor (Some n_CIM14_CPSM_Equipment_Core_ConductingEquipment_ConductingEquipment)
    [(n_length, TFloat)]
    [];
(* Model/CIM14/CPSM/Equipment.ecore:2851-2862 *)
  EClass n_CIM14_CPSM_Equipment_Wires_Disconnector_Disconnector n_Disconnector (Some n_CIM14_CPSM_Equipment_Wires_Switch_Switch)
    []
    [];
(* Model/CIM14/CPSM/Equipment.ecore:2473-2529 *)
  EClass n_CIM14_CPSM_Equipment_Wires_EnergyConsumer_EnergyConsumer n_EnergyConsumer (Some n_CIM14_CPSM_Equipment_Core_ConductingEquipment_ConductingEquipment)
    [(n_pfixed, TFloat); (n_pfixedPct, TFloat); (n_qfixedPct, TFloat); (n_qfixed, TFloat)]
    [ERef n_LoadResponse n_CIM14_CPSM_Equipment_LoadModel_LoadResponseCharacteristic_LoadResponseCharacteristic false (Some n_EnergyConsumer)];
(* Model/CIM14/CPSM/Equipment.ecore:2809-2825 *)
  EClass n_CIM14_CPSM_Equipment_Wires_ImpedanceVariationCurve_ImpedanceVariationCurve n_ImpedanceVariationCurve (Some n_CIM14_CPSM_Equipment_Core_Curve_Curve)
    []
    [ERef n_TapChanger n_CIM14_CPSM_Equipment_Wires_TapChanger_TapChanger false (Some n_ImpedanceVariationCurve)];
(* Model/CIM14/CPSM/Equipment.ecore:3244-3264 *)
  EClass n_CIM14_CPSM_Equipment_Wires_Line_Line n_Line (Some n_CIM14_CPSM_Equipment_Core_EquipmentContainer_EquipmentContainer)
    []
    [ERef n_Region n_CIM14_CPSM_Equipment_Core_SubGeographicalRegion_SubGeographicalRegion false (Some n_Lines)];
(* Model/CIM14/CPSM/Equipment.ecore:1904-1924 *)
  EClass n_CIM14_CPSM_Equipment_Wires_LoadBreakSwitch_LoadBreakSwitch n_LoadBreakSwitch (Some n_CIM14_CPSM_Equipment_Wires_Switch_Switch)
    [(n_ratedCurrent, TFloat)]
    [];
(* Model/CIM14/CPSM/Equipment.ecore:2917-3014 *)
  EClass n_CIM14_CPSM_Equipment_Wires_MutualCoupling_MutualCoupling n_MutualCoupling (Some n_CIM14_CPSM_Equipment_Core_IdentifiedObject_IdentifiedObject)
    [(n_g0ch, TFloat); (n_r0, TFloat); (n_x0, TFloat); (n_distance11, TFloat); (n_distance12, TFloat); (n_distance22, TFloat); (n_distance21, TFloat); (n_b0ch, TFloat)]
    [ERef n_Second_Terminal n_CIM14_CPSM_Equipment_Core_Terminal_Terminal false (Some n_HasSecond_MutualCoupling); ERef n_First_Terminal n_CIM14_CPSM_Equipment_Core_Terminal_Terminal false (Some n_HasFirst_MutualCoupling)];
(* Model/CIM14/CPSM/Equipment.ecore:2321-2417 *)
  EClass n_CIM14_CPSM_Equipment_Wires_PhaseTapChanger_PhaseTapChanger n_PhaseTapChanger (Some n_CIM14_CPSM_Equipment_Wires_TapChanger_TapChanger)
    [(n_nominalVoltageOutOfPhase, TFloat); (n_windingConnectionAngle, TFloat); (n_phaseTapChangerType, enum_cim14_cpsm_equipment_CPSM_Equipment_Wires_PhaseTapChangerKind); (n_xStepMin, TFloat); (n_xStepMax, TFloat); (n_stepPhaseShiftIncrement, TFloat); (n_voltageStepIncrementOutOfPhase, TFloat)]
    [ERef n_TransformerWinding n_CIM14_CPSM_Equipment_Wires_TransformerWinding_TransformerWinding false (Some n_PhaseTapChanger); ERef n_PhaseVariationCurve n_CIM14_CPSM_Equipment_Wires_PhaseVariationCurve_PhaseVariationCurve false (Some n_PhaseTapChanger)];
(* Model/CIM14/CPSM/Equipment.ecore:2110-2130 *)
  EClass n_CIM14_CPSM_Equipment_Wires_PhaseVariationCurve_PhaseVariationCurve n_PhaseVariationCurve (Some n_CIM14_CPSM_Equipment_Core_Curve_Curve)
    []
    [ERef n_PhaseTapChanger n_CIM14_CPSM_Equipment_Wires_PhaseTapChanger_PhaseTapChanger false (Some n_PhaseVariationCurve)];
(* Model/CIM14/CPSM/Equipment.ecore:2448-2472 *)
  EClass n_CIM14_CPSM_Equipment_Wires_PowerTransformer_PowerTransformer n_PowerTransformer (Some n_CIM14_CPSM_Equipment_Core_Equipment_Equipment)
    []
    [ERef n_TransformerWindings n_CIM14_CPSM_Equipment_Wires_TransformerWinding_TransformerWinding true (Some n_PowerTransformer)];
(* Model/CIM14/CPSM/Equipment.ecore:3171-3217 *)
  EClass n_CIM14_CPSM_Equipment_Wires_RatioTapChanger_RatioTapChanger n_RatioTapChanger (Some n_CIM14_CPSM_Equipment_Wires_TapChanger_TapChanger)
    [(n_tculControlMode, enum_cim14_cpsm_equipment_CPSM_Equipment_Wires_TransformerControlMode)]
    [ERef n_RatioVariationCurve n_CIM14_CPSM_Equipment_Wires_RatioVariationCurve_RatioVariationCurve false (Some n_RatioTapChanger); ERef n_TransformerWinding n_CIM14_CPSM_Equipment_Wires_TransformerWinding_TransformerWinding false (Some n_RatioTapChanger)];
(* Model/CIM14/CPSM/Equipment.ecore:2874-2894 *)
  EClass n_CIM14_CPSM_Equipment_Wires_RatioVariationCurve_RatioVariationCurve n_RatioVariationCurve (Some n_CIM14_CPSM_Equipment_Core_Curve_Curve)
    []
    [ERef n_RatioTapChanger n_CIM14_CPSM_Equipment_Wires_RatioTapChanger_RatioTapChanger false (Some n_RatioVariationCurve)];
(* Model/CIM14/CPSM/Equipment.ecore:2826-2850 *)
  EClass n_CIM14_CPSM_Equipment_Wires_ReactiveCapabilityCurve_ReactiveCapabilityCurve n_ReactiveCapabilityCurve (Some n_CIM14_CPSM_Equipment_Core_Curve_Curve)
    []
    [ERef n_InitiallyUsedBySynchronousMachines n_CIM14_CPSM_Equipment_Wires_SynchronousMachine_SynchronousMachine true (Some n_InitialReactiveCapabilityCurve)];
(* Model/CIM14/CPSM/Equipment.ecore:3222-3243 *)
  EClass n_CIM14_CPSM_Equipment_Wires_RegulatingCondEq_RegulatingCondEq n_RegulatingCondEq (Some n_CIM14_CPSM_Equipment_Core_ConductingEquipment_ConductingEquipment)
    []
    [ERef n_RegulatingControl n_CIM14_CPSM_Equipment_Wires_RegulatingControl_RegulatingControl false (Some n_RegulatingCondEq)];
(* Model/CIM14/CPSM/Equipment.ecore:2140-2236 *)
  EClass n_CIM14_CPSM_Equipment_Wires_RegulatingControl_RegulatingControl n_RegulatingControl (Some n_CIM14_CPSM_Equipment_Core_PowerSystemResource_PowerSystemResource)
    [(n_targetRange, TFloat); (n_mode, enum_cim14_cpsm_equipment_CPSM_Equipment_Wires_RegulatingControlModeKind); (n_discrete, TBool); (n_targetValue, TFloat)]
    [ERef n_RegulationSchedule n_CIM14_CPSM_Equipment_Wires_RegulationSchedule_RegulationSchedule true (Some n_RegulatingControl); ERef n_Terminal n_CIM14_CPSM_Equipment_Core_Terminal_Terminal false (Some n_RegulatingControl); ERef n_RegulatingCondEq n_CIM14_CPSM_Equipment_Wires_RegulatingCondEq_RegulatingCondEq true (Some n_RegulatingControl); ERef n_TapChanger n_CIM14_CPSM_Equipment_Wires_TapChanger_TapChanger true (Some n_RegulatingControl)];
(* Model/CIM14/CPSM/Equipment.ecore:2565-2585 *)
  EClass n_CIM14_CPSM_Equipment_Wires_RegulationSchedule_RegulationSchedule n_RegulationSchedule (Some n_CIM14_CPSM_Equipment_LoadModel_SeasonDayTypeSchedule_SeasonDayTypeSchedule)
    []
    [ERef n_RegulatingControl n_CIM14_CPSM_Equipment_Wires_RegulatingControl_RegulatingControl false (Some n_RegulationSchedule)];
(* Model/CIM14/CPSM/Equipment.ecore:2418-2447 *)
  EClass n_CIM14_CPSM_Equipment_Wires_SeriesCompensator_SeriesCompensator n_SeriesCompensator (Some n_CIM14_CPSM_Equipment_Core_ConductingEquipment_ConductingEquipment)
    [(n_r, TFloat); (n_x, TFloat)]
    [];
(* Model/CIM14/CPSM/Equipment.ecore:2586-2662 *)
  EClass n_CIM14_CPSM_Equipment_Wires_ShuntCompensator_ShuntCompensator n_ShuntCompensator (Some n_CIM14_CPSM_Equipment_Wires_RegulatingCondEq_RegulatingCondEq)
    [(n_g0PerSection, TFloat); (n_bPerSection, TFloat); (n_nomU, TFloat); (n_gPerSection, TFloat); (n_normalSections, TInt); (n_b0PerSection, TFloat); (n_maximumSections, TInt)]
    [];
(* Model/CIM14/CPSM/Equipment.ecore:3265-3321 *)
  EClass n_CIM14_CPSM_Equipment_Wires_StaticVarCompensator_StaticVarCompensator n_StaticVarCompensator (Some n_CIM14_CPSM_Equipment_Wires_RegulatingCondEq_RegulatingCondEq)
    [(n_voltageSetPoint, TFloat); (n_capacitiveRating, TFloat); (n_slope, TFloat); (n_inductiveRating, TFloat); (n_sVCControlMode, enum_cim14_cpsm_equipment_CPSM_Equipment_Wires_SVCControlMode)]
    [];
(* Model/CIM14/CPSM/Equipment.ecore:2530-2564 *)
  EClass n_CIM14_CPSM_Equipment_Wires_Switch_Switch n_Switch (Some n_CIM14_CPSM_Equipment_Core_ConductingEquipment_ConductingEquipment)
    [(n_normalOpen, TBool)]
    [ERef n_SwitchSchedules n_CIM14_CPSM_Equipment_Wires_SwitchSchedule_SwitchSchedule true (Some n_Switch)];
(* Model/CIM14/CPSM/Equipment.ecore:2089-2109 *)
  EClass n_CIM14_CPSM_Equipment_Wires_SwitchSchedule_SwitchSchedule n_SwitchSchedule (Some n_CIM14_CPSM_Equipment_LoadModel_SeasonDayTypeSchedule_SeasonDayTypeSchedule)
    []
    [ERef n_Switch n_CIM14_CPSM_Equipment_Wires_Switch_Switch false (Some n_SwitchSchedules)];
(* Model/CIM14/CPSM/Equipment.ecore:3020-3170 *)
  EClass n_CIM14_CPSM_Equipment_Wires_SynchronousMachine_SynchronousMachine n_SynchronousMachine (Some n_CIM14_CPSM_Equipment_Wires_RegulatingCondEq_RegulatingCondEq)
    [(n_x0, TFloat); (n_qPercent, TFloat); (n_x2, TFloat); (n_r, TFloat); (n_operatingMode, enum_cim14_cpsm_equipment_CPSM_Equipment_Wires_SynchronousMachineOperatingMode); (n_r0, TFloat); (n_type, enum_cim14_cpsm_equipment_CPSM_Equipment_Wires_SynchronousMachineType); (n_r2, TFloat); (n_maxQ, TFloat); (n_x, TFloat); (n_ratedS, TFloat); (n_minQ, TFloat)]
    [ERef n_InitialReactiveCapabilityCurve n_CIM14_CPSM_Equipment_Wires_ReactiveCapabilityCurve_ReactiveCapabilityCurve false (Some n_InitiallyUsedBySynchronousMachines); ERef n_HydroPump n_CIM14_CPSM_Equipment_Generation_Production_HydroPump_HydroPump false (Some n_SynchronousMachine); ERef n_GeneratingUnit n_CIM14_CPSM_Equipment_Generation_Production_GeneratingUnit_GeneratingUnit false (Some n_SynchronousMachines)];
(* Model/CIM14/CPSM/Equipment.ecore:2688-2804 *)
  EClass n_CIM14_CPSM_Equipment_Wires_TapChanger_TapChanger n_TapChanger (Some n_CIM14_CPSM_Equipment_Core_PowerSystemResource_PowerSystemResource)
    [(n_stepVoltageIncrement, TFloat); (n_neutralStep, TInt); (n_normalStep, TInt); (n_ltcFlag, TBool); (n_neutralU, TFloat); (n_lowStep, TInt); (n_regulationStatus, TBool); (n_highStep, TInt)]
    [ERef n_TapSchedules n_CIM14_CPSM_Equipment_Wires_TapSchedule_TapSchedule true (Some n_TapChanger); ERef n_ImpedanceVariationCurve n_CIM14_CPSM_Equipment_Wires_ImpedanceVariationCurve_ImpedanceVariationCurve false (Some n_TapChanger); ERef n_RegulatingControl n_CIM14_CPSM_Equipment_Wires_RegulatingControl_RegulatingControl false (Some n_TapChanger)];
(* Model/CIM14/CPSM/Equipment.ecore:2900-2916 *)
  EClass n_CIM14_CPSM_Equipment_Wires_TapSchedule_TapSchedule n_TapSchedule (Some n_CIM14_CPSM_Equipment_LoadModel_SeasonDayTypeSchedule_SeasonDayTypeSchedule)
    []
    [ERef n_TapChanger n_CIM14_CPSM_Equipment_Wires_TapChanger_TapChanger false (Some n_TapSchedules)];
(* Model/CIM14/CPSM/Equipment.ecore:1925-2088 *)
  EClass n_CIM14_CPSM_Equipment_Wires_TransformerWinding_TransformerWinding n_TransformerWinding (Some n_CIM14_CPSM_Equipment_Core_ConductingEquipment_ConductingEquipment)
    [(n_x, TFloat); (n_x0, TFloat); (n_b0, TFloat); (n_g0, TFloat); (n_rground, TFloat); (n_b, TFloat); (n_connectionType, enum_cim14_cpsm_equipment_CPSM_Equipment_Wires_WindingConnection); (n_ratedS, TFloat); (n_r, TFloat); (n_r0, TFloat); (n_ratedU, TFloat); (n_xground, TFloat); (n_windingType, enum_cim14_cpsm_equipment_CPSM_Equipment_Wires_WindingType)]
    [ERef n_RatioTapChanger n_CIM14_CPSM_Equipment_Wires_RatioTapChanger_RatioTapChanger false (Some n_TransformerWinding); ERef n_PhaseTapChanger n_CIM14_CPSM_Equipment_Wires_PhaseTapChanger_PhaseTapChanger false (Some n_TransformerWinding); ERef n_PowerTransformer n_CIM14_CPSM_Equipment_Wires_PowerTransformer_PowerTransformer false (Some n_TransformerWindings)]].

(** Classes of Model/CIM14/CPSM/StateVariables.ecore: 12. *)
Definition ecore_cim14_cpsm_statevariables : list eclass := [
(* Model/CIM14/CPSM/StateVariables.ecore:236-256 *)
  EClass n_CIM14_CPSM_StateVariables_Core_Terminal_Terminal n_Terminal (Some n_CIM14_CPSM_StateVariables_Element_Element)
    []
    [ERef n_SvPowerFlow n_CIM14_CPSM_StateVariables_StateVariables_SvPowerFlow_SvPowerFlow false (Some n_Terminal)];
(* Model/CIM14/CPSM/StateVariables.ecore:14-17 *)
  EClass n_CIM14_CPSM_StateVariables_Element_Element n_Element None
    [(n_UUID, TText)]
    [];
(* Model/CIM14/CPSM/StateVariables.ecore:302-337 *)
  EClass n_CIM14_CPSM_StateVariables_StateVariables_SvInjection_SvInjection n_SvInjection (Some n_CIM14_CPSM_StateVariables_Element_Element)
    [(n_qNetInjection, TFloat); (n_pNetInjection, TFloat)]
    [ERef n_TopologicalNode n_CIM14_CPSM_StateVariables_Topology_TopologicalNode_TopologicalNode false (Some n_SvInjection)];
(* Model/CIM14/CPSM/StateVariables.ecore:402-436 *)
  EClass n_CIM14_CPSM_StateVariables_StateVariables_SvPowerFlow_SvPowerFlow n_SvPowerFlow (Some n_CIM14_CPSM_StateVariables_Element_Element)
    [(n_p, TFloat); (n_q, TFloat)]
    [ERef n_Terminal n_CIM14_CPSM_StateVariables_Core_Terminal_Terminal false (Some n_SvPowerFlow)];
(* Model/CIM14/CPSM/StateVariables.ecore:437-493 *)
  EClass n_CIM14_CPSM_StateVariables_StateVariables_SvShortCircuit_SvShortCircuit n_SvShortCircuit (Some n_CIM14_CPSM_StateVariables_Element_Element)
    [(n_sShortCircuit, TFloat); (n_x0PerX, TFloat); (n_r0PerR, TFloat); (n_xPerR, TFloat)]
    [ERef n_TopologicalNode n_CIM14_CPSM_StateVariables_Topology_TopologicalNode_TopologicalNode false (Some n_SvShortCircuit)];
(* Model/CIM14/CPSM/StateVariables.ecore:494-530 *)
  EClass n_CIM14_CPSM_StateVariables_StateVariables_SvShuntCompensatorSections_SvShuntCompensatorSections n_SvShuntCompensatorSections (Some n_CIM14_CPSM_StateVariables_Element_Element)
    [(n_sections, TInt); (n_continuousSections, TFloat)]
    [ERef n_ShuntCompensator n_CIM14_CPSM_StateVariables_Wires_ShuntCompensator_ShuntCompensator false (Some n_SvShuntCompensatorSections)];
(* Model/CIM14/CPSM/StateVariables.ecore:266-301 *)
  EClass n_CIM14_CPSM_StateVariables_StateVariables_SvTapStep_SvTapStep n_SvTapStep (Some n_CIM14_CPSM_StateVariables_Element_Element)
    [(n_position, TInt); (n_continuousPosition, TFloat)]
    [ERef n_TapChanger n_CIM14_CPSM_StateVariables_Wires_TapChanger_TapChanger false (Some n_SvTapStep)];
(* Model/CIM14/CPSM/StateVariables.ecore:338-373 *)
  EClass n_CIM14_CPSM_StateVariables_StateVariables_SvVoltage_SvVoltage n_SvVoltage (Some n_CIM14_CPSM_StateVariables_Element_Element)
    [(n_angle, TFloat); (n_v, TFloat)]
    [ERef n_TopologicalNode n_CIM14_CPSM_StateVariables_Topology_TopologicalNode_TopologicalNode false (Some n_SvVoltage)];
(* Model/CIM14/CPSM/StateVariables.ecore:374-401 *)
  EClass n_CIM14_CPSM_StateVariables_StateVariables_TopologicalIsland_TopologicalIsland n_TopologicalIsland (Some n_CIM14_CPSM_StateVariables_Element_Element)
    []
    [ERef n_AngleRef_TopologicalNode n_CIM14_CPSM_StateVariables_Topology_TopologicalNode_TopologicalNode false (Some n_AngleRef_TopologicalIsland); ERef n_TopologicalNodes n_CIM14_CPSM_StateVariables_Topology_TopologicalNode_TopologicalNode true (Some n_TopologicalIsland)];
(* Model/CIM14/CPSM/StateVariables.ecore:153-226 *)
  EClass n_CIM14_CPSM_StateVariables_Topology_TopologicalNode_TopologicalNode n_TopologicalNode (Some n_CIM14_CPSM_StateVariables_Element_Element)
    []
    [ERef n_TopologicalIsland n_CIM14_CPSM_StateVariables_StateVariables_TopologicalIsland_TopologicalIsland false (Some n_TopologicalNodes); ERef n_SvShortCircuit n_CIM14_CPSM_StateVariables_StateVariables_SvShortCircuit_SvShortCircuit false (Some n_TopologicalNode); ERef n_SvVoltage n_CIM14_CPSM_StateVariables_StateVariables_SvVoltage_SvVoltage false (Some n_TopologicalNode); ERef n_SvInjection n_CIM14_CPSM_StateVariables_StateVariables_SvInjection_SvInjection false (Some n_TopologicalNode); ERef n_AngleRef_TopologicalIsland n_CIM14_CPSM_StateVariables_StateVariables_TopologicalIsland_TopologicalIsland false (Some n_AngleRef_TopologicalNode)];
(* Model/CIM14/CPSM/StateVariables.ecore:540-562 *)
  EClass n_CIM14_CPSM_StateVariables_Wires_ShuntCompensator_ShuntCompensator n_ShuntCompensator (Some n_CIM14_CPSM_StateVariables_Element_Element)
    []
    [ERef n_SvShuntCompensatorSections n_CIM14_CPSM_StateVariables_StateVariables_SvShuntCompensatorSections_SvShuntCompensatorSections false (Some n_ShuntCompensator)];
(* Model/CIM14/CPSM/StateVariables.ecore:563-583 *)
  EClass n_CIM14_CPSM_StateVariables_Wires_TapChanger_TapChanger n_TapChanger (Some n_CIM14_CPSM_StateVariables_Element_Element)
    []
    [ERef n_SvTapStep n_CIM14_CPSM_StateVariables_StateVariables_SvTapStep_SvTapStep false (Some n_TapChanger)]].

(** Classes of Model/CIM14/CPSM/Topology.ecore: 6. *)
Definition ecore_cim14_cpsm_topology : list eclass := [
(* Model/CIM14/CPSM/Topology.ecore:174-194 *)
  EClass n_CIM14_CPSM_Topology_Core_BaseVoltage_BaseVoltage n_BaseVoltage (Some n_CIM14_CPSM_Topology_Core_IdentifiedObject_IdentifiedObject)
    []
    [ERef n_TopologicalNode n_CIM14_CPSM_Topology_Topology_TopologicalNode_TopologicalNode true (Some n_BaseVoltage)];
(* Model/CIM14/CPSM/Topology.ecore:98-119 *)
  EClass n_CIM14_CPSM_Topology_Core_ConnectivityNode_ConnectivityNode n_ConnectivityNode (Some n_CIM14_CPSM_Topology_Core_IdentifiedObject_IdentifiedObject)
    []
    [ERef n_TopologicalNode n_CIM14_CPSM_Topology_Topology_TopologicalNode_TopologicalNode false (Some n_ConnectivityNodes)];
(* Model/CIM14/CPSM/Topology.ecore:146-173 *)
  EClass n_CIM14_CPSM_Topology_Core_IdentifiedObject_IdentifiedObject n_IdentifiedObject (Some n_CIM14_CPSM_Topology_Element_Element)
    [(n_name, TText); (n_description, TText)]
    [];
(* Model/CIM14/CPSM/Topology.ecore:120-145 *)
  EClass n_CIM14_CPSM_Topology_Core_Terminal_Terminal n_Terminal (Some n_CIM14_CPSM_Topology_Core_IdentifiedObject_IdentifiedObject)
    [(n_connected, TBool)]
    [ERef n_TopologicalNode n_CIM14_CPSM_Topology_Topology_TopologicalNode_TopologicalNode false (Some n_Terminal)];
(* Model/CIM14/CPSM/Topology.ecore:14-17 *)
  EClass n_CIM14_CPSM_Topology_Element_Element n_Element None
    [(n_UUID, TText)]
    [];
(* Model/CIM14/CPSM/Topology.ecore:204-242 *)
  EClass n_CIM14_CPSM_Topology_Topology_TopologicalNode_TopologicalNode n_TopologicalNode (Some n_CIM14_CPSM_Topology_Core_IdentifiedObject_IdentifiedObject)
    []
    [ERef n_ConnectivityNodes n_CIM14_CPSM_Topology_Core_ConnectivityNode_ConnectivityNode true (Some n_TopologicalNode); ERef n_BaseVoltage n_CIM14_CPSM_Topology_Core_BaseVoltage_BaseVoltage false (Some n_TopologicalNode); ERef n_Terminal n_CIM14_CPSM_Topology_Core_Terminal_Terminal true (Some n_TopologicalNode)]].

(** Classes of Model/CIM14/ENTSOE/Dynamics.ecore: 85. *)
Definition ecore_cim14_entsoe_dynamics : list eclass := [
(* Model/CIM14/ENTSOE/Dynamics.ecore:14-17 *)
  EClass n_CIM14_ENTSOE_Dynamics_Element_Element n_Element None
    [(n_UUID, TText)]
    [];
(* Model/CIM14/ENTSOE/Dynamics.ecore:165-176 *)
  EClass n_CIM14_ENTSOE_Dynamics_IEC61968_Assets_AssetsAsset_AssetsAsset n_AssetsAsset (Some n_CIM14_ENTSOE_Dynamics_IEC61970_Core_CoreIdentifiedObject_CoreIdentifiedObject)
    []
    [ERef n_PowerSystemResources n_CIM14_ENTSOE_Dynamics_IEC61970_Core_CorePowerSystemResource_CorePowerSystemResource true (Some n_Assets)];
(* Model/CIM14/ENTSOE/Dynamics.ecore:195-206 *)
  EClass n_CIM14_ENTSOE_Dynamics_IEC61968_Common_CommonLocation_CommonLocation n_CommonLocation (Some n_CIM14_ENTSOE_Dynamics_IEC61970_Core_CoreIdentifiedObject_CoreIdentifiedObject)
    []
    [ERef n_PowerSystemResources n_CIM14_ENTSOE_Dynamics_IEC61970_Core_CorePowerSystemResource_CorePowerSystemResource true (Some n_Location)];
(* Model/CIM14/ENTSOE/Dynamics.ecore:180-191 *)
  EClass n_CIM14_ENTSOE_Dynamics_IEC61968_Customers_CustomersCustomerAgreement_CustomersCustomerAgreement n_CustomersCustomerAgreement (Some n_CIM14_ENTSOE_Dynamics_IEC61970_Core_CoreIdentifiedObject_CoreIdentifiedObject)
    []
    [ERef n_Equipments n_CIM14_ENTSOE_Dynamics_IEC61970_Core_CoreEquipment_CoreEquipment true (Some n_CustomerAgreements)];
(* Model/CIM14/ENTSOE/Dynamics.ecore:419-430 *)
  EClass n_CIM14_ENTSOE_Dynamics_IEC61970_Contingency_ContingencyContingencyEquipment_ContingencyContingencyEquipment n_ContingencyContingencyEquipment (Some n_CIM14_ENTSOE_Dynamics_IEC61970_Core_CoreIdentifiedObject_CoreIdentifiedObject)
    []
    [ERef n_Equipment n_CIM14_ENTSOE_Dynamics_IEC61970_Core_CoreEquipment_CoreEquipment false (Some n_ContingencyEquipment)];
(* Model/CIM14/ENTSOE/Dynamics.ecore:282-293 *)
  EClass n_CIM14_ENTSOE_Dynamics_IEC61970_Core_CoreBaseVoltage_CoreBaseVoltage n_CoreBaseVoltage (Some n_CIM14_ENTSOE_Dynamics_IEC61970_Core_CoreIdentifiedObject_CoreIdentifiedObject)
    []
    [ERef n_ConductingEquipment n_CIM14_ENTSOE_Dynamics_IEC61970_Core_CoreConductingEquipment_CoreConductingEquipment true (Some n_BaseVoltage)];
(* Model/CIM14/ENTSOE/Dynamics.ecore:386-403 *)
  EClass n_CIM14_ENTSOE_Dynamics_IEC61970_Core_CoreConductingEquipment_CoreConductingEquipment n_CoreConductingEquipment (Some n_CIM14_ENTSOE_Dynamics_IEC61970_Core_CoreEquipment_CoreEquipment)
    [(n_phases, enum_cim14_entsoe_dynamics_ENTSOE_Dynamics_IEC61970_Core_CorePhaseCode)]
    [ERef n_SvStatus n_CIM14_ENTSOE_Dynamics_IEC61970_StateVariables_StateVariablesSvStatus_StateVariablesSvStatus false (Some n_ConductingEquipment); ERef n_ClearanceTags n_CIM14_ENTSOE_Dynamics_IEC61970_Outage_OutageClearanceTag_OutageClearanceTag true (Some n_ConductingEquipment); ERef n_Terminals n_CIM14_ENTSOE_Dynamics_IEC61970_Core_CoreTerminal_CoreTerminal true (Some n_ConductingEquipment); ERef n_ProtectionEquipments n_CIM14_ENTSOE_Dynamics_IEC61970_Protection_ProtectionProtectionEquipment_ProtectionProtectionEquipment true (Some n_ConductingEquipments); ERef n_BaseVoltage n_CIM14_ENTSOE_Dynamics_IEC61970_Core_CoreBaseVoltage_CoreBaseVoltage false (Some n_ConductingEquipment)];
(* Model/CIM14/ENTSOE/Dynamics.ecore:213-232 *)
  EClass n_CIM14_ENTSOE_Dynamics_IEC61970_Core_CoreEquipment_CoreEquipment n_CoreEquipment (Some n_CIM14_ENTSOE_Dynamics_IEC61970_Core_CorePowerSystemResource_CorePowerSystemResource)
    [(n_normaIlyInService, TBool); (n_aggregate, TBool)]
    [ERef n_ContingencyEquipment n_CIM14_ENTSOE_Dynamics_IEC61970_Contingency_ContingencyContingencyEquipment_ContingencyContingencyEquipment true (Some n_Equipment); ERef n_EquipmentContainer n_CIM14_ENTSOE_Dynamics_IEC61970_Core_CoreEquipmentContainer_CoreEquipmentContainer false (Some n_Equipments); ERef n_CustomerAgreements n_CIM14_ENTSOE_Dynamics_IEC61968_Customers_CustomersCustomerAgreement_CustomersCustomerAgreement true (Some n_Equipments); ERef n_OperationalLimitSet n_CIM14_ENTSOE_Dynamics_IEC61970_OperationalLimits_OperationalLimitsOperationalLimitSet_OperationalLimitsOperationalLimitSet true (Some n_Equipment)];
(* Model/CIM14/ENTSOE/Dynamics.ecore:294-304 *)
  EClass n_CIM14_ENTSOE_Dynamics_IEC61970_Core_CoreEquipmentContainer_CoreEquipmentContainer n_CoreEquipmentContainer (Some n_CIM14_ENTSOE_Dynamics_IEC61970_Core_CorePowerSystemResource_CorePowerSystemResource)
    []
    [ERef n_Equipments n_CIM14_ENTSOE_Dynamics_IEC61970_Core_CoreEquipment_CoreEquipment true (Some n_EquipmentContainer)];
(* Model/CIM14/ENTSOE/Dynamics.ecore:233-269 *)
  EClass n_CIM14_ENTSOE_Dynamics_IEC61970_Core_CoreIdentifiedObject_CoreIdentifiedObject n_CoreIdentifiedObject (Some n_CIM14_ENTSOE_Dynamics_Element_Element)
    [(n_mRID, TText); (n_description, TText); (n_name, TText); (n_localName, TText); (n_aliasName, TText); (n_pathName, TText)]
    [ERef n_ModelingAuthoritySet n_CIM14_ENTSOE_Dynamics_IEC61970_Informative_InfCore_InfCoreModelingAuthoritySet_InfCoreModelingAuthoritySet false (Some n_IdentifiedObjects)];
(* Model/CIM14/ENTSOE/Dynamics.ecore:363-373 *)
  EClass n_CIM14_ENTSOE_Dynamics_IEC61970_Core_CoreOperatingShare_CoreOperatingShare n_CoreOperatingShare (Some n_CIM14_ENTSOE_Dynamics_Element_Element)
    []
    [ERef n_PowerSystemResource n_CIM14_ENTSOE_Dynamics_IEC61970_Core_CorePowerSystemResource_CorePowerSystemResource false (Some n_OperatingShare)];
(* Model/CIM14/ENTSOE/Dynamics.ecore:270-281 *)
  EClass n_CIM14_ENTSOE_Dynamics_IEC61970_Core_CorePSRType_CorePSRType n_CorePSRType (Some n_CIM14_ENTSOE_Dynamics_IEC61970_Core_CoreIdentifiedObject_CoreIdentifiedObject)
    []
    [ERef n_PowerSystemResources n_CIM14_ENTSOE_Dynamics_IEC61970_Core_CorePowerSystemResource_CorePowerSystemResource true (Some n_PSRType)];
(* Model/CIM14/ENTSOE/Dynamics.ecore:336-362 *)
  EClass n_CIM14_ENTSOE_Dynamics_IEC61970_Core_CorePowerSystemResource_CorePowerSystemResource n_CorePowerSystemResource (Some n_CIM14_ENTSOE_Dynamics_IEC61970_Core_CoreIdentifiedObject_CoreIdentifiedObject)
    []
    [ERef n_Block n_CIM14_ENTSOE_Dynamics_IEC61970_Dynamics_DynamicsBlock_DynamicsBlock true (Some n_PowerSystemResource); ERef n_Location n_CIM14_ENTSOE_Dynamics_IEC61968_Common_CommonLocation_CommonLocation false (Some n_PowerSystemResources); ERef n_ReportingGroup n_CIM14_ENTSOE_Dynamics_IEC61970_Core_CoreReportingGroup_CoreReportingGroup true (Some n_PowerSystemResource); ERef n_PsrLists n_CIM14_ENTSOE_Dynamics_IEC61970_Core_CorePsrList_CorePsrList true (Some n_PowerSystemResources); ERef n_OperatingShare n_CIM14_ENTSOE_Dynamics_IEC61970_Core_CoreOperatingShare_CoreOperatingShare true (Some n_PowerSystemResource); ERef n_OutageSchedule n_CIM14_ENTSOE_Dynamics_IEC61970_Outage_OutageOutageSchedule_OutageOutageSchedule false (Some n_PowerSystemResource); ERef n_Measurements n_CIM14_ENTSOE_Dynamics_IEC61970_Meas_MeasMeasurement_MeasMeasurement true (Some n_PowerSystemResource); ERef n_Assets n_CIM14_ENTSOE_Dynamics_IEC61968_Assets_AssetsAsset_AssetsAsset true (Some n_PowerSystemResources); ERef n_PSRType n_CIM14_ENTSOE_Dynamics_IEC61970_Core_CorePSRType_CorePSRType false (Some n_PowerSystemResources)];
(* Model/CIM14/ENTSOE/Dynamics.ecore:404-415 *)
  EClass n_CIM14_ENTSOE_Dynamics_IEC61970_Core_CorePsrList_CorePsrList n_CorePsrList (Some n_CIM14_ENTSOE_Dynamics_IEC61970_Core_CoreIdentifiedObject_CoreIdentifiedObject)
    []
    [ERef n_PowerSystemResources n_CIM14_ENTSOE_Dynamics_IEC61970_Core_CorePowerSystemResource_CorePowerSystemResource true (Some n_PsrLists)];
(* Model/CIM14/ENTSOE/Dynamics.ecore:374-385 *)
  EClass n_CIM14_ENTSOE_Dynamics_IEC61970_Core_CoreReportingGroup_CoreReportingGroup n_CoreReportingGroup (Some n_CIM14_ENTSOE_Dynamics_IEC61970_Core_CoreIdentifiedObject_CoreIdentifiedObject)
    []
    [ERef n_PowerSystemResource n_CIM14_ENTSOE_Dynamics_IEC61970_Core_CorePowerSystemResource_CorePowerSystemResource true (Some n_ReportingGroup)];
(* Model/CIM14/ENTSOE/Dynamics.ecore:305-315 *)
  EClass n_CIM14_ENTSOE_Dynamics_IEC61970_Core_CoreTerminal_CoreTerminal n_CoreTerminal (Some n_CIM14_ENTSOE_Dynamics_IEC61970_Core_CoreIdentifiedObject_CoreIdentifiedObject)
    []
    [ERef n_ConductingEquipment n_CIM14_ENTSOE_Dynamics_IEC61970_Core_CoreConductingEquipment_CoreConductingEquipment false (Some n_Terminals)];
(* Model/CIM14/ENTSOE/Dynamics.ecore:1131-1223 *)
  EClass n_CIM14_ENTSOE_Dynamics_IEC61970_Dynamics_DynamicsAsynchronousMachine_DynamicsAsynchronousMachine n_DynamicsAsynchronousMachine (Some n_CIM14_ENTSOE_Dynamics_IEC61970_Dynamics_DynamicsRotatingMachine_DynamicsRotatingMachine)
    [(n_rr1, TFloat); (n_xp, TFloat); (n_tpo, TFloat); (n_xm, TFloat); (n_xs, TFloat); (n_rr2, TFloat); (n_xlr1, TFloat); (n_xlr2, TFloat); (n_tppo, TFloat); (n_xpp, TFloat)]
    [];
(* Model/CIM14/ENTSOE/Dynamics.ecore:672-677 *)
  EClass n_CIM14_ENTSOE_Dynamics_IEC61970_Dynamics_DynamicsAttributeBlockParameter_DynamicsAttributeBlockParameter n_DynamicsAttributeBlockParameter (Some n_CIM14_ENTSOE_Dynamics_IEC61970_Dynamics_DynamicsMetaBlockParameter_DynamicsMetaBlockParameter)
    [(n_attributeName, TText)]
    [];
(* Model/CIM14/ENTSOE/Dynamics.ecore:1237-1271 *)
  EClass n_CIM14_ENTSOE_Dynamics_IEC61970_Dynamics_DynamicsBlock_DynamicsBlock n_DynamicsBlock (Some n_CIM14_ENTSOE_Dynamics_IEC61970_Core_CorePowerSystemResource_CorePowerSystemResource)
    [(n_inService, TBool); (n_positiveFlowIn, TBool)]
    [ERef n_BlockParameter n_CIM14_ENTSOE_Dynamics_IEC61970_Dynamics_DynamicsBlockParameter_DynamicsBlockParameter true (Some n_MemberOf_Block); ERef n_PowerSystemResource n_CIM14_ENTSOE_Dynamics_IEC61970_Core_CorePowerSystemResource_CorePowerSystemResource false (Some n_Block); ERef n_BlockConnection n_CIM14_ENTSOE_Dynamics_IEC61970_Dynamics_DynamicsBlockConnection_DynamicsBlockConnection true (Some n_Block); ERef n_MemberOf_BlockConnectivity n_CIM14_ENTSOE_Dynamics_IEC61970_Dynamics_DynamicsBlockConnectivity_DynamicsBlockConnectivity false (Some n_Block); ERef n_MetaBlock n_CIM14_ENTSOE_Dynamics_IEC61970_Dynamics_DynamicsMetaBlock_DynamicsMetaBlock false (Some n_Block)];
(* Model/CIM14/ENTSOE/Dynamics.ecore:772-781 *)
  EClass n_CIM14_ENTSOE_Dynamics_IEC61970_Dynamics_DynamicsBlockConnection_DynamicsBlockConnection n_DynamicsBlockConnection (Some n_CIM14_ENTSOE_Dynamics_IEC61970_Core_CoreIdentifiedObject_CoreIdentifiedObject)
    []
    [ERef n_MemberOf_BlockConnectivity n_CIM14_ENTSOE_Dynamics_IEC61970_Dynamics_DynamicsBlockConnectivity_DynamicsBlockConnectivity false (Some n_BlockConnection); ERef n_MetaBlockConnection n_CIM14_ENTSOE_Dynamics_IEC61970_Dynamics_DynamicsMetaBlockConnection_DynamicsMetaBlockConnection false (Some n_BlockConnection); ERef n_Block n_CIM14_ENTSOE_Dynamics_IEC61970_Dynamics_DynamicsBlock_DynamicsBlock false (Some n_BlockConnection)];
(* Model/CIM14/ENTSOE/Dynamics.ecore:1095-1118 *)
  EClass n_CIM14_ENTSOE_Dynamics_IEC61970_Dynamics_DynamicsBlockConnectivity_DynamicsBlockConnectivity n_DynamicsBlockConnectivity (Some n_CIM14_ENTSOE_Dynamics_IEC61970_Core_CoreIdentifiedObject_CoreIdentifiedObject)
    []
    [ERef n_Block n_CIM14_ENTSOE_Dynamics_IEC61970_Dynamics_DynamicsBlock_DynamicsBlock true (Some n_MemberOf_BlockConnectivity); ERef n_BlockConnection n_CIM14_ENTSOE_Dynamics_IEC61970_Dynamics_DynamicsBlockConnection_DynamicsBlockConnection true (Some n_MemberOf_BlockConnectivity); ERef n_MetaBlockConnectivity n_CIM14_ENTSOE_Dynamics_IEC61970_Dynamics_DynamicsMetaBlockConnectivity_DynamicsMetaBlockConnectivity false (Some n_BlockConnectivity)];
(* Model/CIM14/ENTSOE/Dynamics.ecore:1224-1236 *)
  EClass n_CIM14_ENTSOE_Dynamics_IEC61970_Dynamics_DynamicsBlockParameter_DynamicsBlockParameter n_DynamicsBlockParameter (Some n_CIM14_ENTSOE_Dynamics_IEC61970_Core_CoreIdentifiedObject_CoreIdentifiedObject)
    [(n_value, TFloat)]
    [ERef n_MetaBlockParameter n_CIM14_ENTSOE_Dynamics_IEC61970_Dynamics_DynamicsMetaBlockParameter_DynamicsMetaBlockParameter false (Some n_BlockParameter); ERef n_MemberOf_MetaBlockReference n_CIM14_ENTSOE_Dynamics_IEC61970_Dynamics_DynamicsMetaBlockReference_DynamicsMetaBlockReference false (Some n_BlockParameter); ERef n_MemberOf_Block n_CIM14_ENTSOE_Dynamics_IEC61970_Dynamics_DynamicsBlock_DynamicsBlock false (Some n_BlockParameter)];
(* Model/CIM14/ENTSOE/Dynamics.ecore:805-880 *)
  EClass n_CIM14_ENTSOE_Dynamics_IEC61970_Dynamics_DynamicsMetaBlock_DynamicsMetaBlock n_DynamicsMetaBlock (Some n_CIM14_ENTSOE_Dynamics_IEC61970_Core_CoreIdentifiedObject_CoreIdentifiedObject)
    [(n_blockKind, enum_cim14_entsoe_dynamics_ENTSOE_Dynamics_IEC61970_Dynamics_DynamicsBlockKind); (n_proprietary, TBool)]
    [ERef n_Block n_CIM14_ENTSOE_Dynamics_IEC61970_Dynamics_DynamicsBlock_DynamicsBlock true (Some n_MetaBlock); ERef n_MetaBlockSignal n_CIM14_ENTSOE_Dynamics_IEC61970_Dynamics_DynamicsMetaBlockSignal_DynamicsMetaBlockSignal true (Some n_MemberOf_MetaBlock); ERef n_MetaBlockReference n_CIM14_ENTSOE_Dynamics_IEC61970_Dynamics_DynamicsMetaBlockReference_DynamicsMetaBlockReference true (Some n_MemberOf_MetaBlock); ERef n_MetaBlockParameter n_CIM14_ENTSOE_Dynamics_IEC61970_Dynamics_DynamicsMetaBlockParameter_DynamicsMetaBlockParameter true (Some n_MemberOf_MetaBlock); ERef n_MetaBlockOutput n_CIM14_ENTSOE_Dynamics_IEC61970_Dynamics_DynamicsMetaBlockOutput_DynamicsMetaBlockOutput true (Some n_MemberOf_MetaBlock); ERef n_MetaBlockInput n_CIM14_ENTSOE_Dynamics_IEC61970_Dynamics_DynamicsMetaBlockInput_DynamicsMetaBlockInput true (Some n_MemberOf_MetaBlock); ERef n_MetaBlockState n_CIM14_ENTSOE_Dynamics_IEC61970_Dynamics_DynamicsMetaBlockState_DynamicsMetaBlockState true (Some n_MemberOf_MetaBlock)];
(* Model/CIM14/ENTSOE/Dynamics.ecore:881-895 *)
  EClass n_CIM14_ENTSOE_Dynamics_IEC61970_Dynamics_DynamicsMetaBlockConInput_DynamicsMetaBlockConInput n_DynamicsMetaBlockConInput (Some n_CIM14_ENTSOE_Dynamics_IEC61970_Core_CoreIdentifiedObject_CoreIdentifiedObject)
    []
    [ERef n_MetaBlockConSignal n_CIM14_ENTSOE_Dynamics_IEC61970_Dynamics_DynamicsMetaBlockConSignal_DynamicsMetaBlockConSignal false (Some n_MetaBlockConInput); ERef n_MemberOf_MetaBlockConnection n_CIM14_ENTSOE_Dynamics_IEC61970_Dynamics_DynamicsMetaBlockConnection_DynamicsMetaBlockConnection false (Some n_MetaBlockConInput)];
(* Model/CIM14/ENTSOE/Dynamics.ecore:714-729 *)
  EClass n_CIM14_ENTSOE_Dynamics_IEC61970_Dynamics_DynamicsMetaBlockConOutput_DynamicsMetaBlockConOutput n_DynamicsMetaBlockConOutput (Some n_CIM14_ENTSOE_Dynamics_IEC61970_Core_CoreIdentifiedObject_CoreIdentifiedObject)
    []
    [ERef n_MemberOf_MetaBlockConnection n_CIM14_ENTSOE_Dynamics_IEC61970_Dynamics_DynamicsMetaBlockConnection_DynamicsMetaBlockConnection false (Some n_MetaBlockConOutput); ERef n_MetaBlockConSignal n_CIM14_ENTSOE_Dynamics_IEC61970_Dynamics_DynamicsMetaBlockConSignal_DynamicsMetaBlockConSignal true (Some n_MetaBlockConOutput)];
(* Model/CIM14/ENTSOE/Dynamics.ecore:591-599 *)
  EClass n_CIM14_ENTSOE_Dynamics_IEC61970_Dynamics_DynamicsMetaBlockConSignal_DynamicsMetaBlockConSignal n_DynamicsMetaBlockConSignal (Some n_CIM14_ENTSOE_Dynamics_IEC61970_Core_CoreIdentifiedObject_CoreIdentifiedObject)
    []
    [ERef n_MetaBlockConInput n_CIM14_ENTSOE_Dynamics_IEC61970_Dynamics_DynamicsMetaBlockConInput_DynamicsMetaBlockConInput false (Some n_MetaBlockConSignal); ERef n_MetaBlockConOutput n_CIM14_ENTSOE_Dynamics_IEC61970_Dynamics_DynamicsMetaBlockConOutput_DynamicsMetaBlockConOutput false (Some n_MetaBlockConSignal)];
(* Model/CIM14/ENTSOE/Dynamics.ecore:912-994 *)
  EClass n_CIM14_ENTSOE_Dynamics_IEC61970_Dynamics_DynamicsMetaBlockConnectable_DynamicsMetaBlockConnectable n_DynamicsMetaBlockConnectable (Some n_CIM14_ENTSOE_Dynamics_IEC61970_Core_CoreIdentifiedObject_CoreIdentifiedObject)
    []
    [ERef n_MetaBlockParameterReference n_CIM14_ENTSOE_Dynamics_IEC61970_Dynamics_DynamicsMetaBlockParameterReference_DynamicsMetaBlockParameterReference true (Some n_MetaBlockConnectable); ERef n_StandardControlBlock_MetaBlockInputReference n_CIM14_ENTSOE_Dynamics_IEC61970_Dynamics_DynamicsMetaBlockInputReference_DynamicsMetaBlockInputReference true (Some n_StandardControlBlock_MetaBlockConnectable); ERef n_MetaBlockStateReference n_CIM14_ENTSOE_Dynamics_IEC61970_Dynamics_DynamicsMetaBlockStateReference_DynamicsMetaBlockStateReference true (Some n_MetaBlockConnectable); ERef n_StandardControlBlock_MetaBlockStateReference n_CIM14_ENTSOE_Dynamics_IEC61970_Dynamics_DynamicsMetaBlockStateReference_DynamicsMetaBlockStateReference true (Some n_StandardControlBlock_MetaBlockConnectable); ERef n_MetaBlockInputReference n_CIM14_ENTSOE_Dynamics_IEC61970_Dynamics_DynamicsMetaBlockInputReference_DynamicsMetaBlockInputReference true (Some n_MetaBlockConnectable); ERef n_StandardControlBlock_MetaBlockParameterReference n_CIM14_ENTSOE_Dynamics_IEC61970_Dynamics_DynamicsMetaBlockParameterReference_DynamicsMetaBlockParameterReference true (Some n_StandardControlBlock_MetaBlockConnectable); ERef n_StandardControlBlock_MetaBlockOutputReference n_CIM14_ENTSOE_Dynamics_IEC61970_Dynamics_DynamicsMetaBlockOutputReference_DynamicsMetaBlockOutputReference true (Some n_StandardControlBlock_MetaBlockConnectable); ERef n_MetaBlockOutputReference n_CIM14_ENTSOE_Dynamics_IEC61970_Dynamics_DynamicsMetaBlockOutputReference_DynamicsMetaBlockOutputReference true (Some n_MetaBlockConnectable)];
(* Model/CIM14/ENTSOE/Dynamics.ecore:678-713 *)
  EClass n_CIM14_ENTSOE_Dynamics_IEC61970_Dynamics_DynamicsMetaBlockConnection_DynamicsMetaBlockConnection n_DynamicsMetaBlockConnection (Some n_CIM14_ENTSOE_Dynamics_IEC61970_Core_CoreIdentifiedObject_CoreIdentifiedObject)
    []
    [ERef n_MetaBlockConOutput n_CIM14_ENTSOE_Dynamics_IEC61970_Dynamics_DynamicsMetaBlockConOutput_DynamicsMetaBlockConOutput true (Some n_MemberOf_MetaBlockConnection); ERef n_MemberOf_MetaBlockConnectivity n_CIM14_ENTSOE_Dynamics_IEC61970_Dynamics_DynamicsMetaBlockConnectivity_DynamicsMetaBlockConnectivity false (Some n_MetaBlockConnection); ERef n_BlockConnection n_CIM14_ENTSOE_Dynamics_IEC61970_Dynamics_DynamicsBlockConnection_DynamicsBlockConnection true (Some n_MetaBlockConnection); ERef n_MetaBlockConInput n_CIM14_ENTSOE_Dynamics_IEC61970_Dynamics_DynamicsMetaBlockConInput_DynamicsMetaBlockConInput true (Some n_MemberOf_MetaBlockConnection)];
(* Model/CIM14/ENTSOE/Dynamics.ecore:782-804 *)
  EClass n_CIM14_ENTSOE_Dynamics_IEC61970_Dynamics_DynamicsMetaBlockConnectivity_DynamicsMetaBlockConnectivity n_DynamicsMetaBlockConnectivity (Some n_CIM14_ENTSOE_Dynamics_IEC61970_Core_CoreIdentifiedObject_CoreIdentifiedObject)
    []
    [ERef n_BlockConnectivity n_CIM14_ENTSOE_Dynamics_IEC61970_Dynamics_DynamicsBlockConnectivity_DynamicsBlockConnectivity true (Some n_MetaBlockConnectivity); ERef n_MetaBlockConnection n_CIM14_ENTSOE_Dynamics_IEC61970_Dynamics_DynamicsMetaBlockConnection_DynamicsMetaBlockConnection true (Some n_MemberOf_MetaBlockConnectivity)];
(* Model/CIM14/ENTSOE/Dynamics.ecore:730-734 *)
  EClass n_CIM14_ENTSOE_Dynamics_IEC61970_Dynamics_DynamicsMetaBlockInput_DynamicsMetaBlockInput n_DynamicsMetaBlockInput (Some n_CIM14_ENTSOE_Dynamics_IEC61970_Dynamics_DynamicsMetaBlockConnectable_DynamicsMetaBlockConnectable)
    []
    [ERef n_MemberOf_MetaBlock n_CIM14_ENTSOE_Dynamics_IEC61970_Dynamics_DynamicsMetaBlock_DynamicsMetaBlock false (Some n_MetaBlockInput)];
(* Model/CIM14/ENTSOE/Dynamics.ecore:995-1016 *)
  EClass n_CIM14_ENTSOE_Dynamics_IEC61970_Dynamics_DynamicsMetaBlockInputReference_DynamicsMetaBlockInputReference n_DynamicsMetaBlockInputReference (Some n_CIM14_ENTSOE_Dynamics_IEC61970_Core_CoreIdentifiedObject_CoreIdentifiedObject)
    []
    [ERef n_MemberOf_MetaBlockReference n_CIM14_ENTSOE_Dynamics_IEC61970_Dynamics_DynamicsMetaBlockReference_DynamicsMetaBlockReference false (Some n_MetaBlockInputReference); ERef n_MetaBlockSignal n_CIM14_ENTSOE_Dynamics_IEC61970_Dynamics_DynamicsMetaBlockSignal_DynamicsMetaBlockSignal false (Some n_From); ERef n_MetaBlockConnectable n_CIM14_ENTSOE_Dynamics_IEC61970_Dynamics_DynamicsMetaBlockConnectable_DynamicsMetaBlockConnectable false (Some n_MetaBlockInputReference); ERef n_StandardControlBlock_MetaBlockConnectable n_CIM14_ENTSOE_Dynamics_IEC61970_Dynamics_DynamicsMetaBlockConnectable_DynamicsMetaBlockConnectable false (Some n_StandardControlBlock_MetaBlockInputReference)];
(* Model/CIM14/ENTSOE/Dynamics.ecore:1272-1276 *)
  EClass n_CIM14_ENTSOE_Dynamics_IEC61970_Dynamics_DynamicsMetaBlockOutput_DynamicsMetaBlockOutput n_DynamicsMetaBlockOutput (Some n_CIM14_ENTSOE_Dynamics_IEC61970_Dynamics_DynamicsMetaBlockConnectable_DynamicsMetaBlockConnectable)
    []
    [ERef n_MemberOf_MetaBlock n_CIM14_ENTSOE_Dynamics_IEC61970_Dynamics_DynamicsMetaBlock_DynamicsMetaBlock false (Some n_MetaBlockOutput)];
(* Model/CIM14/ENTSOE/Dynamics.ecore:735-756 *)
  EClass n_CIM14_ENTSOE_Dynamics_IEC61970_Dynamics_DynamicsMetaBlockOutputReference_DynamicsMetaBlockOutputReference n_DynamicsMetaBlockOutputReference (Some n_CIM14_ENTSOE_Dynamics_IEC61970_Core_CoreIdentifiedObject_CoreIdentifiedObject)
    []
    [ERef n_MetaBlockSignal n_CIM14_ENTSOE_Dynamics_IEC61970_Dynamics_DynamicsMetaBlockSignal_DynamicsMetaBlockSignal true (Some n_To); ERef n_MetaBlockConnectable n_CIM14_ENTSOE_Dynamics_IEC61970_Dynamics_DynamicsMetaBlockConnectable_DynamicsMetaBlockConnectable false (Some n_MetaBlockOutputReference); ERef n_StandardControlBlock_MetaBlockConnectable n_CIM14_ENTSOE_Dynamics_IEC61970_Dynamics_DynamicsMetaBlockConnectable_DynamicsMetaBlockConnectable false (Some n_StandardControlBlock_MetaBlockOutputReference); ERef n_MemberOf_MetaBlockReference n_CIM14_ENTSOE_Dynamics_IEC61970_Dynamics_DynamicsMetaBlockReference_DynamicsMetaBlockReference false (Some n_MetaBlockOutputReference)];
(* Model/CIM14/ENTSOE/Dynamics.ecore:896-911 *)
  EClass n_CIM14_ENTSOE_Dynamics_IEC61970_Dynamics_DynamicsMetaBlockParameter_DynamicsMetaBlockParameter n_DynamicsMetaBlockParameter (Some n_CIM14_ENTSOE_Dynamics_IEC61970_Dynamics_DynamicsMetaBlockConnectable_DynamicsMetaBlockConnectable)
    []
    [ERef n_MemberOf_MetaBlock n_CIM14_ENTSOE_Dynamics_IEC61970_Dynamics_DynamicsMetaBlock_DynamicsMetaBlock false (Some n_MetaBlockParameter); ERef n_BlockParameter n_CIM14_ENTSOE_Dynamics_IEC61970_Dynamics_DynamicsBlockParameter_DynamicsBlockParameter true (Some n_MetaBlockParameter)];
(* Model/CIM14/ENTSOE/Dynamics.ecore:1119-1130 *)
  EClass n_CIM14_ENTSOE_Dynamics_IEC61970_Dynamics_DynamicsMetaBlockParameterReference_DynamicsMetaBlockParameterReference n_DynamicsMetaBlockParameterReference (Some n_CIM14_ENTSOE_Dynamics_IEC61970_Core_CoreIdentifiedObject_CoreIdentifiedObject)
    []
    [ERef n_StandardControlBlock_MetaBlockConnectable n_CIM14_ENTSOE_Dynamics_IEC61970_Dynamics_DynamicsMetaBlockConnectable_DynamicsMetaBlockConnectable false (Some n_StandardControlBlock_MetaBlockParameterReference); ERef n_MetaBlockConnectable n_CIM14_ENTSOE_Dynamics_IEC61970_Dynamics_DynamicsMetaBlockConnectable_DynamicsMetaBlockConnectable false (Some n_MetaBlockParameterReference); ERef n_MemberOf_MetaBlockReference n_CIM14_ENTSOE_Dynamics_IEC61970_Dynamics_DynamicsMetaBlockReference_DynamicsMetaBlockReference false (Some n_MetaBlockParameterReference)];
(* Model/CIM14/ENTSOE/Dynamics.ecore:600-660 *)
  EClass n_CIM14_ENTSOE_Dynamics_IEC61970_Dynamics_DynamicsMetaBlockReference_DynamicsMetaBlockReference n_DynamicsMetaBlockReference (Some n_CIM14_ENTSOE_Dynamics_IEC61970_Core_CoreIdentifiedObject_CoreIdentifiedObject)
    [(n_equationType, TText)]
    [ERef n_MetaBlockStateReference n_CIM14_ENTSOE_Dynamics_IEC61970_Dynamics_DynamicsMetaBlockStateReference_DynamicsMetaBlockStateReference true (Some n_MemberOf_MetaBlockReference); ERef n_MemberOf_MetaBlock n_CIM14_ENTSOE_Dynamics_IEC61970_Dynamics_DynamicsMetaBlock_DynamicsMetaBlock false (Some n_MetaBlockReference); ERef n_MetaBlockInputReference n_CIM14_ENTSOE_Dynamics_IEC61970_Dynamics_DynamicsMetaBlockInputReference_DynamicsMetaBlockInputReference true (Some n_MemberOf_MetaBlockReference); ERef n_BlockParameter n_CIM14_ENTSOE_Dynamics_IEC61970_Dynamics_DynamicsBlockParameter_DynamicsBlockParameter true (Some n_MemberOf_MetaBlockReference); ERef n_MetaBlock n_CIM14_ENTSOE_Dynamics_Thing_Thing true None; ERef n_MetaBlockOutputReference n_CIM14_ENTSOE_Dynamics_IEC61970_Dynamics_DynamicsMetaBlockOutputReference_DynamicsMetaBlockOutputReference true (Some n_MemberOf_MetaBlockReference); ERef n_MetaBlockParameterReference n_CIM14_ENTSOE_Dynamics_IEC61970_Dynamics_DynamicsMetaBlockParameterReference_DynamicsMetaBlockParameterReference true (Some n_MemberOf_MetaBlockReference)];
(* Model/CIM14/ENTSOE/Dynamics.ecore:661-671 *)
  EClass n_CIM14_ENTSOE_Dynamics_IEC61970_Dynamics_DynamicsMetaBlockSignal_DynamicsMetaBlockSignal n_DynamicsMetaBlockSignal (Some n_CIM14_ENTSOE_Dynamics_IEC61970_Core_CoreIdentifiedObject_CoreIdentifiedObject)
    []
    [ERef n_To n_CIM14_ENTSOE_Dynamics_IEC61970_Dynamics_DynamicsMetaBlockOutputReference_DynamicsMetaBlockOutputReference false (Some n_MetaBlockSignal); ERef n_From n_CIM14_ENTSOE_Dynamics_IEC61970_Dynamics_DynamicsMetaBlockInputReference_DynamicsMetaBlockInputReference false (Some n_MetaBlockSignal); ERef n_MemberOf_MetaBlock n_CIM14_ENTSOE_Dynamics_IEC61970_Dynamics_DynamicsMetaBlock_DynamicsMetaBlock false (Some n_MetaBlockSignal)];
(* Model/CIM14/ENTSOE/Dynamics.ecore:586-590 *)
  EClass n_CIM14_ENTSOE_Dynamics_IEC61970_Dynamics_DynamicsMetaBlockState_DynamicsMetaBlockState n_DynamicsMetaBlockState (Some n_CIM14_ENTSOE_Dynamics_IEC61970_Dynamics_DynamicsMetaBlockConnectable_DynamicsMetaBlockConnectable)
    []
    [ERef n_MemberOf_MetaBlock n_CIM14_ENTSOE_Dynamics_IEC61970_Dynamics_DynamicsMetaBlock_DynamicsMetaBlock false (Some n_MetaBlockState)];
(* Model/CIM14/ENTSOE/Dynamics.ecore:757-771 *)
  EClass n_CIM14_ENTSOE_Dynamics_IEC61970_Dynamics_DynamicsMetaBlockStateReference_DynamicsMetaBlockStateReference n_DynamicsMetaBlockStateReference (Some n_CIM14_ENTSOE_Dynamics_IEC61970_Core_CoreIdentifiedObject_CoreIdentifiedObject)
    [(n_positiveFlowIn, TBool)]
    [ERef n_MetaBlockConnectable n_CIM14_ENTSOE_Dynamics_IEC61970_Dynamics_DynamicsMetaBlockConnectable_DynamicsMetaBlockConnectable false (Some n_MetaBlockStateReference); ERef n_StandardControlBlock_MetaBlockConnectable n_CIM14_ENTSOE_Dynamics_IEC61970_Dynamics_DynamicsMetaBlockConnectable_DynamicsMetaBlockConnectable false (Some n_StandardControlBlock_MetaBlockStateReference); ERef n_MemberOf_MetaBlockReference n_CIM14_ENTSOE_Dynamics_IEC61970_Dynamics_DynamicsMetaBlockReference_DynamicsMetaBlockReference false (Some n_MetaBlockStateReference)];
(* Model/CIM14/ENTSOE/Dynamics.ecore:1017-1094 *)
  EClass n_CIM14_ENTSOE_Dynamics_IEC61970_Dynamics_DynamicsRotatingMachine_DynamicsRotatingMachine n_DynamicsRotatingMachine (Some n_CIM14_ENTSOE_Dynamics_IEC61970_Wires_WiresRegulatingCondEq_WiresRegulatingCondEq)
    [(n_ratedS, TFloat); (n_s1, TFloat); (n_s12, TFloat); (n_h, TFloat); (n_parametersFormType, enum_cim14_entsoe_dynamics_ENTSOE_Dynamics_IEC61970_Dynamics_Generators_GeneratorsParametersFormType); (n_d, TFloat); (n_rs, TFloat); (n_xls, TFloat)]
    [];
(* Model/CIM14/ENTSOE/Dynamics.ecore:1559-1612 *)
  EClass n_CIM14_ENTSOE_Dynamics_IEC61970_Dynamics_ExcitationSystems_ExcitationSystemsExcAC1A_ExcitationSystemsExcAC1A n_ExcitationSystemsExcAC1A (Some n_CIM14_ENTSOE_Dynamics_IEC61970_Core_CorePowerSystemResource_CorePowerSystemResource)
    [(n_se1, TFloat); (n_se2, TFloat); (n_e2, TFloat); (n_e1, TFloat); (n_tr, TFloat); (n_vamin, TFloat); (n_vamax, TFloat); (n_vrmax, TFloat); (n_tb, TFloat); (n_kd, TFloat); (n_tc, TFloat); (n_kc, TFloat); (n_kf, TFloat); (n_ta, TFloat); (n_vrmin, TFloat); (n_ke, TFloat); (n_te, TFloat); (n_tf, TFloat); (n_ka, TFloat)]
    [];
(* Model/CIM14/ENTSOE/Dynamics.ecore:1496-1558 *)
  EClass n_CIM14_ENTSOE_Dynamics_IEC61970_Dynamics_ExcitationSystems_ExcitationSystemsExcAC2A_ExcitationSystemsExcAC2A n_ExcitationSystemsExcAC2A (Some n_CIM14_ENTSOE_Dynamics_IEC61970_Core_CorePowerSystemResource_CorePowerSystemResource)
    [(n_tb, TFloat); (n_e1, TFloat); (n_ta, TFloat); (n_vrmin, TFloat); (n_e2, TFloat); (n_vfemax, TFloat); (n_vrmax, TFloat); (n_ka, TFloat); (n_se1, TFloat); (n_se2, TFloat); (n_kf, TFloat); (n_kh, TFloat); (n_kc, TFloat); (n_vamin, TFloat); (n_kb, TFloat); (n_ke, TFloat); (n_tr, TFloat); (n_kd, TFloat); (n_te, TFloat); (n_tc, TFloat); (n_vamax, TFloat); (n_tf, TFloat)]
    [];
(* Model/CIM14/ENTSOE/Dynamics.ecore:1433-1495 *)
  EClass n_CIM14_ENTSOE_Dynamics_IEC61970_Dynamics_ExcitationSystems_ExcitationSystemsExcAC3A_ExcitationSystemsExcAC3A n_ExcitationSystemsExcAC3A (Some n_CIM14_ENTSOE_Dynamics_IEC61970_Core_CorePowerSystemResource_CorePowerSystemResource)
    [(n_ta, TFloat); (n_ka, TFloat); (n_kd, TFloat); (n_se1, TFloat); (n_kc, TFloat); (n_se2, TFloat); (n_te, TFloat); (n_tf, TFloat); (n_tb, TFloat); (n_tc, TFloat); (n_vamax, TFloat); (n_kf, TFloat); (n_vemin, TFloat); (n_ke, TFloat); (n_vfemax, TFloat); (n_tr, TFloat); (n_e2, TFloat); (n_e1, TFloat); (n_kn, TFloat); (n_vamin, TFloat); (n_kr, TFloat); (n_efdn, TFloat)]
    [];
(* Model/CIM14/ENTSOE/Dynamics.ecore:1795-1823 *)
  EClass n_CIM14_ENTSOE_Dynamics_IEC61970_Dynamics_ExcitationSystems_ExcitationSystemsExcAC4A_ExcitationSystemsExcAC4A n_ExcitationSystemsExcAC4A (Some n_CIM14_ENTSOE_Dynamics_IEC61970_Core_CorePowerSystemResource_CorePowerSystemResource)
    [(n_tb, TFloat); (n_ta, TFloat); (n_tc, TFloat); (n_vrmin, TFloat); (n_vimax, TFloat); (n_vrmax, TFloat); (n_tr, TFloat); (n_kc, TFloat); (n_vimin, TFloat); (n_ka, TFloat)]
    [];
(* Model/CIM14/ENTSOE/Dynamics.ecore:1994-2035 *)
  EClass n_CIM14_ENTSOE_Dynamics_IEC61970_Dynamics_ExcitationSystems_ExcitationSystemsExcAC5A_ExcitationSystemsExcAC5A n_ExcitationSystemsExcAC5A (Some n_CIM14_ENTSOE_Dynamics_IEC61970_Core_CorePowerSystemResource_CorePowerSystemResource)
    [(n_ta, TFloat); (n_vrmax, TFloat); (n_ka, TFloat); (n_vrmin, TFloat); (n_tr, TFloat); (n_tf1, TFloat); (n_ke, TFloat); (n_tf2, TFloat); (n_te, TFloat); (n_kf, TFloat); (n_e1, TFloat); (n_tf3, TFloat); (n_e2, TFloat); (n_se1, TFloat); (n_se2, TFloat)]
    [];
(* Model/CIM14/ENTSOE/Dynamics.ecore:1930-1993 *)
  EClass n_CIM14_ENTSOE_Dynamics_IEC61970_Dynamics_ExcitationSystems_ExcitationSystemsExcAC6A_ExcitationSystemsExcAC6A n_ExcitationSystemsExcAC6A (Some n_CIM14_ENTSOE_Dynamics_IEC61970_Core_CorePowerSystemResource_CorePowerSystemResource)
    [(n_vamax, TFloat); (n_vfelim, TFloat); (n_tr, TFloat); (n_e2, TFloat); (n_e1, TFloat); (n_vamin, TFloat); (n_vhmax, TFloat); (n_vrmax, TFloat); (n_se1, TFloat); (n_se2, TFloat); (n_vrmin, TFloat); (n_te, TFloat); (n_kh, TFloat); (n_tb, TFloat); (n_tc, TFloat); (n_ta, TFloat); (n_ka, TFloat); (n_kc, TFloat); (n_tj, TFloat); (n_tk, TFloat); (n_ke, TFloat); (n_th, TFloat); (n_kd, TFloat)]
    [];
(* Model/CIM14/ENTSOE/Dynamics.ecore:1715-1794 *)
  EClass n_CIM14_ENTSOE_Dynamics_IEC61970_Dynamics_ExcitationSystems_ExcitationSystemsExcAC7B_ExcitationSystemsExcAC7B n_ExcitationSystemsExcAC7B (Some n_CIM14_ENTSOE_Dynamics_IEC61970_Core_CorePowerSystemResource_CorePowerSystemResource)
    [(n_kd, TFloat); (n_kc, TFloat); (n_vrmin, TFloat); (n_kdr, TFloat); (n_vrmax, TFloat); (n_kpr, TFloat); (n_vemin, TFloat); (n_kl, TFloat); (n_kf1, TFloat); (n_kia, TFloat); (n_kf3, TFloat); (n_se1, TFloat); (n_vfemax, TFloat); (n_kf2, TFloat); (n_te, TFloat); (n_tf, TFloat); (n_ke, TFloat); (n_kpa, TFloat); (n_e2, TFloat); (n_se2, TFloat); (n_kp, TFloat); (n_e1, TFloat); (n_kir, TFloat); (n_tr, TFloat); (n_tdr, TFloat); (n_vamin, TFloat); (n_vamax, TFloat)]
    [];
(* Model/CIM14/ENTSOE/Dynamics.ecore:1613-1671 *)
  EClass n_CIM14_ENTSOE_Dynamics_IEC61970_Dynamics_ExcitationSystems_ExcitationSystemsExcAC8B_ExcitationSystemsExcAC8B n_ExcitationSystemsExcAC8B (Some n_CIM14_ENTSOE_Dynamics_IEC61970_Core_CorePowerSystemResource_CorePowerSystemResource)
    [(n_kdr, TFloat); (n_tr, TFloat); (n_e1, TFloat); (n_e2, TFloat); (n_kir, TFloat); (n_kc, TFloat); (n_vrmax, TFloat); (n_ka, TFloat); (n_se2, TFloat); (n_tdr, TFloat); (n_kpr, TFloat); (n_vemin, TFloat); (n_kd, TFloat); (n_te, TFloat); (n_se1, TFloat); (n_ke, TFloat); (n_vfemax, TFloat); (n_ta, TFloat); (n_vrmin, TFloat); (n_vtmult, TFloat)]
    [];
(* Model/CIM14/ENTSOE/Dynamics.ecore:1385-1432 *)
  EClass n_CIM14_ENTSOE_Dynamics_IEC61970_Dynamics_ExcitationSystems_ExcitationSystemsExcDC1A_ExcitationSystemsExcDC1A n_ExcitationSystemsExcDC1A (Some n_CIM14_ENTSOE_Dynamics_IEC61970_Core_CorePowerSystemResource_CorePowerSystemResource)
    [(n_exclim, TFloat); (n_vrmin, TFloat); (n_tc, TFloat); (n_ta, TFloat); (n_tb, TFloat); (n_ka, TFloat); (n_ke, TFloat); (n_se2, TFloat); (n_te, TFloat); (n_se1, TFloat); (n_tf, TFloat); (n_kf, TFloat); (n_uelin, TFloat); (n_tr, TFloat); (n_e1, TFloat); (n_vrmax, TFloat); (n_e2, TFloat)]
    [];
(* Model/CIM14/ENTSOE/Dynamics.ecore:1337-1384 *)
  EClass n_CIM14_ENTSOE_Dynamics_IEC61970_Dynamics_ExcitationSystems_ExcitationSystemsExcDC2A_ExcitationSystemsExcDC2A n_ExcitationSystemsExcDC2A (Some n_CIM14_ENTSOE_Dynamics_IEC61970_Core_CorePowerSystemResource_CorePowerSystemResource)
    [(n_te, TFloat); (n_tf, TFloat); (n_ka, TFloat); (n_tc, TFloat); (n_vrmin, TFloat); (n_ta, TFloat); (n_tb, TFloat); (n_vrmax, TFloat); (n_kf, TFloat); (n_ke, TFloat); (n_uelin, TFloat); (n_se1, TFloat); (n_tr, TFloat); (n_se2, TFloat); (n_exclim, TFloat); (n_e2, TFloat); (n_e1, TFloat)]
    [];
(* Model/CIM14/ENTSOE/Dynamics.ecore:2239-2274 *)
  EClass n_CIM14_ENTSOE_Dynamics_IEC61970_Dynamics_ExcitationSystems_ExcitationSystemsExcDC3A_ExcitationSystemsExcDC3A n_ExcitationSystemsExcDC3A (Some n_CIM14_ENTSOE_Dynamics_IEC61970_Core_CorePowerSystemResource_CorePowerSystemResource)
    [(n_vrmax, TFloat); (n_ke, TFloat); (n_te, TFloat); (n_exclim, TFloat); (n_se1, TFloat); (n_se2, TFloat); (n_trh, TFloat); (n_kv, TFloat); (n_e1, TFloat); (n_e2, TFloat); (n_vrmin, TFloat); (n_tr, TFloat)]
    [];
(* Model/CIM14/ENTSOE/Dynamics.ecore:1279-1336 *)
  EClass n_CIM14_ENTSOE_Dynamics_IEC61970_Dynamics_ExcitationSystems_ExcitationSystemsExcDC4B_ExcitationSystemsExcDC4B n_ExcitationSystemsExcDC4B (Some n_CIM14_ENTSOE_Dynamics_IEC61970_Core_CorePowerSystemResource_CorePowerSystemResource)
    [(n_vrmin, TFloat); (n_uelin, TFloat); (n_ki, TFloat); (n_kp, TFloat); (n_e2, TFloat); (n_oelin, TFloat); (n_vrmax, TFloat); (n_kf, TFloat); (n_te, TFloat); (n_ke, TFloat); (n_vemin, TFloat); (n_tf, TFloat); (n_kd, TFloat); (n_se2, TFloat); (n_ta, TFloat); (n_tr, TFloat); (n_ka, TFloat); (n_se1, TFloat); (n_td, TFloat); (n_e1, TFloat)]
    [];
(* Model/CIM14/ENTSOE/Dynamics.ecore:2036-2060 *)
  EClass n_CIM14_ENTSOE_Dynamics_IEC61970_Dynamics_ExcitationSystems_ExcitationSystemsExcSCRX_ExcitationSystemsExcSCRX n_ExcitationSystemsExcSCRX (Some n_CIM14_ENTSOE_Dynamics_IEC61970_Core_CorePowerSystemResource_CorePowerSystemResource)
    [(n_te, TFloat); (n_tb, TFloat); (n_emax, TFloat); (n_cswitch, TBool); (n_rcrfd, TFloat); (n_tatb, TFloat); (n_k, TFloat); (n_emin, TFloat)]
    [];
(* Model/CIM14/ENTSOE/Dynamics.ecore:2061-2090 *)
  EClass n_CIM14_ENTSOE_Dynamics_IEC61970_Dynamics_ExcitationSystems_ExcitationSystemsExcSEXS_ExcitationSystemsExcSEXS n_ExcitationSystemsExcSEXS (Some n_CIM14_ENTSOE_Dynamics_IEC61970_Core_CorePowerSystemResource_CorePowerSystemResource)
    [(n_k, TFloat); (n_tatb, TFloat); (n_efdmin, TFloat); (n_te, TFloat); (n_tc, TFloat); (n_kc, TFloat); (n_tb, TFloat); (n_emin, TFloat); (n_emax, TFloat); (n_efdmax, TFloat)]
    [];
(* Model/CIM14/ENTSOE/Dynamics.ecore:2183-2238 *)
  EClass n_CIM14_ENTSOE_Dynamics_IEC61970_Dynamics_ExcitationSystems_ExcitationSystemsExcST1A_ExcitationSystemsExcST1A n_ExcitationSystemsExcST1A (Some n_CIM14_ENTSOE_Dynamics_IEC61970_Core_CorePowerSystemResource_CorePowerSystemResource)
    [(n_vrmin, TFloat); (n_kc, TFloat); (n_vimin, TFloat); (n_uelin, TFloat); (n_tf, TFloat); (n_kf, TFloat); (n_tc1, TFloat); (n_pssin, TFloat); (n_tc, TFloat); (n_tb, TFloat); (n_ka, TFloat); (n_ta, TFloat); (n_tr, TFloat); (n_ilr, TFloat); (n_vamin, TFloat); (n_klr, TFloat); (n_tb1, TFloat); (n_vamax, TFloat); (n_vrmax, TFloat); (n_vimax, TFloat)]
    [];
(* Model/CIM14/ENTSOE/Dynamics.ecore:2138-2182 *)
  EClass n_CIM14_ENTSOE_Dynamics_IEC61970_Dynamics_ExcitationSystems_ExcitationSystemsExcST2A_ExcitationSystemsExcST2A n_ExcitationSystemsExcST2A (Some n_CIM14_ENTSOE_Dynamics_IEC61970_Core_CorePowerSystemResource_CorePowerSystemResource)
    [(n_vrmin, TFloat); (n_tc, TFloat); (n_tb, TFloat); (n_ta, TFloat); (n_ka, TFloat); (n_ke, TFloat); (n_uelin, TFloat); (n_kc, TFloat); (n_te, TFloat); (n_ki, TFloat); (n_kf, TFloat); (n_tf, TFloat); (n_vrmax, TFloat); (n_efdmax, TFloat); (n_tr, TFloat); (n_kp, TFloat)]
    [];
(* Model/CIM14/ENTSOE/Dynamics.ecore:2275-2335 *)
  EClass n_CIM14_ENTSOE_Dynamics_IEC61970_Dynamics_ExcitationSystems_ExcitationSystemsExcST3A_ExcitationSystemsExcST3A n_ExcitationSystemsExcST3A (Some n_CIM14_ENTSOE_Dynamics_IEC61970_Core_CorePowerSystemResource_CorePowerSystemResource)
    [(n_vrmin, TFloat); (n_kc, TFloat); (n_ka, TFloat); (n_vbmax, TFloat); (n_vimin, TFloat); (n_xl, TFloat); (n_vgmax, TFloat); (n_angp, TFloat); (n_vmmin, TFloat); (n_vrmax, TFloat); (n_kp, TFloat); (n_km, TFloat); (n_vimax, TFloat); (n_tr, TFloat); (n_vmmax, TFloat); (n_ki, TFloat); (n_tm, TFloat); (n_ta, TFloat); (n_tb, TFloat); (n_kg, TFloat); (n_tc, TFloat)]
    [];
(* Model/CIM14/ENTSOE/Dynamics.ecore:1824-1878 *)
  EClass n_CIM14_ENTSOE_Dynamics_IEC61970_Dynamics_ExcitationSystems_ExcitationSystemsExcST4B_ExcitationSystemsExcST4B n_ExcitationSystemsExcST4B (Some n_CIM14_ENTSOE_Dynamics_IEC61970_Core_CorePowerSystemResource_CorePowerSystemResource)
    [(n_kp, TFloat); (n_xl, TFloat); (n_vbmax, TFloat); (n_ki, TFloat); (n_kir, TFloat); (n_vrmin, TFloat); (n_vmmin, TFloat); (n_kim, TFloat); (n_ta, TFloat); (n_kg, TFloat); (n_tr, TFloat); (n_kc, TFloat); (n_vrmax, TFloat); (n_angp, TFloat); (n_kpr, TFloat); (n_vgmax, TFloat); (n_kpm, TFloat); (n_vmmax, TFloat)]
    [];
(* Model/CIM14/ENTSOE/Dynamics.ecore:1672-1714 *)
  EClass n_CIM14_ENTSOE_Dynamics_IEC61970_Dynamics_ExcitationSystems_ExcitationSystemsExcST5B_ExcitationSystemsExcST5B n_ExcitationSystemsExcST5B (Some n_CIM14_ENTSOE_Dynamics_IEC61970_Core_CorePowerSystemResource_CorePowerSystemResource)
    [(n_toc2, TFloat); (n_toc1, TFloat); (n_tc1, TFloat); (n_vrmin, TFloat); (n_tc2, TFloat); (n_kc, TFloat); (n_tb2, TFloat); (n_tob1, TFloat); (n_vrmax, TFloat); (n_tob2, TFloat); (n_tb1, TFloat); (n_tub1, TFloat); (n_tub2, TFloat); (n_tuc1, TFloat); (n_tuc2, TFloat); (n_kr, TFloat); (n_tr, TFloat); (n_t1, TFloat)]
    [];
(* Model/CIM14/ENTSOE/Dynamics.ecore:1879-1929 *)
  EClass n_CIM14_ENTSOE_Dynamics_IEC61970_Dynamics_ExcitationSystems_ExcitationSystemsExcST6B_ExcitationSystemsExcST6B n_ExcitationSystemsExcST6B (Some n_CIM14_ENTSOE_Dynamics_IEC61970_Core_CorePowerSystemResource_CorePowerSystemResource)
    [(n_vamin, TFloat); (n_vrmin, TFloat); (n_km, TFloat); (n_ts, TFloat); (n_kg, TFloat); (n_tr, TFloat); (n_kcl, TFloat); (n_klr, TFloat); (n_vrmax, TFloat); (n_ilr, TFloat); (n_kpa, TFloat); (n_tg, TFloat); (n_vamax, TFloat); (n_oelin, TFloat); (n_kff, TFloat); (n_vmult, TFloat); (n_kia, TFloat)]
    [];
(* Model/CIM14/ENTSOE/Dynamics.ecore:2091-2137 *)
  EClass n_CIM14_ENTSOE_Dynamics_IEC61970_Dynamics_ExcitationSystems_ExcitationSystemsExcST7B_ExcitationSystemsExcST7B n_ExcitationSystemsExcST7B (Some n_CIM14_ENTSOE_Dynamics_IEC61970_Core_CorePowerSystemResource_CorePowerSystemResource)
    [(n_tg, TFloat); (n_kpa, TFloat); (n_vmin, TFloat); (n_vrmax, TFloat); (n_kl, TFloat); (n_tr, TFloat); (n_kh, TFloat); (n_ts, TFloat); (n_vrmin, TFloat); (n_oelin, TFloat); (n_uelin, TFloat); (n_tia, TFloat); (n_tb, TFloat); (n_tc, TFloat); (n_tf, TFloat); (n_kia, TFloat); (n_vmax, TFloat)]
    [];
(* Model/CIM14/ENTSOE/Dynamics.ecore:2343-2346 *)
  EClass n_CIM14_ENTSOE_Dynamics_IEC61970_Dynamics_Generators_GeneratorsGenEquiv_GeneratorsGenEquiv n_GeneratorsGenEquiv (Some n_CIM14_ENTSOE_Dynamics_IEC61970_Dynamics_DynamicsRotatingMachine_DynamicsRotatingMachine)
    [(n_xp, TFloat)]
    [];
(* Model/CIM14/ENTSOE/Dynamics.ecore:2866-2896 *)
  EClass n_CIM14_ENTSOE_Dynamics_IEC61970_Dynamics_Loads_LoadsLoadMotor_LoadsLoadMotor n_LoadsLoadMotor (Some n_CIM14_ENTSOE_Dynamics_IEC61970_Core_CorePowerSystemResource_CorePowerSystemResource)
    [(n_lfac, TFloat); (n_ra, TFloat); (n_d, TFloat); (n_ls, TFloat); (n_tppo, TFloat); (n_tbkr, TFloat); (n_lpp, TFloat); (n_tpo, TFloat); (n_lp, TFloat); (n_h, TFloat); (n_vt, TFloat); (n_pfrac, TFloat); (n_tv, TFloat)]
    [];
(* Model/CIM14/ENTSOE/Dynamics.ecore:2693-2864 *)
  EClass n_CIM14_ENTSOE_Dynamics_IEC61970_Dynamics_Loads_LoadsLoadStatic_LoadsLoadStatic n_LoadsLoadStatic (Some n_CIM14_ENTSOE_Dynamics_IEC61970_Core_CorePowerSystemResource_CorePowerSystemResource)
    [(n_ep2, TFloat); (n_ep1, TFloat); (n_kp2, TFloat); (n_ep3, TFloat); (n_kp1, TFloat); (n_kq4, TFloat); (n_kq3, TFloat); (n_kq2, TFloat); (n_kq1, TFloat); (n_eq1, TFloat); (n_eq2, TFloat); (n_kp4, TFloat); (n_kp3, TFloat); (n_eq3, TFloat); (n_staticLoadType, enum_cim14_entsoe_dynamics_ENTSOE_Dynamics_IEC61970_Dynamics_Loads_LoadsStaticLoadType); (n_kqf, TFloat); (n_kpf, TFloat)]
    [];
(* Model/CIM14/ENTSOE/Dynamics.ecore:2900-2913 *)
  EClass n_CIM14_ENTSOE_Dynamics_IEC61970_Dynamics_Motors_MotorsMechLoad1_MotorsMechLoad1 n_MotorsMechLoad1 (Some n_CIM14_ENTSOE_Dynamics_IEC61970_Core_CorePowerSystemResource_CorePowerSystemResource)
    [(n_b, TFloat); (n_a, TFloat); (n_d, TFloat); (n_e, TFloat)]
    [];
(* Model/CIM14/ENTSOE/Dynamics.ecore:2934-3013 *)
  EClass n_CIM14_ENTSOE_Dynamics_IEC61970_Dynamics_PowerSystemStabilizers_PowerSystemStabilizersPssIEEE2B_PowerSystemStabilizersPssIEEE2B n_PowerSystemStabilizersPssIEEE2B (Some n_CIM14_ENTSOE_Dynamics_IEC61970_Core_CorePowerSystemResource_CorePowerSystemResource)
    [(n_t10, TFloat); (n_a, TFloat); (n_ks1, TFloat); (n_ks3, TFloat); (n_t11, TFloat); (n_ks2, TFloat); (n_vstmin, TFloat); (n_vsi1max, TFloat); (n_vsi2max, TFloat); (n_tb, TFloat); (n_t2, TFloat); (n_ta, TFloat); (n_t1, TFloat); (n_t4, TFloat); (n_n, TInt); (n_t3, TFloat); (n_m, TInt); (n_j1, TInt); (n_t6, TFloat); (n_j2, TInt); (n_t8, TFloat); (n_vsi1min, TFloat); (n_t7, TFloat); (n_t9, TFloat); (n_ks4, TFloat); (n_tw2, TFloat); (n_tw1, TFloat); (n_tw4, TFloat); (n_vsi2min, TFloat); (n_tw3, TFloat); (n_vstmax, TFloat)]
    [];
(* Model/CIM14/ENTSOE/Dynamics.ecore:2592-2689 *)
  EClass n_CIM14_ENTSOE_Dynamics_IEC61970_Dynamics_TurbineGovernors_TurbineGovernorsGovCT1_TurbineGovernorsGovCT1 n_TurbineGovernorsGovCT1 (Some n_CIM14_ENTSOE_Dynamics_IEC61970_Core_CorePowerSystemResource_CorePowerSystemResource)
    [(n_rdown, TFloat); (n_vmax, TFloat); (n_wfnl, TFloat); (n_tdgov, TFloat); (n_aset, TFloat); (n_r, TFloat); (n_wfspd, TBool); (n_kpgov, TFloat); (n_minerr, TFloat); (n_tsa, TFloat); (n_tact, TFloat); (n_tsb, TFloat); (n_ldref, TFloat); (n_kimw, TFloat); (n_maxerr, TFloat); (n_vmin, TFloat); (n_mwbase, TFloat); (n_rclose, TFloat); (n_tpelec, TFloat); (n_rup, TFloat); (n_tb, TFloat); (n_ka, TFloat); (n_ta, TFloat); (n_kdgov, TFloat); (n_kturb, TFloat); (n_db, TFloat); (n_teng, TFloat); (n_tc, TFloat); (n_ropen, TFloat); (n_dm, TFloat); (n_kiload, TFloat); (n_pmwset, TFloat); (n_rselect, TBool); (n_kigov, TFloat); (n_kpload, TFloat); (n_tfload, TFloat)]
    [];
(* Model/CIM14/ENTSOE/Dynamics.ecore:2455-2491 *)
  EClass n_CIM14_ENTSOE_Dynamics_IEC61970_Dynamics_TurbineGovernors_TurbineGovernorsGovHydro1_TurbineGovernorsGovHydro1 n_TurbineGovernorsGovHydro1 (Some n_CIM14_ENTSOE_Dynamics_IEC61970_Core_CorePowerSystemResource_CorePowerSystemResource)
    [(n_rperm, TFloat); (n_tg, TFloat); (n_tf, TFloat); (n_mwbase, TFloat); (n_gmax, TFloat); (n_at, TFloat); (n_gmin, TFloat); (n_qnl, TFloat); (n_velm, TFloat); (n_tw, TFloat); (n_dturb, TFloat); (n_rtemp, TFloat); (n_tr, TFloat)]
    [];
(* Model/CIM14/ENTSOE/Dynamics.ecore:2350-2431 *)
  EClass n_CIM14_ENTSOE_Dynamics_IEC61970_Dynamics_TurbineGovernors_TurbineGovernorsGovHydro2_TurbineGovernorsGovHydro2 n_TurbineGovernorsGovHydro2 (Some n_CIM14_ENTSOE_Dynamics_IEC61970_Core_CorePowerSystemResource_CorePowerSystemResource)
    [(n_bturb, TFloat); (n_rtemp, TFloat); (n_tw, TFloat); (n_rperm, TFloat); (n_gv1, TFloat); (n_gv2, TFloat); (n_tr, TFloat); (n_aturb, TFloat); (n_tp, TFloat); (n_uo, TFloat); (n_gv6, TFloat); (n_gv5, TFloat); (n_pgv5, TFloat); (n_gv4, TFloat); (n_pgv6, TFloat); (n_gv3, TFloat); (n_pgv2, TFloat); (n_pgv1, TFloat); (n_db1, TFloat); (n_pgv4, TFloat); (n_kturb, TFloat); (n_db2, TFloat); (n_tg, TFloat); (n_pmax, TFloat); (n_pgv3, TFloat); (n_mwbase, TFloat); (n_uc, TFloat); (n_pmin, TFloat); (n_eps, TFloat)]
    [];
(* Model/CIM14/ENTSOE/Dynamics.ecore:2432-2454 *)
  EClass n_CIM14_ENTSOE_Dynamics_IEC61970_Dynamics_TurbineGovernors_TurbineGovernorsGovSteam0_TurbineGovernorsGovSteam0 n_TurbineGovernorsGovSteam0 (Some n_CIM14_ENTSOE_Dynamics_IEC61970_Core_CorePowerSystemResource_CorePowerSystemResource)
    [(n_t2, TFloat); (n_t3, TFloat); (n_t1, TFloat); (n_vmax, TFloat); (n_dt, TFloat); (n_r, TFloat); (n_vmin, TFloat); (n_mwbase, TFloat)]
    [];
(* Model/CIM14/ENTSOE/Dynamics.ecore:2492-2591 *)
  EClass n_CIM14_ENTSOE_Dynamics_IEC61970_Dynamics_TurbineGovernors_TurbineGovernorsGovSteam1_TurbineGovernorsGovSteam1 n_TurbineGovernorsGovSteam1 (Some n_CIM14_ENTSOE_Dynamics_IEC61970_Core_CorePowerSystemResource_CorePowerSystemResource)
    [(n_eps, TFloat); (n_uc, TFloat); (n_mwbase, TFloat); (n_pmin, TFloat); (n_k3, TFloat); (n_k, TFloat); (n_k2, TFloat); (n_k1, TFloat); (n_pgv1, TFloat); (n_k7, TFloat); (n_k6, TFloat); (n_pmax, TFloat); (n_k5, TFloat); (n_k4, TFloat); (n_gv6, TFloat); (n_t6, TFloat); (n_pgv6, TFloat); (n_t7, TFloat); (n_gv5, TFloat); (n_k8, TFloat); (n_gv1, TFloat); (n_t1, TFloat); (n_t2, TFloat); (n_pgv3, TFloat); (n_db1, TFloat); (n_t3, TFloat); (n_uo, TFloat); (n_pgv2, TFloat); (n_gv4, TFloat); (n_pgv5, TFloat); (n_t4, TFloat); (n_gv2, TFloat); (n_gv3, TFloat); (n_t5, TFloat); (n_pgv4, TFloat); (n_db2, TFloat)]
    [];
(* Model/CIM14/ENTSOE/Dynamics.ecore:2917-2923 *)
  EClass n_CIM14_ENTSOE_Dynamics_IEC61970_Dynamics_VoltageCompensator_VoltageCompensatorVcompCross_VoltageCompensatorVcompCross n_VoltageCompensatorVcompCross (Some n_CIM14_ENTSOE_Dynamics_IEC61970_Core_CorePowerSystemResource_CorePowerSystemResource)
    [(n_xcomp2, TFloat); (n_rcomp2, TFloat)]
    [];
(* Model/CIM14/ENTSOE/Dynamics.ecore:2924-2930 *)
  EClass n_CIM14_ENTSOE_Dynamics_IEC61970_Dynamics_VoltageCompensator_VoltageCompensatorVcompIEEE_VoltageCompensatorVcompIEEE n_VoltageCompensatorVcompIEEE (Some n_CIM14_ENTSOE_Dynamics_IEC61970_Core_CorePowerSystemResource_CorePowerSystemResource)
    [(n_xcomp, TFloat); (n_rcomp, TFloat)]
    [];
(* Model/CIM14/ENTSOE/Dynamics.ecore:513-525 *)
  EClass n_CIM14_ENTSOE_Dynamics_IEC61970_Informative_InfCore_InfCoreModelingAuthoritySet_InfCoreModelingAuthoritySet n_InfCoreModelingAuthoritySet (Some n_CIM14_ENTSOE_Dynamics_IEC61970_Core_CoreIdentifiedObject_CoreIdentifiedObject)
    []
    [ERef n_IdentifiedObjects n_CIM14_ENTSOE_Dynamics_IEC61970_Core_CoreIdentifiedObject_CoreIdentifiedObject true (Some n_ModelingAuthoritySet)];
(* Model/CIM14/ENTSOE/Dynamics.ecore:541-551 *)
  EClass n_CIM14_ENTSOE_Dynamics_IEC61970_Meas_MeasControl_MeasControl n_MeasControl (Some n_CIM14_ENTSOE_Dynamics_IEC61970_Core_CoreIdentifiedObject_CoreIdentifiedObject)
    []
    [ERef n_RegulatingCondEq n_CIM14_ENTSOE_Dynamics_IEC61970_Wires_WiresRegulatingCondEq_WiresRegulatingCondEq false (Some n_Controls)];
(* Model/CIM14/ENTSOE/Dynamics.ecore:530-540 *)
  EClass n_CIM14_ENTSOE_Dynamics_IEC61970_Meas_MeasMeasurement_MeasMeasurement n_MeasMeasurement (Some n_CIM14_ENTSOE_Dynamics_IEC61970_Core_CoreIdentifiedObject_CoreIdentifiedObject)
    []
    [ERef n_PowerSystemResource n_CIM14_ENTSOE_Dynamics_IEC61970_Core_CorePowerSystemResource_CorePowerSystemResource false (Some n_Measurements)];
(* Model/CIM14/ENTSOE/Dynamics.ecore:496-507 *)
  EClass n_CIM14_ENTSOE_Dynamics_IEC61970_OperationalLimits_OperationalLimitsOperationalLimitSet_OperationalLimitsOperationalLimitSet n_OperationalLimitsOperationalLimitSet (Some n_CIM14_ENTSOE_Dynamics_IEC61970_Core_CoreIdentifiedObject_CoreIdentifiedObject)
    []
    [ERef n_Equipment n_CIM14_ENTSOE_Dynamics_IEC61970_Core_CoreEquipment_CoreEquipment false (Some n_OperationalLimitSet)];
(* Model/CIM14/ENTSOE/Dynamics.ecore:482-492 *)
  EClass n_CIM14_ENTSOE_Dynamics_IEC61970_Outage_OutageClearanceTag_OutageClearanceTag n_OutageClearanceTag (Some n_CIM14_ENTSOE_Dynamics_IEC61970_Core_CoreIdentifiedObject_CoreIdentifiedObject)
    []
    [ERef n_ConductingEquipment n_CIM14_ENTSOE_Dynamics_IEC61970_Core_CoreConductingEquipment_CoreConductingEquipment false (Some n_ClearanceTags)];
(* Model/CIM14/ENTSOE/Dynamics.ecore:471-481 *)
  EClass n_CIM14_ENTSOE_Dynamics_IEC61970_Outage_OutageOutageSchedule_OutageOutageSchedule n_OutageOutageSchedule (Some n_CIM14_ENTSOE_Dynamics_IEC61970_Core_CoreIdentifiedObject_CoreIdentifiedObject)
    []
    [ERef n_PowerSystemResource n_CIM14_ENTSOE_Dynamics_IEC61970_Core_CorePowerSystemResource_CorePowerSystemResource false (Some n_OutageSchedule)];
(* Model/CIM14/ENTSOE/Dynamics.ecore:569-581 *)
  EClass n_CIM14_ENTSOE_Dynamics_IEC61970_Protection_ProtectionProtectionEquipment_ProtectionProtectionEquipment n_ProtectionProtectionEquipment (Some n_CIM14_ENTSOE_Dynamics_IEC61970_Core_CoreEquipment_CoreEquipment)
    []
    [ERef n_ConductingEquipments n_CIM14_ENTSOE_Dynamics_IEC61970_Core_CoreConductingEquipment_CoreConductingEquipment true (Some n_ProtectionEquipments)];
(* Model/CIM14/ENTSOE/Dynamics.ecore:555-565 *)
  EClass n_CIM14_ENTSOE_Dynamics_IEC61970_StateVariables_StateVariablesSvStatus_StateVariablesSvStatus n_StateVariablesSvStatus (Some n_CIM14_ENTSOE_Dynamics_Element_Element)
    []
    [ERef n_ConductingEquipment n_CIM14_ENTSOE_Dynamics_IEC61970_Core_CoreConductingEquipment_CoreConductingEquipment false (Some n_SvStatus)];
(* Model/CIM14/ENTSOE/Dynamics.ecore:460-467 *)
  EClass n_CIM14_ENTSOE_Dynamics_IEC61970_Wires_WiresRegulatingCondEq_WiresRegulatingCondEq n_WiresRegulatingCondEq (Some n_CIM14_ENTSOE_Dynamics_IEC61970_Core_CoreConductingEquipment_CoreConductingEquipment)
    []
    [ERef n_Controls n_CIM14_ENTSOE_Dynamics_IEC61970_Meas_MeasControl_MeasControl true (Some n_RegulatingCondEq); ERef n_RegulatingControl n_CIM14_ENTSOE_Dynamics_IEC61970_Wires_WiresRegulatingControl_WiresRegulatingControl false (Some n_RegulatingCondEq)];
(* Model/CIM14/ENTSOE/Dynamics.ecore:448-459 *)
  EClass n_CIM14_ENTSOE_Dynamics_IEC61970_Wires_WiresRegulatingControl_WiresRegulatingControl n_WiresRegulatingControl (Some n_CIM14_ENTSOE_Dynamics_IEC61970_Core_CorePowerSystemResource_CorePowerSystemResource)
    []
    [ERef n_RegulatingCondEq n_CIM14_ENTSOE_Dynamics_IEC61970_Wires_WiresRegulatingCondEq_WiresRegulatingCondEq true (Some n_RegulatingControl)];
(* Model/CIM14/ENTSOE/Dynamics.ecore:434-447 *)
  EClass n_CIM14_ENTSOE_Dynamics_IEC61970_Wires_WiresSynchronousMachine_WiresSynchronousMachine n_WiresSynchronousMachine (Some n_CIM14_ENTSOE_Dynamics_IEC61970_Dynamics_DynamicsRotatingMachine_DynamicsRotatingMachine)
    [(n_xDirectSync, TFloat); (n_xDirectTrans, TFloat); (n_xQuadTrans, TFloat); (n_xQuadSync, TFloat); (n_xQuadSubtrans, TFloat); (n_xDirectSubtrans, TFloat)]
    [];
(* Model/CIM14/ENTSOE/Dynamics.ecore:18-53 *)
  EClass n_CIM14_ENTSOE_Dynamics_Thing_Thing n_Thing (Some n_CIM14_ENTSOE_Dynamics_Element_Element)
    []
    [ERef n_ScheduleSteps n_CIM14_ENTSOE_Dynamics_Thing_Thing true None; ERef n_synchronousGeneratorType n_CIM14_ENTSOE_Dynamics_Thing_Thing true None; ERef n_tpqo n_CIM14_ENTSOE_Dynamics_Thing_Thing true None; ERef n_ElectricalAssets n_CIM14_ENTSOE_Dynamics_Thing_Thing true None; ERef n_EAID_4B45E775_795A_4030_865F_0AB320000DDD_B n_CIM14_ENTSOE_Dynamics_Thing_Thing true None; ERef n_SafetyDocuments n_CIM14_ENTSOE_Dynamics_Thing_Thing true None; ERef n_ratedS n_CIM14_ENTSOE_Dynamics_Thing_Thing true None; ERef n_tppdo n_CIM14_ENTSOE_Dynamics_Thing_Thing true None; ERef n_tpdo n_CIM14_ENTSOE_Dynamics_Thing_Thing true None; ERef n_ChangeItems n_CIM14_ENTSOE_Dynamics_Thing_Thing true None; ERef n_ErpOrganisationRoles n_CIM14_ENTSOE_Dynamics_Thing_Thing true None; ERef n_CircuitSections n_CIM14_ENTSOE_Dynamics_Thing_Thing true None; ERef n_tppqo n_CIM14_ENTSOE_Dynamics_Thing_Thing true None; ERef n_DocumentRoles n_CIM14_ENTSOE_Dynamics_Thing_Thing true None; ERef n_PSREvent n_CIM14_ENTSOE_Dynamics_Thing_Thing true None; ERef n_OutageStepRoles n_CIM14_ENTSOE_Dynamics_Thing_Thing true None; ERef n_NetworkDataSets n_CIM14_ENTSOE_Dynamics_Thing_Thing true None]].

(** Classes of Model/CIM14/ENTSOE/Equipment.ecore: 74. *)
Definition ecore_cim14_entsoe_equipment : list eclass := [
(* Model/CIM14/ENTSOE/Equipment.ecore:130-200 *)
  EClass n_CIM14_ENTSOE_Equipment_ControlArea_ControlArea_ControlArea n_ControlArea (Some n_CIM14_ENTSOE_Equipment_Core_PowerSystemResource_PowerSystemResource)
    [(n_netInterchange, TFloat); (n_type, enum_cim14_entsoe_equipment_ENTSOE_Equipment_ControlArea_ControlAreaTypeKind); (n_pTolerance, TFloat)]
    [ERef n_EnergyArea n_CIM14_ENTSOE_Equipment_LoadModel_EnergyArea_EnergyArea false (Some n_ControlArea); ERef n_ControlAreaGeneratingUnit n_CIM14_ENTSOE_Equipment_ControlArea_ControlAreaGeneratingUnit_ControlAreaGeneratingUnit true (Some n_ControlArea); ERef n_TieFlow n_CIM14_ENTSOE_Equipment_ControlArea_TieFlow_TieFlow true (Some n_ControlArea)];
(* Model/CIM14/ENTSOE/Equipment.ecore:201-226 *)
  EClass n_CIM14_ENTSOE_Equipment_ControlArea_ControlAreaGeneratingUnit_ControlAreaGeneratingUnit n_ControlAreaGeneratingUnit (Some n_CIM14_ENTSOE_Equipment_Element_Element)
    []
    [ERef n_ControlArea n_CIM14_ENTSOE_Equipment_ControlArea_ControlArea_ControlArea false (Some n_ControlAreaGeneratingUnit); ERef n_GeneratingUnit n_CIM14_ENTSOE_Equipment_Generation_Production_GeneratingUnit_GeneratingUnit false (Some n_ControlAreaGeneratingUnit)];
(* Model/CIM14/ENTSOE/Equipment.ecore:232-267 *)
  EClass n_CIM14_ENTSOE_Equipment_ControlArea_TieFlow_TieFlow n_TieFlow (Some n_CIM14_ENTSOE_Equipment_Element_Element)
    [(n_positiveFlowIn, TBool)]
    [ERef n_ControlArea n_CIM14_ENTSOE_Equipment_ControlArea_ControlArea_ControlArea false (Some n_TieFlow); ERef n_Terminal n_CIM14_ENTSOE_Equipment_Core_Terminal_Terminal false (Some n_TieFlow)];
(* Model/CIM14/ENTSOE/Equipment.ecore:1862-1913 *)
  EClass n_CIM14_ENTSOE_Equipment_Core_BaseVoltage_BaseVoltage n_BaseVoltage (Some n_CIM14_ENTSOE_Equipment_Core_IdentifiedObject_IdentifiedObject)
    [(n_nominalVoltage, TFloat)]
    [ERef n_ConductingEquipment n_CIM14_ENTSOE_Equipment_Core_ConductingEquipment_ConductingEquipment true (Some n_BaseVoltage); ERef n_VoltageLevel n_CIM14_ENTSOE_Equipment_Core_VoltageLevel_VoltageLevel true (Some n_BaseVoltage)];
(* Model/CIM14/ENTSOE/Equipment.ecore:2330-2365 *)
  EClass n_CIM14_ENTSOE_Equipment_Core_BasicIntervalSchedule_BasicIntervalSchedule n_BasicIntervalSchedule (Some n_CIM14_ENTSOE_Equipment_Core_IdentifiedObject_IdentifiedObject)
    [(n_startTime, TDate); (n_value1Unit, enum_cim14_entsoe_equipment_ENTSOE_Equipment_Domain_UnitSymbol); (n_value2Unit, enum_cim14_entsoe_equipment_ENTSOE_Equipment_Domain_UnitSymbol)]
    [];
(* Model/CIM14/ENTSOE/Equipment.ecore:2038-2072 *)
  EClass n_CIM14_ENTSOE_Equipment_Core_ConductingEquipment_ConductingEquipment n_ConductingEquipment (Some n_CIM14_ENTSOE_Equipment_Core_Equipment_Equipment)
    []
    [ERef n_Terminals n_CIM14_ENTSOE_Equipment_Core_Terminal_Terminal true (Some n_ConductingEquipment); ERef n_BaseVoltage n_CIM14_ENTSOE_Equipment_Core_BaseVoltage_BaseVoltage false (Some n_ConductingEquipment)];
(* Model/CIM14/ENTSOE/Equipment.ecore:1914-1935 *)
  EClass n_CIM14_ENTSOE_Equipment_Core_ConnectivityNode_ConnectivityNode n_ConnectivityNode (Some n_CIM14_ENTSOE_Equipment_Core_IdentifiedObject_IdentifiedObject)
    []
    [ERef n_Terminals n_CIM14_ENTSOE_Equipment_Core_Terminal_Terminal true (Some n_ConnectivityNode)];
(* Model/CIM14/ENTSOE/Equipment.ecore:1707-1715 *)
  EClass n_CIM14_ENTSOE_Equipment_Core_ConnectivityNodeContainer_ConnectivityNodeContainer n_ConnectivityNodeContainer (Some n_CIM14_ENTSOE_Equipment_Core_PowerSystemResource_PowerSystemResource)
    []
    [];
(* Model/CIM14/ENTSOE/Equipment.ecore:1659-1706 *)
  EClass n_CIM14_ENTSOE_Equipment_Core_Curve_Curve n_Curve (Some n_CIM14_ENTSOE_Equipment_Core_IdentifiedObject_IdentifiedObject)
    [(n_y1Unit, enum_cim14_entsoe_equipment_ENTSOE_Equipment_Domain_UnitSymbol); (n_curveStyle, enum_cim14_entsoe_equipment_ENTSOE_Equipment_Core_CurveStyle); (n_xUnit, enum_cim14_entsoe_equipment_ENTSOE_Equipment_Domain_UnitSymbol)]
    [ERef n_CurveDatas n_CIM14_ENTSOE_Equipment_Core_CurveData_CurveData true (Some n_Curve)];
(* Model/CIM14/ENTSOE/Equipment.ecore:2280-2329 *)
  EClass n_CIM14_ENTSOE_Equipment_Core_CurveData_CurveData n_CurveData (Some n_CIM14_ENTSOE_Equipment_Element_Element)
    [(n_y1value, TFloat); (n_xvalue, TFloat); (n_y2value, TFloat)]
    [ERef n_Curve n_CIM14_ENTSOE_Equipment_Core_Curve_Curve false (Some n_CurveDatas)];
(* Model/CIM14/ENTSOE/Equipment.ecore:1818-1861 *)
  EClass n_CIM14_ENTSOE_Equipment_Core_Equipment_Equipment n_Equipment (Some n_CIM14_ENTSOE_Equipment_Core_PowerSystemResource_PowerSystemResource)
    [(n_aggregate, TBool)]
    [ERef n_OperationalLimitSet n_CIM14_ENTSOE_Equipment_OperationalLimits_OperationalLimitSet_OperationalLimitSet true (Some n_Equipment); ERef n_EquipmentContainer n_CIM14_ENTSOE_Equipment_Core_EquipmentContainer_EquipmentContainer false (Some n_Equipments)];
(* Model/CIM14/ENTSOE/Equipment.ecore:1936-1957 *)
  EClass n_CIM14_ENTSOE_Equipment_Core_EquipmentContainer_EquipmentContainer n_EquipmentContainer (Some n_CIM14_ENTSOE_Equipment_Core_ConnectivityNodeContainer_ConnectivityNodeContainer)
    []
    [ERef n_Equipments n_CIM14_ENTSOE_Equipment_Core_Equipment_Equipment true (Some n_EquipmentContainer)];
(* Model/CIM14/ENTSOE/Equipment.ecore:2237-2257 *)
  EClass n_CIM14_ENTSOE_Equipment_Core_GeographicalRegion_GeographicalRegion n_GeographicalRegion (Some n_CIM14_ENTSOE_Equipment_Core_IdentifiedObject_IdentifiedObject)
    []
    [ERef n_Regions n_CIM14_ENTSOE_Equipment_Core_SubGeographicalRegion_SubGeographicalRegion true (Some n_Region)];
(* Model/CIM14/ENTSOE/Equipment.ecore:1958-2007 *)
  EClass n_CIM14_ENTSOE_Equipment_Core_IdentifiedObject_IdentifiedObject n_IdentifiedObject (Some n_CIM14_ENTSOE_Equipment_Element_Element)
    [(n_description, TText); (n_name, TText); (n_aliasName, TText); (n_pathName, TText)]
    [];
(* Model/CIM14/ENTSOE/Equipment.ecore:2258-2279 *)
  EClass n_CIM14_ENTSOE_Equipment_Core_PowerSystemResource_PowerSystemResource n_PowerSystemResource (Some n_CIM14_ENTSOE_Equipment_Core_IdentifiedObject_IdentifiedObject)
    []
    [ERef n_Measurements n_CIM14_ENTSOE_Equipment_Meas_Measurement_Measurement true (Some n_PowerSystemResource)];
(* Model/CIM14/ENTSOE/Equipment.ecore:1722-1748 *)
  EClass n_CIM14_ENTSOE_Equipment_Core_RegularIntervalSchedule_RegularIntervalSchedule n_RegularIntervalSchedule (Some n_CIM14_ENTSOE_Equipment_Core_BasicIntervalSchedule_BasicIntervalSchedule)
    [(n_timeStep, TFloat); (n_endTime, TDate)]
    [];
(* Model/CIM14/ENTSOE/Equipment.ecore:2073-2115 *)
  EClass n_CIM14_ENTSOE_Equipment_Core_SubGeographicalRegion_SubGeographicalRegion n_SubGeographicalRegion (Some n_CIM14_ENTSOE_Equipment_Core_IdentifiedObject_IdentifiedObject)
    []
    [ERef n_Region n_CIM14_ENTSOE_Equipment_Core_GeographicalRegion_GeographicalRegion false (Some n_Regions); ERef n_Lines n_CIM14_ENTSOE_Equipment_Wires_Line_Line true (Some n_Region); ERef n_Substations n_CIM14_ENTSOE_Equipment_Core_Substation_Substation true (Some n_Region)];
(* Model/CIM14/ENTSOE/Equipment.ecore:2008-2037 *)
  EClass n_CIM14_ENTSOE_Equipment_Core_Substation_Substation n_Substation (Some n_CIM14_ENTSOE_Equipment_Core_EquipmentContainer_EquipmentContainer)
    []
    [ERef n_Region n_CIM14_ENTSOE_Equipment_Core_SubGeographicalRegion_SubGeographicalRegion false (Some n_Substations); ERef n_VoltageLevels n_CIM14_ENTSOE_Equipment_Core_VoltageLevel_VoltageLevel true (Some n_Substation)];
(* Model/CIM14/ENTSOE/Equipment.ecore:2116-2236 *)
  EClass n_CIM14_ENTSOE_Equipment_Core_Terminal_Terminal n_Terminal (Some n_CIM14_ENTSOE_Equipment_Core_IdentifiedObject_IdentifiedObject)
    [(n_sequenceNumber, TInt)]
    [ERef n_OperationalLimitSet n_CIM14_ENTSOE_Equipment_OperationalLimits_OperationalLimitSet_OperationalLimitSet true (Some n_Terminal); ERef n_ConductingEquipment n_CIM14_ENTSOE_Equipment_Core_ConductingEquipment_ConductingEquipment false (Some n_Terminals); ERef n_HasFirst_MutualCoupling n_CIM14_ENTSOE_Equipment_Wires_MutualCoupling_MutualCoupling true (Some n_First_Terminal); ERef n_Measurements n_CIM14_ENTSOE_Equipment_Meas_Measurement_Measurement true (Some n_Terminal); ERef n_ConnectivityNode n_CIM14_ENTSOE_Equipment_Core_ConnectivityNode_ConnectivityNode false (Some n_Terminals); ERef n_RegulatingControl n_CIM14_ENTSOE_Equipment_Wires_RegulatingControl_RegulatingControl true (Some n_Terminal); ERef n_TieFlow n_CIM14_ENTSOE_Equipment_ControlArea_TieFlow_TieFlow true (Some n_Terminal); ERef n_HasSecond_MutualCoupling n_CIM14_ENTSOE_Equipment_Wires_MutualCoupling_MutualCoupling true (Some n_Second_Terminal)];
(* Model/CIM14/ENTSOE/Equipment.ecore:1797-1817 *)
  EClass n_CIM14_ENTSOE_Equipment_Core_Unit_Unit n_Unit (Some n_CIM14_ENTSOE_Equipment_Core_IdentifiedObject_IdentifiedObject)
    []
    [ERef n_Measurements n_CIM14_ENTSOE_Equipment_Meas_Measurement_Measurement true (Some n_Unit)];
(* Model/CIM14/ENTSOE/Equipment.ecore:1749-1796 *)
  EClass n_CIM14_ENTSOE_Equipment_Core_VoltageLevel_VoltageLevel n_VoltageLevel (Some n_CIM14_ENTSOE_Equipment_Core_EquipmentContainer_EquipmentContainer)
    [(n_lowVoltageLimit, TFloat); (n_highVoltageLimit, TFloat)]
    [ERef n_BaseVoltage n_CIM14_ENTSOE_Equipment_Core_BaseVoltage_BaseVoltage false (Some n_VoltageLevel); ERef n_Substation n_CIM14_ENTSOE_Equipment_Core_Substation_Substation false (Some n_VoltageLevels)];
(* Model/CIM14/ENTSOE/Equipment.ecore:14-17 *)
  EClass n_CIM14_ENTSOE_Equipment_Element_Element n_Element None
    [(n_UUID, TText)]
    [];
(* Model/CIM14/ENTSOE/Equipment.ecore:2759-2777 *)
  EClass n_CIM14_ENTSOE_Equipment_Equivalents_EquivalentEquipment_EquivalentEquipment n_EquivalentEquipment (Some n_CIM14_ENTSOE_Equipment_Core_ConductingEquipment_ConductingEquipment)
    []
    [ERef n_EquivalentNetwork n_CIM14_ENTSOE_Equipment_Equivalents_EquivalentNetwork_EquivalentNetwork false (Some n_EquivalentEquipments)];
(* Model/CIM14/ENTSOE/Equipment.ecore:2778-2800 *)
  EClass n_CIM14_ENTSOE_Equipment_Equivalents_EquivalentNetwork_EquivalentNetwork n_EquivalentNetwork (Some n_CIM14_ENTSOE_Equipment_Core_ConnectivityNodeContainer_ConnectivityNodeContainer)
    []
    [ERef n_EquivalentEquipments n_CIM14_ENTSOE_Equipment_Equivalents_EquivalentEquipment_EquivalentEquipment true (Some n_EquivalentNetwork)];
(* Model/CIM14/ENTSOE/Equipment.ecore:3012-3043 *)
  EClass n_CIM14_ENTSOE_Equipment_Generation_Production_FossilFuel_FossilFuel n_FossilFuel (Some n_CIM14_ENTSOE_Equipment_Core_IdentifiedObject_IdentifiedObject)
    [(n_fossilFuelType, enum_cim14_entsoe_equipment_ENTSOE_Equipment_Generation_Production_FuelType)]
    [ERef n_ThermalGeneratingUnit n_CIM14_ENTSOE_Equipment_Generation_Production_ThermalGeneratingUnit_ThermalGeneratingUnit false (Some n_FossilFuels)];
(* Model/CIM14/ENTSOE/Equipment.ecore:2826-3005 *)
  EClass n_CIM14_ENTSOE_Equipment_Generation_Production_GeneratingUnit_GeneratingUnit n_GeneratingUnit (Some n_CIM14_ENTSOE_Equipment_Core_Equipment_Equipment)
    [(n_maxOperatingP, TFloat); (n_ratedGrossMaxP, TFloat); (n_variableCost, TFloat); (n_minOperatingP, TFloat); (n_ratedGrossMinP, TFloat); (n_shortPF, TFloat); (n_ratedNetMaxP, TFloat); (n_longPF, TFloat); (n_startupCost, TFloat); (n_genControlSource, enum_cim14_entsoe_equipment_ENTSOE_Equipment_Generation_Production_GeneratorControlSource); (n_nominalP, TFloat); (n_governorSCD, TFloat); (n_maximumAllowableSpinningReserve, TFloat); (n_initialP, TFloat); (n_normalPF, TFloat)]
    [ERef n_SynchronousMachines n_CIM14_ENTSOE_Equipment_Wires_SynchronousMachine_SynchronousMachine true (Some n_GeneratingUnit); ERef n_ControlAreaGeneratingUnit n_CIM14_ENTSOE_Equipment_ControlArea_ControlAreaGeneratingUnit_ControlAreaGeneratingUnit true (Some n_GeneratingUnit)];
(* Model/CIM14/ENTSOE/Equipment.ecore:3058-3069 *)
  EClass n_CIM14_ENTSOE_Equipment_Generation_Production_HydroGeneratingUnit_HydroGeneratingUnit n_HydroGeneratingUnit (Some n_CIM14_ENTSOE_Equipment_Generation_Production_GeneratingUnit_GeneratingUnit)
    []
    [];
(* Model/CIM14/ENTSOE/Equipment.ecore:3091-3108 *)
  EClass n_CIM14_ENTSOE_Equipment_Generation_Production_HydroPump_HydroPump n_HydroPump (Some n_CIM14_ENTSOE_Equipment_Core_PowerSystemResource_PowerSystemResource)
    []
    [ERef n_SynchronousMachine n_CIM14_ENTSOE_Equipment_Wires_SynchronousMachine_SynchronousMachine false (Some n_HydroPump)];
(* Model/CIM14/ENTSOE/Equipment.ecore:3050-3057 *)
  EClass n_CIM14_ENTSOE_Equipment_Generation_Production_NuclearGeneratingUnit_NuclearGeneratingUnit n_NuclearGeneratingUnit (Some n_CIM14_ENTSOE_Equipment_Generation_Production_GeneratingUnit_GeneratingUnit)
    []
    [];
(* Model/CIM14/ENTSOE/Equipment.ecore:3070-3090 *)
  EClass n_CIM14_ENTSOE_Equipment_Generation_Production_ThermalGeneratingUnit_ThermalGeneratingUnit n_ThermalGeneratingUnit (Some n_CIM14_ENTSOE_Equipment_Generation_Production_GeneratingUnit_GeneratingUnit)
    []
    [ERef n_FossilFuels n_CIM14_ENTSOE_Equipment_Generation_Production_FossilFuel_FossilFuel false (Some n_ThermalGeneratingUnit)];
(* Model/CIM14/ENTSOE/Equipment.ecore:2818-2825 *)
  EClass n_CIM14_ENTSOE_Equipment_Generation_Production_WindGeneratingUnit_WindGeneratingUnit n_WindGeneratingUnit (Some n_CIM14_ENTSOE_Equipment_Generation_Production_GeneratingUnit_GeneratingUnit)
    []
    [];
(* Model/CIM14/ENTSOE/Equipment.ecore:19-49 *)
  EClass n_CIM14_ENTSOE_Equipment_IEC61970CIMVersion_IEC61970CIMVersion n_IEC61970CIMVersion (Some n_CIM14_ENTSOE_Equipment_Element_Element)
    [(n_date, TDate); (n_version, TText)]
    [];
(* Model/CIM14/ENTSOE/Equipment.ecore:3450-3470 *)
  EClass n_CIM14_ENTSOE_Equipment_LoadModel_ConformLoad_ConformLoad n_ConformLoad (Some n_CIM14_ENTSOE_Equipment_Wires_EnergyConsumer_EnergyConsumer)
    []
    [ERef n_LoadGroup n_CIM14_ENTSOE_Equipment_LoadModel_ConformLoadGroup_ConformLoadGroup false (Some n_EnergyConsumers)];
(* Model/CIM14/ENTSOE/Equipment.ecore:3383-3404 *)
  EClass n_CIM14_ENTSOE_Equipment_LoadModel_ConformLoadGroup_ConformLoadGroup n_ConformLoadGroup (Some n_CIM14_ENTSOE_Equipment_LoadModel_LoadGroup_LoadGroup)
    []
    [ERef n_EnergyConsumers n_CIM14_ENTSOE_Equipment_LoadModel_ConformLoad_ConformLoad true (Some n_LoadGroup)];
(* Model/CIM14/ENTSOE/Equipment.ecore:3405-3426 *)
  EClass n_CIM14_ENTSOE_Equipment_LoadModel_DayType_DayType n_DayType (Some n_CIM14_ENTSOE_Equipment_Core_IdentifiedObject_IdentifiedObject)
    []
    [ERef n_SeasonDayTypeSchedules n_CIM14_ENTSOE_Equipment_LoadModel_SeasonDayTypeSchedule_SeasonDayTypeSchedule true (Some n_DayType)];
(* Model/CIM14/ENTSOE/Equipment.ecore:3140-3160 *)
  EClass n_CIM14_ENTSOE_Equipment_LoadModel_EnergyArea_EnergyArea n_EnergyArea (Some n_CIM14_ENTSOE_Equipment_Core_IdentifiedObject_IdentifiedObject)
    []
    [ERef n_ControlArea n_CIM14_ENTSOE_Equipment_ControlArea_ControlArea_ControlArea false (Some n_EnergyArea)];
(* Model/CIM14/ENTSOE/Equipment.ecore:3433-3449 *)
  EClass n_CIM14_ENTSOE_Equipment_LoadModel_LoadGroup_LoadGroup n_LoadGroup (Some n_CIM14_ENTSOE_Equipment_Core_IdentifiedObject_IdentifiedObject)
    []
    [ERef n_SubLoadArea n_CIM14_ENTSOE_Equipment_LoadModel_SubLoadArea_SubLoadArea false (Some n_LoadGroups)];
(* Model/CIM14/ENTSOE/Equipment.ecore:3204-3332 *)
  EClass n_CIM14_ENTSOE_Equipment_LoadModel_LoadResponseCharacteristic_LoadResponseCharacteristic n_LoadResponseCharacteristic (Some n_CIM14_ENTSOE_Equipment_Core_IdentifiedObject_IdentifiedObject)
    [(n_pVoltageExponent, TFloat); (n_qConstantCurrent, TFloat); (n_pFrequencyExponent, TFloat); (n_exponentModel, TBool); (n_qConstantImpedance, TFloat); (n_pConstantCurrent, TFloat); (n_qFrequencyExponent, TFloat); (n_pConstantPower, TFloat); (n_qVoltageExponent, TFloat); (n_qConstantPower, TFloat); (n_pConstantImpedance, TFloat)]
    [ERef n_EnergyConsumer n_CIM14_ENTSOE_Equipment_Wires_EnergyConsumer_EnergyConsumer true (Some n_LoadResponse)];
(* Model/CIM14/ENTSOE/Equipment.ecore:3119-3139 *)
  EClass n_CIM14_ENTSOE_Equipment_LoadModel_NonConformLoad_NonConformLoad n_NonConformLoad (Some n_CIM14_ENTSOE_Equipment_Wires_EnergyConsumer_EnergyConsumer)
    []
    [ERef n_LoadGroup n_CIM14_ENTSOE_Equipment_LoadModel_NonConformLoadGroup_NonConformLoadGroup false (Some n_EnergyConsumers)];
(* Model/CIM14/ENTSOE/Equipment.ecore:3333-3355 *)
  EClass n_CIM14_ENTSOE_Equipment_LoadModel_NonConformLoadGroup_NonConformLoadGroup n_NonConformLoadGroup (Some n_CIM14_ENTSOE_Equipment_LoadModel_LoadGroup_LoadGroup)
    []
    [ERef n_EnergyConsumers n_CIM14_ENTSOE_Equipment_LoadModel_NonConformLoad_NonConformLoad true (Some n_LoadGroup)];
(* Model/CIM14/ENTSOE/Equipment.ecore:3161-3182 *)
  EClass n_CIM14_ENTSOE_Equipment_LoadModel_Season_Season n_Season (Some n_CIM14_ENTSOE_Equipment_Element_Element)
    []
    [ERef n_SeasonDayTypeSchedules n_CIM14_ENTSOE_Equipment_LoadModel_SeasonDayTypeSchedule_SeasonDayTypeSchedule true (Some n_Season)];
(* Model/CIM14/ENTSOE/Equipment.ecore:3356-3382 *)
  EClass n_CIM14_ENTSOE_Equipment_LoadModel_SeasonDayTypeSchedule_SeasonDayTypeSchedule n_SeasonDayTypeSchedule (Some n_CIM14_ENTSOE_Equipment_Core_RegularIntervalSchedule_RegularIntervalSchedule)
    []
    [ERef n_DayType n_CIM14_ENTSOE_Equipment_LoadModel_DayType_DayType false (Some n_SeasonDayTypeSchedules); ERef n_Season n_CIM14_ENTSOE_Equipment_LoadModel_Season_Season false (Some n_SeasonDayTypeSchedules)];
(* Model/CIM14/ENTSOE/Equipment.ecore:3183-3203 *)
  EClass n_CIM14_ENTSOE_Equipment_LoadModel_SubLoadArea_SubLoadArea n_SubLoadArea (Some n_CIM14_ENTSOE_Equipment_LoadModel_EnergyArea_EnergyArea)
    []
    [ERef n_LoadGroups n_CIM14_ENTSOE_Equipment_LoadModel_LoadGroup_LoadGroup true (Some n_SubLoadArea)];
(* Model/CIM14/ENTSOE/Equipment.ecore:1563-1608 *)
  EClass n_CIM14_ENTSOE_Equipment_Meas_Measurement_Measurement n_Measurement (Some n_CIM14_ENTSOE_Equipment_Core_IdentifiedObject_IdentifiedObject)
    [(n_measurementType, TText)]
    [ERef n_Unit n_CIM14_ENTSOE_Equipment_Core_Unit_Unit false (Some n_Measurements); ERef n_Terminal n_CIM14_ENTSOE_Equipment_Core_Terminal_Terminal false (Some n_Measurements); ERef n_PowerSystemResource n_CIM14_ENTSOE_Equipment_Core_PowerSystemResource_PowerSystemResource false (Some n_Measurements)];
(* Model/CIM14/ENTSOE/Equipment.ecore:1631-1649 *)
  EClass n_CIM14_ENTSOE_Equipment_Meas_MeasurementValue_MeasurementValue n_MeasurementValue (Some n_CIM14_ENTSOE_Equipment_Core_IdentifiedObject_IdentifiedObject)
    []
    [ERef n_MeasurementValueSource n_CIM14_ENTSOE_Equipment_Meas_MeasurementValueSource_MeasurementValueSource false (Some n_MeasurementValues)];
(* Model/CIM14/ENTSOE/Equipment.ecore:1609-1630 *)
  EClass n_CIM14_ENTSOE_Equipment_Meas_MeasurementValueSource_MeasurementValueSource n_MeasurementValueSource (Some n_CIM14_ENTSOE_Equipment_Core_IdentifiedObject_IdentifiedObject)
    []
    [ERef n_MeasurementValues n_CIM14_ENTSOE_Equipment_Meas_MeasurementValue_MeasurementValue true (Some n_MeasurementValueSource)];
(* Model/CIM14/ENTSOE/Equipment.ecore:18-18 *)
  EClass n_CIM14_ENTSOE_Equipment_OperationalLimit_OperationalLimit n_OperationalLimit (Some n_CIM14_ENTSOE_Equipment_OperationalLimits_OperationalLimit_OperationalLimit)
    []
    [];
(* Model/CIM14/ENTSOE/Equipment.ecore:2393-2410 *)
  EClass n_CIM14_ENTSOE_Equipment_OperationalLimits_CurrentLimit_CurrentLimit n_CurrentLimit (Some n_CIM14_ENTSOE_Equipment_OperationalLimits_OperationalLimit_OperationalLimit)
    [(n_value, TFloat)]
    [];
(* Model/CIM14/ENTSOE/Equipment.ecore:2411-2449 *)
  EClass n_CIM14_ENTSOE_Equipment_OperationalLimits_OperationalLimit_OperationalLimit n_OperationalLimit (Some n_CIM14_ENTSOE_Equipment_Core_IdentifiedObject_IdentifiedObject)
    [(n_type, TText)]
    [ERef n_OperationalLimitType n_CIM14_ENTSOE_Equipment_OperationalLimits_OperationalLimitType_OperationalLimitType false (Some n_OperationalLimit); ERef n_OperationalLimitSet n_CIM14_ENTSOE_Equipment_OperationalLimits_OperationalLimitSet_OperationalLimitSet false (Some n_OperationalLimitValue)];
(* Model/CIM14/ENTSOE/Equipment.ecore:2455-2498 *)
  EClass n_CIM14_ENTSOE_Equipment_OperationalLimits_OperationalLimitSet_OperationalLimitSet n_OperationalLimitSet (Some n_CIM14_ENTSOE_Equipment_Core_IdentifiedObject_IdentifiedObject)
    []
    [ERef n_Terminal n_CIM14_ENTSOE_Equipment_Core_Terminal_Terminal false (Some n_OperationalLimitSet); ERef n_Equipment n_CIM14_ENTSOE_Equipment_Core_Equipment_Equipment false (Some n_OperationalLimitSet); ERef n_OperationalLimitValue n_CIM14_ENTSOE_Equipment_OperationalLimits_OperationalLimit_OperationalLimit true (Some n_OperationalLimitSet)];
(* Model/CIM14/ENTSOE/Equipment.ecore:2499-2539 *)
  EClass n_CIM14_ENTSOE_Equipment_OperationalLimits_OperationalLimitType_OperationalLimitType n_OperationalLimitType (Some n_CIM14_ENTSOE_Equipment_Core_IdentifiedObject_IdentifiedObject)
    [(n_direction, enum_cim14_entsoe_equipment_ENTSOE_Equipment_OperationalLimits_OperationalLimitDirectionKind); (n_acceptableDuration, TFloat)]
    [ERef n_OperationalLimit n_CIM14_ENTSOE_Equipment_OperationalLimits_OperationalLimit_OperationalLimit true (Some n_OperationalLimitType)];
(* Model/CIM14/ENTSOE/Equipment.ecore:2375-2392 *)
  EClass n_CIM14_ENTSOE_Equipment_OperationalLimits_VoltageLimit_VoltageLimit n_VoltageLimit (Some n_CIM14_ENTSOE_Equipment_OperationalLimits_OperationalLimit_OperationalLimit)
    [(n_value, TFloat)]
    [];
(* Model/CIM14/ENTSOE/Equipment.ecore:698-781 *)
  EClass n_CIM14_ENTSOE_Equipment_Wires_ACLineSegment_ACLineSegment n_ACLineSegment (Some n_CIM14_ENTSOE_Equipment_Wires_Conductor_Conductor)
    [(n_g0ch, TFloat); (n_r, TFloat); (n_x0, TFloat); (n_bch, TFloat); (n_x, TFloat); (n_b0ch, TFloat); (n_gch, TFloat); (n_r0, TFloat)]
    [];
(* Model/CIM14/ENTSOE/Equipment.ecore:1516-1536 *)
  EClass n_CIM14_ENTSOE_Equipment_Wires_Breaker_Breaker n_Breaker (Some n_CIM14_ENTSOE_Equipment_Wires_Switch_Switch)
    [(n_ratedCurrent, TFloat)]
    [];
(* Model/CIM14/ENTSOE/Equipment.ecore:277-284 *)
  EClass n_CIM14_ENTSOE_Equipment_Wires_BusbarSection_BusbarSection n_BusbarSection (Some n_CIM14_ENTSOE_Equipment_Core_ConductingEquipment_ConductingEquipment)
    []
    [];
(* Model/CIM14/ENTSOE/Equipment.ecore:1537-1553 *)
  EClass n_CIM14_ENTSOE_Equipment_Wires_Conductor_Conductor n_Conductor (Some n_CIM14_ENTSOE_Equipment_Core_ConductingEquipment_ConductingEquipment)
    [(n_length, TFloat)]
    [];
(* Model/CIM14/ENTSOE/Equipment.ecore:782-793 *)
  EClass n_CIM14_ENTSOE_Equipment_Wires_Disconnector_Disconnector n_Disconnector (Some n_CIM14_ENTSOE_Equipment_Wires_Switch_Switch)
    []
    [];
(* Model/CIM14/ENTSOE/Equipment.ecore:1251-1307 *)
  EClass n_CIM14_ENTSOE_Equipment_Wires_EnergyConsumer_EnergyConsumer n_EnergyConsumer (Some n_CIM14_ENTSOE_Equipment_Core_ConductingEquipment_ConductingEquipment)
    [(n_pfixed, TFloat); (n_pfixedPct, TFloat); (n_qfixedPct, TFloat); (n_qfixed, TFloat)]
    [ERef n_LoadResponse n_CIM14_ENTSOE_Equipment_LoadModel_LoadResponseCharacteristic_LoadResponseCharacteristic false (Some n_EnergyConsumer)];
(* Model/CIM14/ENTSOE/Equipment.ecore:1356-1376 *)
  EClass n_CIM14_ENTSOE_Equipment_Wires_Line_Line n_Line (Some n_CIM14_ENTSOE_Equipment_Core_EquipmentContainer_EquipmentContainer)
    []
    [ERef n_Region n_CIM14_ENTSOE_Equipment_Core_SubGeographicalRegion_SubGeographicalRegion false (Some n_Lines)];
(* Model/CIM14/ENTSOE/Equipment.ecore:290-310 *)
  EClass n_CIM14_ENTSOE_Equipment_Wires_LoadBreakSwitch_LoadBreakSwitch n_LoadBreakSwitch (Some n_CIM14_ENTSOE_Equipment_Wires_Switch_Switch)
    [(n_ratedCurrent, TFloat)]
    [];
(* Model/CIM14/ENTSOE/Equipment.ecore:925-1022 *)
  EClass n_CIM14_ENTSOE_Equipment_Wires_MutualCoupling_MutualCoupling n_MutualCoupling (Some n_CIM14_ENTSOE_Equipment_Core_IdentifiedObject_IdentifiedObject)
    [(n_g0ch, TFloat); (n_r0, TFloat); (n_x0, TFloat); (n_distance11, TFloat); (n_distance12, TFloat); (n_distance22, TFloat); (n_distance21, TFloat); (n_b0ch, TFloat)]
    [ERef n_Second_Terminal n_CIM14_ENTSOE_Equipment_Core_Terminal_Terminal false (Some n_HasSecond_MutualCoupling); ERef n_First_Terminal n_CIM14_ENTSOE_Equipment_Core_Terminal_Terminal false (Some n_HasFirst_MutualCoupling)];
(* Model/CIM14/ENTSOE/Equipment.ecore:794-878 *)
  EClass n_CIM14_ENTSOE_Equipment_Wires_PhaseTapChanger_PhaseTapChanger n_PhaseTapChanger (Some n_CIM14_ENTSOE_Equipment_Wires_TapChanger_TapChanger)
    [(n_nominalVoltageOutOfPhase, TFloat); (n_windingConnectionAngle, TFloat); (n_phaseTapChangerType, enum_cim14_entsoe_equipment_ENTSOE_Equipment_Wires_PhaseTapChangerKind); (n_xStepMin, TFloat); (n_xStepMax, TFloat); (n_stepPhaseShiftIncrement, TFloat); (n_voltageStepIncrementOutOfPhase, TFloat)]
    [ERef n_TransformerWinding n_CIM14_ENTSOE_Equipment_Wires_TransformerWinding_TransformerWinding false (Some n_PhaseTapChanger)];
(* Model/CIM14/ENTSOE/Equipment.ecore:1225-1250 *)
  EClass n_CIM14_ENTSOE_Equipment_Wires_PowerTransformer_PowerTransformer n_PowerTransformer (Some n_CIM14_ENTSOE_Equipment_Core_Equipment_Equipment)
    []
    [ERef n_TransformerWindings n_CIM14_ENTSOE_Equipment_Wires_TransformerWinding_TransformerWinding true (Some n_PowerTransformer)];
(* Model/CIM14/ENTSOE/Equipment.ecore:1193-1224 *)
  EClass n_CIM14_ENTSOE_Equipment_Wires_RatioTapChanger_RatioTapChanger n_RatioTapChanger (Some n_CIM14_ENTSOE_Equipment_Wires_TapChanger_TapChanger)
    [(n_tculControlMode, enum_cim14_entsoe_equipment_ENTSOE_Equipment_Wires_TransformerControlMode)]
    [ERef n_TransformerWinding n_CIM14_ENTSOE_Equipment_Wires_TransformerWinding_TransformerWinding false (Some n_RatioTapChanger)];
(* Model/CIM14/ENTSOE/Equipment.ecore:663-697 *)
  EClass n_CIM14_ENTSOE_Equipment_Wires_ReactiveCapabilityCurve_ReactiveCapabilityCurve n_ReactiveCapabilityCurve (Some n_CIM14_ENTSOE_Equipment_Core_Curve_Curve)
    [(n_y2Unit, enum_cim14_entsoe_equipment_ENTSOE_Equipment_Domain_UnitSymbol)]
    [ERef n_InitiallyUsedBySynchronousMachines n_CIM14_ENTSOE_Equipment_Wires_SynchronousMachine_SynchronousMachine true (Some n_InitialReactiveCapabilityCurve)];
(* Model/CIM14/ENTSOE/Equipment.ecore:1334-1355 *)
  EClass n_CIM14_ENTSOE_Equipment_Wires_RegulatingCondEq_RegulatingCondEq n_RegulatingCondEq (Some n_CIM14_ENTSOE_Equipment_Core_ConductingEquipment_ConductingEquipment)
    []
    [ERef n_RegulatingControl n_CIM14_ENTSOE_Equipment_Wires_RegulatingControl_RegulatingControl false (Some n_RegulatingCondEq)];
(* Model/CIM14/ENTSOE/Equipment.ecore:583-662 *)
  EClass n_CIM14_ENTSOE_Equipment_Wires_RegulatingControl_RegulatingControl n_RegulatingControl (Some n_CIM14_ENTSOE_Equipment_Core_PowerSystemResource_PowerSystemResource)
    [(n_targetRange, TFloat); (n_mode, enum_cim14_entsoe_equipment_ENTSOE_Equipment_Wires_RegulatingControlModeKind); (n_discrete, TBool); (n_targetValue, TFloat)]
    [ERef n_Terminal n_CIM14_ENTSOE_Equipment_Core_Terminal_Terminal false (Some n_RegulatingControl); ERef n_RegulatingCondEq n_CIM14_ENTSOE_Equipment_Wires_RegulatingCondEq_RegulatingCondEq true (Some n_RegulatingControl); ERef n_TapChanger n_CIM14_ENTSOE_Equipment_Wires_TapChanger_TapChanger true (Some n_RegulatingControl)];
(* Model/CIM14/ENTSOE/Equipment.ecore:890-919 *)
  EClass n_CIM14_ENTSOE_Equipment_Wires_SeriesCompensator_SeriesCompensator n_SeriesCompensator (Some n_CIM14_ENTSOE_Equipment_Core_ConductingEquipment_ConductingEquipment)
    [(n_r, TFloat); (n_x, TFloat)]
    [];
(* Model/CIM14/ENTSOE/Equipment.ecore:1439-1515 *)
  EClass n_CIM14_ENTSOE_Equipment_Wires_ShuntCompensator_ShuntCompensator n_ShuntCompensator (Some n_CIM14_ENTSOE_Equipment_Wires_RegulatingCondEq_RegulatingCondEq)
    [(n_g0PerSection, TFloat); (n_bPerSection, TFloat); (n_nomU, TFloat); (n_gPerSection, TFloat); (n_normalSections, TInt); (n_b0PerSection, TFloat); (n_maximumSections, TInt)]
    [];
(* Model/CIM14/ENTSOE/Equipment.ecore:1382-1438 *)
  EClass n_CIM14_ENTSOE_Equipment_Wires_StaticVarCompensator_StaticVarCompensator n_StaticVarCompensator (Some n_CIM14_ENTSOE_Equipment_Wires_RegulatingCondEq_RegulatingCondEq)
    [(n_voltageSetPoint, TFloat); (n_capacitiveRating, TFloat); (n_slope, TFloat); (n_inductiveRating, TFloat); (n_sVCControlMode, enum_cim14_entsoe_equipment_ENTSOE_Equipment_Wires_SVCControlMode)]
    [];
(* Model/CIM14/ENTSOE/Equipment.ecore:1312-1333 *)
  EClass n_CIM14_ENTSOE_Equipment_Wires_Switch_Switch n_Switch (Some n_CIM14_ENTSOE_Equipment_Core_ConductingEquipment_ConductingEquipment)
    [(n_normalOpen, TBool)]
    [];
(* Model/CIM14/ENTSOE/Equipment.ecore:1028-1192 *)
  EClass n_CIM14_ENTSOE_Equipment_Wires_SynchronousMachine_SynchronousMachine n_SynchronousMachine (Some n_CIM14_ENTSOE_Equipment_Wires_RegulatingCondEq_RegulatingCondEq)
    [(n_x0, TFloat); (n_qPercent, TFloat); (n_x2, TFloat); (n_r, TFloat); (n_referencePriority, TInt); (n_operatingMode, enum_cim14_entsoe_equipment_ENTSOE_Equipment_Wires_SynchronousMachineOperatingMode); (n_r0, TFloat); (n_type, enum_cim14_entsoe_equipment_ENTSOE_Equipment_Wires_SynchronousMachineType); (n_r2, TFloat); (n_maxQ, TFloat); (n_x, TFloat); (n_ratedS, TFloat); (n_minQ, TFloat)]
    [ERef n_InitialReactiveCapabilityCurve n_CIM14_ENTSOE_Equipment_Wires_ReactiveCapabilityCurve_ReactiveCapabilityCurve false (Some n_InitiallyUsedBySynchronousMachines); ERef n_HydroPump n_CIM14_ENTSOE_Equipment_Generation_Production_HydroPump_HydroPump false (Some n_SynchronousMachine); ERef n_GeneratingUnit n_CIM14_ENTSOE_Equipment_Generation_Production_GeneratingUnit_GeneratingUnit false (Some n_SynchronousMachines)];
(* Model/CIM14/ENTSOE/Equipment.ecore:311-397 *)
  EClass n_CIM14_ENTSOE_Equipment_Wires_TapChanger_TapChanger n_TapChanger (Some n_CIM14_ENTSOE_Equipment_Core_PowerSystemResource_PowerSystemResource)
    [(n_stepVoltageIncrement, TFloat); (n_neutralStep, TInt); (n_normalStep, TInt); (n_ltcFlag, TBool); (n_neutralU, TFloat); (n_lowStep, TInt); (n_regulationStatus, TBool); (n_highStep, TInt)]
    [ERef n_RegulatingControl n_CIM14_ENTSOE_Equipment_Wires_RegulatingControl_RegulatingControl false (Some n_TapChanger)];
(* Model/CIM14/ENTSOE/Equipment.ecore:398-569 *)
  EClass n_CIM14_ENTSOE_Equipment_Wires_TransformerWinding_TransformerWinding n_TransformerWinding (Some n_CIM14_ENTSOE_Equipment_Core_ConductingEquipment_ConductingEquipment)
    [(n_x, TFloat); (n_x0, TFloat); (n_b0, TFloat); (n_g0, TFloat); (n_rground, TFloat); (n_b, TFloat); (n_connectionType, enum_cim14_entsoe_equipment_ENTSOE_Equipment_Wires_WindingConnection); (n_ratedS, TFloat); (n_r, TFloat); (n_r0, TFloat); (n_ratedU, TFloat); (n_xground, TFloat); (n_windingType, enum_cim14_entsoe_equipment_ENTSOE_Equipment_Wires_WindingType)]
    [ERef n_RatioTapChanger n_CIM14_ENTSOE_Equipment_Wires_RatioTapChanger_RatioTapChanger false (Some n_TransformerWinding); ERef n_PhaseTapChanger n_CIM14_ENTSOE_Equipment_Wires_PhaseTapChanger_PhaseTapChanger false (Some n_TransformerWinding); ERef n_PowerTransformer n_CIM14_ENTSOE_Equipment_Wires_PowerTransformer_PowerTransformer false (Some n_TransformerWindings)]].

(** Classes of Model/CIM14/ENTSOE/StateVariables.ecore: 11. *)
Definition ecore_cim14_entsoe_statevariables : list eclass := [
(* Model/CIM14/ENTSOE/StateVariables.ecore:153-173 *)
  EClass n_CIM14_ENTSOE_StateVariables_Core_Terminal_Terminal n_Terminal (Some n_CIM14_ENTSOE_StateVariables_Element_Element)
    []
    [ERef n_SvPowerFlow n_CIM14_ENTSOE_StateVariables_StateVariables_SvPowerFlow_SvPowerFlow false (Some n_Terminal)];
(* Model/CIM14/ENTSOE/StateVariables.ecore:14-17 *)
  EClass n_CIM14_ENTSOE_StateVariables_Element_Element n_Element None
    [(n_UUID, TText)]
    [];
(* Model/CIM14/ENTSOE/StateVariables.ecore:219-254 *)
  EClass n_CIM14_ENTSOE_StateVariables_StateVariables_SvInjection_SvInjection n_SvInjection (Some n_CIM14_ENTSOE_StateVariables_Element_Element)
    [(n_qNetInjection, TFloat); (n_pNetInjection, TFloat)]
    [ERef n_TopologicalNode n_CIM14_ENTSOE_StateVariables_Topology_TopologicalNode_TopologicalNode false (Some n_SvInjection)];
(* Model/CIM14/ENTSOE/StateVariables.ecore:291-325 *)
  EClass n_CIM14_ENTSOE_StateVariables_StateVariables_SvPowerFlow_SvPowerFlow n_SvPowerFlow (Some n_CIM14_ENTSOE_StateVariables_Element_Element)
    [(n_p, TFloat); (n_q, TFloat)]
    [ERef n_Terminal n_CIM14_ENTSOE_StateVariables_Core_Terminal_Terminal false (Some n_SvPowerFlow)];
(* Model/CIM14/ENTSOE/StateVariables.ecore:326-382 *)
  EClass n_CIM14_ENTSOE_StateVariables_StateVariables_SvShortCircuit_SvShortCircuit n_SvShortCircuit (Some n_CIM14_ENTSOE_StateVariables_Element_Element)
    [(n_sShortCircuit, TFloat); (n_x0PerX, TFloat); (n_r0PerR, TFloat); (n_xPerR, TFloat)]
    [ERef n_TopologicalNode n_CIM14_ENTSOE_StateVariables_Topology_TopologicalNode_TopologicalNode false (Some n_SvShortCircuit)];
(* Model/CIM14/ENTSOE/StateVariables.ecore:383-419 *)
  EClass n_CIM14_ENTSOE_StateVariables_StateVariables_SvShuntCompensatorSections_SvShuntCompensatorSections n_SvShuntCompensatorSections (Some n_CIM14_ENTSOE_StateVariables_Element_Element)
    [(n_sections, TInt); (n_continuousSections, TFloat)]
    [ERef n_ShuntCompensator n_CIM14_ENTSOE_StateVariables_Wires_ShuntCompensator_ShuntCompensator false (Some n_SvShuntCompensatorSections)];
(* Model/CIM14/ENTSOE/StateVariables.ecore:183-218 *)
  EClass n_CIM14_ENTSOE_StateVariables_StateVariables_SvTapStep_SvTapStep n_SvTapStep (Some n_CIM14_ENTSOE_StateVariables_Element_Element)
    [(n_position, TInt); (n_continuousPosition, TFloat)]
    [ERef n_TapChanger n_CIM14_ENTSOE_StateVariables_Wires_TapChanger_TapChanger false (Some n_SvTapStep)];
(* Model/CIM14/ENTSOE/StateVariables.ecore:255-290 *)
  EClass n_CIM14_ENTSOE_StateVariables_StateVariables_SvVoltage_SvVoltage n_SvVoltage (Some n_CIM14_ENTSOE_StateVariables_Element_Element)
    [(n_angle, TFloat); (n_v, TFloat)]
    [ERef n_TopologicalNode n_CIM14_ENTSOE_StateVariables_Topology_TopologicalNode_TopologicalNode false (Some n_SvVoltage)];
(* Model/CIM14/ENTSOE/StateVariables.ecore:429-476 *)
  EClass n_CIM14_ENTSOE_StateVariables_Topology_TopologicalNode_TopologicalNode n_TopologicalNode (Some n_CIM14_ENTSOE_StateVariables_Element_Element)
    []
    [ERef n_SvShortCircuit n_CIM14_ENTSOE_StateVariables_StateVariables_SvShortCircuit_SvShortCircuit false (Some n_TopologicalNode); ERef n_SvVoltage n_CIM14_ENTSOE_StateVariables_StateVariables_SvVoltage_SvVoltage false (Some n_TopologicalNode); ERef n_SvInjection n_CIM14_ENTSOE_StateVariables_StateVariables_SvInjection_SvInjection false (Some n_TopologicalNode)];
(* Model/CIM14/ENTSOE/StateVariables.ecore:486-508 *)
  EClass n_CIM14_ENTSOE_StateVariables_Wires_ShuntCompensator_ShuntCompensator n_ShuntCompensator (Some n_CIM14_ENTSOE_StateVariables_Element_Element)
    []
    [ERef n_SvShuntCompensatorSections n_CIM14_ENTSOE_StateVariables_StateVariables_SvShuntCompensatorSections_SvShuntCompensatorSections false (Some n_ShuntCompensator)];
(* Model/CIM14/ENTSOE/StateVariables.ecore:509-529 *)
  EClass n_CIM14_ENTSOE_StateVariables_Wires_TapChanger_TapChanger n_TapChanger (Some n_CIM14_ENTSOE_StateVariables_Element_Element)
    []
    [ERef n_SvTapStep n_CIM14_ENTSOE_StateVariables_StateVariables_SvTapStep_SvTapStep false (Some n_TapChanger)]].

(** Classes of Model/CIM14/ENTSOE/Topology.ecore: 6. *)
Definition ecore_cim14_entsoe_topology : list eclass := [
(* Model/CIM14/ENTSOE/Topology.ecore:152-173 *)
  EClass n_CIM14_ENTSOE_Topology_Core_BaseVoltage_BaseVoltage n_BaseVoltage (Some n_CIM14_ENTSOE_Topology_Core_IdentifiedObject_IdentifiedObject)
    []
    [ERef n_TopologicalNode n_CIM14_ENTSOE_Topology_Topology_TopologicalNode_TopologicalNode true (Some n_BaseVoltage)];
(* Model/CIM14/ENTSOE/Topology.ecore:174-196 *)
  EClass n_CIM14_ENTSOE_Topology_Core_ConnectivityNodeContainer_ConnectivityNodeContainer n_ConnectivityNodeContainer (Some n_CIM14_ENTSOE_Topology_Core_IdentifiedObject_IdentifiedObject)
    []
    [ERef n_TopologicalNode n_CIM14_ENTSOE_Topology_Topology_TopologicalNode_TopologicalNode true (Some n_ConnectivityNodeContainer)];
(* Model/CIM14/ENTSOE/Topology.ecore:124-151 *)
  EClass n_CIM14_ENTSOE_Topology_Core_IdentifiedObject_IdentifiedObject n_IdentifiedObject (Some n_CIM14_ENTSOE_Topology_Element_Element)
    [(n_name, TText); (n_description, TText)]
    [];
(* Model/CIM14/ENTSOE/Topology.ecore:98-123 *)
  EClass n_CIM14_ENTSOE_Topology_Core_Terminal_Terminal n_Terminal (Some n_CIM14_ENTSOE_Topology_Core_IdentifiedObject_IdentifiedObject)
    [(n_connected, TBool)]
    [ERef n_TopologicalNode n_CIM14_ENTSOE_Topology_Topology_TopologicalNode_TopologicalNode false (Some n_Terminal)];
(* Model/CIM14/ENTSOE/Topology.ecore:14-17 *)
  EClass n_CIM14_ENTSOE_Topology_Element_Element n_Element None
    [(n_UUID, TText)]
    [];
(* Model/CIM14/ENTSOE/Topology.ecore:206-245 *)
  EClass n_CIM14_ENTSOE_Topology_Topology_TopologicalNode_TopologicalNode n_TopologicalNode (Some n_CIM14_ENTSOE_Topology_Core_IdentifiedObject_IdentifiedObject)
    []
    [ERef n_ConnectivityNodeContainer n_CIM14_ENTSOE_Topology_Core_ConnectivityNodeContainer_ConnectivityNodeContainer false (Some n_TopologicalNode); ERef n_BaseVoltage n_CIM14_ENTSOE_Topology_Core_BaseVoltage_BaseVoltage false (Some n_TopologicalNode); ERef n_Terminal n_CIM14_ENTSOE_Topology_Core_Terminal_Terminal true (Some n_TopologicalNode)]].

(** Classes of Model/CIM15/CDPSM/Asset.ecore: 25. *)
Definition ecore_cim15_cdpsm_asset : list eclass := [
(* Model/CIM15/CDPSM/Asset.ecore:19-22 *)
  EClass n_CIM15_CDPSM_Asset_Element_Element n_Element None
    [(n_UUID, TText)]
    [];
(* Model/CIM15/CDPSM/Asset.ecore:1103-1205 *)
  EClass n_CIM15_CDPSM_Asset_IEC61968_AssetModels_CableInfo_CableInfo n_CableInfo (Some n_CIM15_CDPSM_Asset_IEC61968_AssetModels_ConductorInfo_ConductorInfo)
    [(n_diameterOverJacket, TFloat); (n_constructionKind, enum_cim15_cdpsm_asset_CDPSM_Asset_IEC61968_AssetModels_CableConstructionKind); (n_shieldMaterial, enum_cim15_cdpsm_asset_CDPSM_Asset_IEC61968_AssetModels_CableShieldMaterialKind); (n_outerJacketKind, enum_cim15_cdpsm_asset_CDPSM_Asset_IEC61968_AssetModels_CableOuterJacketKind); (n_isStrandFill, TBool); (n_diameterOverInsulation, TFloat); (n_diameterOverScreen, TFloat); (n_sheathAsNeutral, TBool); (n_nominalTemperature, TFloat); (n_diameterOverCore, TFloat)]
    [];
(* Model/CIM15/CDPSM/Asset.ecore:1226-1253 *)
  EClass n_CIM15_CDPSM_Asset_IEC61968_AssetModels_ConcentricNeutralCableInfo_ConcentricNeutralCableInfo n_ConcentricNeutralCableInfo (Some n_CIM15_CDPSM_Asset_IEC61968_AssetModels_CableInfo_CableInfo)
    [(n_diameterOverNeutral, TFloat); (n_neutralStrandCount, TInt)]
    [];
(* Model/CIM15/CDPSM/Asset.ecore:550-632 *)
  EClass n_CIM15_CDPSM_Asset_IEC61968_AssetModels_ConductorInfo_ConductorInfo n_ConductorInfo (Some n_CIM15_CDPSM_Asset_IEC61968_Assets_AssetInfo_AssetInfo)
    [(n_usage, enum_cim15_cdpsm_asset_CDPSM_Asset_IEC61968_AssetModels_ConductorUsageKind); (n_insulationThickness, TFloat); (n_insulated, TBool); (n_insulationMaterial, enum_cim15_cdpsm_asset_CDPSM_Asset_IEC61968_AssetModels_ConductorInsulationKind); (n_phaseCount, TInt)]
    [ERef n_WireArrangements n_CIM15_CDPSM_Asset_IEC61968_AssetModels_WireArrangement_WireArrangement true (Some n_ConductorInfo); ERef n_LineSegments n_CIM15_CDPSM_Asset_IEC61970_Wires_ACLineSegment_ACLineSegment true (Some n_ConductorInfo)];
(* Model/CIM15/CDPSM/Asset.ecore:851-886 *)
  EClass n_CIM15_CDPSM_Asset_IEC61968_AssetModels_EndDeviceInfo_EndDeviceInfo n_EndDeviceInfo (Some n_CIM15_CDPSM_Asset_IEC61968_Assets_AssetInfo_AssetInfo)
    [(n_ratedCurrent, TFloat); (n_ratedVoltage, TFloat); (n_phaseCount, TInt)]
    [];
(* Model/CIM15/CDPSM/Asset.ecore:887-922 *)
  EClass n_CIM15_CDPSM_Asset_IEC61968_AssetModels_OverheadConductorInfo_OverheadConductorInfo n_OverheadConductorInfo (Some n_CIM15_CDPSM_Asset_IEC61968_AssetModels_ConductorInfo_ConductorInfo)
    [(n_neutralInsulationThickness, TFloat); (n_phaseConductorSpacing, TFloat); (n_phaseConductorCount, TInt)]
    [];
(* Model/CIM15/CDPSM/Asset.ecore:1402-1419 *)
  EClass n_CIM15_CDPSM_Asset_IEC61968_AssetModels_PowerTransformerInfo_PowerTransformerInfo n_PowerTransformerInfo (Some n_CIM15_CDPSM_Asset_IEC61968_Assets_AssetInfo_AssetInfo)
    []
    [ERef n_TransformerTankInfo n_CIM15_CDPSM_Asset_IEC61968_AssetModels_TransformerTankInfo_TransformerTankInfo true (Some n_PowerTransformerInfo)];
(* Model/CIM15/CDPSM/Asset.ecore:923-1056 *)
  EClass n_CIM15_CDPSM_Asset_IEC61968_AssetModels_TapChangerInfo_TapChangerInfo n_TapChangerInfo (Some n_CIM15_CDPSM_Asset_IEC61968_Assets_AssetInfo_AssetInfo)
    [(n_lowStep, TInt); (n_frequency, TFloat); (n_ptRatio, TFloat); (n_ratedApparentPower, TFloat); (n_stepVoltageIncrement, TFloat); (n_ctRatio, TFloat); (n_ratedVoltage, TFloat); (n_neutralStep, TInt); (n_ratedCurrent, TFloat); (n_ctRating, TFloat); (n_highStep, TInt); (n_stepPhaseIncrement, TFloat); (n_neutralU, TFloat); (n_isTcul, TBool)]
    [];
(* Model/CIM15/CDPSM/Asset.ecore:1254-1279 *)
  EClass n_CIM15_CDPSM_Asset_IEC61968_AssetModels_TapeShieldCableInfo_TapeShieldCableInfo n_TapeShieldCableInfo (Some n_CIM15_CDPSM_Asset_IEC61968_AssetModels_CableInfo_CableInfo)
    [(n_tapeLap, TFloat); (n_tapeThickness, TFloat)]
    [];
(* Model/CIM15/CDPSM/Asset.ecore:1280-1394 *)
  EClass n_CIM15_CDPSM_Asset_IEC61968_AssetModels_TransformerEndInfo_TransformerEndInfo n_TransformerEndInfo (Some n_CIM15_CDPSM_Asset_IEC61968_Assets_AssetInfo_AssetInfo)
    [(n_ratedU, TFloat); (n_endNumber, TInt); (n_phaseAngleClock, TInt); (n_emergencyS, TFloat); (n_ratedS, TFloat); (n_shortTermS, TFloat); (n_r, TFloat); (n_insulationU, TFloat); (n_connectionKind, enum_cim15_cdpsm_asset_CDPSM_Asset_IEC61970_Wires_WindingConnection)]
    [ERef n_TransformerTankInfo n_CIM15_CDPSM_Asset_IEC61968_AssetModels_TransformerTankInfo_TransformerTankInfo false (Some n_TransformerEndInfos); ERef n_TransformerEnd n_CIM15_CDPSM_Asset_IEC61970_Wires_TransformerEnd_TransformerEnd true (Some n_TransformerEndInfo)];
(* Model/CIM15/CDPSM/Asset.ecore:1057-1102 *)
  EClass n_CIM15_CDPSM_Asset_IEC61968_AssetModels_TransformerTankInfo_TransformerTankInfo n_TransformerTankInfo (Some n_CIM15_CDPSM_Asset_IEC61968_Assets_AssetInfo_AssetInfo)
    []
    [ERef n_PowerTransformerInfo n_CIM15_CDPSM_Asset_IEC61968_AssetModels_PowerTransformerInfo_PowerTransformerInfo false (Some n_TransformerTankInfo); ERef n_TransformerEndInfos n_CIM15_CDPSM_Asset_IEC61968_AssetModels_TransformerEndInfo_TransformerEndInfo true (Some n_TransformerTankInfo); ERef n_TransformerTanks n_CIM15_CDPSM_Asset_IEC61970_Wires_TransformerTank_TransformerTank true (Some n_TransformerTankInfo)];
(* Model/CIM15/CDPSM/Asset.ecore:649-703 *)
  EClass n_CIM15_CDPSM_Asset_IEC61968_AssetModels_WireArrangement_WireArrangement n_WireArrangement (Some n_CIM15_CDPSM_Asset_IEC61970_Core_IdentifiedObject_IdentifiedObject)
    [(n_mountingPointY, TFloat); (n_position, TInt); (n_mountingPointX, TFloat)]
    [ERef n_WireType n_CIM15_CDPSM_Asset_IEC61968_AssetModels_WireType_WireType false (Some n_WireArrangements); ERef n_ConductorInfo n_CIM15_CDPSM_Asset_IEC61968_AssetModels_ConductorInfo_ConductorInfo false (Some n_WireArrangements)];
(* Model/CIM15/CDPSM/Asset.ecore:710-841 *)
  EClass n_CIM15_CDPSM_Asset_IEC61968_AssetModels_WireType_WireType n_WireType (Some n_CIM15_CDPSM_Asset_IEC61970_Core_IdentifiedObject_IdentifiedObject)
    [(n_rDC20, TFloat); (n_coreRadius, TFloat); (n_rAC75, TFloat); (n_material, enum_cim15_cdpsm_asset_CDPSM_Asset_IEC61968_AssetModels_ConductorMaterialKind); (n_ratedCurrent, TFloat); (n_strandCount, TInt); (n_rAC25, TFloat); (n_rAC50, TFloat); (n_radius, TFloat); (n_gmr, TFloat); (n_coreStrandCount, TInt); (n_sizeDescription, TText)]
    [ERef n_WireArrangements n_CIM15_CDPSM_Asset_IEC61968_AssetModels_WireArrangement_WireArrangement true (Some n_WireType)];
(* Model/CIM15/CDPSM/Asset.ecore:1429-1436 *)
  EClass n_CIM15_CDPSM_Asset_IEC61968_Assets_AssetInfo_AssetInfo n_AssetInfo (Some n_CIM15_CDPSM_Asset_IEC61970_Core_IdentifiedObject_IdentifiedObject)
    []
    [];
(* Model/CIM15/CDPSM/Asset.ecore:454-494 *)
  EClass n_CIM15_CDPSM_Asset_IEC61970_Core_IdentifiedObject_IdentifiedObject n_IdentifiedObject (Some n_CIM15_CDPSM_Asset_Element_Element)
    [(n_name, TText); (n_aliasName, TText)]
    [ERef n_Names n_CIM15_CDPSM_Asset_IEC61970_Core_Name_Name true (Some n_IdentifiedObject)];
(* Model/CIM15/CDPSM/Asset.ecore:495-531 *)
  EClass n_CIM15_CDPSM_Asset_IEC61970_Core_Name_Name n_Name (Some n_CIM15_CDPSM_Asset_Element_Element)
    [(n_name, TText)]
    [ERef n_IdentifiedObject n_CIM15_CDPSM_Asset_IEC61970_Core_IdentifiedObject_IdentifiedObject false (Some n_Names); ERef n_NameType n_CIM15_CDPSM_Asset_IEC61970_Core_NameType_NameType false (Some n_Names)];
(* Model/CIM15/CDPSM/Asset.ecore:433-453 *)
  EClass n_CIM15_CDPSM_Asset_IEC61970_Core_NameType_NameType n_NameType (Some n_CIM15_CDPSM_Asset_Element_Element)
    []
    [ERef n_Names n_CIM15_CDPSM_Asset_IEC61970_Core_Name_Name true (Some n_NameType)];
(* Model/CIM15/CDPSM/Asset.ecore:254-288 *)
  EClass n_CIM15_CDPSM_Asset_IEC61970_Wires_ACLineSegment_ACLineSegment n_ACLineSegment (Some n_CIM15_CDPSM_Asset_IEC61970_Core_IdentifiedObject_IdentifiedObject)
    []
    [ERef n_SequenceImpedance n_CIM15_CDPSM_Asset_IEC61970_Wires_PerLengthSequenceImpedance_PerLengthSequenceImpedance false (Some n_LineSegments); ERef n_ConductorInfo n_CIM15_CDPSM_Asset_IEC61968_AssetModels_ConductorInfo_ConductorInfo false (Some n_LineSegments); ERef n_PhaseImpedance n_CIM15_CDPSM_Asset_IEC61970_Wires_PerLengthPhaseImpedance_PerLengthPhaseImpedance false (Some n_LineSegments)];
(* Model/CIM15/CDPSM/Asset.ecore:363-384 *)
  EClass n_CIM15_CDPSM_Asset_IEC61970_Wires_PerLengthPhaseImpedance_PerLengthPhaseImpedance n_PerLengthPhaseImpedance (Some n_CIM15_CDPSM_Asset_IEC61970_Core_IdentifiedObject_IdentifiedObject)
    []
    [ERef n_LineSegments n_CIM15_CDPSM_Asset_IEC61970_Wires_ACLineSegment_ACLineSegment true (Some n_PhaseImpedance)];
(* Model/CIM15/CDPSM/Asset.ecore:232-253 *)
  EClass n_CIM15_CDPSM_Asset_IEC61970_Wires_PerLengthSequenceImpedance_PerLengthSequenceImpedance n_PerLengthSequenceImpedance (Some n_CIM15_CDPSM_Asset_IEC61970_Core_IdentifiedObject_IdentifiedObject)
    []
    [ERef n_LineSegments n_CIM15_CDPSM_Asset_IEC61970_Wires_ACLineSegment_ACLineSegment true (Some n_SequenceImpedance)];
(* Model/CIM15/CDPSM/Asset.ecore:289-305 *)
  EClass n_CIM15_CDPSM_Asset_IEC61970_Wires_TransformerCoreAdmittance_TransformerCoreAdmittance n_TransformerCoreAdmittance (Some n_CIM15_CDPSM_Asset_IEC61970_Core_IdentifiedObject_IdentifiedObject)
    []
    [ERef n_TransformerEnd n_CIM15_CDPSM_Asset_IEC61970_Wires_TransformerEnd_TransformerEnd true (Some n_CoreAdmittance)];
(* Model/CIM15/CDPSM/Asset.ecore:385-423 *)
  EClass n_CIM15_CDPSM_Asset_IEC61970_Wires_TransformerEnd_TransformerEnd n_TransformerEnd (Some n_CIM15_CDPSM_Asset_IEC61970_Core_IdentifiedObject_IdentifiedObject)
    []
    [ERef n_CoreAdmittance n_CIM15_CDPSM_Asset_IEC61970_Wires_TransformerCoreAdmittance_TransformerCoreAdmittance false (Some n_TransformerEnd); ERef n_TransformerEndInfo n_CIM15_CDPSM_Asset_IEC61968_AssetModels_TransformerEndInfo_TransformerEndInfo false (Some n_TransformerEnd); ERef n_StarImpedance n_CIM15_CDPSM_Asset_IEC61970_Wires_TransformerStarImpedance_TransformerStarImpedance false (Some n_TransformerEnd)];
(* Model/CIM15/CDPSM/Asset.ecore:340-362 *)
  EClass n_CIM15_CDPSM_Asset_IEC61970_Wires_TransformerStarImpedance_TransformerStarImpedance n_TransformerStarImpedance (Some n_CIM15_CDPSM_Asset_IEC61970_Core_IdentifiedObject_IdentifiedObject)
    []
    [ERef n_TransformerEnd n_CIM15_CDPSM_Asset_IEC61970_Wires_TransformerEnd_TransformerEnd true (Some n_StarImpedance)];
(* Model/CIM15/CDPSM/Asset.ecore:306-322 *)
  EClass n_CIM15_CDPSM_Asset_IEC61970_Wires_TransformerTank_TransformerTank n_TransformerTank (Some n_CIM15_CDPSM_Asset_IEC61970_Core_IdentifiedObject_IdentifiedObject)
    []
    [ERef n_TransformerTankInfo n_CIM15_CDPSM_Asset_IEC61968_AssetModels_TransformerTankInfo_TransformerTankInfo false (Some n_TransformerTanks)];
(* Model/CIM15/CDPSM/Asset.ecore:332-339 *)
  EClass n_CIM15_CDPSM_Asset_IEC61970_Wires_TransformerTankEnd_TransformerTankEnd n_TransformerTankEnd (Some n_CIM15_CDPSM_Asset_IEC61970_Wires_TransformerEnd_TransformerEnd)
    []
    []].

(** Classes of Model/CIM15/CDPSM/Balanced.ecore: 28. *)
Definition ecore_cim15_cdpsm_balanced : list eclass := [
(* Model/CIM15/CDPSM/Balanced.ecore:19-22 *)
  EClass n_CIM15_CDPSM_Balanced_Element_Element n_Element None
    [(n_UUID, TText)]
    [];
(* Model/CIM15/CDPSM/Balanced.ecore:1464-1503 *)
  EClass n_CIM15_CDPSM_Balanced_IEC61970_Core_IdentifiedObject_IdentifiedObject n_IdentifiedObject (Some n_CIM15_CDPSM_Balanced_Element_Element)
    [(n_name, TText); (n_aliasName, TText)]
    [ERef n_Names n_CIM15_CDPSM_Balanced_IEC61970_Core_Name_Name true (Some n_IdentifiedObject)];
(* Model/CIM15/CDPSM/Balanced.ecore:1524-1560 *)
  EClass n_CIM15_CDPSM_Balanced_IEC61970_Core_Name_Name n_Name (Some n_CIM15_CDPSM_Balanced_Element_Element)
    [(n_name, TText)]
    [ERef n_IdentifiedObject n_CIM15_CDPSM_Balanced_IEC61970_Core_IdentifiedObject_IdentifiedObject false (Some n_Names); ERef n_NameType n_CIM15_CDPSM_Balanced_IEC61970_Core_NameType_NameType false (Some n_Names)];
(* Model/CIM15/CDPSM/Balanced.ecore:1443-1463 *)
  EClass n_CIM15_CDPSM_Balanced_IEC61970_Core_NameType_NameType n_NameType (Some n_CIM15_CDPSM_Balanced_Element_Element)
    []
    [ERef n_Names n_CIM15_CDPSM_Balanced_IEC61970_Core_Name_Name true (Some n_NameType)];
(* Model/CIM15/CDPSM/Balanced.ecore:1368-1426 *)
  EClass n_CIM15_CDPSM_Balanced_IEC61970_Generation_Production_GeneratingUnit_GeneratingUnit n_GeneratingUnit (Some n_CIM15_CDPSM_Balanced_IEC61970_Core_IdentifiedObject_IdentifiedObject)
    [(n_baseP, TFloat); (n_genControlSource, enum_cim15_cdpsm_balanced_CDPSM_Balanced_IEC61970_Generation_Production_GeneratorControlSource); (n_ratedNetMaxP, TFloat); (n_initialP, TFloat)]
    [ERef n_SynchronousMachines n_CIM15_CDPSM_Balanced_IEC61970_Wires_SynchronousMachine_SynchronousMachine true (Some n_GeneratingUnit)];
(* Model/CIM15/CDPSM/Balanced.ecore:1218-1350 *)
  EClass n_CIM15_CDPSM_Balanced_IEC61970_LoadModel_LoadResponseCharacteristic_LoadResponseCharacteristic n_LoadResponseCharacteristic (Some n_CIM15_CDPSM_Balanced_IEC61970_Core_IdentifiedObject_IdentifiedObject)
    [(n_pFrequencyExponent, TFloat); (n_pConstantPower, TFloat); (n_pVoltageExponent, TFloat); (n_exponentModel, TBool); (n_qFrequencyExponent, TFloat); (n_qConstantImpedance, TFloat); (n_qConstantPower, TFloat); (n_pConstantCurrent, TFloat); (n_qVoltageExponent, TFloat); (n_pConstantImpedance, TFloat); (n_qConstantCurrent, TFloat)]
    [ERef n_EnergyConsumer n_CIM15_CDPSM_Balanced_IEC61970_Wires_EnergyConsumer_EnergyConsumer true (Some n_LoadResponse)];
(* Model/CIM15/CDPSM/Balanced.ecore:345-406 *)
  EClass n_CIM15_CDPSM_Balanced_IEC61970_Wires_ACLineSegment_ACLineSegment n_ACLineSegment (Some n_CIM15_CDPSM_Balanced_IEC61970_Core_IdentifiedObject_IdentifiedObject)
    [(n_x0, TFloat); (n_bch, TFloat); (n_b0ch, TFloat); (n_r, TFloat); (n_r0, TFloat); (n_x, TFloat)]
    [];
(* Model/CIM15/CDPSM/Balanced.ecore:853-860 *)
  EClass n_CIM15_CDPSM_Balanced_IEC61970_Wires_DCLineSegment_DCLineSegment n_DCLineSegment (Some n_CIM15_CDPSM_Balanced_IEC61970_Core_IdentifiedObject_IdentifiedObject)
    []
    [];
(* Model/CIM15/CDPSM/Balanced.ecore:271-333 *)
  EClass n_CIM15_CDPSM_Balanced_IEC61970_Wires_EnergyConsumer_EnergyConsumer n_EnergyConsumer (Some n_CIM15_CDPSM_Balanced_IEC61970_Core_IdentifiedObject_IdentifiedObject)
    [(n_customerCount, TInt); (n_pfixedPct, TFloat); (n_qfixedPct, TFloat); (n_qfixed, TFloat); (n_pfixed, TFloat)]
    [ERef n_LoadResponse n_CIM15_CDPSM_Balanced_IEC61970_LoadModel_LoadResponseCharacteristic_LoadResponseCharacteristic false (Some n_EnergyConsumer)];
(* Model/CIM15/CDPSM/Balanced.ecore:1038-1090 *)
  EClass n_CIM15_CDPSM_Balanced_IEC61970_Wires_EnergySource_EnergySource n_EnergySource (Some n_CIM15_CDPSM_Balanced_IEC61970_Core_IdentifiedObject_IdentifiedObject)
    [(n_voltageMagnitude, TFloat); (n_x, TFloat); (n_r, TFloat); (n_nominalVoltage, TFloat); (n_voltageAngle, TFloat)]
    [];
(* Model/CIM15/CDPSM/Balanced.ecore:821-829 *)
  EClass n_CIM15_CDPSM_Balanced_IEC61970_Wires_PhaseTapChanger_PhaseTapChanger n_PhaseTapChanger (Some n_CIM15_CDPSM_Balanced_IEC61970_Wires_TapChanger_TapChanger)
    []
    [];
(* Model/CIM15/CDPSM/Balanced.ecore:640-657 *)
  EClass n_CIM15_CDPSM_Balanced_IEC61970_Wires_PhaseTapChangerAsymetrical_PhaseTapChangerAsymetrical n_PhaseTapChangerAsymetrical (Some n_CIM15_CDPSM_Balanced_IEC61970_Wires_PhaseTapChangerNonLinear_PhaseTapChangerNonLinear)
    [(n_windingConnectionAngle, TFloat)]
    [];
(* Model/CIM15/CDPSM/Balanced.ecore:254-270 *)
  EClass n_CIM15_CDPSM_Balanced_IEC61970_Wires_PhaseTapChangerLinear_PhaseTapChangerLinear n_PhaseTapChangerLinear (Some n_CIM15_CDPSM_Balanced_IEC61970_Wires_PhaseTapChanger_PhaseTapChanger)
    [(n_stepPhaseShiftIncrement, TFloat)]
    [];
(* Model/CIM15/CDPSM/Balanced.ecore:747-764 *)
  EClass n_CIM15_CDPSM_Balanced_IEC61970_Wires_PhaseTapChangerNonLinear_PhaseTapChangerNonLinear n_PhaseTapChangerNonLinear (Some n_CIM15_CDPSM_Balanced_IEC61970_Wires_PhaseTapChanger_PhaseTapChanger)
    [(n_voltageStepIncrement, TFloat)]
    [];
(* Model/CIM15/CDPSM/Balanced.ecore:915-922 *)
  EClass n_CIM15_CDPSM_Balanced_IEC61970_Wires_PhaseTapChangerSymetrical_PhaseTapChangerSymetrical n_PhaseTapChangerSymetrical (Some n_CIM15_CDPSM_Balanced_IEC61970_Wires_PhaseTapChangerNonLinear_PhaseTapChangerNonLinear)
    []
    [];
(* Model/CIM15/CDPSM/Balanced.ecore:981-988 *)
  EClass n_CIM15_CDPSM_Balanced_IEC61970_Wires_PowerTransformer_PowerTransformer n_PowerTransformer (Some n_CIM15_CDPSM_Balanced_IEC61970_Core_IdentifiedObject_IdentifiedObject)
    []
    [];
(* Model/CIM15/CDPSM/Balanced.ecore:532-639 *)
  EClass n_CIM15_CDPSM_Balanced_IEC61970_Wires_PowerTransformerEnd_PowerTransformerEnd n_PowerTransformerEnd (Some n_CIM15_CDPSM_Balanced_IEC61970_Wires_TransformerEnd_TransformerEnd)
    [(n_g0, TFloat); (n_ratedS, TFloat); (n_b0, TFloat); (n_r0, TFloat); (n_connectionKind, enum_cim15_cdpsm_balanced_CDPSM_Balanced_IEC61970_Wires_WindingConnection); (n_b, TFloat); (n_r, TFloat); (n_ratedU, TFloat); (n_x0, TFloat); (n_x, TFloat); (n_g, TFloat)]
    [];
(* Model/CIM15/CDPSM/Balanced.ecore:729-746 *)
  EClass n_CIM15_CDPSM_Balanced_IEC61970_Wires_ProtectedSwitch_ProtectedSwitch n_ProtectedSwitch (Some n_CIM15_CDPSM_Balanced_IEC61970_Core_IdentifiedObject_IdentifiedObject)
    [(n_breakingCapacity, TFloat)]
    [];
(* Model/CIM15/CDPSM/Balanced.ecore:765-790 *)
  EClass n_CIM15_CDPSM_Balanced_IEC61970_Wires_RatioTapChanger_RatioTapChanger n_RatioTapChanger (Some n_CIM15_CDPSM_Balanced_IEC61970_Wires_TapChanger_TapChanger)
    [(n_stepVoltageIncrement, TFloat); (n_tculControlMode, enum_cim15_cdpsm_balanced_CDPSM_Balanced_IEC61970_Wires_TransformerControlMode)]
    [];
(* Model/CIM15/CDPSM/Balanced.ecore:791-816 *)
  EClass n_CIM15_CDPSM_Balanced_IEC61970_Wires_SeriesCompensator_SeriesCompensator n_SeriesCompensator (Some n_CIM15_CDPSM_Balanced_IEC61970_Core_IdentifiedObject_IdentifiedObject)
    [(n_x, TFloat); (n_r, TFloat)]
    [];
(* Model/CIM15/CDPSM/Balanced.ecore:1091-1208 *)
  EClass n_CIM15_CDPSM_Balanced_IEC61970_Wires_ShuntCompensator_ShuntCompensator n_ShuntCompensator (Some n_CIM15_CDPSM_Balanced_IEC61970_Core_IdentifiedObject_IdentifiedObject)
    [(n_nomQ, TFloat); (n_maxU, TFloat); (n_g0PerSection, TFloat); (n_gPerSection, TFloat); (n_minU, TFloat); (n_bPerSection, TFloat); (n_reactivePerSection, TFloat); (n_voltageSensitivity, TFloat); (n_nomU, TFloat); (n_normalSections, TInt); (n_b0PerSection, TFloat); (n_maximumSections, TInt)]
    [];
(* Model/CIM15/CDPSM/Balanced.ecore:459-522 *)
  EClass n_CIM15_CDPSM_Balanced_IEC61970_Wires_SynchronousMachine_SynchronousMachine n_SynchronousMachine (Some n_CIM15_CDPSM_Balanced_IEC61970_Core_IdentifiedObject_IdentifiedObject)
    [(n_operatingMode, enum_cim15_cdpsm_balanced_CDPSM_Balanced_IEC61970_Wires_SynchronousMachineOperatingMode); (n_maxQ, TFloat); (n_baseQ, TFloat); (n_minQ, TFloat); (n_type, enum_cim15_cdpsm_balanced_CDPSM_Balanced_IEC61970_Wires_SynchronousMachineType)]
    [ERef n_GeneratingUnit n_CIM15_CDPSM_Balanced_IEC61970_Generation_Production_GeneratingUnit_GeneratingUnit false (Some n_SynchronousMachines)];
(* Model/CIM15/CDPSM/Balanced.ecore:861-914 *)
  EClass n_CIM15_CDPSM_Balanced_IEC61970_Wires_TapChanger_TapChanger n_TapChanger (Some n_CIM15_CDPSM_Balanced_IEC61970_Core_IdentifiedObject_IdentifiedObject)
    [(n_neutralU, TFloat); (n_lowStep, TInt); (n_normalStep, TInt); (n_neutralStep, TInt); (n_highStep, TInt)]
    [];
(* Model/CIM15/CDPSM/Balanced.ecore:407-458 *)
  EClass n_CIM15_CDPSM_Balanced_IEC61970_Wires_TransformerCoreAdmittance_TransformerCoreAdmittance n_TransformerCoreAdmittance (Some n_CIM15_CDPSM_Balanced_IEC61970_Core_IdentifiedObject_IdentifiedObject)
    [(n_g0, TFloat); (n_g, TFloat); (n_b, TFloat); (n_b0, TFloat)]
    [ERef n_TransformerEnd n_CIM15_CDPSM_Balanced_IEC61970_Wires_TransformerEnd_TransformerEnd true (Some n_CoreAdmittance)];
(* Model/CIM15/CDPSM/Balanced.ecore:989-1037 *)
  EClass n_CIM15_CDPSM_Balanced_IEC61970_Wires_TransformerEnd_TransformerEnd n_TransformerEnd (Some n_CIM15_CDPSM_Balanced_IEC61970_Core_IdentifiedObject_IdentifiedObject)
    []
    [ERef n_FromMeshImpedance n_CIM15_CDPSM_Balanced_IEC61970_Wires_TransformerMeshImpedance_TransformerMeshImpedance true (Some n_FromTransformerEnd); ERef n_ToMeshImpedance n_CIM15_CDPSM_Balanced_IEC61970_Wires_TransformerMeshImpedance_TransformerMeshImpedance true (Some n_ToTransformerEnd); ERef n_CoreAdmittance n_CIM15_CDPSM_Balanced_IEC61970_Wires_TransformerCoreAdmittance_TransformerCoreAdmittance false (Some n_TransformerEnd); ERef n_StarImpedance n_CIM15_CDPSM_Balanced_IEC61970_Wires_TransformerStarImpedance_TransformerStarImpedance false (Some n_TransformerEnd)];
(* Model/CIM15/CDPSM/Balanced.ecore:658-728 *)
  EClass n_CIM15_CDPSM_Balanced_IEC61970_Wires_TransformerMeshImpedance_TransformerMeshImpedance n_TransformerMeshImpedance (Some n_CIM15_CDPSM_Balanced_IEC61970_Core_IdentifiedObject_IdentifiedObject)
    [(n_r, TFloat); (n_x, TFloat); (n_x0, TFloat); (n_r0, TFloat)]
    [ERef n_FromTransformerEnd n_CIM15_CDPSM_Balanced_IEC61970_Wires_TransformerEnd_TransformerEnd false (Some n_FromMeshImpedance); ERef n_ToTransformerEnd n_CIM15_CDPSM_Balanced_IEC61970_Wires_TransformerEnd_TransformerEnd true (Some n_ToMeshImpedance)];
(* Model/CIM15/CDPSM/Balanced.ecore:923-980 *)
  EClass n_CIM15_CDPSM_Balanced_IEC61970_Wires_TransformerStarImpedance_TransformerStarImpedance n_TransformerStarImpedance (Some n_CIM15_CDPSM_Balanced_IEC61970_Core_IdentifiedObject_IdentifiedObject)
    [(n_x0, TFloat); (n_x, TFloat); (n_r0, TFloat); (n_r, TFloat)]
    [ERef n_TransformerEnd n_CIM15_CDPSM_Balanced_IEC61970_Wires_TransformerEnd_TransformerEnd true (Some n_StarImpedance)];
(* Model/CIM15/CDPSM/Balanced.ecore:839-846 *)
  EClass n_CIM15_CDPSM_Balanced_IEC61970_Wires_TransformerTankEnd_TransformerTankEnd n_TransformerTankEnd (Some n_CIM15_CDPSM_Balanced_IEC61970_Wires_TransformerEnd_TransformerEnd)
    []
    []].

(** Classes of Model/CIM15/CDPSM/Connectivity.ecore: 46. *)
Definition ecore_cim15_cdpsm_connectivity : list eclass := [
(* Model/CIM15/CDPSM/Connectivity.ecore:19-22 *)
  EClass n_CIM15_CDPSM_Connectivity_Element_Element n_Element None
    [(n_UUID, TText)]
    [];
(* Model/CIM15/CDPSM/Connectivity.ecore:1044-1087 *)
  EClass n_CIM15_CDPSM_Connectivity_IEC61970_Core_BaseVoltage_BaseVoltage n_BaseVoltage (Some n_CIM15_CDPSM_Connectivity_IEC61970_Core_IdentifiedObject_IdentifiedObject)
    [(n_nominalVoltage, TFloat)]
    [ERef n_ConductingEquipment n_CIM15_CDPSM_Connectivity_IEC61970_Wires_ACLineSegment_ACLineSegment true (Some n_BaseVoltage); ERef n_VoltageLevel n_CIM15_CDPSM_Connectivity_IEC61970_Core_VoltageLevel_VoltageLevel true (Some n_BaseVoltage)];
(* Model/CIM15/CDPSM/Connectivity.ecore:538-563 *)
  EClass n_CIM15_CDPSM_Connectivity_IEC61970_Core_Bay_Bay n_Bay (Some n_CIM15_CDPSM_Connectivity_IEC61970_Core_EquipmentContainer_EquipmentContainer)
    []
    [ERef n_VoltageLevel n_CIM15_CDPSM_Connectivity_IEC61970_Core_VoltageLevel_VoltageLevel false (Some n_Bays); ERef n_Substation n_CIM15_CDPSM_Connectivity_IEC61970_Core_Substation_Substation false (Some n_Bays)];
(* Model/CIM15/CDPSM/Connectivity.ecore:735-756 *)
  EClass n_CIM15_CDPSM_Connectivity_IEC61970_Core_ConductingEquipment_ConductingEquipment n_ConductingEquipment (Some n_CIM15_CDPSM_Connectivity_IEC61970_Core_Equipment_Equipment)
    []
    [ERef n_Terminals n_CIM15_CDPSM_Connectivity_IEC61970_Core_Terminal_Terminal true (Some n_ConductingEquipment)];
(* Model/CIM15/CDPSM/Connectivity.ecore:976-1006 *)
  EClass n_CIM15_CDPSM_Connectivity_IEC61970_Core_ConnectivityNode_ConnectivityNode n_ConnectivityNode (Some n_CIM15_CDPSM_Connectivity_IEC61970_Core_IdentifiedObject_IdentifiedObject)
    []
    [ERef n_ConnectivityNodeContainer n_CIM15_CDPSM_Connectivity_IEC61970_Core_ConnectivityNodeContainer_ConnectivityNodeContainer false (Some n_ConnectivityNodes); ERef n_Terminals n_CIM15_CDPSM_Connectivity_IEC61970_Core_Terminal_Terminal true (Some n_ConnectivityNode)];
(* Model/CIM15/CDPSM/Connectivity.ecore:888-910 *)
  EClass n_CIM15_CDPSM_Connectivity_IEC61970_Core_ConnectivityNodeContainer_ConnectivityNodeContainer n_ConnectivityNodeContainer (Some n_CIM15_CDPSM_Connectivity_IEC61970_Core_PowerSystemResource_PowerSystemResource)
    []
    [ERef n_ConnectivityNodes n_CIM15_CDPSM_Connectivity_IEC61970_Core_ConnectivityNode_ConnectivityNode true (Some n_ConnectivityNodeContainer)];
(* Model/CIM15/CDPSM/Connectivity.ecore:829-846 *)
  EClass n_CIM15_CDPSM_Connectivity_IEC61970_Core_Equipment_Equipment n_Equipment (Some n_CIM15_CDPSM_Connectivity_IEC61970_Core_PowerSystemResource_PowerSystemResource)
    []
    [ERef n_EquipmentContainer n_CIM15_CDPSM_Connectivity_IEC61970_Core_EquipmentContainer_EquipmentContainer false (Some n_Equipments)];
(* Model/CIM15/CDPSM/Connectivity.ecore:713-734 *)
  EClass n_CIM15_CDPSM_Connectivity_IEC61970_Core_EquipmentContainer_EquipmentContainer n_EquipmentContainer (Some n_CIM15_CDPSM_Connectivity_IEC61970_Core_ConnectivityNodeContainer_ConnectivityNodeContainer)
    []
    [ERef n_Equipments n_CIM15_CDPSM_Connectivity_IEC61970_Core_Equipment_Equipment true (Some n_EquipmentContainer)];
(* Model/CIM15/CDPSM/Connectivity.ecore:757-778 *)
  EClass n_CIM15_CDPSM_Connectivity_IEC61970_Core_GeographicalRegion_GeographicalRegion n_GeographicalRegion (Some n_CIM15_CDPSM_Connectivity_IEC61970_Core_IdentifiedObject_IdentifiedObject)
    []
    [ERef n_Regions n_CIM15_CDPSM_Connectivity_IEC61970_Core_SubGeographicalRegion_SubGeographicalRegion true (Some n_Region)];
(* Model/CIM15/CDPSM/Connectivity.ecore:847-887 *)
  EClass n_CIM15_CDPSM_Connectivity_IEC61970_Core_IdentifiedObject_IdentifiedObject n_IdentifiedObject (Some n_CIM15_CDPSM_Connectivity_Element_Element)
    [(n_name, TText); (n_aliasName, TText)]
    [ERef n_Names n_CIM15_CDPSM_Connectivity_IEC61970_Core_Name_Name true (Some n_IdentifiedObject)];
(* Model/CIM15/CDPSM/Connectivity.ecore:1007-1043 *)
  EClass n_CIM15_CDPSM_Connectivity_IEC61970_Core_Name_Name n_Name (Some n_CIM15_CDPSM_Connectivity_Element_Element)
    [(n_name, TText)]
    [ERef n_IdentifiedObject n_CIM15_CDPSM_Connectivity_IEC61970_Core_IdentifiedObject_IdentifiedObject false (Some n_Names); ERef n_NameType n_CIM15_CDPSM_Connectivity_IEC61970_Core_NameType_NameType false (Some n_Names)];
(* Model/CIM15/CDPSM/Connectivity.ecore:779-828 *)
  EClass n_CIM15_CDPSM_Connectivity_IEC61970_Core_NameType_NameType n_NameType (Some n_CIM15_CDPSM_Connectivity_Element_Element)
    [(n_name, TText); (n_description, TText)]
    [ERef n_NameTypeAuthority n_CIM15_CDPSM_Connectivity_IEC61970_Core_NameTypeAuthority_NameTypeAuthority false (Some n_NameTypes); ERef n_Names n_CIM15_CDPSM_Connectivity_IEC61970_Core_Name_Name true (Some n_NameType)];
(* Model/CIM15/CDPSM/Connectivity.ecore:564-604 *)
  EClass n_CIM15_CDPSM_Connectivity_IEC61970_Core_NameTypeAuthority_NameTypeAuthority n_NameTypeAuthority (Some n_CIM15_CDPSM_Connectivity_Element_Element)
    [(n_name, TText); (n_description, TText)]
    [ERef n_NameTypes n_CIM15_CDPSM_Connectivity_IEC61970_Core_NameType_NameType true (Some n_NameTypeAuthority)];
(* Model/CIM15/CDPSM/Connectivity.ecore:705-712 *)
  EClass n_CIM15_CDPSM_Connectivity_IEC61970_Core_PSRType_PSRType n_PSRType (Some n_CIM15_CDPSM_Connectivity_IEC61970_Core_IdentifiedObject_IdentifiedObject)
    []
    [];
(* Model/CIM15/CDPSM/Connectivity.ecore:1088-1096 *)
  EClass n_CIM15_CDPSM_Connectivity_IEC61970_Core_PowerSystemResource_PowerSystemResource n_PowerSystemResource (Some n_CIM15_CDPSM_Connectivity_IEC61970_Core_IdentifiedObject_IdentifiedObject)
    []
    [];
(* Model/CIM15/CDPSM/Connectivity.ecore:662-704 *)
  EClass n_CIM15_CDPSM_Connectivity_IEC61970_Core_SubGeographicalRegion_SubGeographicalRegion n_SubGeographicalRegion (Some n_CIM15_CDPSM_Connectivity_IEC61970_Core_IdentifiedObject_IdentifiedObject)
    []
    [ERef n_Lines n_CIM15_CDPSM_Connectivity_IEC61970_Wires_Line_Line true (Some n_Region); ERef n_Substations n_CIM15_CDPSM_Connectivity_IEC61970_Core_Substation_Substation true (Some n_Region); ERef n_Region n_CIM15_CDPSM_Connectivity_IEC61970_Core_GeographicalRegion_GeographicalRegion false (Some n_Regions)];
(* Model/CIM15/CDPSM/Connectivity.ecore:911-955 *)
  EClass n_CIM15_CDPSM_Connectivity_IEC61970_Core_Substation_Substation n_Substation (Some n_CIM15_CDPSM_Connectivity_IEC61970_Core_EquipmentContainer_EquipmentContainer)
    []
    [ERef n_Region n_CIM15_CDPSM_Connectivity_IEC61970_Core_SubGeographicalRegion_SubGeographicalRegion false (Some n_Substations); ERef n_VoltageLevels n_CIM15_CDPSM_Connectivity_IEC61970_Core_VoltageLevel_VoltageLevel true (Some n_Substation); ERef n_Bays n_CIM15_CDPSM_Connectivity_IEC61970_Core_Bay_Bay true (Some n_Substation)];
(* Model/CIM15/CDPSM/Connectivity.ecore:487-537 *)
  EClass n_CIM15_CDPSM_Connectivity_IEC61970_Core_Terminal_Terminal n_Terminal (Some n_CIM15_CDPSM_Connectivity_IEC61970_Core_IdentifiedObject_IdentifiedObject)
    [(n_phases, enum_cim15_cdpsm_connectivity_CDPSM_Connectivity_IEC61970_Core_PhaseCode)]
    [ERef n_ConnectivityNode n_CIM15_CDPSM_Connectivity_IEC61970_Core_ConnectivityNode_ConnectivityNode false (Some n_Terminals); ERef n_TransformerEnd n_CIM15_CDPSM_Connectivity_IEC61970_Wires_TransformerEnd_TransformerEnd true (Some n_Terminal); ERef n_ConductingEquipment n_CIM15_CDPSM_Connectivity_IEC61970_Core_ConductingEquipment_ConductingEquipment false (Some n_Terminals)];
(* Model/CIM15/CDPSM/Connectivity.ecore:605-661 *)
  EClass n_CIM15_CDPSM_Connectivity_IEC61970_Core_VoltageLevel_VoltageLevel n_VoltageLevel (Some n_CIM15_CDPSM_Connectivity_IEC61970_Core_EquipmentContainer_EquipmentContainer)
    [(n_lowVoltageLimit, TFloat); (n_highVoltageLimit, TFloat)]
    [ERef n_Bays n_CIM15_CDPSM_Connectivity_IEC61970_Core_Bay_Bay true (Some n_VoltageLevel); ERef n_BaseVoltage n_CIM15_CDPSM_Connectivity_IEC61970_Core_BaseVoltage_BaseVoltage false (Some n_VoltageLevel); ERef n_Substation n_CIM15_CDPSM_Connectivity_IEC61970_Core_Substation_Substation false (Some n_VoltageLevels)];
(* Model/CIM15/CDPSM/Connectivity.ecore:175-191 *)
  EClass n_CIM15_CDPSM_Connectivity_IEC61970_Wires_ACLineSegment_ACLineSegment n_ACLineSegment (Some n_CIM15_CDPSM_Connectivity_IEC61970_Wires_Conductor_Conductor)
    []
    [ERef n_BaseVoltage n_CIM15_CDPSM_Connectivity_IEC61970_Core_BaseVoltage_BaseVoltage false (Some n_ConductingEquipment)];
(* Model/CIM15/CDPSM/Connectivity.ecore:283-290 *)
  EClass n_CIM15_CDPSM_Connectivity_IEC61970_Wires_Breaker_Breaker n_Breaker (Some n_CIM15_CDPSM_Connectivity_IEC61970_Wires_Switch_Switch)
    []
    [];
(* Model/CIM15/CDPSM/Connectivity.ecore:200-207 *)
  EClass n_CIM15_CDPSM_Connectivity_IEC61970_Wires_BusbarSection_BusbarSection n_BusbarSection (Some n_CIM15_CDPSM_Connectivity_IEC61970_Core_ConductingEquipment_ConductingEquipment)
    []
    [];
(* Model/CIM15/CDPSM/Connectivity.ecore:352-368 *)
  EClass n_CIM15_CDPSM_Connectivity_IEC61970_Wires_Conductor_Conductor n_Conductor (Some n_CIM15_CDPSM_Connectivity_IEC61970_Core_ConductingEquipment_ConductingEquipment)
    [(n_length, TFloat)]
    [];
(* Model/CIM15/CDPSM/Connectivity.ecore:326-333 *)
  EClass n_CIM15_CDPSM_Connectivity_IEC61970_Wires_DCLineSegment_DCLineSegment n_DCLineSegment (Some n_CIM15_CDPSM_Connectivity_IEC61970_Wires_Conductor_Conductor)
    []
    [];
(* Model/CIM15/CDPSM/Connectivity.ecore:167-174 *)
  EClass n_CIM15_CDPSM_Connectivity_IEC61970_Wires_Disconnector_Disconnector n_Disconnector (Some n_CIM15_CDPSM_Connectivity_IEC61970_Wires_Switch_Switch)
    []
    [];
(* Model/CIM15/CDPSM/Connectivity.ecore:141-148 *)
  EClass n_CIM15_CDPSM_Connectivity_IEC61970_Wires_EnergyConsumer_EnergyConsumer n_EnergyConsumer (Some n_CIM15_CDPSM_Connectivity_IEC61970_Core_ConductingEquipment_ConductingEquipment)
    []
    [];
(* Model/CIM15/CDPSM/Connectivity.ecore:435-442 *)
  EClass n_CIM15_CDPSM_Connectivity_IEC61970_Wires_EnergySource_EnergySource n_EnergySource (Some n_CIM15_CDPSM_Connectivity_IEC61970_Core_ConductingEquipment_ConductingEquipment)
    []
    [];
(* Model/CIM15/CDPSM/Connectivity.ecore:133-140 *)
  EClass n_CIM15_CDPSM_Connectivity_IEC61970_Wires_Fuse_Fuse n_Fuse (Some n_CIM15_CDPSM_Connectivity_IEC61970_Wires_Switch_Switch)
    []
    [];
(* Model/CIM15/CDPSM/Connectivity.ecore:401-408 *)
  EClass n_CIM15_CDPSM_Connectivity_IEC61970_Wires_Ground_Ground n_Ground (Some n_CIM15_CDPSM_Connectivity_IEC61970_Core_ConductingEquipment_ConductingEquipment)
    []
    [];
(* Model/CIM15/CDPSM/Connectivity.ecore:248-255 *)
  EClass n_CIM15_CDPSM_Connectivity_IEC61970_Wires_GroundDisconnector_GroundDisconnector n_GroundDisconnector (Some n_CIM15_CDPSM_Connectivity_IEC61970_Wires_Switch_Switch)
    []
    [];
(* Model/CIM15/CDPSM/Connectivity.ecore:443-450 *)
  EClass n_CIM15_CDPSM_Connectivity_IEC61970_Wires_Jumper_Jumper n_Jumper (Some n_CIM15_CDPSM_Connectivity_IEC61970_Wires_Switch_Switch)
    []
    [];
(* Model/CIM15/CDPSM/Connectivity.ecore:267-274 *)
  EClass n_CIM15_CDPSM_Connectivity_IEC61970_Wires_Junction_Junction n_Junction (Some n_CIM15_CDPSM_Connectivity_IEC61970_Core_ConductingEquipment_ConductingEquipment)
    []
    [];
(* Model/CIM15/CDPSM/Connectivity.ecore:334-351 *)
  EClass n_CIM15_CDPSM_Connectivity_IEC61970_Wires_Line_Line n_Line (Some n_CIM15_CDPSM_Connectivity_IEC61970_Core_EquipmentContainer_EquipmentContainer)
    []
    [ERef n_Region n_CIM15_CDPSM_Connectivity_IEC61970_Core_SubGeographicalRegion_SubGeographicalRegion false (Some n_Lines)];
(* Model/CIM15/CDPSM/Connectivity.ecore:208-215 *)
  EClass n_CIM15_CDPSM_Connectivity_IEC61970_Wires_LoadBreakSwitch_LoadBreakSwitch n_LoadBreakSwitch (Some n_CIM15_CDPSM_Connectivity_IEC61970_Wires_Switch_Switch)
    []
    [];
(* Model/CIM15/CDPSM/Connectivity.ecore:369-400 *)
  EClass n_CIM15_CDPSM_Connectivity_IEC61970_Wires_PowerTransformer_PowerTransformer n_PowerTransformer (Some n_CIM15_CDPSM_Connectivity_IEC61970_Core_ConductingEquipment_ConductingEquipment)
    []
    [ERef n_TransformerTanks n_CIM15_CDPSM_Connectivity_IEC61970_Wires_TransformerTank_TransformerTank true (Some n_PowerTransformer); ERef n_PowerTransformerEnd n_CIM15_CDPSM_Connectivity_IEC61970_Wires_PowerTransformerEnd_PowerTransformerEnd true (Some n_PowerTransformer)];
(* Model/CIM15/CDPSM/Connectivity.ecore:256-266 *)
  EClass n_CIM15_CDPSM_Connectivity_IEC61970_Wires_PowerTransformerEnd_PowerTransformerEnd n_PowerTransformerEnd (Some n_CIM15_CDPSM_Connectivity_IEC61970_Wires_TransformerEnd_TransformerEnd)
    []
    [ERef n_PowerTransformer n_CIM15_CDPSM_Connectivity_IEC61970_Wires_PowerTransformer_PowerTransformer false (Some n_PowerTransformerEnd)];
(* Model/CIM15/CDPSM/Connectivity.ecore:318-325 *)
  EClass n_CIM15_CDPSM_Connectivity_IEC61970_Wires_Sectionaliser_Sectionaliser n_Sectionaliser (Some n_CIM15_CDPSM_Connectivity_IEC61970_Wires_Switch_Switch)
    []
    [];
(* Model/CIM15/CDPSM/Connectivity.ecore:275-282 *)
  EClass n_CIM15_CDPSM_Connectivity_IEC61970_Wires_SeriesCompensator_SeriesCompensator n_SeriesCompensator (Some n_CIM15_CDPSM_Connectivity_IEC61970_Core_ConductingEquipment_ConductingEquipment)
    []
    [];
(* Model/CIM15/CDPSM/Connectivity.ecore:427-434 *)
  EClass n_CIM15_CDPSM_Connectivity_IEC61970_Wires_ShuntCompensator_ShuntCompensator n_ShuntCompensator (Some n_CIM15_CDPSM_Connectivity_IEC61970_Core_ConductingEquipment_ConductingEquipment)
    []
    [];
(* Model/CIM15/CDPSM/Connectivity.ecore:149-166 *)
  EClass n_CIM15_CDPSM_Connectivity_IEC61970_Wires_Switch_Switch n_Switch (Some n_CIM15_CDPSM_Connectivity_IEC61970_Core_ConductingEquipment_ConductingEquipment)
    [(n_normalOpen, TBool)]
    [];
(* Model/CIM15/CDPSM/Connectivity.ecore:192-199 *)
  EClass n_CIM15_CDPSM_Connectivity_IEC61970_Wires_SynchronousMachine_SynchronousMachine n_SynchronousMachine (Some n_CIM15_CDPSM_Connectivity_IEC61970_Core_ConductingEquipment_ConductingEquipment)
    []
    [];
(* Model/CIM15/CDPSM/Connectivity.ecore:409-426 *)
  EClass n_CIM15_CDPSM_Connectivity_IEC61970_Wires_TransformerEnd_TransformerEnd n_TransformerEnd (Some n_CIM15_CDPSM_Connectivity_IEC61970_Core_IdentifiedObject_IdentifiedObject)
    []
    [ERef n_Terminal n_CIM15_CDPSM_Connectivity_IEC61970_Core_Terminal_Terminal false (Some n_TransformerEnd)];
(* Model/CIM15/CDPSM/Connectivity.ecore:216-247 *)
  EClass n_CIM15_CDPSM_Connectivity_IEC61970_Wires_TransformerTank_TransformerTank n_TransformerTank (Some n_CIM15_CDPSM_Connectivity_IEC61970_Core_Equipment_Equipment)
    []
    [ERef n_PowerTransformer n_CIM15_CDPSM_Connectivity_IEC61970_Wires_PowerTransformer_PowerTransformer false (Some n_TransformerTanks); ERef n_TransformerTankEnds n_CIM15_CDPSM_Connectivity_IEC61970_Wires_TransformerTankEnd_TransformerTankEnd true (Some n_TransformerTank)];
(* Model/CIM15/CDPSM/Connectivity.ecore:291-317 *)
  EClass n_CIM15_CDPSM_Connectivity_IEC61970_Wires_TransformerTankEnd_TransformerTankEnd n_TransformerTankEnd (Some n_CIM15_CDPSM_Connectivity_IEC61970_Wires_TransformerEnd_TransformerEnd)
    [(n_phases, enum_cim15_cdpsm_connectivity_CDPSM_Connectivity_IEC61970_Core_PhaseCode)]
    [ERef n_TransformerTank n_CIM15_CDPSM_Connectivity_IEC61970_Wires_TransformerTank_TransformerTank false (Some n_TransformerTankEnds)];
(* Model/CIM15/CDPSM/Connectivity.ecore:454-461 *)
  EClass n_CIM15_CDPSM_Connectivity_IEC61970_WiresPhaseModel_ShuntCompensatorPhase_ShuntCompensatorPhase n_ShuntCompensatorPhase (Some n_CIM15_CDPSM_Connectivity_IEC61970_Core_PowerSystemResource_PowerSystemResource)
    []
    [];
(* Model/CIM15/CDPSM/Connectivity.ecore:462-469 *)
  EClass n_CIM15_CDPSM_Connectivity_IEC61970_WiresPhaseModel_SwitchPhase_SwitchPhase n_SwitchPhase (Some n_CIM15_CDPSM_Connectivity_IEC61970_Core_PowerSystemResource_PowerSystemResource)
    []
    []].

(** Classes of Model/CIM15/CDPSM/Geographical.ecore: 27. *)
Definition ecore_cim15_cdpsm_geographical : list eclass := [
(* Model/CIM15/CDPSM/Geographical.ecore:19-22 *)
  EClass n_CIM15_CDPSM_Geographical_Element_Element n_Element None
    [(n_UUID, TText)]
    [];
(* Model/CIM15/CDPSM/Geographical.ecore:454-484 *)
  EClass n_CIM15_CDPSM_Geographical_IEC61968_Common_CoordinateSystem_CoordinateSystem n_CoordinateSystem (Some n_CIM15_CDPSM_Geographical_IEC61970_Core_IdentifiedObject_IdentifiedObject)
    [(n_crsUrn, TText)]
    [ERef n_Location n_CIM15_CDPSM_Geographical_IEC61968_Common_Location_Location true (Some n_CoordinateSystem)];
(* Model/CIM15/CDPSM/Geographical.ecore:408-453 *)
  EClass n_CIM15_CDPSM_Geographical_IEC61968_Common_Location_Location n_Location (Some n_CIM15_CDPSM_Geographical_IEC61970_Core_IdentifiedObject_IdentifiedObject)
    []
    [ERef n_PowerSystemResources n_CIM15_CDPSM_Geographical_IEC61970_Core_PowerSystemResource_PowerSystemResource true (Some n_Location); ERef n_PositionPoints n_CIM15_CDPSM_Geographical_IEC61968_Common_PositionPoint_PositionPoint true (Some n_Location); ERef n_CoordinateSystem n_CIM15_CDPSM_Geographical_IEC61968_Common_CoordinateSystem_CoordinateSystem false (Some n_Location)];
(* Model/CIM15/CDPSM/Geographical.ecore:485-540 *)
  EClass n_CIM15_CDPSM_Geographical_IEC61968_Common_PositionPoint_PositionPoint n_PositionPoint (Some n_CIM15_CDPSM_Geographical_Element_Element)
    [(n_xPosition, TText); (n_zPosition, TText); (n_sequenceNumber, TInt); (n_yPosition, TText)]
    [ERef n_Location n_CIM15_CDPSM_Geographical_IEC61968_Common_Location_Location false (Some n_PositionPoints)];
(* Model/CIM15/CDPSM/Geographical.ecore:256-264 *)
  EClass n_CIM15_CDPSM_Geographical_IEC61970_Core_ConductingEquipment_ConductingEquipment n_ConductingEquipment (Some n_CIM15_CDPSM_Geographical_IEC61970_Core_Equipment_Equipment)
    []
    [];
(* Model/CIM15/CDPSM/Geographical.ecore:286-293 *)
  EClass n_CIM15_CDPSM_Geographical_IEC61970_Core_Equipment_Equipment n_Equipment (Some n_CIM15_CDPSM_Geographical_IEC61970_Core_PowerSystemResource_PowerSystemResource)
    []
    [];
(* Model/CIM15/CDPSM/Geographical.ecore:294-334 *)
  EClass n_CIM15_CDPSM_Geographical_IEC61970_Core_IdentifiedObject_IdentifiedObject n_IdentifiedObject (Some n_CIM15_CDPSM_Geographical_Element_Element)
    [(n_aliasName, TText); (n_name, TText)]
    [ERef n_Names n_CIM15_CDPSM_Geographical_IEC61970_Core_Name_Name true (Some n_IdentifiedObject)];
(* Model/CIM15/CDPSM/Geographical.ecore:335-371 *)
  EClass n_CIM15_CDPSM_Geographical_IEC61970_Core_Name_Name n_Name (Some n_CIM15_CDPSM_Geographical_Element_Element)
    [(n_name, TText)]
    [ERef n_NameType n_CIM15_CDPSM_Geographical_IEC61970_Core_NameType_NameType false (Some n_Names); ERef n_IdentifiedObject n_CIM15_CDPSM_Geographical_IEC61970_Core_IdentifiedObject_IdentifiedObject false (Some n_Names)];
(* Model/CIM15/CDPSM/Geographical.ecore:265-285 *)
  EClass n_CIM15_CDPSM_Geographical_IEC61970_Core_NameType_NameType n_NameType (Some n_CIM15_CDPSM_Geographical_Element_Element)
    []
    [ERef n_Names n_CIM15_CDPSM_Geographical_IEC61970_Core_Name_Name true (Some n_NameType)];
(* Model/CIM15/CDPSM/Geographical.ecore:372-389 *)
  EClass n_CIM15_CDPSM_Geographical_IEC61970_Core_PowerSystemResource_PowerSystemResource n_PowerSystemResource (Some n_CIM15_CDPSM_Geographical_IEC61970_Core_IdentifiedObject_IdentifiedObject)
    []
    [ERef n_Location n_CIM15_CDPSM_Geographical_IEC61968_Common_Location_Location false (Some n_PowerSystemResources)];
(* Model/CIM15/CDPSM/Geographical.ecore:135-142 *)
  EClass n_CIM15_CDPSM_Geographical_IEC61970_Wires_ACLineSegment_ACLineSegment n_ACLineSegment (Some n_CIM15_CDPSM_Geographical_IEC61970_Core_ConductingEquipment_ConductingEquipment)
    []
    [];
(* Model/CIM15/CDPSM/Geographical.ecore:191-198 *)
  EClass n_CIM15_CDPSM_Geographical_IEC61970_Wires_Breaker_Breaker n_Breaker (Some n_CIM15_CDPSM_Geographical_IEC61970_Core_ConductingEquipment_ConductingEquipment)
    []
    [];
(* Model/CIM15/CDPSM/Geographical.ecore:151-158 *)
  EClass n_CIM15_CDPSM_Geographical_IEC61970_Wires_BusbarSection_BusbarSection n_BusbarSection (Some n_CIM15_CDPSM_Geographical_IEC61970_Core_ConductingEquipment_ConductingEquipment)
    []
    [];
(* Model/CIM15/CDPSM/Geographical.ecore:199-206 *)
  EClass n_CIM15_CDPSM_Geographical_IEC61970_Wires_DCLineSegment_DCLineSegment n_DCLineSegment (Some n_CIM15_CDPSM_Geographical_IEC61970_Core_ConductingEquipment_ConductingEquipment)
    []
    [];
(* Model/CIM15/CDPSM/Geographical.ecore:127-134 *)
  EClass n_CIM15_CDPSM_Geographical_IEC61970_Wires_Disconnector_Disconnector n_Disconnector (Some n_CIM15_CDPSM_Geographical_IEC61970_Core_ConductingEquipment_ConductingEquipment)
    []
    [];
(* Model/CIM15/CDPSM/Geographical.ecore:119-126 *)
  EClass n_CIM15_CDPSM_Geographical_IEC61970_Wires_EnergyConsumer_EnergyConsumer n_EnergyConsumer (Some n_CIM15_CDPSM_Geographical_IEC61970_Core_ConductingEquipment_ConductingEquipment)
    []
    [];
(* Model/CIM15/CDPSM/Geographical.ecore:223-230 *)
  EClass n_CIM15_CDPSM_Geographical_IEC61970_Wires_EnergySource_EnergySource n_EnergySource (Some n_CIM15_CDPSM_Geographical_IEC61970_Core_ConductingEquipment_ConductingEquipment)
    []
    [];
(* Model/CIM15/CDPSM/Geographical.ecore:111-118 *)
  EClass n_CIM15_CDPSM_Geographical_IEC61970_Wires_Fuse_Fuse n_Fuse (Some n_CIM15_CDPSM_Geographical_IEC61970_Core_ConductingEquipment_ConductingEquipment)
    []
    [];
(* Model/CIM15/CDPSM/Geographical.ecore:167-174 *)
  EClass n_CIM15_CDPSM_Geographical_IEC61970_Wires_GroundDisconnector_GroundDisconnector n_GroundDisconnector (Some n_CIM15_CDPSM_Geographical_IEC61970_Core_ConductingEquipment_ConductingEquipment)
    []
    [];
(* Model/CIM15/CDPSM/Geographical.ecore:239-246 *)
  EClass n_CIM15_CDPSM_Geographical_IEC61970_Wires_Jumper_Jumper n_Jumper (Some n_CIM15_CDPSM_Geographical_IEC61970_Core_ConductingEquipment_ConductingEquipment)
    []
    [];
(* Model/CIM15/CDPSM/Geographical.ecore:183-190 *)
  EClass n_CIM15_CDPSM_Geographical_IEC61970_Wires_Junction_Junction n_Junction (Some n_CIM15_CDPSM_Geographical_IEC61970_Core_ConductingEquipment_ConductingEquipment)
    []
    [];
(* Model/CIM15/CDPSM/Geographical.ecore:207-214 *)
  EClass n_CIM15_CDPSM_Geographical_IEC61970_Wires_Line_Line n_Line (Some n_CIM15_CDPSM_Geographical_IEC61970_Core_PowerSystemResource_PowerSystemResource)
    []
    [];
(* Model/CIM15/CDPSM/Geographical.ecore:159-166 *)
  EClass n_CIM15_CDPSM_Geographical_IEC61970_Wires_LoadBreakSwitch_LoadBreakSwitch n_LoadBreakSwitch (Some n_CIM15_CDPSM_Geographical_IEC61970_Core_ConductingEquipment_ConductingEquipment)
    []
    [];
(* Model/CIM15/CDPSM/Geographical.ecore:215-222 *)
  EClass n_CIM15_CDPSM_Geographical_IEC61970_Wires_PowerTransformer_PowerTransformer n_PowerTransformer (Some n_CIM15_CDPSM_Geographical_IEC61970_Core_ConductingEquipment_ConductingEquipment)
    []
    [];
(* Model/CIM15/CDPSM/Geographical.ecore:175-182 *)
  EClass n_CIM15_CDPSM_Geographical_IEC61970_Wires_SeriesCompensator_SeriesCompensator n_SeriesCompensator (Some n_CIM15_CDPSM_Geographical_IEC61970_Core_ConductingEquipment_ConductingEquipment)
    []
    [];
(* Model/CIM15/CDPSM/Geographical.ecore:231-238 *)
  EClass n_CIM15_CDPSM_Geographical_IEC61970_Wires_ShuntCompensator_ShuntCompensator n_ShuntCompensator (Some n_CIM15_CDPSM_Geographical_IEC61970_Core_ConductingEquipment_ConductingEquipment)
    []
    [];
(* Model/CIM15/CDPSM/Geographical.ecore:143-150 *)
  EClass n_CIM15_CDPSM_Geographical_IEC61970_Wires_SynchronousMachine_SynchronousMachine n_SynchronousMachine (Some n_CIM15_CDPSM_Geographical_IEC61970_Core_ConductingEquipment_ConductingEquipment)
    []
    []].

(** The models in the order of [tables]: Model/CIM14/CIM14.ecore, Model/CIM15/CIM15.ecore and
    those of the profiles. *)
Definition ecores : list (list eclass) := [
  ecore_cim14;
  ecore_cim15;
  ecore_cim14_cdpsm_balanced;
  ecore_cim14_cdpsm_gis_connectivity;
  ecore_cim14_cdpsm_unbalanced;
  ecore_cim14_cpsm_equipment;
  ecore_cim14_cpsm_statevariables;
  ecore_cim14_cpsm_topology;
  ecore_cim14_entsoe_dynamics;
  ecore_cim14_entsoe_equipment;
  ecore_cim14_entsoe_statevariables;
  ecore_cim14_entsoe_topology;
  ecore_cim15_cdpsm_asset;
  ecore_cim15_cdpsm_balanced;
  ecore_cim15_cdpsm_connectivity;
  ecore_cim15_cdpsm_geographical].
