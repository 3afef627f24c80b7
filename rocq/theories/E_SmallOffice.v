(** The building of IsoModel/test_data/SmallOffice_v2.ism (with the defaults of the
    parameter headers), used as the concrete case in the [T_*] files. *)
From Coq Require Import ZArith.
From Verif Require Import Base Num M_Params.
Open Scope num_scope.

Definition smallOffice {T} {N : Num T} : params_t T :=
  {|pa_structure :=
       {| st_floorArea := lit 51116 100;
          st_wallArea := [lit 8445 100; zn 0; lit 563 10; zn 0; lit 8445 100; zn 0; lit 563 10; zn 0; lit 59876 100];
          st_windowArea := [lit 2065 100; zn 0; lit 1116 100; zn 0; lit 1674 100; zn 0; lit 1116 100; zn 0; zn 0];
          st_wallU := [lit 363 1000; zn 0; lit 363 1000; zn 0; lit 363 1000; zn 0; lit 363 1000; zn 0; lit 2494 1000];
          st_windowU := [lit 2653 1000; zn 0; lit 2653 1000; zn 0; lit 2653 1000; zn 0; lit 2653 1000; zn 0; zn 0];
          st_wallEmissivity := [lit 9 10; zn 0; lit 9 10; zn 0; lit 9 10; zn 0; lit 9 10; zn 0; lit 9 10];
          st_wallAbsorption := [lit 7 10; zn 0; lit 7 10; zn 0; lit 7 10; zn 0; lit 7 10; zn 0; lit 7 10];
          st_windowSDF := [zn 1; zn 0; zn 1; zn 0; zn 1; zn 0; zn 1; zn 0; zn 1];
          st_windowSHGC := [lit 426 1000; zn 0; lit 426 1000; zn 0; lit 426 1000; zn 0; lit 426 1000; zn 0; zn 0];
          st_windowSCF := [zn 1; zn 0; zn 1; zn 0; zn 1; zn 0; zn 1; zn 0; zn 1];
          st_interiorHeatCapacity := lit 980100000000022 10000000000;
          st_wallHeatCapacity := lit 297070229928189 10000000000;
          st_buildingHeight := lit 633 100;
          st_infiltrationRate := lit 708899540065705 100000000000000;
          st_R_se := lit 4 100;
          st_irradianceForMaxShadingUse := zn 500;
          st_shadingFactorAtMaxUse := lit 5 10;
          st_totalAreaPerFloorArea := lit 45 10;
          st_win_ff := lit 25 100;
          st_win_F_W := lit 9 10;
          st_R_sc_ext := lit 4 100 |};
     pa_heating :=
       {| ht_tempOcc := zn 24;
          ht_tempUnocc := zn 24;
          ht_hvacLossFactor := lit 25 100;
          ht_efficiency := lit 213505737091766 100000000000000;
          ht_energyType := zn 2;
          ht_pumpControlReduction := zn 1;
          ht_hotWaterDemand := zn 0;
          ht_hotWaterDistributionEfficiency := lit 6 10;
          ht_hotWaterSystemEfficiency := lit 8 10;
          ht_hotWaterEnergyType := zn 2;
          ht_hotcoldWasteFactor := zn 0;
          ht_forcedAir := true;
          ht_dT_supp := zn 7;
          ht_E_pumps := lit 25 100;
          ht_T_ctrl_flag := zn 1;
          ht_a_H0 := zn 1;
          ht_tau_H0 := zn 15;
          ht_DH_YesNo := zn 0;
          ht_eta_DH_network := lit 9 10;
          ht_eta_DH_sys := lit 87 100;
          ht_frac_DH_free := zn 0;
          ht_dhw_tset := zn 60;
          ht_dhw_tsupply := zn 20 |};
     pa_cooling :=
       {| cl_tempOcc := zn 28;
          cl_tempUnocc := zn 28;
          cl_cop := lit 321030372594672 100000000000000;
          cl_partialLoadValue := lit 104773541524309 100000000000000;
          cl_hvacLossFactor := zn 0;
          cl_pumpControlReduction := zn 1;
          cl_forcedAir := true;
          cl_T_ctrl_flag := zn 1;
          cl_dT_supp := zn 7;
          cl_DC_YesNo := zn 0;
          cl_eta_DC_network := lit 9 10;
          cl_eta_DC_COP := lit 55 10;
          cl_eta_DC_frac_abs := zn 0;
          cl_eta_DC_COP_abs := zn 1;
          cl_frac_DC_free := zn 0;
          cl_E_pumps := lit 25 100 |};
     pa_ventilation :=
       {| ve_supplyRate := lit 1581941 10000;
          ve_supplyDifference := lit 1581941 10000;
          ve_heatRecoveryEfficiency := zn 0;
          ve_exhaustAirRecirculated := zn 0;
          ve_type := zn 1;
          ve_fanPower := lit 892769460142308 1000000000000000;
          ve_fanControlFactor := zn 1;
          ve_preheat := - zn 50;
          ve_n50 := zn 2;
          ve_hzone := zn 39;
          ve_p_exp := lit 65 100;
          ve_zone_frac := lit 7 10;
          ve_stack_exp := lit 667 1000;
          ve_stack_coeff := lit 146 10000;
          ve_wind_exp := lit 667 1000;
          ve_wind_coeff := lit 769 10000;
          ve_dCp := lit 75 100;
          ve_vent_rate_flag := 1%Z;
          ve_H_ve := zn 0 |};
     pa_lighting :=
       {| li_densityOcc := lit 633869983780207 100000000000000;
          li_densityUnocc := lit 258639212251571 100000000000000;
          li_dimmingFraction := zn 1;
          li_exteriorEnergy := lit 303660166666667 1000000000000;
          li_n_day_start := zn 7;
          li_n_day_end := zn 18;
          li_n_weeks := zn 50;
          li_elecInternalGains := zn 1;
          li_permLightPowerDensity := zn 0;
          li_presenceSensorAd := lit 6 10;
          li_automaticAd := lit 8 10;
          li_presenceAutoAd := lit 6 10;
          li_manualSwitchAd := zn 1;
          li_presenceSensorLux := zn 500;
          li_automaticLux := zn 300;
          li_presenceAutoLux := zn 300;
          li_manualSwitchLux := zn 500;
          li_naturallyLightedArea := zn 0 |};
     pa_building :=
       {| bu_lightingOccupancySensor := zn 1;
          bu_constantIllumination := zn 1;
          bu_elecApplianceOcc := lit 483103336902162 100000000000000;
          bu_elecApplianceUnocc := lit 224818845302062 100000000000000;
          bu_gasApplianceOcc := zn 0;
          bu_gasApplianceUnocc := zn 0;
          bu_bem := zn 1;
          bu_externalEquipment := zn 0 |};
     pa_population :=
       {| po_hoursEnd := zn 17;
          po_hoursStart := zn 8;
          po_daysEnd := zn 5;
          po_daysStart := zn 1;
          po_densityOcc := lit 254683514030612 10000000000000;
          po_densityUnocc := lit 15051041254091 100000000000;
          po_heatGainPerPerson := zn 120 |};
     pa_settings :=
       {| ss_phiIntFraction := lit 5 10;
          ss_phiSolFraction := zn 0;
          ss_hci := lit 25 10;
          ss_hri := lit 55 10 |};
     pa_phys :=
       {| ph_rhoCpAir := lit 122521 100000 * lit 1012 1000000;
          ph_rhoCpWater := lit 41813 10000 |};
     pa_terrain := lit 8 10 |}.
