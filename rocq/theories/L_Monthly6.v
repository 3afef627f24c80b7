(** Cases for the theorems about the monthly table. *)
From Coq Require Import Reals Lra ZArith List Bool Lia String.
From Verif Require Import Base Num Xr Text M_Params M_Monthly M_Map M_UserModel L_Xr L_Office S_Calendar S_Schedule S_Results S_Monthly
  S_Physical L_Monthly L_Monthly2 L_Monthly3 L_Monthly4 L_Monthly5 E_SmallOffice E_Monthly E_Decimal E_OfficeFile.
Import ListNotations.
Open Scope nat_scope.
Open Scope R_scope.

Lemma monthly_shape {T} {N : Num T} (p : params_t T) w rows : simulateMonthly p w = Ok rows -> table_shape 12 rows.
Proof. intros H. destruct (simulateMonthly_cases _ _ _ H) as (m & _ & S & _). exact S. Qed.
Lemma office_area : 0 < st_floorArea (pa_structure (@monthlyOffice R _)).
Proof. cbn [monthlyOffice with_structure smallOffice pa_structure shaded st_floorArea]. cbn [lit R_num]. unfold Rlit. lra. Qed.
Ltac office := cbn [monthlyOffice with_structure smallOffice shaded pa_structure pa_population pa_lighting pa_building pa_heating pa_cooling pa_ventilation pa_phys
  po_hoursEnd po_hoursStart po_daysEnd po_daysStart li_n_day_end li_n_day_start li_n_weeks li_densityOcc li_densityUnocc li_dimmingFraction
  bu_constantIllumination bu_lightingOccupancySensor st_floorArea ht_hotWaterDemand ht_dhw_tset ht_dhw_tsupply ph_rhoCpWater
  ht_hotWaterDistributionEfficiency ht_hotWaterSystemEfficiency]; rewrite ?zn_R; cbn [lit R_num]; unfold Rlit.
Lemma office_lights : 0 < st_floorArea (pa_structure (@monthlyOffice R _)) /\ day_schedule monthlyOffice /\ light_nonneg monthlyOffice.
Proof. split; [exact office_area|]. split; constructor; office; lra. Qed.
(** The office with a demand of hot water. *)
Definition hotWater (x : R) : params_t R :=
  let he := pa_heating monthlyOffice in
  mkParams (pa_structure monthlyOffice)
    (mkHeating (ht_tempOcc he) (ht_tempUnocc he) (ht_hvacLossFactor he) (ht_efficiency he) (ht_energyType he) (ht_pumpControlReduction he) x
      (ht_hotWaterDistributionEfficiency he) (ht_hotWaterSystemEfficiency he) (ht_hotWaterEnergyType he) (ht_hotcoldWasteFactor he) (ht_forcedAir he) (ht_dT_supp he)
      (ht_E_pumps he) (ht_T_ctrl_flag he) (ht_a_H0 he) (ht_tau_H0 he) (ht_DH_YesNo he) (ht_eta_DH_network he) (ht_eta_DH_sys he) (ht_frac_DH_free he) (ht_dhw_tset he) (ht_dhw_tsupply he))
    (pa_cooling monthlyOffice) (pa_ventilation monthlyOffice) (pa_lighting monthlyOffice) (pa_building monthlyOffice) (pa_population monthlyOffice)
    (pa_settings monthlyOffice) (pa_phys monthlyOffice) (pa_terrain monthlyOffice).
Lemma office_water : 0 < st_floorArea (pa_structure (@monthlyOffice R _)) /\ 0 < ht_hotWaterDistributionEfficiency (pa_heating (@monthlyOffice R _)) /\
  0 < ht_hotWaterSystemEfficiency (pa_heating (@monthlyOffice R _)) /\ 0 <= water_year monthlyOffice /\ 0 < water_year (hotWater 1000).
Proof.
  split; [exact office_area|]. split; [office; lra|]. split; [office; lra|]. unfold water_year, MJ_per_kWh, hotWater. split; office; lra.
Qed.
Lemma C26_refuted_l : exists (file : text) (u : building_model xr), loadBuilding decimal_reader (Some file) freshOffice = Ok u /\
  forall w, simulateMonthly (bm_params u) w = UB.
Proof.
  exists officeText, (mkBuildingModel smallOffice (tx "ORD.epw"%string)). split; [|exact C26_office_l].
  assert (G : forall T (N : Num T), loadBuilding decimal_reader (Some officeText) freshOffice = Ok (mkBuildingModel smallOffice (tx "ORD.epw"%string))) by (intros; vm_compute; reflexivity).
  apply G.
Qed.
Lemma mild_span : sun_span (nth 0 (mw_mhEgh (@mildYear xr _)) []) 7 16.
Proof.
  assert (NZ : @zn xr _ 200 <> Fin 0). { rewrite zn_fin, zn_R. intros E. injection E as E. lra. }
  split; [exists (zn 200); split; [reflexivity|exact NZ]|]. split; [exists (zn 200); split; [reflexivity|exact NZ]|].
  intros h x N Q. assert (Z : @zn xr _ 0 = Fin 0) by (rewrite zn_fin, zn_R; reflexivity).
  do 24 (destruct h as [|h]; [first [exfalso; lia|cbn in N; injection N as <-; exact Z]|]). destruct h; discriminate N.
Qed.
