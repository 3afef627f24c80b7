(** Vocabulary of the statements about hours of the hourly engine. *)
From Coq Require Import Reals ZArith List.
From Verif Require Import Xr M_Params M_Hourly S_RC S_Physical S_Network S_Year.
Import ListNotations.
Open Scope R_scope.

(** Heating and cooling need: finite, not negative, at most one of them positive. *)
Definition needs_ok (h : hourres xr) : Prop :=
  exists qh qc, hr_Qneed_ht h = Fin qh /\ hr_Qneed_cl h = Fin qc /\ 0 <= qh /\ 0 <= qc /\ (qh = 0 \/ qc = 0).

Definition ordered_setpoints (p : params_t R) : Prop :=
  ht_tempOcc (pa_heating p) <= cl_tempOcc (pa_cooling p) /\ ht_tempUnocc (pa_heating p) <= cl_tempUnocc (pa_cooling p).

(** The two denominators of the fan formula when the air was at [ti]:
    (supply temperature - ti) * rho * cp + DBL_MIN, and its mirror image. *)
Definition fan_den_ht (p : params_t R) (ti : R) : R :=
  (ht_tempOcc (pa_heating p) + ht_dT_supp (pa_heating p) - ti) * ph_rhoCpAir (pa_phys p) * (277777778 / 1000000) + Rdblmin.
Definition fan_den_cl (p : params_t R) (ti : R) : R :=
  (ti - (cl_tempOcc (pa_cooling p) - cl_dT_supp (pa_cooling p))) * ph_rhoCpAir (pa_phys p) * (277777778 / 1000000) + Rdblmin.
Definition fan_defined (p : params_t R) (ti : R) : Prop := fan_den_ht p ti <> 0 /\ fan_den_cl p ti <> 0.
(** Fan energy for the scheduled ventilation alone, W per m2. *)
Definition min_fan (p : params_t R) (flow : R) : R := sp_vent p flow * ve_fanPower (pa_ventilation p) * 1000 / 3600.

Definition hour_finite (h : hourres xr) : Prop :=
  finite (hr_Qneed_ht h) /\ finite (hr_Qneed_cl h) /\ finite (hr_illum h) /\ finite (hr_illum_ext h) /\ finite (hr_fan h) /\
  finite (hr_pump h) /\ finite (hr_plug h) /\ finite (hr_extEquip h) /\ finite (hr_dhw h).

(** No heat reaches any node except through the conductances. *)
Definition no_gains (x : rc) : Prop := rc_phi_ia x = 0 /\ rc_phi_st x = 0 /\ rc_phi_m x = 0.

(** An hour without internal or solar gains whose outdoor, supply and set-point temperatures lie in [a, b]. *)
Record quiet (p : params_t R) (a b : R) (sc : sched R) (w : weather R) : Prop := {
  qu_vent : 0 <= sc_vent sc;
  qu_equip : sc_intEquip sc = 0;
  qu_lights : sc_intLight sc = 0;
  qu_dark : Forall (eq 0) (we_sol w);
  qu_out : a <= we_temp w <= b;
  qu_supply : a <= sp_supplied p (we_temp w) <= b;
  qu_lo : a <= sc_heatSP sc;
  qu_band : sc_heatSP sc <= sc_coolSP sc;
  qu_hi : sc_coolSP sc <= b }.

(** Stability of the one-hour step: C/3.6 >= half of the conductances of the mass. *)
Definition mass_slow (p : params_t R) : Prop := (sp_ms p + sp_em p) / 2 <= sp_capacity p / 3.6.

(** Pump, exterior lights, equipment and hot water of hour [k] with weather [w]. *)
Record aux_spec (p : params_t R) (tt : timetable) (k : Z) (w : weather R) (h : hourres xr) : Prop := {
  aux_cool : forall c, hr_Qneed_cl h = Fin c -> 0 < c ->
    hr_pump h = Fin (cl_E_pumps (pa_cooling p) * cl_pumpControlReduction (pa_cooling p));
  aux_heat : forall c, hr_Qneed_ht h = Fin c -> 0 < c ->
    hr_pump h = Fin (ht_E_pumps (pa_heating p) * ht_pumpControlReduction (pa_heating p));
  aux_idle : hr_Qneed_cl h = Fin 0 -> hr_Qneed_ht h = Fin 0 -> hr_pump h = Fin 0;
  aux_day : 0 < nth 8 (we_sol w) 0 -> hr_illum_ext h = Fin 0;
  aux_night : nth 8 (we_sol w) 0 <= 0 -> hr_illum_ext h = Fin (li_exteriorEnergy (pa_lighting p) / st_floorArea (pa_structure p));
  aux_equip : hr_plug h = Fin (equip_at p tt k);
  aux_extequip : hr_extEquip h = Fin (bu_externalEquipment (pa_building p) / st_floorArea (pa_structure p));
  aux_dhw : hr_dhw h = Fin 0 }.

(** A building whose daylight parameters make sense. *)
Record daylit (p : params_t R) : Prop := {
  dl_area : li_naturallyLightedArea (pa_lighting p) <= st_floorArea (pa_structure p);
  dl_floor : 1 / 10000 <= st_floorArea (pa_structure p);
  dl_ad1 : 0 <= li_presenceAutoAd (pa_lighting p) <= 1;
  dl_ad2 : 0 <= li_presenceSensorAd (pa_lighting p) <= 1;
  dl_ad3 : 0 <= li_automaticAd (pa_lighting p) <= 1;
  dl_ad4 : 0 <= li_manualSwitchAd (pa_lighting p) <= 1;
  dl_sdf : all_nonneg (st_windowSDF (pa_structure p)) }.

(** Temperatures the air can have at the start of an hour: the initial 20 degrees or a value in a set-point band. *)
Definition band_state (p : params_t R) (t : R) : Prop :=
  t = 20 \/ ht_tempOcc (pa_heating p) <= t <= cl_tempOcc (pa_cooling p)
  \/ ht_tempUnocc (pa_heating p) <= t <= cl_tempUnocc (pa_cooling p).

(** Distribution losses and plants that make sense. *)
Record plant_ok (p : params_t R) : Prop := {
  pl_heat_loss : 0 <= ht_hvacLossFactor (pa_heating p);
  pl_cool_loss : 0 <= cl_hvacLossFactor (pa_cooling p);
  pl_waste : 0 <= ht_hotcoldWasteFactor (pa_heating p);
  pl_eff : 0 < ht_efficiency (pa_heating p);
  pl_cop : 0 < cl_cop (pa_cooling p) }.

(** Share of heating (cooling) in the yearly needs [H], [C], at least a tenth. *)
Definition heat_share (H C : R) : R := Rmax (H / (C + H)) 0.1.
Definition cool_share (H C : R) : R := Rmax (1 - heat_share H C) 0.1.
(** Energy charged per unit of need. *)
Definition heat_factor (p : params_t R) (H C : R) : R :=
  (1 + ht_hvacLossFactor (pa_heating p) + ht_hotcoldWasteFactor (pa_heating p) / heat_share H C) / ht_efficiency (pa_heating p).
Definition cool_factor (p : params_t R) (H C : R) : R :=
  (1 + cl_hvacLossFactor (pa_cooling p) + ht_hotcoldWasteFactor (pa_heating p) / cool_share H C) / cl_cop (pa_cooling p).

(** Ratio vectors a model object can hold after any number of simulations with structure [s]
    and any other parameters and weather. *)
Definition rows_of {A B} (o : Base.outcome (A * B)) : Base.outcome A :=
  match o with Base.Ok (rows, _) => Base.Ok rows | Base.Throw e => Base.Throw e | Base.UB => Base.UB end.
Inductive reached {T} {N : Num.Num T} (s : structure_t T) : ratios T -> Prop :=
| reached_new : reached s no_ratios
| reached_run r p ws agg rows r' : reached s r -> pa_structure p = s ->
    simulate p ws r agg = Base.Ok (rows, r') -> reached s r'.

(** What the schedule cell of hour [h] (0..23) and weekday [d] (0..6) must hold when the
    building is open from [hs] to [he] on the days [ds] to [de], ends included. *)
Record cell_spec {T} {N : Num.Num T} (p : params_t T) (hs he ds de h d : Z) (c : sched T) : Prop := {
  ce_open : (hs <= h <= he)%Z -> sc_vent c = ve_supplyRate (pa_ventilation p);
  ce_shut : ~ (hs <= h <= he)%Z -> sc_vent c = Num.zn 0;
  ce_occ : (hs <= h <= he)%Z /\ (ds <= d <= de)%Z ->
    sc_intEquip c = bu_elecApplianceOcc (pa_building p) /\ sc_intLight c = li_densityOcc (pa_lighting p) /\
    sc_heatSP c = ht_tempOcc (pa_heating p) /\ sc_coolSP c = cl_tempOcc (pa_cooling p);
  ce_unocc : ~ ((hs <= h <= he)%Z /\ (ds <= d <= de)%Z) ->
    sc_intEquip c = bu_elecApplianceUnocc (pa_building p) /\ sc_intLight c = li_densityUnocc (pa_lighting p) /\
    sc_heatSP c = ht_tempUnocc (pa_heating p) /\ sc_coolSP c = cl_tempUnocc (pa_cooling p);
  ce_ext : sc_extEquip c = bu_externalEquipment (pa_building p) /\ sc_extLight c = Num.zn 1 }.
