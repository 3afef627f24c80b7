(** The three-node network of one hour, computed from the building description in
    ordinary real arithmetic (ISO 13790 Annex C; air flows as in the source, which
    follows ISO 15242).  Independent of the model's functions: only the parameter
    records are shared. *)
From Coq Require Import Reals List.
From Verif Require Import M_Params Xr S_RC S_Physical.
Import ListNotations.
Open Scope R_scope.

Section Network.
Variable p : params_t R.
Let s := pa_structure p.
Let A := st_floorArea s.

(** ** The building *)
(** Heat capacity of the mass, kJ/K per m2 of floor. *)
Definition sp_capacity : R :=
  (st_interiorHeatCapacity s + st_wallHeatCapacity s * Rsum (st_wallArea s) / A) / 1000.
(** Effective mass area per floor area: 2.5 up to 165 kJ/K, 3.0 at 260, 3.5 from 370, linear between. *)
Definition sp_mass_area (C : R) : R :=
  2.5 + 0.5 * clamp 0 1 ((C - 165) / 95) + 0.5 * clamp 0 1 ((C - 260) / 110).
(** Mass-to-surface coefficient (convection plus 1.2 times radiation). *)
Definition sp_h_ms : R := ss_hci (pa_settings p) + 1.2 * ss_hri (pa_settings p).
Definition sp_ms : R := sp_h_ms * sp_mass_area sp_capacity.
(** Air-to-surface conductance: in series with the mass coefficient it gives h_ci. *)
Definition sp_is : R :=
  st_totalAreaPerFloorArea s * (ss_hci (pa_settings p) * sp_h_ms / (sp_h_ms - ss_hci (pa_settings p))).
Definition sp_windows : R := dot (st_windowArea s) (st_windowU s) / A.
Definition sp_opaque : R := Rmax (dot (st_wallArea s) (st_wallU s) / A) (1 / 1000000).
(** Outdoor-to-mass conductance: in series with the mass-to-surface one it gives the opaque one. *)
Definition sp_em : R := sp_opaque * sp_ms / (sp_ms - sp_opaque).

(** ** Gains of the hour *)
(** Solar aperture of surface k per m2 of floor without and with the movable shading. *)
Definition sp_aperture (factor : list R) (k : nat) : R :=
  (nth k (st_wallArea s) 0 * (nth k (st_wallAbsorption s) 0 * nth k (st_wallU s) 0 * st_R_se s)
   + nth k (st_windowArea s) 0 * nth k factor 0) / A.
(** Degree to which the shading is drawn at radiation [g], times radiation limit. *)
Definition sp_shade (g : R) : R :=
  st_shadingFactorAtMaxUse s / st_irradianceForMaxShadingUse s * Rmin g (st_irradianceForMaxShadingUse s).
Definition sp_solar (sol : list R) : R :=
  Rsum (map (fun k => nth k sol 0 *
    (sp_aperture (st_windowSHGC s) k
     + (sp_aperture (st_windowSCF s) k - sp_aperture (st_windowSHGC s) k) * sp_shade (nth k sol 0))) (seq 0 9)).
(** Fraction of the installed lighting power that is on. *)
Definition sp_lit_ratio : R := Rmax (1 / 10000) (li_naturallyLightedArea (pa_lighting p)) / A.
Definition sp_daylight (sol : list R) : R :=
  Rsum (map (fun k => 53 / sp_lit_ratio * nth k sol 0
                      * (nth k (st_windowArea s) 0 * (nth k (st_windowSDF s) 0 / 0.87) / A)) (seq 0 9)).
(** (maximum lighting ratio, illuminance wanted), by the kind of lighting control. *)
Definition sp_control : R * R :=
  let l := pa_lighting p in
  if Rlt_dec (bu_lightingOccupancySensor (pa_building p)) 1 then
    if Rlt_dec (li_dimmingFraction l) 1 then (li_presenceAutoAd l, li_presenceAutoLux l)
    else (li_presenceSensorAd l, li_presenceSensorLux l)
  else if Rlt_dec (li_dimmingFraction l) 1 then (li_automaticAd l, li_automaticLux l)
  else (li_manualSwitchAd l, li_manualSwitchLux l).
Definition sp_lights_on (sol : list R) : R :=
  let (ad, lux) := sp_control in
  sp_lit_ratio * Rmax 0 (ad * (1 - sp_daylight sol / lux)) + (1 - sp_lit_ratio) * ad.
Definition sp_internal (equip lights : R) (sol : list R) : R :=
  equip + sp_lights_on sol * lights * li_elecInternalGains (pa_lighting p).

(** ** Air flows of the hour, m3/h per m2 of floor *)
Definition sp_vent (flow : R) : R := flow * 3.6 / A.
Definition sp_supply (flow : R) : R := sp_vent flow * Rmax (1 / 100000) (ve_fanControlFactor (pa_ventilation p)).
(** Extract minus supply. *)
Definition sp_unbalance (flow : R) : R := sp_vent flow - sp_supply flow.
Definition sp_leak : R :=
  Rmax (1 / 1000000) (0.19 * ve_n50 (pa_ventilation p) * st_buildingHeight s).
Definition sp_wind (wind : R) : R := 0.0769 * sp_leak * Rpow (ve_dCp (pa_ventilation p) * (wind * wind)) 0.667.
Definition sp_stack (tout tin : R) : R :=
  0.0146 * sp_leak * Rpow (0.5 * Rmax (1 / 10) (ve_hzone (pa_ventilation p)) * Rmax (1 / 100000) (Rabs (tout - tin))) 0.667.
(** Exfiltration as the source computes it.  ISO 15242 has
    |unbalance| * (0.5 stack + 0.667 wind) / (stack + wind) as the subtracted term. *)
Definition sp_exfiltration (flow wind tout tin : R) : R :=
  let w := sp_wind wind in let k := sp_stack tout tin in
  Rmax 0 (Rmax k w - Rabs (sp_unbalance flow) * (0.5 * k + 0.667 * w / (k + w))).
Definition sp_envelope (flow wind tout tin : R) : R :=
  Rmax 0 (sp_unbalance flow) + sp_exfiltration flow wind tout tin.
Definition sp_total (flow wind tout tin : R) : R := sp_envelope flow wind tout tin + sp_supply flow.
(** Supplied air after heat recovery and preheating. *)
Definition sp_supplied (tout : R) : R :=
  let e := ve_heatRecoveryEfficiency (pa_ventilation p) in
  Rmax (ve_preheat (pa_ventilation p)) ((1 - e) * tout + e * 20).
(** Mixed temperature of infiltrated and supplied air. *)
Definition sp_mixed (flow wind tout tin : R) : R :=
  (tout * sp_envelope flow wind tout tin + sp_supplied tout * sp_supply flow) / sp_total flow wind tout tin.

(** ** The network of the hour *)
(** [flow], [equip], [lights]: scheduled ventilation, equipment and lighting; [tin]: air
    temperature of the previous hour. *)
Definition hour_rc (flow equip lights wind tout : R) (sol : list R) (tin : R) : rc :=
  let ss := pa_settings p in
  let tapfa := st_totalAreaPerFloorArea s in
  let am := sp_mass_area sp_capacity in
  let si := sp_internal equip lights sol in
  let so := sp_solar sol in
  let toSurface := (tapfa - am - sp_windows / sp_h_ms) / tapfa in
  let toMass := am / tapfa in
  let notAir := (1 - ss_phiSolFraction ss) * so + (1 - ss_phiIntFraction ss) * si in
  {| rc_ve := 0.34 * sp_total flow wind tout tin;
     rc_is := sp_is; rc_w := sp_windows; rc_ms := sp_ms; rc_em := sp_em; rc_C := sp_capacity;
     rc_out := tout; rc_sup := sp_mixed flow wind tout tin;
     rc_phi_ia := ss_phiSolFraction ss * so + ss_phiIntFraction ss * si;
     rc_phi_st := toSurface * notAir;
     rc_phi_m := toMass * notAir |}.
End Network.
