(** Where the heat of a simulated year comes from and goes to (per m2 of floor). *)
From Coq Require Import Reals ZArith List.
From Verif Require Import Xr M_Params M_Hourly S_RC S_Physical S_Network S_Year S_HourSpec.
Import ListNotations.
Open Scope R_scope.

(** One hour: network, temperatures (mass before and after, surface, air), heat supplied and extracted. *)
Record account := mkAccount {
  ac_rc : rc; ac_before : R; ac_after : R; ac_surface : R; ac_air : R; ac_heat : R; ac_cool : R }.
(** Gains of the three nodes. *)
Definition gained (a : account) : R := rc_phi_ia (ac_rc a) + rc_phi_st (ac_rc a) + rc_phi_m (ac_rc a).
(** Heat lost to the supply air, through the windows and through the opaque envelope. *)
Definition lost (a : account) : R :=
  rc_ve (ac_rc a) * (ac_air a - rc_sup (ac_rc a))
  + rc_w (ac_rc a) * (ac_surface a - rc_out (ac_rc a))
  + rc_em (ac_rc a) * ((ac_before a + ac_after a) / 2 - rc_out (ac_rc a)).

(** The hours of a trajectory: from hour [k] on with mass at [tm] and air at [ta]. *)
Inductive accounts (p : params_t R) (tt : timetable) : Z -> R -> R -> list (weather R) -> list account -> Prop :=
| ac_end k tm ta ws : accounts p tt k tm ta ws []
| ac_hour k tm ta w ws a rest :
    ac_rc a = rc_at p tt k w ta -> ac_before a = tm ->
    iso_step (ac_rc a) (heat_at p tt k) (cool_at p tt k) tm (ac_after a) (ac_air a) (ac_heat a) (ac_cool a) ->
    rc_balance (ac_rc a) (ac_heat a - ac_cool a) tm (ac_after a) (ac_surface a) (ac_air a) ->
    accounts p tt (k + 1) (ac_after a) (ac_air a) ws rest ->
    accounts p tt k tm ta (w :: ws) (a :: rest).

(** Mass temperature after the hours [l], starting from [tm]. *)
Definition mass_after (tm : R) (l : list account) : R := fold_left (fun _ a => ac_after a) l tm.

(** Part of the gains that leaves through the windows before it reaches a node (ISO 13790 C.2). *)
Definition window_share (p : params_t R) (solar internal : R) : R :=
  sp_windows p / (sp_h_ms p * st_totalAreaPerFloorArea (pa_structure p))
  * ((1 - ss_phiSolFraction (pa_settings p)) * solar + (1 - ss_phiIntFraction (pa_settings p)) * internal).

(** All set-points around a temperature: heating at or below it, cooling at or above it. *)
Definition band_contains (p : params_t R) (t : R) : Prop :=
  ht_tempOcc (pa_heating p) <= t <= cl_tempOcc (pa_cooling p) /\
  ht_tempUnocc (pa_heating p) <= t <= cl_tempUnocc (pa_cooling p).
Definition recovery_ok (p : params_t R) : Prop := 0 <= ve_heatRecoveryEfficiency (pa_ventilation p) <= 1.

(** No internal sources. *)
Definition no_sources (p : params_t R) : Prop :=
  bu_elecApplianceOcc (pa_building p) = 0 /\ bu_elecApplianceUnocc (pa_building p) = 0 /\
  li_densityOcc (pa_lighting p) = 0 /\ li_densityUnocc (pa_lighting p) = 0.

(** Internal and solar sources that are no sinks. *)
Record sources_ok (p : params_t R) : Prop := {
  so_occ : 0 <= bu_elecApplianceOcc (pa_building p);
  so_unocc : 0 <= bu_elecApplianceUnocc (pa_building p);
  so_light : 0 <= li_densityOcc (pa_lighting p);
  so_light2 : 0 <= li_densityUnocc (pa_lighting p);
  so_elec : 0 <= li_elecInternalGains (pa_lighting p);
  so_abs : all_nonneg (st_wallAbsorption (pa_structure p));
  so_shgc : all_nonneg (st_windowSHGC (pa_structure p));
  so_scf : all_nonneg (st_windowSCF (pa_structure p));
  so_rse : 0 <= st_R_se (pa_structure p);
  so_shade : 0 <= st_shadingFactorAtMaxUse (pa_structure p) <= 1;
  so_fint : 0 <= ss_phiIntFraction (pa_settings p) <= 1;
  so_fsol : 0 <= ss_phiSolFraction (pa_settings p) <= 1;
  so_surface : sp_mass_area (sp_capacity p) + sp_windows p / sp_h_ms p <= st_totalAreaPerFloorArea (pa_structure p) }.
