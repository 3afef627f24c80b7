(** The same building with other appliances, simulated over the same year. *)
From Coq Require Import Reals List ZArith.
From Verif Require Import Num Xr M_Params M_Hourly S_Physical S_Network.
Import ListNotations.
Open Scope R_scope.

(** Appliances of [x] W/m2 in occupied and [y] W/m2 in other hours; everything else as before. *)
Definition set_appliances (p : params_t R) (x y : R) : params_t R :=
  let b := pa_building p in
  mkParams (pa_structure p) (pa_heating p) (pa_cooling p) (pa_ventilation p) (pa_lighting p)
    (mkBuilding (bu_lightingOccupancySensor b) (bu_constantIllumination b) x y (bu_gasApplianceOcc b) (bu_gasApplianceUnocc b) (bu_bem b) (bu_externalEquipment b))
    (pa_population p) (pa_settings p) (pa_phys p) (pa_terrain p).

(** [lo] and [hi] enclose all set-points and the 20 degrees at which a simulation starts. *)
Definition encloses (lo hi : R) (p : params_t R) : Prop :=
  lo <= 20 <= hi /\ lo <= ht_tempOcc (pa_heating p) /\ lo <= ht_tempUnocc (pa_heating p) /\
  cl_tempOcc (pa_cooling p) <= hi /\ cl_tempUnocc (pa_cooling p) <= hi.

(** In this weather the leakage of the building is the same whatever temperature between [lo] and [hi] the
    air inside has; that is so when the wind and not the warmth of the building drives it. *)
Definition steady_leak (p : params_t R) (lo hi : R) (w : weather R) : Prop :=
  forall flow t t', flow = 0 \/ flow = ve_supplyRate (pa_ventilation p) -> lo <= t <= hi -> lo <= t' <= hi ->
  sp_exfiltration p flow (we_wind w) (we_temp w) t = sp_exfiltration p flow (we_wind w) (we_temp w) t'.
