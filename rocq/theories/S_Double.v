(** What the theorems about double arithmetic say. *)
From Coq Require Import Reals ZArith List.
From Flocq Require Import Core.Core IEEE754.BinarySingleNaN.
From Verif Require Import Base Num Xr Dbl M_Params M_Hourly.
Import ListNotations.
Open Scope R_scope.

(** [x < 0] is false: zeros of both signs, positive numbers, +infinity and NaN. *)
Definition not_negative (x : double) : Prop := Bltb x (z2d 0) = false.
(** [0 <= x] is true: as before, but no NaN. *)
Definition at_least_0 (x : double) : Prop := Bleb (z2d 0) x = true.
Definition positive (x : double) : Prop := Bltb (z2d 0) x = true.
(** A number without minus sign: +0, positive or +infinity. *)
Definition plain (x : double) : Prop := is_nan x = false /\ Bsign x = false.

(** The parameters that enter the end uses have no minus sign, and the daylit area is
    at most the floor area. *)
Record unsigned_building (p : params_t double) : Prop := {
  ub_efficiency : plain (ht_efficiency (pa_heating p));
  ub_cop : plain (cl_cop (pa_cooling p));
  ub_ht_loss : plain (ht_hvacLossFactor (pa_heating p));
  ub_cl_loss : plain (cl_hvacLossFactor (pa_cooling p));
  ub_waste : plain (ht_hotcoldWasteFactor (pa_heating p));
  ub_ht_pumps : plain (ht_E_pumps (pa_heating p)) /\ plain (ht_pumpControlReduction (pa_heating p));
  ub_cl_pumps : plain (cl_E_pumps (pa_cooling p)) /\ plain (cl_pumpControlReduction (pa_cooling p));
  ub_fan : plain (ve_fanPower (pa_ventilation p)) /\ plain (ve_supplyRate (pa_ventilation p));
  ub_equip : plain (bu_elecApplianceOcc (pa_building p)) /\ plain (bu_elecApplianceUnocc (pa_building p));
  ub_extEquip : plain (bu_externalEquipment (pa_building p));
  ub_extLight : plain (li_exteriorEnergy (pa_lighting p));
  ub_density : plain (li_densityOcc (pa_lighting p)) /\ plain (li_densityUnocc (pa_lighting p));
  ub_control : plain (li_presenceAutoAd (pa_lighting p)) /\ plain (li_presenceSensorAd (pa_lighting p)) /\
    plain (li_automaticAd (pa_lighting p)) /\ plain (li_manualSwitchAd (pa_lighting p));
  ub_area : is_finite (st_floorArea (pa_structure p)) = true /\ Bleb (dlit 1 10000) (st_floorArea (pa_structure p)) = true /\
    Bleb (li_naturallyLightedArea (pa_lighting p)) (st_floorArea (pa_structure p)) = true }.

(** The exact sum of doubles. *)
Definition exact_sum (l : list double) : R := fold_right Rplus 0 (map B2R l).

(** The fan energy of the scheduled ventilation alone, evaluated in doubles. *)
Definition fan_floor (p : params_t double) (vent : double) : double :=
  Bdiv mode_NE (Bmult mode_NE (Bmult mode_NE (Bdiv mode_NE (Bmult mode_NE vent (dlit 36 10)) (st_floorArea (pa_structure p)))
    (ve_fanPower (pa_ventilation p))) (z2d 1000)) (z2d 3600).
(** The energy of a need without distribution losses, kWh, evaluated in doubles. *)
Definition lossless (need efficiency : double) : double := Bdiv mode_NE (Bdiv mode_NE need efficiency) (z2d 1000).
