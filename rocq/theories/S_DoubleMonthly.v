(** What the theorems about the monthly engine and the weather averages in double
    arithmetic say. *)
From Coq Require Import Reals ZArith List.
From Flocq Require Import Core.Core IEEE754.BinarySingleNaN.
From Verif Require Import Base Num Xr Dbl M_Params S_Results S_Double.
Import ListNotations.
Open Scope R_scope.

(** A number that lies between two integers. *)
Definition within (lo hi : Z) (x : double) : Prop := is_finite x = true /\ IZR lo <= B2R x <= IZR hi.

(** Opening hours within a day, opening days within a week, powers and areas without
    minus sign, a finite ventilation rate. *)
Record unsigned_monthly (p : params_t double) : Prop := {
  um_hours : within 0 24 (po_hoursStart (pa_population p)) /\ within 0 24 (po_hoursEnd (pa_population p));
  um_days : within 0 6 (po_daysStart (pa_population p)) /\ within 0 6 (po_daysEnd (pa_population p));
  um_area : plain (st_floorArea (pa_structure p));
  um_lamps : plain (li_exteriorEnergy (pa_lighting p));
  um_fans : plain (ve_fanPower (pa_ventilation p)) /\ plain (ve_fanControlFactor (pa_ventilation p));
  um_rate : plain (ve_supplyRate (pa_ventilation p)) /\ is_finite (ve_supplyRate (pa_ventilation p)) = true;
  um_elec : plain (bu_elecApplianceOcc (pa_building p)) /\ plain (bu_elecApplianceUnocc (pa_building p));
  um_gas : plain (bu_gasApplianceOcc (pa_building p)) /\ plain (bu_gasApplianceUnocc (pa_building p)) }.

(** The end uses that do not depend on the heating and cooling needs' signs. *)
Definition clock_driven : list nat := [elec_ext_lights; elec_fans; elec_int_equip; elec_ext_equip; elec_dhw; gas_equip; gas_dhw].

(** Exact mean of doubles, and the exact mean of their absolute values. *)
Definition exact_mean (l : list double) : R := exact_sum l / INR (length l).
Definition mean_size (l : list double) : R := fold_right Rplus 0 (map (fun x => Rabs (B2R x)) l) / INR (length l).
(** Half the distance between the smallest doubles. *)
Definition smallest_step : R := / IZR (2 ^ 1075).
(** A finite value that no weather file reaches. *)
Definition ordinary (x : double) : Prop := is_finite x = true /\ Rabs (B2R x) <= IZR (10 ^ 300).
(** As close to the exact mean as ten trillion to one, up to the smallest step. *)
Definition close_mean (x : double) (l : list double) : Prop :=
  is_finite x = true /\ Rabs (B2R x - exact_mean l) <= / 10000000000000 * mean_size l + smallest_step.
