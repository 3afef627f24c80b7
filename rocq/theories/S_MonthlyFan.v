(** Supply air that can carry heat and cold. *)
From Coq Require Import Reals ZArith.
From Verif Require Import M_Params S_Schedule S_Physical S_MonthlySound.
Open Scope R_scope.

(** Supply air is warmer than the heating and colder than both cooling set-points; at least one
    working day a week. *)
Record supply_air (p : params_t R) : Prop := {
  su_rho : 0 < ph_rhoCpAir (pa_phys p);
  su_heat : 0 < ht_dT_supp (pa_heating p);
  su_cool : 0 < cl_dT_supp (pa_cooling p);
  su_back : cl_tempOcc (pa_cooling p) - cl_dT_supp (pa_cooling p) < cl_tempUnocc (pa_cooling p);
  su_days : 1 <= week_days (pa_population p) }.
