(** Buildings and weather for which no division of the monthly engine's temperatures, gains and
    losses has a zero divisor.  Independent of how the engine computes. *)
From Coq Require Import Reals ZArith List.
From Verif Require Import Num Xr M_Params M_Monthly S_Physical S_Monthly.
Import ListNotations.
Open Scope R_scope.

(** Monthly weather made of finite numbers. *)
Definition fin_weather (w : mweather R) : mweather xr :=
  {| mw_msolar := map (map Fin) (mw_msolar w); mw_mhdbt := map (map Fin) (mw_mhdbt w); mw_mhEgh := map (map Fin) (mw_mhEgh w);
     mw_mEgh := map Fin (mw_mEgh w); mw_mdbt := map Fin (mw_mdbt w); mw_mwind := map Fin (mw_mwind w) |}.

(** Hours between opening and closing, and days of the week, as the monthly engine understands them. *)
Definition day_length (po : population_t R) : R :=
  let h := po_hoursEnd po - po_hoursStart po in if Rlt_dec h 0 then h + 24 else h.
Definition week_days (po : population_t R) : R :=
  let d := po_daysEnd po - po_daysStart po + 1 in if Rlt_dec d 0 then d + 7 else d.

(** Loss coefficient of the envelope: area times U value. *)
Definition envelope_UA (s : structure_t R) : R := dot (st_wallArea s) (st_wallU s) + dot (st_windowArea s) (st_windowU s).
Definition heat_capacity (s : structure_t R) : R := st_interiorHeatCapacity s * st_floorArea s + st_wallHeatCapacity s * Rsum (st_wallArea s).

Record sound (p : params_t R) : Prop := {
  so_area : 0 < st_floorArea (pa_structure p);
  so_surf : nine_surfaces (pa_structure p);
  so_sdf : shading_coded (pa_structure p);
  so_bem : bem_castable p;
  so_hours : 0 < day_length (pa_population p) < 24;
  so_days : 0 <= week_days (pa_population p) <= 7;
  so_dens1 : 0 < po_densityOcc (pa_population p);
  so_dens2 : 0 < po_densityUnocc (pa_population p);
  so_loss : 0 < envelope_UA (pa_structure p) + ve_H_ve (pa_ventilation p);
  so_cap : 0 < heat_capacity (pa_structure p);
  so_zone : 0 <= ve_zone_frac (pa_ventilation p);
  so_wind : 0 <= ve_dCp (pa_ventilation p) * pa_terrain p;
  so_sexp : 0 < ve_stack_exp (pa_ventilation p);
  so_wexp : 0 < ve_wind_exp (pa_ventilation p);
  so_tau0 : ht_tau_H0 (pa_heating p) <> 0 }.
