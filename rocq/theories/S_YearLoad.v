(** What a building needs in steady weather, and its design load. *)
From Coq Require Import Reals List ZArith.
From Verif Require Import Num Xr M_Params M_Hourly S_Physical S_Network S_Year.
Import ListNotations.
Open Scope R_scope.

(** Heat transmission of the envelope, W/K per m2 of floor: from the air to the surfaces, and from these through
    windows and opaque walls in parallel to the outside. *)
Definition transmission (p : params_t R) : R := 1 / (1 / sp_is p + 1 / (sp_windows p + sp_opaque p)).
(** Heat loss, W per m2, of a building kept at [inside] in the weather [w] with the scheduled air flow [flow]:
    warming up the fresh air, and transmission. *)
Definition steady_loss (p : params_t R) (flow : R) (w : weather R) (inside : R) : R :=
  0.34 * sp_total p flow (we_wind w) (we_temp w) inside * (inside - sp_mixed p flow (we_wind w) (we_temp w) inside)
  + transmission p * (inside - we_temp w).
(** Temperature of the mass in that state: on the way out the heat crosses the air-to-surface conductance, and of
    what crosses the opaque walls the mass sits behind the mass-to-surface one. *)
Definition steady_mass (p : params_t R) (w : weather R) (inside : R) : R :=
  we_temp w + (inside - we_temp w) * (sp_is p / (sp_is p + sp_windows p + sp_opaque p)) * (1 - sp_opaque p / sp_ms p).

(** The same heating set-point and the same air flow at all hours. *)
Definition constant_use (p : params_t R) (tt : timetable) (inside flow : R) : Prop :=
  ht_tempOcc (pa_heating p) = inside /\ ht_tempUnocc (pa_heating p) = inside /\ ve_supplyRate (pa_ventilation p) = flow /\
  (flow = 0 \/ (tt_firstHour tt <= 0 /\ 23 <= tt_lastHour tt)%Z).

(** Not more than [V] m3/h of fresh air per m2 of floor, whatever temperature between [lo] and [hi] the air
    inside has. *)
Definition fresh_air_below (p : params_t R) (lo hi V : R) (w : weather R) : Prop :=
  forall flow t, flow = 0 \/ flow = ve_supplyRate (pa_ventilation p) -> lo <= t <= hi ->
  sp_total p flow (we_wind w) (we_temp w) t <= V.

(** Design load of an hour with heating set-point [inside] in a building never heated to less than [base], where
    it is never colder than [out]: fresh air, warming up from [base], and transmission at [base]. *)
Definition design_load (p : params_t R) (V out base inside : R) : R :=
  0.34 * V * (inside - out) + sp_is p * (inside - base) + transmission p * (base - out).

(** In every hour of this weather the sun gives at most [S] and the internal sources at most [I] W per m2. *)
Definition gains_below (p : params_t R) (tt : timetable) (S I : R) (w : weather R) : Prop :=
  sp_solar p (we_sol w) <= S /\ forall k, sp_internal p (equip_at p tt k) (lights_at p tt k) (we_sol w) <= I.
(** Cooling load of an hour with cooling set-point [inside] in a building never cooled to more than [top], where it
    is never warmer than [out]: fresh air, cooling down from [top], transmission at [top], and the gains [G]. *)
Definition cooling_load (p : params_t R) (V G out top inside : R) : R :=
  0.34 * V * (out - inside) + sp_is p * (top - inside) + transmission p * (out - top) + G.
