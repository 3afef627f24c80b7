(** Specification for the irradiance of the walls of a calculated year: which side of the building
    the sun is on, and how the irradiance follows the radiation in the weather file. *)
From Coq Require Import ZArith List Reals.
From Verif Require Import Base Num Xr M_TimeFrame M_Epw M_Solar S_Epw S_Solar.
Import ListNotations.
Open Scope R_scope.

(** [r] holds the results for a year with beam [eb] and diffuse radiation [ed] (hour by hour) at the
    site with latitude [lat], longitude [lon] (degrees) and time zone [tz], calculated by an object
    made with [tilt], whatever other years it calculated before. *)
Definition calculated_year (lat lon : R) (tz : Z) (tilt : R) (eb ed : list R) (r : solar xr) : Prop :=
  exists frame e s0 s datas dbt dpt rh egh wind,
    timeFrame = Ok frame /\ ep_site e = Some (Fin lat, Fin lon, tz) /\ newSolar e (Fin tilt) = Ok s0 /\
    Forall year_table datas /\ ofold (fun s d => calculate frame d s) datas s0 = Ok s /\
    year_table [dbt; dpt; rh; egh; map Fin eb; map Fin ed; wind] /\
    calculate frame [dbt; dpt; rh; egh; map Fin eb; map Fin ed; wind] s = Ok r.

(** Apparent solar time (hours; the sun is due south or north at 12) in hour [i] of the year. *)
Definition solar_time (lon : R) (tz : Z) (i : nat) : R :=
  INR (i mod 24) + equation_of_time (day_angle (INR (i / 24))) / 60 + (rad lon - rad (IZR tz * 15)) / (pi_s / 12).
(** The sun in hour [i]. *)
Definition sun_in (lat lon : R) (tz : Z) (i : nat) : direction :=
  sun_at (rad lat) (rad lon) (rad (IZR tz * 15)) (INR (i / 24)) (INR (i mod 24)).
(** Neither exactly overhead nor exactly below. *)
Definition off_zenith (d : direction) : Prop := -1 < up d < 1.

(** Walls on the east side with their mirror images on the west side, by their place in the result
    (S, SE, E, NE, N, NW, W, SW). *)
Definition mirrored_walls : list (nat * nat) := [(1, 7); (2, 6); (3, 5)]%nat.

(** [c = a x + b y], entry by entry. *)
Definition combined (a b : R) (xs ys zs : list R) : Prop :=
  length xs = length ys /\ zs = map (fun p => a * fst p + b * snd p) (combine xs ys).
