(** Specifications for solar geometry, surface irradiance and weather averages. *)
From Coq Require Import ZArith List Reals.
From Verif Require Import Base Num S_Calendar.
Import ListNotations.
Open Scope Z_scope.

(** Days of month [m]. *)
Definition days_of (m : Z) : Z := days_before (m + 1) - days_before m.

(** The entries of an hourly series that lie in month [m] at clock hour [h], in time order. *)
Definition hour_part {A} (m h : Z) (l : list A) : list A :=
  map snd (filter (fun p => hour_in_month m (Z.of_nat (fst p)) && (Z.of_nat (fst p) mod 24 =? h))
                  (combine (seq 0 (length l)) l)).

(** Sum over count, for any number type; the month has 24 times its days of hours, and each clock
    hour occurs once a day. *)
Definition monthly_means {T} {N : Num T} (l : list T) : list T :=
  map (fun m => ndiv (accumulate (month_part m l)) (zn (24 * days_of m))) (zrange 1 12).
Definition hourly_means {T} {N : Num T} (l : list T) : list (list T) :=
  map (fun m => map (fun h => ndiv (accumulate (hour_part m h l)) (zn (days_of m))) (zrange 0 24)) (zrange 1 12).

(** The series of one surface from a table with one row per hour. *)
Definition surface_series {T} {N : Num T} (s : nat) (rows : list (list T)) : list T :=
  map (fun row => nth s row (zn 0)) rows.

(** ** Geometry: a direction is (south, west, up). *)
Open Scope R_scope.
Record direction := mkDir { south : R; west : R; up : R }.
Definition dot (a b : direction) : R := south a * south b + west a * west b + up a * up b.
Definition unit_vector (a : direction) : Prop := dot a a = 1.

(** The sun at declination [dec] and hour angle [ha]: in equatorial coordinates (towards the
    meridian at the equator, towards the west, towards the pole), then tilted by the latitude. *)
Definition sun (lat dec ha : R) : direction :=
  let meridian := cos dec * cos ha in
  let west := cos dec * sin ha in
  let pole := sin dec in
  mkDir (sin lat * meridian - cos lat * pole) west (cos lat * meridian + sin lat * pole).
(** The direction with a given altitude and azimuth (from south, positive to the west). *)
Definition sky (alt az : R) : direction := mkDir (cos alt * cos az) (cos alt * sin az) (sin alt).
(** The outward normal of a surface tilted by [tilt] from horizontal and facing azimuth [az]. *)
Definition normal (tilt az : R) : direction := mkDir (sin tilt * cos az) (sin tilt * sin az) (cos tilt).

(** ** ASHRAE Fundamentals 2013, chapter 14, with the value of pi written in the source.
    Days and hours count from 0; angles are in radians. *)
Definition pi_s : R := 31415926535897 / 10000000000000.
(** Degrees to radians. *)
Definition rad (degrees : R) : R := degrees * pi_s / 180.
Definition day_angle (day : R) : R := 2 * pi_s * day / 365.
Definition equation_of_time (g : R) : R :=
  2.2918 * (0.0075 + 0.1868 * cos g - 3.2077 * sin g - 1.4615 * cos (2 * g) - 4.089 * sin (2 * g)).
Definition declination (g : R) : R :=
  0.006918 - 0.399912 * cos g + 0.070257 * sin g - 0.006758 * cos (2 * g) + 0.000907 * sin (2 * g)
  - 0.002697 * cos (3 * g) + 0.00148 * sin (3 * g).
(** Fifteen degrees for every hour of apparent solar time after noon. *)
Definition hour_angle (lon meridian g hour : R) : R :=
  let solar_time := hour + equation_of_time g / 60 + (lon - meridian) / (pi_s / 12) in
  15 * (solar_time - 12) * pi_s / 180.
(** The sun at a site in hour [hour] of day [day]. *)
Definition sun_at (lat lon meridian day hour : R) : direction :=
  sun lat (declination (day_angle day)) (hour_angle lon meridian (day_angle day) hour).
(** Irradiance on a surface with normal [n]: beam on the side that faces the sun, diffuse sky with
    the factor for the angle of incidence, and what the ground reflects. *)
Definition sky_factor (c : R) : R := Rmax 0.45 (0.55 + 0.437 * c + 0.313 * (c * c)).
Definition diffuse_on (tilt ed y : R) : R :=
  if Rlt_dec (pi_s / 2) tilt then ed * y * sin tilt else ed * (y * sin tilt + cos tilt).
Definition irradiance (s : direction) (tilt az rho eb ed : R) : R :=
  let c := dot s (normal tilt az) in
  eb * Rmax c 0 + diffuse_on tilt ed (sky_factor c) + (eb * up s + ed) * rho * (1 - cos tilt) / 2.
(** The eight azimuths: S, SE, E, NE, N, NW, W, SW. *)
Definition azimuths : list R :=
  [0; - pi_s / 4; - pi_s / 2; - 3 * pi_s / 4; pi_s; 3 * pi_s / 4; pi_s / 2; pi_s / 4].

(** ** Means of real numbers. *)
Definition mean (l : list R) : R := fold_right Rplus 0 l / INR (length l).
