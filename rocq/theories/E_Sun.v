(** Example data for C121: a site at which the sun crosses the zenith, and a year of weather. *)
From Coq Require Import ZArith List.
From Verif Require Import Base Num Dbl M_TimeFrame M_Epw.
Import ListNotations.

(** Latitude -23.05862926 and longitude 0.72604224 degrees. *)
Definition latitude_deg : double := dlit (-2305862926) 100000000.
Definition longitude_deg : double := dlit 72604224 100000000.
(** A weather object whose header gave this latitude, longitude and time zone. *)
Definition at_site (lat lon : double) (tz : Z) : epw double := mkEpw [] [] (Some (lat, lon, tz)) [].
(** All hours with 800 W/m2 of direct and 100 W/m2 of diffuse radiation. *)
Definition sunny_year : list (list double) :=
  let z := repeat (z2d 0) slices in [z; z; z; z; repeat (z2d 800) slices; repeat (z2d 100) slices; z].
