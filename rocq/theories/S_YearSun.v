(** The same building in a sunnier year. *)
From Coq Require Import Reals List.
From Verif Require Import Num Xr M_Params M_Hourly S_Physical S_Network.
Import ListNotations.
Open Scope R_scope.

(** The second hour has the same wind and temperature, and on every surface at least as much sun. *)
Definition sunnier_hour (w w' : weather R) : Prop :=
  we_wind w' = we_wind w /\ we_temp w' = we_temp w /\
  forall k, 0 <= nth k (we_sol w) 0 <= nth k (we_sol w') 0.

(** Drawing the movable shading of a window does not make less of the sun come in: there is no such shading, or
    the factor the program uses for the shaded window is not below the one of the bare window. *)
Definition shades_admit (p : params_t R) : Prop :=
  st_shadingFactorAtMaxUse (pa_structure p) = 0 \/
  forall k, nth k (st_windowSHGC (pa_structure p)) 0 <= nth k (st_windowSCF (pa_structure p)) 0.

(** The lamps give the same heat in both hours: there are none, or they warm nothing, or daylight dims them
    in the same way. *)
Definition lamps_alike (p : params_t R) (w w' : weather R) : Prop :=
  (li_densityOcc (pa_lighting p) = 0 /\ li_densityUnocc (pa_lighting p) = 0) \/
  li_elecInternalGains (pa_lighting p) = 0 \/
  sp_lights_on p (we_sol w') = sp_lights_on p (we_sol w).
