(** The same building in a warmer year, and with higher set-points. *)
From Coq Require Import Reals List ZArith.
From Verif Require Import Num Xr M_Params M_Hourly S_Physical S_Network.
Import ListNotations.
Open Scope R_scope.

(** The second hour has the same wind and sun and is at least as warm. *)
Definition warmer_hour (w w' : weather R) : Prop :=
  we_wind w' = we_wind w /\ we_sol w' = we_sol w /\ we_temp w <= we_temp w'.
(** In both hours the building leaks the same amount of air, whatever temperature between [lo] and [hi] the air
    inside has; that is so when the wind drives the leakage. *)
Definition same_leak (p : params_t R) (lo hi : R) (w w' : weather R) : Prop :=
  forall flow t t', flow = 0 \/ flow = ve_supplyRate (pa_ventilation p) -> lo <= t <= hi -> lo <= t' <= hi ->
  sp_exfiltration p flow (we_wind w) (we_temp w) t = sp_exfiltration p flow (we_wind w') (we_temp w') t'.
