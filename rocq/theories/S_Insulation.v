(** The same building with other windows. *)
From Coq Require Import Reals List.
From Verif Require Import Num Xr M_Params M_Hourly S_Physical S_MonthlyCompare.
Import ListNotations.
Open Scope R_scope.

(** The building with window U values [us], otherwise unchanged. *)
Definition glazed (p : params_t R) (us : list R) : params_t R :=
  varied p (bu_elecApplianceOcc (pa_building p)) (bu_elecApplianceUnocc (pa_building p)) us (st_interiorHeatCapacity (pa_structure p)).
(** [us] loses at least as much heat as the windows of [p], window by window. *)
Definition poorer_windows (p : params_t R) (us : list R) : Prop := Forall2 Rle (st_windowU (pa_structure p)) us.

(** It is at most as warm outside as the mass of the building, the heating set-point, and the 20 degrees heat recovery counts on. *)
Definition cold_outside (w : weather R) (mass heat : R) : Prop := we_temp w <= mass /\ we_temp w <= heat /\ we_temp w <= 20.

(** Weather that never becomes warmer. *)
Fixpoint never_warmer (t : R) (ws : list (weather R)) : Prop :=
  match ws with [] => True | w :: rest => we_temp w <= t /\ never_warmer (we_temp w) rest end.
