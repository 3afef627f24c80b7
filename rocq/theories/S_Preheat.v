(** What preheating of the ventilation air costs. *)
From Coq Require Import Reals List.
From Verif Require Import Num Xr M_Params M_Hourly S_Recovery.
Import ListNotations.
Open Scope R_scope.

(** The building with ventilation air preheated to [t] degrees, otherwise unchanged. *)
Definition preheated (p : params_t R) (t : R) : params_t R := with_recovery p (ve_heatRecoveryEfficiency (pa_ventilation p)) t.
(** Everything an hour uses besides the heating need: cooling need, interior and exterior lights, fans, pumps, equipment and hot water. *)
Definition other_uses (h : hourres xr) : list xr :=
  [hr_Qneed_cl h; hr_illum h; hr_illum_ext h; hr_fan h; hr_pump h; hr_plug h; hr_extEquip h; hr_dhw h].
Definition at_most (x y : xr) : Prop := exists a b, x = Fin a /\ y = Fin b /\ a <= b.
