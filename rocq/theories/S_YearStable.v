(** Two years of one building whose outdoor temperatures differ little, or only early on. *)
From Coq Require Import Reals List ZArith.
From Verif Require Import Num Xr M_Params M_Hourly M_Map S_Physical S_Network S_Year S_YearClimate.
Import ListNotations.
Open Scope R_scope.

(** Same wind and sun, outdoor temperatures at most [d] apart. *)
Definition close_hour (d : R) (w w' : weather R) : Prop :=
  we_wind w' = we_wind w /\ we_sol w' = we_sol w /\ Rabs (we_temp w' - we_temp w) <= d.

(** What is left after one hour of a difference in the temperature of the mass: it loses heat through the opaque
    envelope at least. *)
Definition memory (p : params_t R) : R := (sp_capacity p / 3.6 - sp_em p / 2) / (sp_capacity p / 3.6 + sp_em p / 2).

(** What moves the air temperature of hour [k] by a degree: fresh air and the surfaces. *)
Definition stiffness (p : params_t R) (tt : timetable) (k : Z) (w : weather R) : R :=
  0.34 * sp_total p (flow_at p tt k) (we_wind w) (we_temp w) 20 + sp_is p.
(** The needs of two simulated hours differ by at most [b]. *)
Definition needs_within (b : R) (h h' : hourres xr) : Prop :=
  exists qh qc qh' qc', hr_Qneed_ht h = Fin qh /\ hr_Qneed_cl h = Fin qc /\ hr_Qneed_ht h' = Fin qh' /\ hr_Qneed_cl h' = Fin qc' /\
    Rabs (qh' - qh) <= b /\ Rabs (qc' - qc) <= b.
