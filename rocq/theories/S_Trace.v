(** The temperatures of a year as the hourly engine goes through it. *)
From Coq Require Import ZArith List.
From Verif Require Import Base Num M_TimeFrame M_Params M_Hourly.
Import ListNotations.

Section Trace.
Context {T : Type} {N : Num T}.
(** From mass and air temperatures [th]: the results of each hour, and mass and air at its end. *)
Inductive hours_run (p : params_t T) (i : hinit T) (tbl : list (list (sched T))) : list (option tcell) -> list (weather T) -> thermal T -> list (hourres T) -> list (thermal T) -> Prop :=
  | run_end : forall ws th, hours_run p i tbl [] ws th [] []
  | run_hour : forall c frame w ws th sc r th' raw temps, sched_at tbl (tc_hour c) (tc_dow c) = Ok sc -> calculateHour p i sc w th = (r, th') ->
      hours_run p i tbl frame ws th' raw temps -> hours_run p i tbl (Some c :: frame) (w :: ws) th (r :: raw) (th' :: temps).
(** The run of simulate that gives the raw results [raw] has these temperatures. *)
Definition run_temperatures (p : params_t T) (ws : list (weather T)) (r0 : ratios T) (raw : list (hourres T)) (temps : list (thermal T)) : Prop :=
  exists tbl i frame, populateSchedules p = Ok tbl /\ initialize p r0 = Ok i /\ timeFrame = Ok frame /\ hours_run p i tbl frame ws thermal0 raw temps.
End Trace.
