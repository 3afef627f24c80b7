(** C17: the temperatures of the building. *)
From Coq Require Import ZArith List Lia Reals.
From Verif Require Import Base Num Xr M_Params M_Hourly S_Trace E_SmallOffice L_HourlyShape L_Office L_Trace.
Import ListNotations.

(** Every run has mass and air temperatures, hour by hour. *)
Theorem C17_run : forall (T : Type) (N : Num T) (p : params_t T) ws r0 raw r, simulateRaw p ws r0 = Ok (raw, r) ->
  exists temps, run_temperatures p ws r0 raw temps /\ length temps = length raw.
Proof. exact @C17_run_l. Qed.
Print Assumptions C17_run.
(** Those of the first [n] hours agree when the weather of these hours does. *)
Theorem C17_temperatures : forall (T : Type) (N : Num T) (p : params_t T) ws ws' r0 n raw raw' temps temps', firstn n ws = firstn n ws' ->
  run_temperatures p ws r0 raw temps -> run_temperatures p ws' r0 raw' temps' -> firstn n temps = firstn n temps'.
Proof. exact @C17_temperatures_l. Qed.
Print Assumptions C17_temperatures.
(** The small office has a run in a constant year. *)
Example C17_run_case : exists raw r, simulateRaw (@smallOffice xr xr_num) (constant_year 8760 (Fin 1%R)) no_ratios = Ok (raw, r).
Proof.
  apply simulateRaw_ok; [exact office_ints|reflexivity|unfold constant_year; rewrite repeat_length; lia|].
  intros w Hw. apply repeat_spec in Hw. subst w. reflexivity.
Qed.
