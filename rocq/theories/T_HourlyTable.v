(** C13, C17, C18: the tables returned by the hourly engine. *)
From Coq Require Import ZArith List Lia Reals.
From Verif Require Import Base Num Xr M_Params M_Hourly S_Edit S_Results E_SmallOffice
  L_HourlyShape L_HourlyOut L_Office.
Import ListNotations.

(** The same building with an electric plant (type equal to 1) and with any other type.
    Both resolutions ([agg]): heating moves as a whole from the electric slot of the first to
    the gas slot of the second, the other slot is 0, and every other end use is the same. *)
Theorem C13_one_carrier : forall (p : params_t xr) (electric other : xr) ws r0 agg rows rows' r r',
  neqb electric (Fin 1) = true -> neqb other (Fin 1) = false ->
  simulate (with_energyType p electric) ws r0 agg = Ok (rows, r) ->
  simulate (with_energyType p other) ws r0 agg = Ok (rows', r') ->
  (forall k, ~ In k [elec_heating; gas_heating] -> forall v, is_series k rows v -> is_series k rows' v) /\
  (exists heat, is_series elec_heating rows heat /\ is_series gas_heating rows' heat) /\
  (forall row, In row rows -> nth_error row gas_heating = Some (Fin 0)) /\
  (forall row, In row rows' -> nth_error row elec_heating = Some (Fin 0)).
Proof. exact carrier_routing. Qed.
Print Assumptions C13_one_carrier.

Theorem C13_zero_slots : forall (p : params_t xr) ws r0 agg rows r,
  simulate p ws r0 agg = Ok (rows, r) ->
  forall row k, In row rows -> In k [elec_dhw; gas_cooling; gas_equip; gas_dhw] -> nth_error row k = Some (Fin 0).
Proof. exact zero_slots_zero. Qed.
Print Assumptions C13_zero_slots.

Example C13_case : (neqb (Fin 1) (Fin 1) = true /\ neqb (Fin 2) (Fin 1) = false) /\
  (exists rows r, simulate (with_energyType (@smallOffice xr xr_num) (zn 2)) (constant_year 8760 (Fin 5)) no_ratios true = Ok (rows, r)).
Proof.
  split; [|exact (office_runs true (Fin 5))]. cbn.
  split; [apply L_Xr.Reqb_true; reflexivity|apply L_Xr.Reqb_false; apply IZR_neq; discriminate].
Qed.

(** Two weather years that agree on their first [n] hours: the needs, lighting, fan, pump,
    equipment, hot water of those hours agree, for every number type. *)
Theorem C17_causal_raw : forall (T : Type) (N : Num T) (p : params_t T) ws ws' r0 n raw raw' r r',
  firstn n ws = firstn n ws' ->
  simulateRaw p ws r0 = Ok (raw, r) -> simulateRaw p ws' r0 = Ok (raw', r') ->
  firstn n raw = firstn n raw' /\ r = r'.
Proof. exact @simulateRaw_causal. Qed.
Print Assumptions C17_causal_raw.

(** The same seen in the returned table (heating and cooling energy are excluded: the
    distribution factor applied to them is computed from the whole year). *)
Theorem C17_causal_table : forall (T : Type) (N : Num T) (p : params_t T) ws ws' r0 n rows rows' r r',
  firstn n ws = firstn n ws' ->
  simulate p ws r0 false = Ok (rows, r) -> simulate p ws' r0 false = Ok (rows', r') ->
  r = r' /\
  forall k, In k [elec_int_lights; elec_ext_lights; elec_fans; elec_pumps; elec_int_equip; elec_ext_equip; elec_dhw] ->
  exists v v', is_series k rows v /\ is_series k rows' v' /\ firstn n v = firstn n v'.
Proof. exact @simulate_causal. Qed.
Print Assumptions C17_causal_table.
(** Two different years with a common prefix. *)
Example C17_case :
  firstn 2 (constant_year 3 (Fin 1)) = firstn 2 (constant_year 2 (Fin 1) ++ constant_year 1 (Fin 7)) /\
  constant_year 3 (Fin 1) <> constant_year 2 (Fin 1) ++ constant_year 1 (Fin 7).
Proof.
  split; [reflexivity|]. intros H. apply (f_equal (map we_temp)) in H. cbn in H. injection H as H.
  apply eq_IZR in H. discriminate H.
Qed.

(** With complete inputs simulate has no undefined behaviour and returns the documented shape. *)
Theorem C18_hourly_shape : forall (T : Type) (N : Num T) (p : params_t T) ws r0 agg,
  ints_ok (pa_population p) -> structure_nine (pa_structure p) = true ->
  (8760 <= Z.of_nat (length ws))%Z -> (forall w, In w ws -> nine (we_sol w) = true) ->
  exists rows r, simulate p ws r0 agg = Ok (rows, r) /\ table_shape (if agg then 12 else Z.to_nat 8760) rows.
Proof. exact @simulate_total. Qed.
Print Assumptions C18_hourly_shape.
Example C18_case : ints_ok (pa_population (@smallOffice xr xr_num)) /\ structure_nine (pa_structure (@smallOffice xr xr_num)) = true.
Proof. split; [exact office_ints|reflexivity]. Qed.
