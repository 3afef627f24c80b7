(** C88 and the double precision forms of C02, C03, C09, C13 and C14: the hourly engine in
    IEEE 754 arithmetic with rounding and overflow, for any mathematical library. *)
From Coq Require Import Reals List ZArith Bool.
From Flocq Require Import Core.Core IEEE754.BinarySingleNaN.
From Verif Require Import Base Num Xr Dbl M_Params M_Hourly S_Calendar S_Results S_Locality S_Double E_SmallOffice.
From Verif Require Import L_HourlyShape L_Office L_Double L_Double2 L_Double3 L_Double4 L_Double5.
Import ListNotations.
Open Scope R_scope.

(** No end use is ever below zero. *)
Theorem C88_no_negative : forall (L : libm) (p : params_t double) ws r0 agg rows r k v, unsigned_building p ->
  simulate p ws r0 agg = Ok (rows, r) -> (k < 13)%nat -> is_series k rows v -> Forall not_negative v.
Proof. intros L p ws r0 agg rows r k v UB. exact (table_sign_l p UB ws r0 agg rows r k v). Qed.
Print Assumptions C88_no_negative.

(** Needs are at least zero (never NaN) and never both positive, for any building and weather. *)
Theorem C03_double : forall (L : libm) (p : params_t double) ws r0 raw r, simulateRaw p ws r0 = Ok (raw, r) -> forall h, In h raw ->
  at_least_0 (hr_Qneed_ht h) /\ at_least_0 (hr_Qneed_cl h) /\ ~ (positive (hr_Qneed_ht h) /\ positive (hr_Qneed_cl h)).
Proof. intros L. exact C03_run_double_l. Qed.
Print Assumptions C03_double.

(** Monthly entries and yearly totals are the exact sums of the hourly entries up to the
    rounding of the additions, unless the addition overflowed. *)
Theorem C02_rounded : forall (L : libm) (p : params_t double) ws r0 hrows mrows r r', unsigned_building p ->
  simulate p ws r0 false = Ok (hrows, r) -> simulate p ws r0 true = Ok (mrows, r') ->
  forall k, (k < 13)%nat -> exists v u, is_series k hrows v /\ is_series k mrows u /\
    (forall m x, (1 <= m <= 12)%Z -> nth_error u (Z.to_nat (m - 1)) = Some x -> is_finite x = true ->
       Rabs (B2R x - exact_sum (month_part m v)) <= / 10000000000000 * exact_sum (month_part m v)) /\
    (is_finite (accumulate v) = true -> Rabs (B2R (accumulate v) - exact_sum v) <= / 1000000000000 * exact_sum v) /\
    (is_finite (accumulate u) = true -> Rabs (B2R (accumulate u) - exact_sum v) <= / 1000000000000 * exact_sum v).
Proof. intros L. exact C02_rounded_l. Qed.
Print Assumptions C02_rounded.

(** The fan energy of an hour is at least that of the scheduled ventilation. *)
Theorem C09_double : forall (L : libm) (p : params_t double) i sc w th, plain (ve_fanPower (pa_ventilation p)) ->
  let fan := hr_fan (fst (calculateHour p i sc w th)) in
  is_nan (fan_floor p (sc_vent sc)) = false -> is_nan fan = false -> Bleb (fan_floor p (sc_vent sc)) fan = true.
Proof. intros L p i sc w th U. exact (C09_double_l p i sc w th (plain_uns _ U)). Qed.
Print Assumptions C09_double.

(** The carrier that does not heat shows exactly zero. *)
Theorem C13_double : forall (L : libm) (p : params_t double) ws r0 agg rows r, simulate p ws r0 agg = Ok (rows, r) ->
  forall row, In row rows -> nth_error row (if Beqb (ht_energyType (pa_heating p)) (z2d 1) then gas_heating else elec_heating) = Some (z2d 0).
Proof. intros L. exact C13_double_l. Qed.
Print Assumptions C13_double.

(** Distribution losses never reduce the energy charged for a need. *)
Theorem C14_double : forall (L : libm) (p : params_t double) ws r0 rows r, unsigned_building p -> simulate p ws r0 false = Ok (rows, r) ->
  exists raw, simulateRaw p ws r0 = Ok (raw, r) /\ forall n h, nth_error raw n = Some h ->
    (forall x, cell rows n (if Beqb (ht_energyType (pa_heating p)) (z2d 1) then elec_heating else gas_heating) = Some x ->
       let least := lossless (hr_Qneed_ht h) (ht_efficiency (pa_heating p)) in is_nan least = false -> is_nan x = false -> Bleb least x = true) /\
    (forall x, cell rows n elec_cooling = Some x ->
       let least := lossless (hr_Qneed_cl h) (cl_cop (pa_cooling p)) in is_nan least = false -> is_nan x = false -> Bleb least x = true).
Proof. intros L. exact C14_double_l. Qed.
Print Assumptions C14_double.

(** The small office in doubles meets the hypotheses and runs; in a dark year its exterior
    light column is a positive constant with finite sums. *)
Example C88_case : forall (L : libm) t, unsigned_building (@smallOffice double (dbl_num L)) /\
  plain (ve_fanPower (pa_ventilation (@smallOffice double (dbl_num L)))) /\
  (forall agg, exists rows r, simulate (@smallOffice double (dbl_num L)) (constant_year 8760 t) no_ratios agg = Ok (rows, r)) /\
  (forall rows r, simulate (@smallOffice double (dbl_num L)) (constant_year 8760 t) no_ratios false = Ok (rows, r) ->
     is_series elec_ext_lights rows (repeat lamp (Z.to_nat 8760))) /\
  positive lamp /\ is_finite (accumulate (repeat lamp (Z.to_nat 8760))) = true.
Proof.
  intros L t. split; [exact office_unsigned|]. split; [exact (proj1 (ub_fan _ office_unsigned))|].
  split; [exact (office_runs_d t)|]. split; [exact (office_lamps t)|]. exact lamp_ok.
Qed.
