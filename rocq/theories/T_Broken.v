(** C122: an hour of weather that is not a number. *)
From Coq Require Import Reals ZArith List.
From Flocq Require Import Core.Core IEEE754.BinarySingleNaN.
From Verif Require Import Base Num Dbl M_Params M_Epw M_Hourly S_Calendar S_Results S_Epw S_Program S_DoubleSun S_Broken E_SmallOffice E_Sun E_Zenith E_Broken L_Broken L_Broken2 L_Broken3 L_Broken4 L_Broken5 L_Broken6.

(** From the first hour whose temperature or radiation is not a number, no hour of the rest of the year has a heating or
    cooling need or runs a pump: whatever the building, its later weather and the mathematical library. *)
Theorem C122_needs : forall (L : libm) p ws r0 raw r k w, simulateRaw (N := dbl_num L) p ws r0 = Ok (raw, r) -> nth_error ws k = Some w -> broken w ->
  forall j h, (k <= j)%nat -> nth_error raw j = Some h -> hr_Qneed_ht h = z2d 0 /\ hr_Qneed_cl h = z2d 0 /\ hr_pump h = z2d 0.
Proof. intros L. exact C122_needs_l. Qed.
Print Assumptions C122_needs.

(** The rows of the hourly table from that hour on show no energy for heating, cooling and pumps. *)
Theorem C122_table : forall (L : libm) p ws r0 rows r k w, simulate (N := dbl_num L) p ws r0 false = Ok (rows, r) -> nth_error ws k = Some w -> broken w ->
  forall j row u, (k <= j)%nat -> nth_error rows j = Some row -> In u plant_uses -> exists x, nth_error row u = Some x /\ no_energy x.
Proof. intros L. exact C122_table_l. Qed.
Print Assumptions C122_table.

(** So the property fails: two years that differ in one reading; in one the second hour is heated, in the other no hour of the year. *)
Theorem C122_refuted : exists (L : libm) p ws ws' raw raw' r r', (forall k, k <> 0%nat -> nth_error ws' k = nth_error ws k) /\
  simulateRaw (N := dbl_num L) p ws no_ratios = Ok (raw, r) /\ simulateRaw (N := dbl_num L) p ws' no_ratios = Ok (raw', r') /\
  (exists h, nth_error raw 1 = Some h /\ Bltb (z2d 0) (hr_Qneed_ht h) = true) /\
  (forall h, In h raw' -> hr_Qneed_ht h = z2d 0 /\ hr_Qneed_cl h = z2d 0).
Proof. exact C122_refuted_l. Qed.
Print Assumptions C122_refuted.

(** The office with an unread first hour meets the hypotheses. *)
Example C122_case : broken unread /\ nth_error unread_year 0 = Some unread /\
  exists rows r, @simulate double (dbl_num any_libm) office unread_year no_ratios false = Ok (rows, r).
Proof. exact C122_case_l. Qed.

(** No bad reading is needed: at the site of C121 the plant of every building is silent from noon of the first of January to
    the end of the year, whatever the weather file says. *)
Theorem C122_zenith : forall L, exact_libm L -> forall (e : epw double) ws, ep_site e = Some (latitude_deg, longitude_deg, 0%Z) -> year_table (ep_data e) ->
  hourly_input (N := dbl_num L) e ws -> forall p r0 rows r, simulate (N := dbl_num L) p ws r0 false = Ok (rows, r) ->
  forall j row u, (12 <= j)%nat -> nth_error rows j = Some row -> In u plant_uses -> exists x, nth_error row u = Some x /\ no_energy x.
Proof. exact C122_zenith_l. Qed.
Print Assumptions C122_zenith.
Example C122_zenith_case : exists L, exact_libm L /\ year_table (ep_data zenith_epw) /\ exists ws, hourly_input (N := dbl_num L) zenith_epw ws /\
  exists rows r, simulate (N := dbl_num L) (@smallOffice double (dbl_num L)) ws no_ratios false = Ok (rows, r).
Proof. exact C122_zenith_case_l. Qed.

(** The monthly table of the same engine: every month that begins at or after the broken hour shows no energy of the plant. *)
Theorem C122_months : forall (L : libm) p ws r0 rows r k w, simulate (N := dbl_num L) p ws r0 true = Ok (rows, r) -> nth_error ws k = Some w -> broken w ->
  forall m row u, (1 <= m <= 12)%Z -> (Z.of_nat k <= 24 * days_before m)%Z -> nth_error rows (Z.to_nat (m - 1)) = Some row -> In u plant_uses ->
  exists x, nth_error row u = Some x /\ no_energy x.
Proof. exact C122_months_l. Qed.
Print Assumptions C122_months.
Example C122_months_case : broken unread /\ nth_error unread_year 0 = Some unread /\ (Z.of_nat 0 <= 24 * days_before 1)%Z /\
  exists rows r, @simulate double (dbl_num any_libm) office unread_year no_ratios true = Ok (rows, r) /\ length rows = 12%nat.
Proof. exact C122_months_case_l. Qed.

(** Where heating or cooling is by air, the fan figure of every hour after the broken one is not a number. *)
Theorem C122_fans : forall (L : libm) p ws r0 rows r k w, simulate (N := dbl_num L) p ws r0 false = Ok (rows, r) -> nth_error ws k = Some w -> broken w ->
  ht_forcedAir (pa_heating p) = true \/ cl_forcedAir (pa_cooling p) = true ->
  forall j row, (k < j)%nat -> nth_error rows j = Some row -> nth_error row elec_fans = Some B754_nan.
Proof. intros L. exact C122_fans_l. Qed.
Print Assumptions C122_fans.
Example C122_fans_case : broken unread /\ nth_error unread_year 0 = Some unread /\ ht_forcedAir (pa_heating office) = true /\
  exists rows r, @simulate double (dbl_num any_libm) office unread_year no_ratios false = Ok (rows, r).
Proof. exact C122_fans_case_l. Qed.

(** In the monthly table of the same engine so are the fan figures of every month that has an hour after the broken one. *)
Theorem C122_fan_months : forall (L : libm) p ws r0 rows r k w, simulate (N := dbl_num L) p ws r0 true = Ok (rows, r) -> nth_error ws k = Some w -> broken w ->
  ht_forcedAir (pa_heating p) = true \/ cl_forcedAir (pa_cooling p) = true ->
  forall m row, (1 <= m <= 12)%Z -> (Z.of_nat k + 1 < 24 * days_before (m + 1))%Z -> nth_error rows (Z.to_nat (m - 1)) = Some row ->
  nth_error row elec_fans = Some B754_nan.
Proof. exact C122_fan_months_l. Qed.
Print Assumptions C122_fan_months.
Example C122_fan_months_case : broken unread /\ nth_error unread_year 0 = Some unread /\ ht_forcedAir (pa_heating office) = true /\ (Z.of_nat 0 + 1 < 24 * days_before (1 + 1))%Z /\
  exists rows r, @simulate double (dbl_num any_libm) office unread_year no_ratios true = Ok (rows, r) /\ length rows = 12%nat.
Proof. exact C122_fan_months_case_l. Qed.
