(** C123: a month of weather that is not a number, in the monthly engine. *)
From Coq Require Import ZArith List.
From Flocq Require Import IEEE754.BinarySingleNaN.
From Verif Require Import Base Num Dbl M_Params M_Epw M_Monthly S_Results S_Epw S_Program S_DoubleSun S_BrokenMonth E_Monthly E_Sun E_Zenith E_Broken E_BrokenMonth L_BrokenMonth L_BrokenMonth2 L_BrokenMonth3.
Import ListNotations.

(** One month without a mean temperature or irradiance: the heating, cooling and pump figures of all twelve months are NaN,
    for every building with its own plant or district energy, whatever the other months and the mathematical library. *)
Theorem C123_year : forall (L : libm) p w rows, simulateMonthly (N := dbl_num L) p w = Ok rows -> broken_month w -> working p ->
  forall row, In row rows -> forall u, In u [heating_column p; elec_cooling; elec_pumps] -> nth_error row u = Some B754_nan.
Proof. intros L. exact C123_year_l. Qed.
Print Assumptions C123_year.

(** So the property fails: two years that differ in the temperature of January only.  The first has finite figures in all
    months, the second has none in any month. *)
Theorem C123_refuted : exists (L : libm) p w w' rows rows',
  (mw_msolar w' = mw_msolar w /\ mw_mhdbt w' = mw_mhdbt w /\ mw_mhEgh w' = mw_mhEgh w /\ mw_mEgh w' = mw_mEgh w /\ mw_mwind w' = mw_mwind w /\
   forall k, k <> 0%nat -> nth_error (mw_mdbt w') k = nth_error (mw_mdbt w) k) /\
  simulateMonthly (N := dbl_num L) p w = Ok rows /\ simulateMonthly (N := dbl_num L) p w' = Ok rows' /\
  forall j u, (j < 12)%nat -> In u [heating_column p; elec_cooling; elec_pumps] -> (exists row x, nth_error rows j = Some row /\ nth_error row u = Some x /\ is_finite x = true) /\
    forall row, nth_error rows' j = Some row -> nth_error row u = Some B754_nan.
Proof. exact C123_refuted_l. Qed.
Print Assumptions C123_refuted.

(** The office with an unread January meets the hypotheses. *)
Example C123_case : broken_month unread_january /\ working month_office /\
  exists rows, @simulateMonthly double (dbl_num any_libm) month_office unread_january = Ok rows.
Proof. exact C123_case_l. Qed.

(** No bad reading is needed: at the site of C121 the monthly table of every working building has NaN for heating, cooling and pumps in
    all months, whatever the weather file says, if NaN survives being written as text and read again. *)
Theorem C123_zenith : forall L, exact_libm L -> forall (e : epw double) got tables, ep_site e = Some (latitude_deg, longitude_deg, 0%Z) -> year_table (ep_data e) ->
  got B754_nan = B754_nan -> monthly_input (N := dbl_num L) got e tables -> forall p rows, working p -> simulateMonthly (N := dbl_num L) p tables = Ok rows ->
  forall row, In row rows -> forall u, In u [heating_column p; elec_cooling; elec_pumps] -> nth_error row u = Some B754_nan.
Proof. exact C123_zenith_l. Qed.
Print Assumptions C123_zenith.
Example C123_zenith_case : exists L, exact_libm L /\ coarse B754_nan = B754_nan /\ year_table (ep_data zenith_epw) /\
  exists tables, monthly_input (N := dbl_num L) coarse zenith_epw tables /\ working (@monthlyOffice double (dbl_num L)) /\
  exists rows, simulateMonthly (N := dbl_num L) (@monthlyOffice double (dbl_num L)) tables = Ok rows.
Proof. exact C123_zenith_case_l. Qed.
