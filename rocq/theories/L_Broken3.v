(** The hourly engine at the site of C121. *)
From Coq Require Import Reals Lra Lia ZArith Bool List.
From Flocq Require Import Core.Core IEEE754.BinarySingleNaN.
From Verif Require Import Base Num Xr Dbl L_Dbl Text M_TimeFrame M_Params M_Epw M_Solar M_Hourly S_Calendar S_Results S_Epw S_Text S_Main S_Program S_DoubleSun E_SmallOffice E_Sun E_Program E_Decimal E_Zenith
  L_HourlyShape L_HourlyOut L_Epw L_Solar2 L_Solar3 L_Solar4 L_Solar5 L_Main3 L_Main8 L_Double L_Double5 L_DoubleSun L_DoubleSun2 S_Broken L_Broken.
Import ListNotations.

Lemma zenith_row : forall L, exact_libm L -> forall (e : epw double) ws, ep_site e = Some (latitude_deg, longitude_deg, 0%Z) -> year_table (ep_data e) ->
  hourly_input (N := dbl_num L) e ws -> exists w, nth_error ws 12 = Some w /\ broken w.
Proof.
  intros L EL e ws SITE TAB (frame&s0&s&TF&N0&CA&LW&H). destruct (columns _ TAB) as (dbt&dpt&rh&egh&eb&ed&wind&D&_). rewrite D in TAB, CA.
  pose proof (C121_zenith_l L EL frame e _ s0 [] s0 s _ _ _ _ _ _ _ TF SITE N0 (Forall_nil _) eq_refl TAB CA) as Z.
  destruct (nth_error ws 12) as [w|] eqn:W; [|apply nth_error_None in W; lia]. exists w. split; [reflexivity|].
  destruct (H 12%nat w W) as (_&_&walls&roof&R1&R2&_&R3). rewrite Z in R1. right. exists 0%nat. split; [lia|]. rewrite R3.
  assert (walls = repeat B754_nan 8) as -> by congruence. reflexivity.
Qed.
Lemma C122_zenith_l : forall L, exact_libm L -> forall (e : epw double) ws, ep_site e = Some (latitude_deg, longitude_deg, 0%Z) -> year_table (ep_data e) ->
  hourly_input (N := dbl_num L) e ws -> forall p r0 rows r, simulate (N := dbl_num L) p ws r0 false = Ok (rows, r) ->
  forall j row u, (12 <= j)%nat -> nth_error rows j = Some row -> In u plant_uses -> exists x, nth_error row u = Some x /\ no_energy x.
Proof.
  intros L EL e ws SITE TAB HI p r0 rows r H. destruct (zenith_row L EL e ws SITE TAB HI) as (w&W&B). exact (C122_table_l p ws r0 rows r 12 w H W B).
Qed.
Lemma digits_d : forall d, writes_cells (@digitWriter double d).
Proof. intros d x. exact (digit_writes d (Fin 0)). Qed.
Lemma C122_zenith_case_l : exists L, exact_libm L /\ year_table (ep_data zenith_epw) /\ exists ws, hourly_input (N := dbl_num L) zenith_epw ws /\
  exists rows r, simulate (N := dbl_num L) (@smallOffice double (dbl_num L)) ws no_ratios false = Ok (rows, r).
Proof.
  exists ideal. split; [exact ideal_exact|]. split; [exact sunny_table|].
  destruct (hours_ok (N := dbl_num ideal) (@digitWriter double) (@decimal_reader double (dbl_num ideal)) digits_d zenith_epw sunny_table) as (ws&_&HI); [discriminate|].
  exists ws. split; [exact HI|]. destruct HI as (frame&s0&s&_&_&_&LW&H).
  destruct (simulateRaw_ok (N := dbl_num ideal) (@smallOffice double (dbl_num ideal)) ws no_ratios) as (raw&r&E); [exact (@office_ints_d ideal)|reflexivity|lia| |].
  { intros w I. apply In_nth_error in I as [i I]. destruct (H i w I) as (_&_&walls&roof&_&R2&_&R3). rewrite R3. unfold nine. rewrite app_length, R2. reflexivity. }
  destruct (simulate_both _ _ _ _ _ E) as (h&m&E1&_). exists h. eexists. exact E1.
Qed.
