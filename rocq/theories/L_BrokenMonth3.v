(** The monthly engine at the site of C121. *)
From Coq Require Import Reals Lra Lia ZArith Bool List.
From Flocq Require Import Core.Core IEEE754.BinarySingleNaN.
From Verif Require Import Base Num Xr Dbl L_Dbl Text M_TimeFrame M_Params M_Epw M_Solar M_Monthly S_Calendar S_Results S_Epw S_Solar S_Text S_Main S_Program S_Monthly S_DoubleSun E_SmallOffice E_Monthly E_Sun E_Program E_Decimal E_Zenith
  L_HourlyShape L_HourlyOut L_Epw L_Solar2 L_Solar3 L_Solar4 L_Solar5 L_Monthly3 L_Main3 L_Main7 L_Main8 L_DoubleSun L_DoubleSun2 L_DoubleSun3 S_BrokenMonth L_BrokenMonth L_Broken3.
Import ListNotations.

Lemma zenith_month : forall L, exact_libm L -> forall (e : epw double) got tables, ep_site e = Some (latitude_deg, longitude_deg, 0%Z) -> year_table (ep_data e) ->
  got B754_nan = B754_nan -> monthly_input (N := dbl_num L) got e tables -> broken_month tables.
Proof.
  intros L EL e got tables SITE TAB G (dbt&dpt&rh&egh&eb&ed&wind&frame&s0&s&D&TF&N0&CA&_&_&_&_&_&LS&_&C). rewrite D in TAB, CA.
  pose proof (C121_month_nan_l L EL frame e _ s0 [] s0 s _ _ _ _ _ _ _ TF SITE N0 (Forall_nil _) eq_refl TAB CA 0%nat ltac:(lia)) as M.
  rewrite (month_cell frame e _ s0 s0 s [] dbt dpt rh egh eb ed wind TF N0 (Forall_nil _) eq_refl TAB CA 0 0 ltac:(lia) ltac:(lia)) in M.
  specialize (C 0%nat 0%nat ltac:(lia) ltac:(lia)). rewrite M in C. cbn [option_map] in C. rewrite G in C. unfold cell in C.
  destruct (nth_error (mw_msolar tables) 0) as [row|] eqn:R; [|discriminate C]. right. right. exists row. split; [eapply nth_error_In; exact R|eapply nth_error_In; exact C].
Qed.
Lemma C123_zenith_l : forall L, exact_libm L -> forall (e : epw double) got tables, ep_site e = Some (latitude_deg, longitude_deg, 0%Z) -> year_table (ep_data e) ->
  got B754_nan = B754_nan -> monthly_input (N := dbl_num L) got e tables -> forall p rows, working p -> simulateMonthly (N := dbl_num L) p tables = Ok rows ->
  forall row, In row rows -> forall u, In u [heating_column p; elec_cooling; elec_pumps] -> nth_error row u = Some B754_nan.
Proof.
  intros L EL e got tables SITE TAB G MI p rows W H. exact (C123_year_l p tables rows H (zenith_month L EL e got tables SITE TAB G MI) W).
Qed.

Lemma coarse_nz : forall x, Beqb (coarse x) (z2d 0) = false.
Proof. intros x. unfold coarse. destruct (is_nan x); reflexivity. Qed.
Lemma hourly_rows : forall {T} {N : Num T} (l : list T) r, In r (hourly_means l) -> r <> [].
Proof. intros T N l r I. unfold hourly_means in I. apply in_map_iff in I as (m&<-&_). discriminate. Qed.
Lemma tables_exist : forall L : libm, exists tables, monthly_input (N := dbl_num L) coarse zenith_epw tables /\ sun_every_month (N := dbl_num L) tables.
Proof.
  intros L. destruct (months_ok (N := dbl_num L) (@digitWriter double) (@decimal_reader double (dbl_num L)) digits_d zenith_epw sunny_table) as (w0&t0&_&_&MI); [discriminate|].
  destruct MI as (dbt&dpt&rh&egh&eb&ed&wind&frame&s0&s&D&TF&N0&CA&_).
  set (sol := map (fun k => map (fun j => coarse (nth k (monthly_means (N := dbl_num L) (surface_series (N := dbl_num L) j (so_eglobe s))) (z2d 0))) (seq 0 8)) (seq 0 12)).
  exists (mkMw sol (map (map coarse) (hourly_means (N := dbl_num L) dbt)) (map (map coarse) (hourly_means (N := dbl_num L) egh)) (map coarse (monthly_means (N := dbl_num L) egh))
     (map coarse (monthly_means (N := dbl_num L) dbt)) (map coarse (monthly_means (N := dbl_num L) wind))).
  split.
  - exists dbt, dpt, rh, egh, eb, ed, wind, frame, s0, s. split; [exact D|]. split; [exact TF|]. split; [exact N0|]. split; [exact CA|].
    cbn [mw_msolar mw_mdbt mw_mwind mw_mEgh mw_mhdbt mw_mhEgh]. do 5 (split; [reflexivity|]). unfold sol. split; [rewrite map_length; reflexivity|]. split.
    + intros r I. apply in_map_iff in I as (k&<-&_). rewrite map_length. reflexivity.
    + intros k j K J. unfold cell. rewrite nth_error_map. rewrite (nth_error_nth' (seq 0 12) 0%nat) by (rewrite seq_length; exact K). rewrite seq_nth by exact K. cbn [option_map].
      rewrite nth_error_map. rewrite (nth_error_nth' (seq 0 8) 0%nat) by (rewrite seq_length; exact J). rewrite seq_nth by exact J. cbn [option_map plus Nat.add].
      rewrite (nth_error_nth' (monthly_means _) (z2d 0)); [reflexivity|]. rewrite (monthly_means_eq (N := dbl_num L)), map_length, seq_length. exact K.
  - intros row I. cbn [mw_mhEgh] in I. apply in_map_iff in I as (r&<-&R). destruct r as [|x r]; [destruct (hourly_rows (N := dbl_num L) egh [] R eq_refl)|].
    exists (coarse x). split; [left; reflexivity|]. exact (coarse_nz x).
Qed.
Lemma coarse_full : forall {L : libm} tables, monthly_input (N := dbl_num L) coarse zenith_epw tables -> full_tables tables.
Proof.
  intros L tables (dbt&dpt&rh&egh&eb&ed&wind&frame&s0&s&_&_&_&_&E1&E2&E3&E4&E5&LL&R&_). unfold full_tables. rewrite E1, E2, E3, E4, E5.
  assert (H : forall l : list double, length (map (map coarse) (hourly_means (N := dbl_num L) l)) = 12%nat /\ forall r, In r (map (map coarse) (hourly_means (N := dbl_num L) l)) -> length r = 24%nat).
  { intros l. split; [rewrite map_length; unfold hourly_means; rewrite map_length; reflexivity|]. intros r I. apply in_map_iff in I. destruct I as (x&<-&I). rewrite map_length.
    unfold hourly_means in I. apply in_map_iff in I. destruct I as (m&<-&_). rewrite map_length. reflexivity. }
  assert (M : forall l : list double, length (map coarse (monthly_means (N := dbl_num L) l)) = 12%nat) by (intros l; rewrite map_length; unfold monthly_means; rewrite map_length; reflexivity).
  split; [split; [exact LL|exact R]|]. split; [apply H|]. split; [apply H|]. split; [apply M|]. split; apply M.
Qed.
Lemma C123_zenith_case_l : exists L, exact_libm L /\ coarse B754_nan = B754_nan /\ year_table (ep_data zenith_epw) /\
  exists tables, monthly_input (N := dbl_num L) coarse zenith_epw tables /\ working (@monthlyOffice double (dbl_num L)) /\
  exists rows, simulateMonthly (N := dbl_num L) (@monthlyOffice double (dbl_num L)) tables = Ok rows.
Proof.
  exists ideal. split; [exact ideal_exact|]. split; [reflexivity|]. split; [exact sunny_table|]. destruct (tables_exist ideal) as (t&MI&SU). exists t. split; [exact MI|].
  split; [repeat split; vm_compute; reflexivity|]. apply C18_monthly_defined_l. split; [|split; [|split; [exact SU|split]]].
  - intros v I. cbn [In] in I. repeat (destruct I as [<- | I]; [reflexivity|]). destruct I.
  - exact (coarse_full _ MI).
  - intros x I. left. change (st_windowSDF _) with (repeat (z2d 1) 9) in I. apply repeat_spec in I. subst x. vm_compute. reflexivity.
  - exists 1%Z. change (bu_bem (pa_building (@monthlyOffice double (dbl_num ideal)))) with (z2d 1). vm_compute. reflexivity.
Qed.
