(** Cases for C99 and C100: the office in a windy year. *)
From Coq Require Import Reals Lra Psatz ZArith List Lia.
From Verif Require Import Base Num Xr M_Params M_Hourly M_Map S_RC S_Physical S_Network S_Year S_HourSpec S_Balance S_Compare S_YearCompare S_YearClimate S_YearStable S_YearLoad E_SmallOffice S_Edit
  L_Xr L_HourlyShape L_HourlyThm2 L_HourlyThm4 L_Office L_Office2 L_HourlyBalance L_HourlyBalance2 L_Compare3 L_MonthlyClimate L_YearCompare L_YearCompare3 L_YearClimate2 L_YearLoad.
Import ListNotations.
Open Scope R_scope.

(** Without scheduled air flow. *)
Definition set_supply (p : params_t R) (x : R) : params_t R :=
  match pa_ventilation p with mkVentilation _ b c d e f g h i j k l m n o q r s t =>
    mkParams (pa_structure p) (pa_heating p) (pa_cooling p) (mkVentilation x b c d e f g h i j k l m n o q r s t) (pa_lighting p) (pa_building p) (pa_population p) (pa_settings p) (pa_phys p) (pa_terrain p) end.
Definition shut_office : params_t R := set_supply still_office 0.
Lemma shut_physical : physical shut_office.
Proof. destruct still_physical. constructor; try assumption. exact (Rle_refl 0). Qed.
Lemma shut_supplied : sp_supplied shut_office 15 = 15.
Proof. exact (office_supplied 15 ltac:(lra)). Qed.
Lemma shut_steady : steady_leak shut_office 18 22 windy_hour.
Proof. intros flow t t' [-> | ->] B B'; exact (windy_steady 0 t t' (or_introl eq_refl) B B'). Qed.
Lemma shut_loss : 0 <= steady_loss shut_office 0 windy_hour 18.
Proof.
  pose proof shut_physical as HP. destruct (envelope_signs shut_office HP) as (A & B & (C & D) & E). unfold steady_loss.
  replace (we_temp windy_hour) with 15 by (onum; lra). set (wi := we_wind windy_hour). clearbody wi.
  assert (M : sp_mixed shut_office 0 wi 15 18 <= 18) by (apply mixed_le; [exact HP|lra|lra|rewrite shut_supplied; lra]).
  assert (T : 0 <= sp_total shut_office 0 wi 15 18).
  { unfold sp_total. pose proof (envelope_nonneg shut_office 0 wi 15 18). pose proof (supply_nonneg shut_office 0 HP (Rle_refl 0)). lra. }
  assert (U : 0 <= transmission shut_office).
  { unfold transmission. apply Rmult_le_pos; [lra|]. left. apply Rinv_0_lt_compat. apply Rplus_lt_0_compat; apply Rdiv_lt_0_compat; lra. }
  apply Rplus_le_le_0_compat; apply Rmult_le_pos; lra.
Qed.
Lemma C99_case_l : let p := shut_office in
  physical p /\ ordered_setpoints p /\ mass_slow p /\ timetable_of p office_hours /\ encloses 18 22 p /\ constant_use p office_hours 18 0 /\ no_sources p /\
  Forall (eq 0) (we_sol windy_hour) /\ steady_leak p 18 22 windy_hour /\ 0 <= steady_loss p 0 windy_hour 18 /\
  exists raw r, simulateRaw (map_params Fin p) (map (map_weather Fin) (repeat windy_hour (Z.to_nat 8760))) no_ratios = Ok (raw, r).
Proof.
  cbv zeta. split; [exact shut_physical|]. split; [exact still_ordered|]. split; [exact office_slow|]. split; [exact still_timetable|].
  split; [unfold encloses; onum; lra|]. split; [unfold constant_use; onum; repeat split; auto; lra|]. split; [unfold no_sources; onum; auto|].
  split; [apply Forall_forall; intros v V; apply repeat_spec in V; subst v; onum; lra|]. split; [exact shut_steady|]. split; [exact shut_loss|].
  rewrite map_repeat. apply simulateRaw_ok.
  - apply office_ints.
  - reflexivity.
  - rewrite repeat_length. lia.
  - intros w Hw. apply repeat_spec in Hw. subst w. reflexivity.
Qed.

(** The fresh air of the windy office. *)
Lemma windy_air : fresh_air_below still_office 18 22 (sp_wind still_office 14 + sp_supply still_office (ve_supplyRate (pa_ventilation still_office))) windy_hour.
Proof.
  intros flow t F B. unfold sp_total, sp_envelope, sp_exfiltration. rewrite balanced, Rabs_R0, !Rmult_0_l, !Rminus_0_r.
  replace (we_wind windy_hour) with 14 by (onum; lra). replace (we_temp windy_hour) with 15 by (onum; lra).
  rewrite (Rmax_right _ _ (windy_leak t B)).
  assert (W : 0 <= sp_wind still_office 14).
  { eapply Rle_trans; [|exact (windy_leak 20 ltac:(lra))]. unfold sp_stack. apply Rmult_le_pos; [|apply Rpow_nonneg; apply Rmult_le_pos; [apply Rmult_le_pos; [lra|]|]].
    - unfold sp_leak. pose proof (Rmax_l (1 / 1000000) (0.19 * ve_n50 (pa_ventilation still_office) * st_buildingHeight (pa_structure still_office))). lra.
    - pose proof (Rmax_l (1 / 10) (ve_hzone (pa_ventilation still_office))). lra.
    - pose proof (Rmax_l (1 / 100000) (Rabs (15 - 20))). lra. }
  rewrite (Rmax_right 0 (sp_wind still_office 14) W), (Rmax_left 0 0 (Rle_refl 0)).
  pose proof (supply_nonneg still_office _ still_physical (phy_supply _ still_physical)) as S.
  destruct F as [-> | ->]; [|lra]. replace (sp_supply still_office 0) with 0; [lra|]. unfold sp_supply, sp_vent. unfold Rdiv. ring.
Qed.
Lemma C100_case_l : let p := still_office in let V := sp_wind p 14 + sp_supply p (ve_supplyRate (pa_ventilation p)) in
  physical p /\ ordered_setpoints p /\ mass_slow p /\ recovery_ok p /\ sources_ok p /\ daylit p /\ timetable_of p office_hours /\ encloses 18 22 p /\
  18 <= ht_tempOcc (pa_heating p) /\ 18 <= ht_tempUnocc (pa_heating p) /\
  (forall w, In w windy_year -> 15 <= we_temp w /\ all_nonneg (we_sol w) /\ fresh_air_below p 18 22 V w) /\
  exists raw r, simulateRaw (map_params Fin p) (map (map_weather Fin) windy_year) no_ratios = Ok (raw, r).
Proof.
  cbv zeta. destruct C79_case_l as (_ & _ & _ & _ & SO & DL & _).
  split; [exact still_physical|]. split; [exact still_ordered|]. split; [exact office_slow|]. split; [exact still_recovery|]. split; [exact SO|]. split; [exact DL|]. split; [exact still_timetable|].
  split; [unfold encloses; onum; lra|]. split; [onum; lra|]. split; [onum; lra|]. split; [|exact (windy_runs 0 0)].
  intros w Hw. apply repeat_spec in Hw. subst w. split; [onum; lra|]. split; [|exact windy_air].
  intros v V. apply repeat_spec in V. subst v. onum. lra.
Qed.
