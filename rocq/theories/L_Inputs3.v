(** The monthly engine uses parameters that the hourly engine ignores. *)
From Coq Require Import Reals Lra String List Lia.
From Verif Require Import Base Num Xr M_Params M_UserModel M_Hourly M_Monthly M_Map S_Results S_Loading S_Monthly S_MonthlySound S_MonthlyBalance
  S_Inputs S_Year E_SmallOffice L_HourlyOut L_HourlyShape L_MonthlyBalance L_Office L_Inputs L_Inputs2.
Import ListNotations.
Open Scope R_scope.

Lemma gas_equipment_differs p p' w rows rows' : sound p -> sound p' -> pa_population p' = pa_population p ->
  bu_gasApplianceUnocc (pa_building p') = bu_gasApplianceUnocc (pa_building p) ->
  bu_gasApplianceOcc (pa_building p') <> bu_gasApplianceOcc (pa_building p) -> 0 < week_days (pa_population p) ->
  simulateMonthly (map_params Fin p) (fin_weather w) = Ok rows -> simulateMonthly (map_params Fin p') (fin_weather w) = Ok rows' ->
  forall month row row', nth_error rows month = Some row -> nth_error rows' month = Some row' -> nth_error row' gas_equip <> nth_error row gas_equip.
Proof.
  intros S S' EP EU EO WD H H' i row row' R R'.
  destruct (C65_l _ _ _ S H) as [_ G]. destruct (C65_l _ _ _ S' H') as [_ G']. rewrite EU in G'.
  assert (V : forall (rows : list (list xr)) (f : nat -> xr), is_series gas_equip rows (map f (seq 0 12)) -> forall row, nth_error rows i = Some row -> exists j, (j < 12)%nat /\ j = i /\ nth_error row gas_equip = Some (f j)).
  { clear. intros rows f X row R. apply is_series_slot in X. unfold slot_series in X.
    assert (Y : nth_error (map (fun row => nth_error row gas_equip) rows) i = Some (nth_error row gas_equip)) by (rewrite nth_error_map, R; reflexivity).
    rewrite X in Y. destruct (Nat.lt_ge_cases i 12) as [L|L].
    - exists i. split; [exact L|]. split; [reflexivity|]. rewrite !nth_error_map, (nth_error_nth' _ 0%nat) in Y by (rewrite seq_length; exact L).
      rewrite seq_nth in Y by exact L. cbn [option_map Nat.add] in Y. assert (Z : Some (f i) = nth_error row gas_equip) by congruence. symmetry. exact Z.
    - rewrite (proj2 (nth_error_None _ _)) in Y by (rewrite !map_length, seq_length; exact L). discriminate Y. }
  destruct (V _ _ G _ R) as (j & L & -> & ->). destruct (V _ _ G' _ R') as (j' & _ & -> & ->).
  intros E. injection E as E. unfold appliance_kWh in E. rewrite EP in E. apply EO.
  assert (HS : 0 < occupied_share (pa_population p)).
  { unfold occupied_share. destruct (so_hours _ S) as [D _]. apply Rdiv_lt_0_compat; [apply Rmult_lt_0_compat; assumption|lra]. }
  assert (HM : 0 < month_hours i).
  { unfold month_hours. do 12 (destruct i as [|i]; [cbn; lra|]). lia. }
  assert (F : (bu_gasApplianceOcc (pa_building p') - bu_gasApplianceOcc (pa_building p)) * (occupied_share (pa_population p) * month_hours i) = 0) by lra.
  apply Rmult_integral in F. destruct F as [F|F]; [lra|]. apply Rmult_integral in F. lra.
Qed.

Lemma C80_case_l : In "heatgainperperson"%string hourly_unused /\ ~ In "heatgainperperson"%string monthly_unused /\
  unchanged_except "heatgainperperson" (@office_file xr _) warmer_people /\
  po_heatGainPerPerson (pa_population (bm_params (@warmer_people xr _))) <> po_heatGainPerPerson (pa_population (bm_params (@office_file xr _))) /\
  forall agg t, exists rows r, simulate (bm_params (@office_file xr _)) (constant_year 8760 t) no_ratios agg = Ok (rows, r).
Proof.
  split; [apply key_in; reflexivity|]. split.
  { intros I. assert (X : existsb (String.eqb "heatgainperperson") monthly_unused = true) by (apply existsb_exists; eexists; split; [exact I|reflexivity]). discriminate X. }
  split; [exact warmer_people_unchanged|]. split.
  { cbn. unfold zn. cbn. unfold Rlit. intros E. injection E as E. lra. }
  exact office_runs.
Qed.
