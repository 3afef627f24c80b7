(** Simulating again on the same model object (C16). *)
From Coq Require Import Reals Lra Psatz ZArith List Bool Lia.
From Verif Require Import Base Num Xr M_Params M_TimeFrame M_Hourly M_Map L_Xr L_HourlyR S_Physical L_HourlyFin L_HourlyFin2 E_SmallOffice S_Edit
  S_RC S_Network L_HourlySpec S_Year S_HourSpec S_Results S_Calendar L_Calendar L_HourlyShape L_HourlyOut L_HourlyRun
  L_HourlyThm L_HourlyThm2 L_HourlyThm3 L_HourlyThm4 L_Office L_Office2.
Import ListNotations.

Section Again.
Context {T : Type} {N : Num T}.
Implicit Types (r : ratios T) (p : params_t T).

(** The entries the hourly step reads: the first nine of four of the six vectors. *)
Definition same9 r r' : Prop := forall k, (k < 9)%nat ->
  at9 (ra_naturalLightRatio r) k = at9 (ra_naturalLightRatio r') k /\
  at9 (ra_naturalLightShadeRatioReduction r) k = at9 (ra_naturalLightShadeRatioReduction r') k /\
  at9 (ra_solarRatio r) k = at9 (ra_solarRatio r') k /\
  at9 (ra_solarShadeRatioReduction r) k = at9 (ra_solarShadeRatioReduction r') k.
Definition full9 r : Prop :=
  (9 <= length (ra_naturalLightRatio r))%nat /\ (9 <= length (ra_naturalLightShadeRatioReduction r))%nat /\
  (9 <= length (ra_solarRatio r))%nat /\ (9 <= length (ra_solarShadeRatioReduction r))%nat.
Lemma same9_trans r1 r2 r3 : same9 r1 r2 -> same9 r2 r3 -> same9 r1 r3.
Proof. intros A B k Hk. destruct (A k Hk) as (-> & -> & -> & ->). apply B, Hk. Qed.
Lemma at9_app (l m : list T) k : (9 <= length l)%nat -> (k < 9)%nat -> at9 (l ++ m) k = at9 l k.
Proof. intros A B. unfold at9. apply app_nth1. lia. Qed.

(** Appending after nine entries changes nothing that is read. *)
Lemma push_keeps s r i : full9 r -> full9 (push_ratios s r i) /\ same9 (push_ratios s r i) r.
Proof.
  intros (A & B & C & D). unfold push_ratios. split.
  - unfold full9. cbn. rewrite !app_length. cbn. lia.
  - intros k Hk. cbn [ra_naturalLightRatio ra_naturalLightShadeRatioReduction ra_solarRatio ra_solarShadeRatioReduction].
    rewrite !at9_app by assumption. auto.
Qed.
Lemma push_all_keeps s is : forall r, full9 r -> full9 (fold_left (push_ratios s) is r) /\ same9 (fold_left (push_ratios s) is r) r.
Proof.
  induction is as [|i is IH]; intros r F; cbn [fold_left].
  - split; [exact F|]. intros k _. auto.
  - destruct (push_keeps s r i F) as [F1 S1]. destruct (IH _ F1) as [F2 S2]. split; [exact F2|]. exact (same9_trans _ _ _ S2 S1).
Qed.

Lemma map_cong9 {B} (f g : nat -> B) : (forall k, (k < 9)%nat -> f k = g k) -> map f (seq 0 9) = map g (seq 0 9).
Proof. intros H. apply map_ext_in. intros k Hk. apply in_seq in Hk. apply H. lia. Qed.

(** Two initialisations of the same building. *)
Definition with_ratios (i : hinit T) r : hinit T :=
  match i with mkHinit a b c d e f g h i' j k l m n o q s _ => mkHinit a b c d e f g h i' j k l m n o q s r end.
Lemma ratios_with i r : hi_ratios (with_ratios i r) = r.
Proof. destruct i. reflexivity. Qed.
Lemma maxRatio_with i r : hi_maxRatio (with_ratios i r) = hi_maxRatio i.
Proof. destruct i. reflexivity. Qed.
Lemma hour_same9 p i r r' sc w th : same9 r r' ->
  calculateHour p (with_ratios i r) sc w th = calculateHour p (with_ratios i r') sc w th.
Proof.
  intros S. destruct i.
  assert (L : forall s, lightingLevel s (with_ratios (mkHinit hi_maxRatio hi_elightNatural hi_areaNatRatio hi_shadingUse hi_q4Pa hi_H_tris hi_Cm hi_Am hi_hwin
      hi_prsInterior hi_prsSolar hi_prmInterior hi_prmSolar hi_H_ms hi_hem hi_windImpactHz hi_windImpactSupplyRatio hi_ratios) r) (we_sol w)
    = lightingLevel s (with_ratios (mkHinit hi_maxRatio hi_elightNatural hi_areaNatRatio hi_shadingUse hi_q4Pa hi_H_tris hi_Cm hi_Am hi_hwin
      hi_prsInterior hi_prsSolar hi_prmInterior hi_prmSolar hi_H_ms hi_hem hi_windImpactHz hi_windImpactSupplyRatio hi_ratios) r') (we_sol w)).
  { intros s. unfold lightingLevel. cbn [with_ratios M_Hourly.hi_areaNatRatio M_Hourly.hi_ratios M_Hourly.hi_shadingUse]. f_equal. apply map_cong9. intros k Hk.
    destruct (S k Hk) as (-> & -> & _). reflexivity. }
  assert (Q : forall s, qSolarHeatGain s (with_ratios (mkHinit hi_maxRatio hi_elightNatural hi_areaNatRatio hi_shadingUse hi_q4Pa hi_H_tris hi_Cm hi_Am hi_hwin
      hi_prsInterior hi_prsSolar hi_prmInterior hi_prmSolar hi_H_ms hi_hem hi_windImpactHz hi_windImpactSupplyRatio hi_ratios) r) (we_sol w)
    = qSolarHeatGain s (with_ratios (mkHinit hi_maxRatio hi_elightNatural hi_areaNatRatio hi_shadingUse hi_q4Pa hi_H_tris hi_Cm hi_Am hi_hwin
      hi_prsInterior hi_prsSolar hi_prmInterior hi_prmSolar hi_H_ms hi_hem hi_windImpactHz hi_windImpactSupplyRatio hi_ratios) r') (we_sol w)).
  { intros s. unfold qSolarHeatGain. cbn [with_ratios M_Hourly.hi_ratios M_Hourly.hi_shadingUse]. f_equal. apply map_cong9. intros k Hk.
    destruct (S k Hk) as (_ & _ & -> & ->). reflexivity. }
  unfold calculateHour, hourNet, phiAir, phiInt, electricForTotalLightArea. rewrite L, Q. reflexivity.
Qed.
Lemma loop_same9 p i r r' tbl frame : same9 r r' -> forall ws th,
  yearLoop p (with_ratios i r) tbl frame ws th = yearLoop p (with_ratios i r') tbl frame ws th.
Proof.
  intros S. induction frame as [|[c|] frame IH]; intros ws th; cbn [yearLoop]; [reflexivity| |reflexivity].
  destruct ws as [|w ws]; [reflexivity|]. destruct (nine (we_sol w)); cbn [negb]; [|reflexivity].
  destruct (sched_at tbl (tc_hour c) (tc_dow c)) as [sc| |]; cbn [obind]; [|reflexivity|reflexivity].
  rewrite (hour_same9 p i r r' sc w th S). destruct (calculateHour p (with_ratios i r') sc w th) as [h th']. rewrite IH. reflexivity.
Qed.
Lemma init_shape p r : (exists i0, forall r', initialize p r' = Ok (with_ratios i0 (fold_left (push_ratios (pa_structure p)) (seq 0 9) r'))) \/
  (forall r', initialize p r' = UB).
Proof.
  unfold initialize. destruct (negb (structure_nine (pa_structure p))); [right; reflexivity|]. left.
  eexists (mkHinit _ _ _ _ _ _ _ _ _ _ _ _ _ _ _ _ _ r). intros r'. cbn [with_ratios]. reflexivity.
Qed.

Lemma rows_same9 p ws agg r r' :
  same9 (fold_left (push_ratios (pa_structure p)) (seq 0 9) r) (fold_left (push_ratios (pa_structure p)) (seq 0 9) r') ->
  rows_of (simulate p ws r agg) = rows_of (simulate p ws r' agg).
Proof.
  intros S. unfold simulate, simulateRaw.
  destruct (populateSchedules p) as [tbl| |]; cbn [obind]; try reflexivity.
  destruct (init_shape p r) as [(i0 & E)|E]; rewrite !E; cbn [obind]; [|reflexivity].
  destruct timeFrame as [fr| |]; cbn [obind]; try reflexivity.
  rewrite (loop_same9 p i0 _ _ tbl fr S).
  destruct (yearLoop _ _ _ _ _ _) as [raw| |]; cbn [obind]; try reflexivity.
  destruct (finish agg _) as [rows| |]; cbn [obind rows_of]; reflexivity.
Qed.

Lemma fresh_full s : full9 (fold_left (push_ratios s) (seq 0 9) no_ratios).
Proof. rewrite (push_fresh s). unfold full9, pushed. cbn. lia. Qed.
Lemma simulate_ratios p ws r agg rows r' : simulate p ws r agg = Ok (rows, r') -> r' = fold_left (push_ratios (pa_structure p)) (seq 0 9) r.
Proof.
  intros H. destruct (simulate_raw _ _ _ _ _ _ H) as (raw & Hraw). unfold simulateRaw in Hraw.
  apply obind_ok in Hraw as (tbl & _ & Hraw). apply obind_ok in Hraw as (i & Hi & Hraw).
  apply obind_ok in Hraw as (fr & _ & Hraw). apply obind_ok in Hraw as (rw & _ & Hraw). apply ok_inj in Hraw.
  apply pair_equal_spec in Hraw as [_ <-].
  destruct (init_shape p r) as [(i0 & E)|E]; rewrite E in Hi; [|discriminate Hi]. apply ok_inj in Hi. subst i. destruct i0. reflexivity.
Qed.
Lemma reached_cases s r : reached s r -> r = no_ratios \/ (full9 r /\ same9 r (fold_left (push_ratios s) (seq 0 9) no_ratios)).
Proof.
  induction 1 as [|r p ws agg rows r' HR IH HS H]; [left; reflexivity|]. right.
  apply simulate_ratios in H. rewrite HS in H. subst r'. destruct IH as [->|[F S]].
  - split; [apply fresh_full|]. intros k _. auto.
  - destruct (push_all_keeps s (seq 0 9) r F) as [F1 S1]. split; [exact F1|]. exact (same9_trans _ _ _ S1 S).
Qed.
Lemma C16_l s r p ws agg : reached s r -> pa_structure p = s -> rows_of (simulate p ws r agg) = rows_of (simulate p ws no_ratios agg).
Proof.
  intros HR HS. apply rows_same9. rewrite HS. destruct (reached_cases s r HR) as [->|[F S]].
  - intros k _. auto.
  - destruct (push_all_keeps s (seq 0 9) r F) as [_ S1]. exact (same9_trans _ _ _ S1 S).
Qed.
End Again.

(** ** After setStructure the old ratios are still used *)
Open Scope R_scope.
Definition sunny_hour : weather R := {| we_wind := 2; we_temp := 20; we_sol := repeat 100 9 |}.
Definition sunny_year : list (weather R) := repeat sunny_hour (Z.to_nat 8760).
Definition blind_structure : structure_t R := with_windowArea (pa_structure office) (repeat 0 9).
Definition blind_office : params_t R := with_structure office blind_structure.
Lemma blind_physical : physical blind_office.
Proof.
  constructor; try reflexivity; try nn.
  all: onum; try lra.
  apply Rmax_lub_lt; lra.
Qed.
Definition stale : ratios R := fold_left (push_ratios blind_structure) (seq 0 9) no_ratios.
Lemma run_sunny p r : ints_ok (pa_population (map_params Fin p)) -> structure_nine (pa_structure (map_params Fin p)) = true ->
  exists raw r', simulateRaw (map_params Fin p) (map (map_weather Fin) sunny_year) r = Ok (raw, r').
Proof.
  intros H1 H2. apply simulateRaw_ok; [exact H1|exact H2| |].
  - unfold sunny_year. rewrite map_length, repeat_length. lia.
  - intros w Hw. apply in_map_iff in Hw as (v & <- & Hv). apply repeat_spec in Hv. subst v. reflexivity.
Qed.
Lemma ratios_map (i : hinit R) : hi_ratios (map_hinit Fin i) = map_ratios Fin (hi_ratios i).
Proof. reflexivity. Qed.
Lemma map_pushed (p : params_t R) : physical p ->
  fold_left (push_ratios (pa_structure (map_params Fin p))) (seq 0 9) no_ratios
  = map_ratios Fin (fold_left (push_ratios (pa_structure p)) (seq 0 9) no_ratios).
Proof.
  intros HP. destruct (initialize_fin p HP no_ratios) as (i & Ei & Ei').
  destruct (init_shape p no_ratios) as [(i0 & E)|E]; rewrite E in Ei; [|discriminate Ei]. apply ok_inj in Ei.
  destruct (init_shape (map_params Fin p) no_ratios) as [(i1 & E1)|E1]; rewrite (E1 (map_ratios Fin no_ratios)) in Ei'; [|discriminate Ei'].
  apply ok_inj in Ei'. apply (f_equal hi_ratios) in Ei'. subst i.
  rewrite ratios_map, !ratios_with in Ei'. exact Ei'.
Qed.
(** Lighting of the first hour. *)
Lemma first_light p r0 rows r i : physical p -> initialize p r0 = Ok i ->
  simulate (map_params Fin p) (map (map_weather Fin) sunny_year) (map_ratios Fin r0) false = Ok (rows, r) ->
  timetable_of p office_hours ->
  exists row rest, rows = row :: rest /\ nth_error row elec_int_lights =
    Some (Fin (electricForTotalLightArea (pa_structure p) i (we_sol sunny_hour) * lights_at p office_hours 0 / 1000)).
Proof.
  intros HP Hi H HT. destruct (simulate_det _ _ _ _ _ _ H) as (raw & Hr & [HL _] & CS).
  destruct (run_trace p office_hours sunny_year r0 raw r HP HT Hr) as (i' & Ei & HI & TR). rewrite Hi in Ei. apply ok_inj in Ei. subst i'.
  pose proof (simulateRaw_length _ _ _ _ _ Hr) as LR.
  destruct raw as [|h raw]; [cbn in LR; lia|].
  destruct rows as [|row rows]; [cbn in HL; lia|]. exists row, rows. split; [reflexivity|].
  pose proof (CS elec_int_lights _ eq_refl) as C1. cbn [map] in C1. rewrite (is_series_head _ _ _ _ _ C1).
  destruct (trace_nth _ _ _ _ _ _ _ TR 0%nat h eq_refl) as (w & th & Hw & _ & ->).
  assert (w = sunny_hour).
  { unfold sunny_year in Hw. replace (Z.to_nat 8760) with (S (Z.to_nat 8759)) in Hw by lia. cbn [repeat nth_error] in Hw. injection Hw as <-. reflexivity. }
  subst w. rewrite (step_illum p i HI). rewrite zn_IZR, div_fin by lra. reflexivity.
Qed.
Lemma some_fin_inj a b : Some (Fin a) = Some (Fin b) -> a = b.
Proof. congruence. Qed.
Lemma at9_repeat0 n k : at9 (repeat (0:R) n) k = 0.
Proof. unfold at9. num. revert k. induction n as [|n IH]; intros [|k]; cbn; try lra. apply IH. Qed.

Lemma C16_stale_l : exists p p' ws r rows1 r1 rows2 r2,
  physical p /\ physical p' /\ p' = with_structure p (pa_structure p') /\
  (exists rows, simulate (map_params Fin p) (map (map_weather Fin) ws) no_ratios false = Ok (rows, r)) /\
  simulate (map_params Fin p') (map (map_weather Fin) ws) r false = Ok (rows1, r1) /\
  simulate (map_params Fin p') (map (map_weather Fin) ws) no_ratios false = Ok (rows2, r2) /\ rows1 <> rows2.
Proof.
  destruct (run_sunny blind_office no_ratios office_ints eq_refl) as (raw0 & r & H0).
  destruct (simulate_series _ _ _ _ _ H0) as (rows0 & _ & S0 & _).
  assert (ER : r = map_ratios Fin stale).
  { rewrite (simulate_ratios _ _ _ _ _ _ S0). exact (map_pushed blind_office blind_physical). }
  subst r.
  destruct (run_sunny office (map_ratios Fin stale) office_ints eq_refl) as (raw1 & r1 & H1).
  destruct (simulate_series _ _ _ _ _ H1) as (rows1 & _ & S1 & _).
  destruct (run_sunny office no_ratios office_ints eq_refl) as (raw2 & r2 & H2).
  destruct (simulate_series _ _ _ _ _ H2) as (rows2 & _ & S2 & _).
  exists blind_office, office, sunny_year, (map_ratios Fin stale), rows1, r1, rows2, r2.
  split; [exact blind_physical|]. split; [exact office_physical|]. split; [reflexivity|].
  split; [exists rows0; exact S0|]. split; [exact S1|]. split; [exact S2|].
  destruct (initialize_fin office office_physical stale) as (i1 & E1 & _).
  destruct (initialize_fin office office_physical no_ratios) as (i2 & E2 & _).
  destruct (first_light office stale rows1 r1 i1 office_physical E1 S1 office_timetable) as (row1 & l1 & -> & L1).
  destruct (first_light office no_ratios rows2 r2 i2 office_physical E2 S2 office_timetable) as (row2 & l2 & -> & L2).
  intros E. injection E as E _. subst row2. rewrite L1 in L2. apply some_fin_inj in L2.
  assert (LA : lights_at office office_hours 0 = 258639212251571 / 100000000000000) by reflexivity. rewrite LA in L2.
  rewrite (lights_spec office office_physical i2 E2) in L2.
  assert (V1 : electricForTotalLightArea (pa_structure office) i1 (we_sol sunny_hour) = 1).
  { assert (LL : lightingLevel (pa_structure office) i1 (we_sol sunny_hour) = 0).
    { destruct (init_shape office no_ratios) as [(i0 & E)|E]; rewrite E in E1; [|discriminate E1]. apply ok_inj in E1.
      assert (RI : hi_ratios i1 = fold_left (push_ratios (pa_structure office)) (seq 0 9) stale) by (rewrite <- E1; apply ratios_with).
      unfold lightingLevel. rewrite RI. rewrite accumulate_Rsum.
      destruct (push_all_keeps (pa_structure office) (seq 0 9) stale (fresh_full blind_structure)) as [_ SK].
      apply Rsum_zero. intros k Hk. apply in_seq in Hk.
      destruct (SK k ltac:(lia)) as (-> & -> & _). unfold stale. rewrite (push_fresh blind_structure). unfold pushed.
      cbn [ra_naturalLightRatio ra_naturalLightShadeRatioReduction]. rewrite !at9_map by lia.
      unfold surf_at, structureCalculations. cbn [su_nla su_nlams].
      change (st_windowArea blind_structure) with (repeat (0:R) 9). rewrite at9_repeat0. num. unfold Rdiv. ring. }
    unfold electricForTotalLightArea. rewrite LL.
    assert (M : hi_maxRatio i1 = 1).
    { destruct (init_shape office no_ratios) as [(i0 & E)|E]; [|rewrite E in E1; discriminate E1].
      destruct (i_eq office office_physical i2 E2) as (MR & _). rewrite E in E1, E2. apply ok_inj in E1, E2. 
      rewrite <- E2, maxRatio_with in MR. rewrite <- E1, maxRatio_with, MR, control_spec. unfold sp_control. onum.
      repeat destruct (Rlt_dec _ _); try lra; cbn; lra. }
    rewrite M. num. replace (0 / hi_elightNatural i1) with 0 by (unfold Rdiv; ring). rewrite Rmax_right by lra. lra. }
  rewrite V1 in L2.
  assert (V2 : sp_lights_on office (we_sol sunny_hour) < 1).
  { assert (LR : 0 < sp_lit_ratio office <= 1/1000000).
    { unfold sp_lit_ratio. onum. rewrite Rmax_left by lra. lra. }
    assert (CT : sp_control office = (1, 500)).
    { unfold sp_control. onum. repeat destruct (Rlt_dec _ _); try lra. f_equal; lra. }
    unfold sp_lights_on. rewrite CT.
    assert (D : 0 < sp_daylight office (we_sol sunny_hour)).
    { unfold sp_daylight. set (q := 53 / sp_lit_ratio office).
      assert (0 < q) by (apply Rmult_lt_0_compat; [lra|apply Rinv_0_lt_compat; lra]).
      unfold Rsum. onum. nra. }
    set (d := sp_daylight office (we_sol sunny_hour)) in *. set (a := sp_lit_ratio office) in *.
    assert (Rmax 0 (1 * (1 - d / 500)) < 1) by (apply Rmax_lub_lt; lra). nra. }
  lra.
Qed.

(** ** Cases and corollaries for the T files *)
Lemma massArea_fin_spec c : massArea (Fin c) = Fin (sp_mass_area c).
Proof. rewrite <- massArea_spec. apply massArea_fin. Qed.
Lemma mass_area_facts :
  (forall c, 2.5 <= sp_mass_area c <= 3.5) /\
  (forall a b, a <= b -> sp_mass_area a <= sp_mass_area b) /\
  (forall a b, Rabs (sp_mass_area b - sp_mass_area a) <= Rabs (b - a) / 190) /\
  sp_mass_area 165 = 2.5 /\ sp_mass_area 260 = 3 /\ sp_mass_area 370 = 3.5.
Proof.
  split; [exact sp_mass_area_bounds|]. split; [exact sp_mass_area_mono|]. split.
  - intros a b. destruct (Rle_dec a b) as [L|L].
    + pose proof (sp_mass_area_mono a b L). pose proof (sp_mass_area_lip a b L). rewrite !Rabs_right by lra. lra.
    + pose proof (sp_mass_area_mono b a ltac:(lra)). pose proof (sp_mass_area_lip b a ltac:(lra)).
      rewrite (Rabs_minus_sym _ (sp_mass_area a)), (Rabs_minus_sym b a). rewrite !Rabs_right by lra. lra.
  - unfold sp_mass_area, clamp. repeat split; repeat first [rewrite Rmin_left by lra | rewrite Rmin_right by lra | rewrite Rmax_left by lra | rewrite Rmax_right by lra]; lra.
Qed.
Lemma mass_area_case : massArea (Fin 315) = Fin 3.25 /\ massArea (Fin 200) <> massArea (Fin 300).
Proof.
  rewrite !massArea_fin_spec. split.
  - f_equal. unfold sp_mass_area, clamp, Rmax, Rmin. repeat destruct (Rle_dec _ _); lra.
  - intros H. apply fin_inj in H. revert H. unfold sp_mass_area, clamp, Rmax, Rmin. repeat destruct (Rle_dec _ _); lra.
Qed.
Lemma losses_add p : plant_ok p -> forall H C,
  (ht_efficiency (pa_heating p) <= 1 -> 1 <= heat_factor p H C) /\ (cl_cop (pa_cooling p) <= 1 -> 1 <= cool_factor p H C).
Proof. intros PO H C. split; intros E; [apply heat_factor_ge|apply cool_factor_ge]; assumption. Qed.
Lemma office_plant : plant_ok office.
Proof. constructor; onum; lra. Qed.
Lemma office_reached : exists r, r <> no_ratios /\ reached (pa_structure (@smallOffice xr xr_num)) r.
Proof.
  destruct (office_runs true (Fin 5)) as (rows & r & H). exists r. split.
  - rewrite (simulate_ratios _ _ _ _ _ _ H), (push_fresh _). intros E. apply (f_equal (fun x => length (ra_solarRatio x))) in E. discriminate E.
  - eapply reached_run; [apply reached_new|reflexivity|exact H].
Qed.
