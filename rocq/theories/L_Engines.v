(** The year totals of the two engines compared. *)
From Coq Require Import Reals Lra Psatz List ZArith Bool Lia.
From Verif Require Import Base Num Xr M_Params M_Hourly M_Monthly M_Map S_Calendar S_Schedule S_Year S_HourSpec S_Totals S_Results S_Physical S_Monthly S_MonthlySound S_MonthlyBalance S_Engines.
From Verif Require Import E_SmallOffice E_Monthly L_Xr L_Calendar L_HourlyShape L_HourlyOut L_HourlyThm2 L_Office L_Office2 L_Totals L_Monthly2 L_Monthly3 L_Monthly4 L_Monthly5 L_Monthly6 L_MonthlyNaN L_MonthlyCase L_MonthlyPlant L_MonthlyBalance.
Import ListNotations.
Open Scope R_scope.

(** ** The months of the calendar make up the year *)
Lemma one_month : forall k, In k year_hours -> length (filter (fun m => hour_in_month m k) (zrange 1 12)) = 1%nat.
Proof.
  assert (A : forallb (fun k => Nat.eqb (length (filter (fun m => hour_in_month m k) (zrange 1 12))) 1) year_hours = true) by (vm_compute; reflexivity).
  intros k I. rewrite forallb_forall in A. apply Nat.eqb_eq, A, I.
Qed.
Lemma split_count : forall (f : Z -> bool) ms l, (forall k, In k l -> length (filter (fun m => hour_in_month m k) ms) = 1%nat) ->
  Rsum (map (fun m => number f (filter (hour_in_month m) l)) ms) = number f l.
Proof.
  intros f ms l. induction l as [|k l IH]; intros H.
  - cbn [filter]. unfold number, Rsum. cbn. clear H. induction ms as [|m ms IHm]; [reflexivity|]. cbn. rewrite IHm. lra.
  - assert (E : Rsum (map (fun m => number f (filter (hour_in_month m) (k :: l))) ms) =
      Rsum (map (fun m => number f (filter (hour_in_month m) l)) ms) + (if f k then INR (length (filter (fun m => hour_in_month m k) ms)) else 0)).
    { clear IH H. induction ms as [|m ms IHm]; [unfold Rsum; cbn; destruct (f k); lra|]. unfold Rsum in *. cbn [map fold_right]. rewrite IHm. cbn [filter].
      unfold number. destruct (hour_in_month m k); cbn [filter]; destruct (f k); cbn [length]; rewrite ?S_INR; lra. }
    rewrite E, IH by (intros q Q; apply H; right; exact Q). rewrite H by (left; reflexivity). unfold number. cbn [filter]. destruct (f k); cbn [length]; rewrite ?S_INR; cbn; lra.
Qed.
Lemma months_number : forall f, Rsum (map (fun m => number f (hours_in m)) (zrange 1 12)) = number f year_hours.
Proof. intros f. apply split_count, one_month. Qed.
Lemma Rsum_lin : forall A (f g : A -> R) a b c l, Rsum (map (fun x => (a * f x + b * g x) / c) l) = (a * Rsum (map f l) + b * Rsum (map g l)) / c.
Proof. intros A f g a b c l. unfold Rsum. induction l as [|x l IH]; cbn; [unfold Rdiv; ring|]. rewrite IH. unfold Rdiv. ring. Qed.
Lemma equipment_year : forall p tt, Rsum (map (fun m => equipment_kWh p tt (hours_in m)) (zrange 1 12)) = equipment_kWh p tt year_hours.
Proof. intros p tt. unfold equipment_kWh. rewrite (Rsum_lin Z). rewrite (months_number (occupied tt)), (months_number (fun k => negb (occupied tt k))). reflexivity. Qed.
Lemma number_all : forall A (l : list A), number (fun _ => true) l = INR (length l).
Proof. intros A l. unfold number. f_equal. f_equal. induction l as [|x l IH]; [reflexivity|]. cbn. now rewrite IH. Qed.
Lemma ext_year : forall p, Rsum (map (fun m => ext_equipment_kWh p (hours_in m)) (zrange 1 12)) = bu_externalEquipment (pa_building p) * 8760 / st_floorArea (pa_structure p) / 1000.
Proof.
  intros p. unfold ext_equipment_kWh.
  erewrite map_ext. 2:{ intros m. rewrite <- (number_all Z). replace (bu_externalEquipment (pa_building p) / st_floorArea (pa_structure p) * number (fun _ => true) (hours_in m)) with
    (bu_externalEquipment (pa_building p) / st_floorArea (pa_structure p) * number (fun _ => true) (hours_in m) + 0 * number (fun _ => true) (hours_in m)) by ring. reflexivity. }
  rewrite (Rsum_lin Z), months_number, number_all. unfold year_hours, zrange. rewrite map_length, seq_length, INR_IZR_INZ, Z2Nat.id by lia. unfold Rdiv. ring.
Qed.
Lemma hours_year : forall p a b, Rsum (map (fun i => appliance_kWh p a b (month_hours i)) (seq 0 12)) = appliance_kWh p a b 8760.
Proof. intros p a b. unfold appliance_kWh, Rsum, month_hours. cbn. unfold Rdiv. ring. Qed.

(** ** Columns the hourly engine leaves empty *)
Lemma zero_column : forall p ws r0 rows r k, simulate (map_params Fin p) (map (map_weather Fin) ws) (map_ratios Fin r0) true = Ok (rows, r) ->
  (forall raw, simulateRaw (map_params Fin p) (map (map_weather Fin) ws) (map_ratios Fin r0) = Ok (raw, r) -> nth_error (resultVectors (map_params Fin p) raw) k = Some (map (fun _ : hourres xr => Fin 0) raw)) ->
  year_total k rows 0.
Proof.
  intros p ws r0 rows r k H N. destruct (simulate_det _ _ _ _ _ _ H) as (raw & HR & _ & C). pose proof (C _ _ (N raw HR)) as S. cbv iota in S.
  pose proof (simulateRaw_length _ _ _ _ _ HR) as L.
  assert (E : map (fun _ : hourres xr => Fin 0) raw = map Fin (map (fun _ : Z => 0) year_hours)).
  { rewrite map_map. apply (list_index _ _ raw (fun _ => Fin 0) (fun _ => Fin 0)); [exact L|]. reflexivity. }
  rewrite E, fin_months in S. erewrite map_ext in S.
  2:{ intros m. replace (Rsum (map (fun _ : Z => 0) (hours_in m))) with 0; [reflexivity|]. generalize (hours_in m). induction l as [|x l IH]; [reflexivity|]. unfold Rsum in *. cbn. rewrite <- IH. lra. }
  exists (repeat 0 12). split; [reflexivity|]. split; [exact S|]. unfold Rsum. cbn. lra.
Qed.
Lemma zero1000 : forall raw : list (hourres xr), map (fun watts => (watts / zn 1000)%num) (map (fun _ => zn 0) raw) = map (fun _ => Fin 0) raw.
Proof. intros raw. rewrite map_map. apply map_ext. intros _. rewrite zn_fin. change (@zn R _ 0) with 0 at 1 || rewrite (zn_R 0). rewrite div1000. f_equal. lra. Qed.

Lemma C104_equipment_l : forall (p : params_t R) tt w ws r0 mrows hrows r, sound p -> physical p -> timetable_of p tt -> clock_timetable tt -> Z.of_nat (length ws) = 8760%Z ->
  simulateMonthly (map_params Fin p) (fin_weather w) = Ok mrows -> simulate (map_params Fin p) (map (map_weather Fin) ws) (map_ratios Fin r0) true = Ok (hrows, r) ->
  exists monthly hourly, year_total elec_int_equip mrows monthly /\ year_total elec_int_equip hrows hourly /\
    hourly - monthly = (bu_elecApplianceOcc (pa_building p) - bu_elecApplianceUnocc (pa_building p)) * extra_hours p tt / 1000.
Proof.
  intros p tt w ws r0 mrows hrows r SO PH T CT L M H. destruct (C65_l p w mrows SO M) as [C _]. destruct (C87_months_l p tt ws r0 hrows r PH T L H) as [D _].
  exists (appliance_kWh p (bu_elecApplianceOcc (pa_building p)) (bu_elecApplianceUnocc (pa_building p)) 8760), (equipment_kWh p tt year_hours).
  split; [eexists; split; [|split; [rewrite map_map; exact C|apply hours_year]]; reflexivity|].
  split; [eexists; split; [|split; [rewrite map_map; exact D|apply equipment_year]]; reflexivity|].
  destruct (C87_hours_l tt CT) as [N1 N2]. unfold equipment_kWh, appliance_kWh, extra_hours. rewrite N1, N2, minus_IZR. cbv zeta. generalize (IZR (occupied_year tt)) (occupied_share (pa_population p)). intros n q. field.
Qed.
Lemma C104_hourly_l : forall (p : params_t R) tt ws r0 rows r, physical p -> timetable_of p tt -> Z.of_nat (length ws) = 8760%Z ->
  simulate (map_params Fin p) (map (map_weather Fin) ws) (map_ratios Fin r0) true = Ok (rows, r) ->
  year_total elec_dhw rows 0 /\ year_total gas_dhw rows 0 /\ year_total gas_equip rows 0 /\ year_total gas_cooling rows 0 /\
  year_total elec_ext_equip rows (bu_externalEquipment (pa_building p) * 8760 / st_floorArea (pa_structure p) / 1000).
Proof.
  intros p tt ws r0 rows r PH T L H.
  split. { apply (zero_column p ws r0 rows r elec_dhw H). intros raw R. unfold resultVectors, elec_dhw. cbn [map nth_error]. f_equal. rewrite map_map. apply map_ext_in. intros h I.
    apply In_nth_error in I as [k K]. destruct (C08_run_l p tt ws r0 raw r PH T R k h K) as (x & _ & A). rewrite (aux_dhw _ _ _ _ _ A), div1000. f_equal. lra. }
  split; [apply (zero_column p ws r0 rows r gas_dhw H); intros raw R; unfold resultVectors, gas_dhw; cbn [map nth_error]; f_equal; apply zero1000|].
  split; [apply (zero_column p ws r0 rows r gas_equip H); intros raw R; unfold resultVectors, gas_equip; cbn [map nth_error]; f_equal; apply zero1000|].
  split; [apply (zero_column p ws r0 rows r gas_cooling H); intros raw R; unfold resultVectors, gas_cooling; cbn [map nth_error]; f_equal; apply zero1000|].
  destruct (C87_months_l p tt ws r0 rows r PH T L H) as (_ & D & _). eexists; split; [|split; [rewrite map_map; exact D|apply ext_year]]; reflexivity.
Qed.
Lemma C104_monthly_l : forall (p : params_t R) w rows, sound p -> simulateMonthly (map_params Fin p) (fin_weather w) = Ok rows ->
  year_total elec_ext_equip rows 0 /\ year_total gas_equip rows (appliance_kWh p (bu_gasApplianceOcc (pa_building p)) (bu_gasApplianceUnocc (pa_building p)) 8760) /\
  (0 < ht_hotWaterDistributionEfficiency (pa_heating p) -> 0 < ht_hotWaterSystemEfficiency (pa_heating p) -> 0 <= water_year p ->
   exists k, (k = elec_dhw \/ k = gas_dhw) /\ year_total k rows (water_year p)).
Proof.
  intros p w rows SO M. destruct (monthlyAll (map_params Fin p) (fin_weather w)) as [m| |] eqn:MA; [|unfold simulateMonthly in M; rewrite MA in M; discriminate M..].
  destruct (simulate_columns _ _ _ _ MA M) as (_ & _ & X).
  split. { exists (repeat 0 12). split; [reflexivity|]. split; [|unfold Rsum; cbn; lra]. pose proof (X elec_ext_equip _ eq_refl) as S. cbn [all12 repeat] in S. unfold all12 in S. cbn [repeat map]. rewrite !zn_fin, !zn_R in S. exact S. }
  split. { destruct (C65_l p w rows SO M) as [_ C]. eexists; split; [|split; [rewrite map_map; exact C|apply hours_year]]; reflexivity. }
  intros D E W. destruct (C25_l p (fin_weather w) rows (so_area _ SO) D E W M) as (v & LV & _ & SV & _ & C1 & C2).
  destruct (Req_EM_T (ht_hotWaterEnergyType (pa_heating p)) 1) as [Q|Q].
  - exists elec_dhw. split; [left; reflexivity|]. exists v. split; [exact LV|]. split; [apply C1, Q|exact SV].
  - exists gas_dhw. split; [right; reflexivity|]. exists v. split; [exact LV|]. split; [apply C2, Q|exact SV].
Qed.

(** ** Closed and half-open hours *)
Lemma C104_extra_l : forall (p : params_t R) hs he ds de, whole_schedule (pa_population p) hs he ds de -> clock_schedule hs he ds de -> (hs <= he)%Z -> (ds <= de)%Z ->
  48 * IZR (de - ds + 1) <= extra_hours p {| tt_firstHour := hs; tt_lastHour := he; tt_firstDay := ds; tt_lastDay := de |}.
Proof.
  intros p hs he ds de (A & B & C & D) (H1 & H2 & H3 & H4) H5 H6. unfold extra_hours, occupied_share, occupied_year, day_length, S_MonthlySound.week_days. rewrite A, B, C, D. cbn [tt_firstHour tt_lastHour tt_firstDay tt_lastDay].
  replace (he <? hs)%Z with false by (symmetry; apply Z.ltb_ge; lia). replace (de <? ds)%Z with false by (symmetry; apply Z.ltb_ge; lia). cbn [orb].
  pose proof (IZR_le _ _ H5) as R5. pose proof (IZR_le _ _ H6) as R6. destruct (Rlt_dec (IZR he - IZR hs) 0) as [|_]; [lra|]. destruct (Rlt_dec (IZR de - IZR ds + 1) 0) as [|_]; [lra|].
  assert (Q : (0 <= (if ds =? 0 then 1 else 0))%Z) by (destruct (ds =? 0)%Z; lia). set (q := (if ds =? 0 then 1 else 0)%Z) in *. clearbody q.
  rewrite mult_IZR, !plus_IZR, mult_IZR, plus_IZR, !minus_IZR. apply IZR_le in Q. assert (S : IZR he <= IZR hs + 23) by (rewrite <- plus_IZR; apply IZR_le; lia).
  set (h := IZR he - IZR hs) in *. set (d := IZR de - IZR ds + 1) in *. assert (0 <= h <= 23) by (unfold h; lra). assert (1 <= d) by (unfold d; lra).
  assert (0 <= (h + 1) * IZR q) by (apply Rmult_le_pos; lra). assert (h * d <= 23 * d) by (apply Rmult_le_compat_r; lra). nra.
Qed.
Lemma whole_timetable : forall (p : params_t R) hs he ds de, whole_schedule (pa_population p) hs he ds de -> clock_schedule hs he ds de ->
  let tt := {| tt_firstHour := hs; tt_lastHour := he; tt_firstDay := ds; tt_lastDay := de |} in timetable_of p tt /\ clock_timetable tt.
Proof.
  intros p hs he ds de (A & B & C & D) (H1 & H2 & H3 & H4). cbv zeta. split; [|repeat split; cbn; lia]. unfold timetable_of. rewrite A, B, C, D. cbn [tt_firstHour tt_lastHour tt_firstDay tt_lastDay].
  rewrite !Rtoint_IZR by (unfold int_max; lia). repeat split; reflexivity.
Qed.
Lemma C104_more_l : forall (p : params_t R) hs he ds de w ws r0 mrows hrows r, sound p -> physical p -> whole_schedule (pa_population p) hs he ds de -> clock_schedule hs he ds de -> (hs < he)%Z -> (ds <= de)%Z ->
  bu_elecApplianceUnocc (pa_building p) < bu_elecApplianceOcc (pa_building p) -> Z.of_nat (length ws) = 8760%Z ->
  simulateMonthly (map_params Fin p) (fin_weather w) = Ok mrows -> simulate (map_params Fin p) (map (map_weather Fin) ws) (map_ratios Fin r0) true = Ok (hrows, r) ->
  exists monthly hourly, year_total elec_int_equip mrows monthly /\ year_total elec_int_equip hrows hourly /\
    (bu_elecApplianceOcc (pa_building p) - bu_elecApplianceUnocc (pa_building p)) * (48 * IZR (de - ds + 1)) / 1000 <= hourly - monthly /\ monthly < hourly.
Proof.
  intros p hs he ds de w ws r0 mrows hrows r SO PH WS CS H1 H2 U L M H. destruct (whole_timetable p hs he ds de WS CS) as [T CT].
  destruct (C104_equipment_l p _ w ws r0 mrows hrows r SO PH T CT L M H) as (a & b & A & B & E). exists a, b. split; [exact A|]. split; [exact B|].
  pose proof (C104_extra_l p hs he ds de WS CS ltac:(lia) H2) as X. set (e := extra_hours _ _) in *. clearbody e. assert (Y : 1 <= IZR (de - ds + 1)) by (apply IZR_le; lia).
  set (d := IZR (de - ds + 1)) in *. clearbody d. set (u := bu_elecApplianceOcc (pa_building p) - bu_elecApplianceUnocc (pa_building p)) in *. assert (0 < u) by (unfold u; lra). clearbody u.
  assert (u * (48 * d) <= u * e) by (apply Rmult_le_compat_l; lra). assert (0 < u * (48 * d)) by (apply Rmult_lt_0_compat; lra). split; lra.
Qed.

(** ** The office *)
Lemma shaded_physical : physical (scheduleOffice 8 17 1 5).
Proof.
  constructor; try reflexivity; try nn.
  all: cbn; cbv [zn]; cbn; cbv [Rlit]; try lra.
  apply Rmax_lub_lt; lra.
Qed.
Lemma C104_case_l : forall t, let p := scheduleOffice 8 17 1 5 in sound p /\ physical p /\ whole_schedule (pa_population p) 8 17 1 5 /\ clock_schedule 8 17 1 5 /\
  bu_elecApplianceUnocc (pa_building p) < bu_elecApplianceOcc (pa_building p) /\ Z.of_nat (length (constant_year 8760 t)) = 8760%Z /\
  exists mrows hrows r, simulateMonthly (map_params Fin p) (fin_weather mildYear) = Ok mrows /\
    simulate (map_params Fin p) (map (map_weather Fin) (constant_year 8760 t)) (map_ratios Fin no_ratios) true = Ok (hrows, r).
Proof.
  intros t. cbv zeta. destruct office_case as (S & _). split; [exact S|]. split; [exact shaded_physical|]. split; [apply week_schedule_whole|]. split; [unfold clock_schedule; lia|].
  split. { cbn. unfold Rlit. lra. }
  split; [apply constant_year_length; lia|].
  destruct (scheduleOffice_facts 8 17 1 5) as (_ & _ & _ & _ & _ & _ & _ & rows & SM). exists rows.
  destruct (simulateRaw_ok (map_params Fin (scheduleOffice 8 17 1 5)) (map (map_weather Fin) (constant_year 8760 t)) (map_ratios Fin no_ratios)) as (raw & r & E).
  - unfold ints_ok. cbn [scheduleOffice with_population map_params pa_population map_population week_schedule po_daysStart po_daysEnd po_hoursStart po_hoursEnd].
    repeat split; cbn; rewrite Rtoint_IZR by (unfold int_max; lia); discriminate.
  - reflexivity.
  - rewrite map_length, constant_year_length; lia.
  - intros x I. apply in_map_iff in I as (y & <- & I). apply repeat_spec in I. subst y. reflexivity.
  - destruct (simulate_both _ _ _ _ _ E) as (h & m & E1 & E2 & _). exists m, r. split; [rewrite mild_fin; exact SM|exact E2].
Qed.
Lemma total_unique : forall k rows x y, year_total k rows x -> year_total k rows y -> x = y.
Proof.
  intros k rows x y (v & _ & S & <-) (u & _ & Q & <-). f_equal. revert u Q. unfold is_series in S. remember (map Fin v) as fv eqn:E. revert v E.
  induction S as [|row a rows fv A S IH]; intros v E u Q.
  - destruct v; [|discriminate]. inversion Q as [X|]. destruct u; [reflexivity|discriminate].
  - destruct v as [|b v]; [discriminate|]. injection E as -> E. inversion Q as [|? c ? fu C D X Y]. destruct u as [|e u]; [discriminate|]. injection Y as -> ->. subst. rewrite A in C. injection C as ->. f_equal. exact (IH v eq_refl u D).
Qed.
Lemma C104_same_l : forall (p : params_t R) tt w ws r0 mrows hrows r x, sound p -> physical p -> timetable_of p tt -> clock_timetable tt -> Z.of_nat (length ws) = 8760%Z ->
  simulateMonthly (map_params Fin p) (fin_weather w) = Ok mrows -> simulate (map_params Fin p) (map (map_weather Fin) ws) (map_ratios Fin r0) true = Ok (hrows, r) ->
  bu_elecApplianceOcc (pa_building p) = bu_elecApplianceUnocc (pa_building p) -> (year_total elec_int_equip mrows x <-> year_total elec_int_equip hrows x).
Proof.
  intros p tt w ws r0 mrows hrows r x SO PH T CT L M H U. destruct (C104_equipment_l p tt w ws r0 mrows hrows r SO PH T CT L M H) as (a & b & A & B & E).
  rewrite U in E. assert (b = a) by lra. subst b. split; intros Y; [rewrite (total_unique _ _ _ _ Y A); exact B|rewrite (total_unique _ _ _ _ Y B); exact A].
Qed.
Lemma C104_refuted_l : exists (p : params_t R) w ws mrows hrows r monthly hourly, sound p /\ physical p /\ whole_schedule (pa_population p) 8 17 1 5 /\ Z.of_nat (length ws) = 8760%Z /\
  simulateMonthly (map_params Fin p) (fin_weather w) = Ok mrows /\ simulate (map_params Fin p) (map (map_weather Fin) ws) (map_ratios Fin no_ratios) true = Ok (hrows, r) /\
  year_total elec_int_equip mrows monthly /\ year_total elec_int_equip hrows hourly /\ monthly < hourly.
Proof.
  destruct (C104_case_l 10) as (S & P & W & C & U & L & m & h & r & M & H).
  destruct (C104_more_l _ 8 17 1 5 _ _ _ _ _ _ S P W C ltac:(lia) ltac:(lia) U L M H) as (a & b & A & B & _ & X).
  exists (scheduleOffice 8 17 1 5), mildYear, (constant_year 8760 10), m, h, r, a, b. repeat (split; [assumption|]). exact X.
Qed.
