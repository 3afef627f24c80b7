From Coq Require Import Reals Lra Psatz ZArith List Bool Lia.
From Verif Require Import Base Num Xr M_Params M_TimeFrame M_Hourly M_Map L_Xr S_Calendar S_Physical S_Results S_RC S_Network S_Year S_HourSpec S_Totals
  L_Calendar L_HourlyShape L_HourlyOut L_HourlyRun L_HourlyThm L_HourlyThm2 L_Monthly4 L_Solar5 E_SmallOffice L_Office L_Office2.
Import ListNotations.
Open Scope R_scope.

Lemma month_part_index : forall A (f : Z -> A) n m,
  month_part m (map f (zrange 0 n)) = map f (filter (hour_in_month m) (zrange 0 n)).
Proof.
  intros A f n m. unfold month_part, zrange. rewrite !map_map, map_length, seq_length. generalize (Z.to_nat n). intros k.
  change (fun x : nat => f (0 + Z.of_nat x)%Z) with (fun x : nat => f (Z.of_nat x)). generalize (seq 0 k). intros l.
  induction l as [|x l IH]; [reflexivity|]. cbn [map combine filter fst]. change (0 + Z.of_nat x)%Z with (Z.of_nat x).
  destruct (hour_in_month m (Z.of_nat x)); cbn [map snd]; rewrite IH; reflexivity.
Qed.
Lemma Rsum_acc : forall l : list R, accumulate l = Rsum l.
Proof. exact accumulate_sum. Qed.
Lemma Rsum_choice : forall A (f : A -> bool) a b (l : list A),
  Rsum (map (fun x => (if f x then a else b) / 1000) l) = (a * number f l + b * number (fun x => negb (f x)) l) / 1000.
Proof.
  intros A f a b l. unfold Rsum, number. induction l as [|x l IH]; [cbn; lra|]. cbn [map fold_right filter]. rewrite IH.
  destruct (f x); cbn [negb length]; rewrite S_INR; lra.
Qed.
Lemma Rsum_const : forall A a (l : list A), Rsum (map (fun _ => a / 1000) l) = a * INR (length l) / 1000.
Proof. intros A a l. unfold Rsum. induction l as [|x l IH]; [cbn; lra|]. cbn [map fold_right length]. rewrite IH, S_INR. lra. Qed.
Lemma Rsum_if : forall A (f : A -> bool) a (l : list A), Rsum (map (fun x => (if f x then a else 0) / 1000) l) = a * number f l / 1000.
Proof. intros. rewrite Rsum_choice. lra. Qed.
Lemma acc_Fin : forall l, accumulate (map Fin l) = Fin (Rsum l).
Proof. intros l. rewrite accumulate_fin, Rsum_acc. reflexivity. Qed.

Lemma div1000 : forall x, (Fin x / zn 1000)%num = Fin (x / 1000).
Proof. intros x. rewrite zn_fin, div_fin by (rewrite zn_R; lra). rewrite zn_R. reflexivity. Qed.

Lemma list_index : forall A B (l : list A) (f : Z -> B) (g : A -> B) n, Z.of_nat (length l) = n ->
  (forall k h, nth_error l k = Some h -> g h = f (Z.of_nat k)) -> map g l = map f (zrange 0 n).
Proof.
  intros A B l f g n L H. apply nth_error_ext. intros k. unfold zrange. rewrite map_map, !nth_error_map. subst n. rewrite Nat2Z.id.
  destruct (nth_error l k) as [h|] eqn:E.
  - assert (K : (k < length l)%nat) by (apply nth_error_Some; congruence).
    rewrite (@nth_error_nth' nat (seq 0 (length l)) k 0%nat) by (rewrite seq_length; exact K). rewrite seq_nth by exact K. cbn [option_map]. f_equal. exact (H k h E).
  - apply nth_error_None in E. rewrite (proj2 (nth_error_None (seq 0 (length l)) k)) by (rewrite seq_length; exact E). reflexivity.
Qed.

Section Run.
Variables (p : params_t R) (tt : timetable) (ws : list (weather R)) (r0 : ratios R) (rows : list (list xr)) (r : ratios xr).
Hypothesis HP : physical p.
Hypothesis HT : timetable_of p tt.

Lemma raw_columns : forall raw r, simulateRaw (map_params Fin p) (map (map_weather Fin) ws) (map_ratios Fin r0) = Ok (raw, r) ->
  nth_error (resultVectors (map_params Fin p) raw) elec_int_equip = Some (map Fin (map (fun k => equip_at p tt k / 1000) year_hours)) /\
  nth_error (resultVectors (map_params Fin p) raw) elec_ext_equip = Some (map Fin (map (fun k => bu_externalEquipment (pa_building p) / st_floorArea (pa_structure p) / 1000) year_hours)) /\
  nth_error (resultVectors (map_params Fin p) raw) elec_ext_lights =
    Some (map Fin (map (fun k => (if dark (nth (Z.to_nat k) ws (mkWeather 0 0 [])) then li_exteriorEnergy (pa_lighting p) / st_floorArea (pa_structure p) else 0) / 1000) year_hours)) /\
  (8760 <= Z.of_nat (length ws))%Z.
Proof.
  intros raw r1 H. pose proof (C08_run_l p tt ws r0 raw r1 HP HT H) as C. pose proof (simulateRaw_length _ _ _ _ _ H) as L.
  unfold resultVectors, elec_int_equip, elec_ext_equip, elec_ext_lights. cbn [map nth_error].
  split; [|split; [|split]].
  - f_equal. rewrite !map_map. apply list_index; [exact L|]. intros k h E. destruct (C k h E) as (w&_&S). rewrite (aux_equip _ _ _ _ _ S). apply div1000.
  - f_equal. rewrite !map_map. apply (list_index _ _ raw (fun k => Fin (bu_externalEquipment (pa_building p) / st_floorArea (pa_structure p) / 1000)) (fun h => (hr_extEquip h / zn 1000)%num)); [exact L|]. intros k h E. destruct (C k h E) as (w&_&S). rewrite (aux_extequip _ _ _ _ _ S). apply div1000.
  - f_equal. rewrite !map_map. apply list_index; [exact L|]. intros k h E. destruct (C k h E) as (w&W&S). rewrite Nat2Z.id, (nth_error_nth _ _ _ W). unfold dark.
    destruct (Rlt_dec 0 (nth 8 (we_sol w) 0)) as [D|D]; [rewrite (aux_day _ _ _ _ _ S D)|rewrite (aux_night _ _ _ _ _ S) by lra]; apply div1000.
  - destruct (Z_le_gt_dec 8760 (Z.of_nat (length ws))) as [X|X]; [exact X|exfalso].
    assert (K : (length ws < length raw)%nat) by lia. destruct (nth_error raw (length ws)) as [h|] eqn:E; [|apply nth_error_None in E; lia].
    destruct (C _ h E) as (w&W&_). assert (length ws < length ws)%nat by (apply nth_error_Some; congruence). lia.
Qed.
Lemma equip_choice : forall hours, Rsum (map (fun k => equip_at p tt k / 1000) hours) = equipment_kWh p tt hours.
Proof. intros hours. unfold equip_at, equipment_kWh. apply Rsum_choice. Qed.

Lemma fin_months : forall f, map (fun m => accumulate (month_part m (map Fin (map f year_hours)))) (zrange 1 12) =
  map (fun m => Fin (Rsum (map f (hours_in m)))) (zrange 1 12).
Proof.
  intros f. apply map_ext_in. intros m I. assert (1 <= m <= 12)%Z.
  { unfold zrange in I. apply in_map_iff in I as (k&<-&K). apply in_seq in K. lia. }
  rewrite <- map_month_part by assumption. rewrite acc_Fin. unfold year_hours. rewrite month_part_index. reflexivity.
Qed.
(** Counting over hours of a month is counting over the weather of the month. *)
Lemma dark_month : forall a m, (1 <= m <= 12)%Z -> (Z.of_nat (length ws) = 8760)%Z ->
  Rsum (map (fun k => (if dark (nth (Z.to_nat k) ws (mkWeather 0 0 [])) then a else 0) / 1000) (hours_in m)) = a * number dark (month_part m ws) / 1000.
Proof.
  intros a m M L. rewrite (Rsum_if Z (fun k => dark (nth (Z.to_nat k) ws (mkWeather 0 0 [])))). do 2 f_equal. unfold number, hours_in, year_hours.
  assert (E : ws = map (fun k => nth (Z.to_nat k) ws (mkWeather 0 0 [])) (zrange 0 8760)).
  { rewrite <- (map_id ws) at 1. apply list_index; [exact L|]. intros k h E. rewrite Nat2Z.id. symmetry. apply nth_error_nth. exact E. }
  replace (month_part m ws) with (month_part m (map (fun k => nth (Z.to_nat k) ws (mkWeather 0 0 [])) (zrange 0 8760))) by (rewrite <- E; reflexivity). rewrite month_part_index. clear E. generalize (filter (hour_in_month m) (zrange 0 8760)). intros l. f_equal.
  induction l as [|x l IH]; [reflexivity|]. cbn [map filter]. destruct (dark (nth (Z.to_nat x) ws (mkWeather 0 0 []))); cbn [length]; rewrite IH; reflexivity.
Qed.

Lemma C87_months_l : (Z.of_nat (length ws) = 8760)%Z ->
  simulate (map_params Fin p) (map (map_weather Fin) ws) (map_ratios Fin r0) true = Ok (rows, r) ->
  is_series elec_int_equip rows (map (fun m => Fin (equipment_kWh p tt (hours_in m))) (zrange 1 12)) /\
  is_series elec_ext_equip rows (map (fun m => Fin (ext_equipment_kWh p (hours_in m))) (zrange 1 12)) /\
  is_series elec_ext_lights rows (map (fun m => Fin (ext_lights_kWh p (month_part m ws))) (zrange 1 12)).
Proof.
  intros LW H. destruct (simulate_det _ _ _ _ _ _ H) as (raw&HR&_&C). destruct (raw_columns raw r HR) as (V1&V2&V3&_).
  pose proof (C _ _ V1) as S1. pose proof (C _ _ V2) as S2. pose proof (C _ _ V3) as S3. cbv iota in S1, S2, S3. rewrite fin_months in S1, S2, S3.
  split; [|split].
  - erewrite map_ext; [exact S1|]. intros m. cbv beta. rewrite equip_choice. reflexivity.
  - erewrite map_ext; [exact S2|]. intros m. cbv beta. rewrite (Rsum_const Z). reflexivity.
  - erewrite map_ext_in; [exact S3|]. intros m I. cbv beta. rewrite dark_month; [reflexivity| |exact LW].
    unfold zrange in I. apply in_map_iff in I as (k&<-&K). apply in_seq in K. lia.
Qed.
Lemma C87_year_l : (Z.of_nat (length ws) = 8760)%Z ->
  simulate (map_params Fin p) (map (map_weather Fin) ws) (map_ratios Fin r0) false = Ok (rows, r) ->
  exists equip ext lights, is_series elec_int_equip rows equip /\ is_series elec_ext_equip rows ext /\ is_series elec_ext_lights rows lights /\
    accumulate equip = Fin (equipment_kWh p tt year_hours) /\ accumulate ext = Fin (ext_equipment_kWh p year_hours) /\
    accumulate lights = Fin (ext_lights_kWh p ws).
Proof.
  intros LW H. destruct (simulate_det _ _ _ _ _ _ H) as (raw&HR&_&C). destruct (raw_columns raw r HR) as (V1&V2&V3&_).
  eexists _, _, _. split; [exact (C _ _ V1)|]. split; [exact (C _ _ V2)|]. split; [exact (C _ _ V3)|]. cbv iota.
  rewrite !acc_Fin, equip_choice, (Rsum_const Z). split; [reflexivity|]. split; [reflexivity|]. f_equal.
  rewrite (Rsum_if Z (fun k => dark (nth (Z.to_nat k) ws (mkWeather 0 0 [])))). unfold ext_lights_kWh. do 2 f_equal. unfold number.
  assert (E : ws = map (fun k => nth (Z.to_nat k) ws (mkWeather 0 0 [])) (zrange 0 8760)).
  { rewrite <- (map_id ws) at 1. apply list_index; [exact LW|]. intros k h E. rewrite Nat2Z.id. symmetry. apply nth_error_nth. exact E. }
  replace (filter dark ws) with (filter dark (map (fun k => nth (Z.to_nat k) ws (mkWeather 0 0 [])) (zrange 0 8760))) by (rewrite <- E; reflexivity). unfold year_hours. clear E. generalize (zrange 0 8760). intros l. f_equal.
  induction l as [|x l IH]; [reflexivity|]. cbn [map filter]. destruct (dark (nth (Z.to_nat x) ws (mkWeather 0 0 []))); cbn [length]; rewrite IH; reflexivity.
Qed.
End Run.

(** ** The number of occupied hours *)
Definition count (f : nat -> bool) (l : list nat) : nat := length (filter f l).
Lemma count_app : forall f a b, count f (a ++ b) = (count f a + count f b)%nat.
Proof. intros. unfold count. rewrite filter_app, app_length. reflexivity. Qed.
Lemma count_one : forall f d, count f [d] = if f d then 1%nat else 0%nat.
Proof. intros f d. unfold count. cbn [filter]. destruct (f d); reflexivity. Qed.
Lemma day_count : forall (P Q : nat -> bool) d,
  count (fun i => P (i mod 24) && Q (i / 24))%nat%bool (seq (24 * d) 24) = if Q d then count P (seq 0 24) else 0%nat.
Proof.
  intros P Q d. replace (seq (24 * d) 24) with (map (fun h => 24 * d + h)%nat (seq 0 24)).
  2:{ cbn [seq map]. repeat (apply f_equal2; [lia|]). reflexivity. }
  unfold count. assert (B : forall h, In h (seq 0 24) -> (h < 24)%nat) by (intros h I; apply in_seq in I; lia). revert B. generalize (seq 0 24). intros l B.
  transitivity (length (filter (fun h => P h && Q d)%bool l)).
  - induction l as [|h l IH]; [reflexivity|]. pose proof (B h (or_introl eq_refl)). specialize (IH (fun x I => B x (or_intror I))).
    cbn [map filter]. replace ((24 * d + h) mod 24)%nat with h by (rewrite (Nat.mul_comm 24), Nat.add_comm, Nat.mod_add, Nat.mod_small by lia; reflexivity).
    replace ((24 * d + h) / 24)%nat with d by (rewrite (Nat.mul_comm 24), Nat.add_comm, Nat.div_add, Nat.div_small by lia; reflexivity).
    destruct (P h && Q d)%bool; cbn [length]; rewrite IH; reflexivity.
  - destruct (Q d).
    + f_equal. apply filter_ext. intros h. apply andb_true_r.
    + clear B. induction l as [|h l IH]; [reflexivity|]. cbn [filter]. rewrite andb_false_r. exact IH.
Qed.
Lemma days_count : forall (P Q : nat -> bool) d,
  count (fun i => P (i mod 24) && Q (i / 24))%nat%bool (seq 0 (24 * d)) = (count P (seq 0 24) * count Q (seq 0 d))%nat.
Proof.
  intros P Q d. induction d as [|d IH]; [rewrite Nat.mul_0_r; change (count Q (seq 0 0)) with 0%nat; rewrite Nat.mul_0_r; reflexivity|].
  replace (24 * S d)%nat with (24 * d + 24)%nat by lia. rewrite seq_app, count_app, IH. rewrite Nat.add_0_l, day_count.
  rewrite (seq_S d 0), count_app, (Nat.add_0_l d), count_one, Nat.mul_add_distr_l. destruct (Q d); [rewrite Nat.mul_1_r|rewrite Nat.mul_0_r]; reflexivity.
Qed.
Lemma count_ext : forall f g l, (forall i, f i = g i) -> count f l = count g l.
Proof. intros. unfold count. f_equal. apply filter_ext. assumption. Qed.
Lemma seven : forall z : Z, (0 <= z <= 6)%Z -> (z = 0 \/ z = 1 \/ z = 2 \/ z = 3 \/ z = 4 \/ z = 5 \/ z = 6)%Z.
Proof. intros. lia. Qed.
Lemma week_days : forall a b, (0 <= a <= 6)%Z -> (0 <= b <= 6)%Z ->
  Z.of_nat (count (fun d => (a <=? Z.of_nat d mod 7) && (Z.of_nat d mod 7 <=? b))%Z%bool (seq 0 365)) =
  if (b <? a)%Z then 0%Z else (52 * (b - a + 1) + (if (a =? 0)%Z then 1 else 0))%Z.
Proof.
  intros a b A B. apply seven in A, B.
  destruct A as [->|[->|[->|[->|[->|[->| ->]]]]]]; destruct B as [->|[->|[->|[->|[->|[->| ->]]]]]]; vm_compute; reflexivity.
Qed.
Lemma clock_hours : forall a b, (0 <= a <= 23)%Z -> (0 <= b <= 23)%Z ->
  Z.of_nat (count (fun h => (a <=? Z.of_nat h) && (Z.of_nat h <=? b))%Z%bool (seq 0 24)) = if (b <? a)%Z then 0%Z else (b - a + 1)%Z.
Proof.
  intros a b A B.
  assert (G : forall n, (n <= 24)%nat -> Z.of_nat (count (fun h => (a <=? Z.of_nat h) && (Z.of_nat h <=? b))%Z%bool (seq 0 n)) = Z.max 0 (Z.min (Z.of_nat n) (b + 1) - a)).
  { induction n as [|n IH]; intros L; [cbn; lia|]. replace (S n) with (n + 1)%nat by lia. rewrite seq_app, count_app, Nat2Z.inj_add, IH by lia.
    cbn [seq Nat.add]. rewrite count_one. destruct (Z.leb_spec a (Z.of_nat n)), (Z.leb_spec (Z.of_nat n) b); cbn [andb]; lia. }
  rewrite G by lia. destruct (Z.ltb_spec b a); lia.
Qed.
Lemma C87_hours_l : forall tt, clock_timetable tt -> number (occupied tt) year_hours = IZR (occupied_year tt) /\
  number (fun k => negb (occupied tt k)) year_hours = IZR (8760 - occupied_year tt).
Proof.
  intros tt (H1&H2&D1&D2).
  assert (LE : Z.of_nat (length year_hours) = 8760%Z) by (unfold year_hours, zrange; rewrite map_length, seq_length; lia).
  assert (E : number (occupied tt) year_hours = IZR (occupied_year tt)).
  { unfold number. rewrite INR_IZR_INZ. f_equal. unfold year_hours, zrange.
    assert (X : length (filter (occupied tt) (map (fun k => (0 + Z.of_nat k)%Z) (seq 0 (Z.to_nat 8760)))) =
      count (fun i => (fun h => (tt_firstHour tt <=? Z.of_nat h) && (Z.of_nat h <=? tt_lastHour tt))%Z%bool (i mod 24)%nat
        && (fun d => (tt_firstDay tt <=? Z.of_nat d mod 7) && (Z.of_nat d mod 7 <=? tt_lastDay tt))%Z%bool (i / 24)%nat)%bool (seq 0 (24 * 365))).
    { replace (24 * 365)%nat with (Z.to_nat 8760) by lia. unfold count. generalize (seq 0 (Z.to_nat 8760)). intros l.
      induction l as [|x l IH]; [reflexivity|]. cbn [map filter]. rewrite Z.add_0_l.
      replace (occupied tt (Z.of_nat x)) with (((tt_firstHour tt <=? Z.of_nat (x mod 24)) && (Z.of_nat (x mod 24) <=? tt_lastHour tt))%Z &&
        ((tt_firstDay tt <=? Z.of_nat (x / 24) mod 7) && (Z.of_nat (x / 24) mod 7 <=? tt_lastDay tt))%Z)%bool.
      - match goal with |- context [if ?c then _ else _] => destruct c end; cbn [length]; rewrite IH; reflexivity.
      - unfold occupied, open_hour. rewrite (Nat2Z.inj_mod x 24), (Nat2Z.inj_div x 24) by lia. reflexivity. }
    pose proof (days_count (fun h => (tt_firstHour tt <=? Z.of_nat h) && (Z.of_nat h <=? tt_lastHour tt))%Z%bool
      (fun d => (tt_firstDay tt <=? Z.of_nat d mod 7) && (Z.of_nat d mod 7 <=? tt_lastDay tt))%Z%bool 365) as Y. cbv beta in X, Y.
    rewrite X, Y, Nat2Z.inj_mul, week_days, clock_hours by assumption. unfold occupied_year.
    destruct (tt_lastHour tt <? tt_firstHour tt)%Z; cbn [orb]; [reflexivity|]. destruct (tt_lastDay tt <? tt_firstDay tt)%Z; [lia|reflexivity]. }
  split; [exact E|]. rewrite minus_IZR, <- E. rewrite <- LE, <- INR_IZR_INZ. unfold number. generalize year_hours. intros l.
  induction l as [|x l IH]; [cbn; lra|]. cbn [filter length]. rewrite S_INR. destruct (occupied tt x); cbn [negb length]; rewrite ?S_INR; lra.
Qed.

Lemma C87_case_l : forall (t : R) agg, physical office /\ timetable_of office office_hours /\ clock_timetable office_hours /\
  occupied_year office_hours = 2600%Z /\ Z.of_nat (length (constant_year 8760 t)) = 8760%Z /\
  exists rows r, simulate (map_params Fin office) (map (map_weather Fin) (constant_year 8760 t)) (map_ratios Fin no_ratios) agg = Ok (rows, r).
Proof.
  intros t agg. split; [exact office_physical|]. split; [exact office_timetable|].
  split; [unfold clock_timetable; cbn; lia|]. split; [reflexivity|]. split; [apply constant_year_length; lia|].
  rewrite map_constant_year, office_map. exact (office_runs agg (Fin t)).
Qed.
