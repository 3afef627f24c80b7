(** SolarRadiation: geometry and irradiance of a calculated year, and the concrete sites. *)
From Coq Require Import ZArith Lia Reals Lra Psatz.
From Verif Require Import Base Num Xr M_TimeFrame M_Epw M_Solar S_Calendar S_Solar S_Epw L_Xr L_Calendar L_HourlyShape L_Epw L_Solar L_Solar2 L_Solar3 L_SolarR L_Solar4 L_Solar5.
Open Scope R_scope.
Open Scope list_scope.

Lemma altitude_range : forall lat dec ha, - PI / 2 <= altitude lat dec ha <= PI / 2.
Proof. intros. unfold altitude. pose proof (asin_bound (up (sun lat dec ha))). lra. Qed.
Lemma cos_altitude_pos : forall lat dec ha, -1 < up (sun lat dec ha) < 1 -> 0 < cos (altitude lat dec ha).
Proof.
  intros lat dec ha H. pose proof (cos_altitude_nonneg lat dec ha). pose proof (sc (altitude lat dec ha)) as S. rewrite sin_altitude in S. nra.
Qed.
Lemma atan2_range : forall y x, - PI <= Ratan2 y x <= PI.
Proof.
  intros y x. pose proof PI_RGT_0 as P. unfold Ratan2. destruct (Rlt_dec 0 x) as [A|A].
  - pose proof (atan_bound (y / x)). lra.
  - destruct (Rlt_dec x 0) as [B|B].
    + pose proof (atan_bound (y / x)) as C. assert (IX : / x < 0) by (apply Rinv_lt_0_compat; exact B). destruct (Rlt_dec y 0) as [D|D].
      * assert (0 <= y / x) as E by (unfold Rdiv; nra).
        assert (0 <= atan (y / x)). { destruct (Req_dec (y / x) 0) as [->|NE]; [rewrite atan_0; lra|]. rewrite <- atan_0. left. apply atan_increasing. lra. }
        lra.
      * assert (y / x <= 0) as E by (unfold Rdiv; nra).
        assert (atan (y / x) <= 0). { destruct (Req_dec (y / x) 0) as [->|NE]; [rewrite atan_0; lra|]. rewrite <- atan_0. left. apply atan_increasing. lra. }
        lra.
    + repeat match goal with |- context [Rlt_dec ?a ?b] => destruct (Rlt_dec a b) end; lra.
Qed.

Lemma C41_l : forall (s : solar xr) lat dec ha, so_lat s = Fin lat -> exists alt,
  solarAltitude s (Fin dec) (Fin ha) = Fin alt /\ - PI / 2 <= alt <= PI / 2 /\ sin alt = up (sun lat dec ha) /\
  (-1 < up (sun lat dec ha) < 1 -> exists sn cs az,
     solarAzimuthSin (Fin dec) (Fin ha) (Fin alt) = Fin sn /\ solarAzimuthCos s (Fin dec) (Fin ha) (Fin alt) = Fin cs /\
     sn * sn + cs * cs = 1 /\ solarAzimuth (Fin sn) (Fin cs) = Fin az /\ - PI <= az <= PI /\
     sky alt az = sun lat dec ha /\
     forall tilt gam, exists x, angleOfIncidence (Fin alt) (surfaceSolarAzimuth (Fin az) (Fin gam)) (Fin tilt) = Fin x /\
       0 <= x <= PI /\ cos x = dot (sun lat dec ha) (normal tilt gam)).
Proof.
  intros [t m lo la r gl av] lat dec ha H. cbn [so_lat] in H. subst la. exists (altitude lat dec ha).
  split. { exact (alt_fin 0 0 0 lat 0 gl av dec ha). }
  split; [apply altitude_range|]. split; [apply sin_altitude|]. intros U. pose proof (cos_altitude_pos lat dec ha U) as CP.
  assert (NZ : cos (altitude lat dec ha) <> 0) by lra.
  exists (west (sun lat dec ha) / cos (altitude lat dec ha)), (south (sun lat dec ha) / cos (altitude lat dec ha)), (azimuth lat dec ha).
  split; [apply az_sin_fin; exact NZ|]. split. { exact (az_cos_fin 0 0 0 lat 0 gl av dec ha NZ). }
  split. { pose proof (horizontal lat dec ha) as E. set (c := cos (altitude lat dec ha)) in *. set (w := west _) in *. set (so := south _) in *.
    replace (w / c * (w / c) + so / c * (so / c)) with ((so * so + w * w) / (c * c)) by (field; exact NZ). rewrite E. field. exact NZ. }
  split. { rewrite <- (az_fin 0 0 0 lat 0 gl av dec ha NZ), az_sin_fin by exact NZ. rewrite (az_cos_fin 0 0 0 lat 0 gl av dec ha NZ). reflexivity. }
  split. { unfold azimuth. cbv zeta. apply atan2_range. }
  split; [apply sky_sun; exact NZ|]. intros tilt gam. exists (acos (dot (sky (altitude lat dec ha) (azimuth lat dec ha)) (normal tilt gam))).
  split; [apply aoi_fin|]. split; [apply acos_bound|]. rewrite cos_aoi, sky_sun by exact NZ. reflexivity.
Qed.

(** The object made for a site with finite coordinates. *)
Lemma newSolar_fin : forall (e : epw xr) tilt lat lon tz, ep_site e = Some (Fin lat, Fin lon, tz) -> exists gl av,
  newSolar e (Fin tilt) = Ok (mkSolar (Fin (tilt / 2)) (Fin (rad (IZR tz * 15))) (Fin (rad lon)) (Fin (rad lat)) (Fin 0.14) gl av).
Proof.
  intros e tilt lat lon tz H. unfold newSolar. rewrite H.
  assert (E1 : (Fin tilt / zn 2)%num = Fin (tilt / 2)).
  { rewrite zn_fin, div_fin by (rn; lra). rn. f_equal. lra. }
  assert (E2 : (zn tz * zn 15 * PI_ / zn 180)%num = Fin (rad (IZR tz * 15))).
  { rewrite PI_fin, !zn_fin, !mul_fin, div_fin by (rn; lra). rn. f_equal. unfold rad. lra. }
  assert (E3 : forall x, (Fin x * PI_ / zn 180)%num = Fin (rad x)).
  { intros x. rewrite PI_fin, !zn_fin, !mul_fin, div_fin by (rn; lra). rn. f_equal. unfold rad. lra. }
  rewrite E1, E2, !E3. rewrite lit_fin. eexists _, _. replace (@lit R _ 14 100) with 0.14 by (rn; lra). reflexivity.
Qed.

Section Year.
Variables (frame : list (option tcell)) (e : epw xr) (tilt lat lon : R) (tz : Z) (s0 s s' : solar xr) (datas : list (list (list xr))).
Variables (dbt dpt rh egh wind : list xr) (eb ed : list R).
Hypothesis TF : timeFrame = Ok frame.
Hypothesis SITE : ep_site e = Some (Fin lat, Fin lon, tz).
Hypothesis NEW : newSolar e (Fin tilt) = Ok s0.
Hypothesis DS : Forall year_table datas.
Hypothesis HIST : ofold (fun s d => calculate frame d s) datas s0 = Ok s.
Hypothesis TAB : year_table [dbt; dpt; rh; egh; map Fin eb; map Fin ed; wind].
Hypothesis CALC : calculate frame [dbt; dpt; rh; egh; map Fin eb; map Fin ed; wind] s = Ok s'.

Lemma eglobe_row : forall i, (i < slices)%nat -> -1 < up (sun_at (rad lat) (rad lon) (rad (IZR tz * 15)) (INR (i / 24)) (INR (i mod 24))) < 1 ->
  nth_error (so_eglobe s') i =
  Some (map (fun gam => Fin (irradiance (sun_at (rad lat) (rad lon) (rad (IZR tz * 15)) (INR (i / 24)) (INR (i mod 24))) (tilt / 2) gam 0.14 (nth i eb 0) (nth i ed 0))) azimuths).
Proof.
  intros i HI U. pose proof (timeFrame_good frame TF) as GF.
  destruct (history_ok frame GF datas s0 s DS (newSolar_shape _ _ _ NEW) HIST) as [SH CO].
  destruct (newSolar_fin e tilt lat lon tz SITE) as (gl&av&N2). rewrite NEW in N2.
  assert (E0 : s0 = mkSolar (Fin (tilt / 2)) (Fin (rad (IZR tz * 15))) (Fin (rad lon)) (Fin (rad lat)) (Fin 0.14) gl av) by congruence.
  destruct (columns _ TAB) as (c1&c2&c3&c4&c5&c6&c7&EQ&FC). injection EQ as <- <- <- <- <- <- <-.
  rewrite (calculate_ok frame s) in CALC by assumption.
  rewrite (calculated_constants s s0) in CALC by exact CO.
  assert (E' : s' = calculated s0 dbt dpt rh egh (map Fin eb) (map Fin ed) wind) by congruence.
  rewrite E', E0. unfold calculated. cbn [so_eglobe so_tilt so_meridian so_lon so_lat so_rho]. rewrite nth_error_map.
  rewrite (@nth_error_nth' nat (seq 0 slices) i 0%nat) by (rewrite seq_length; exact HI). rewrite seq_nth by exact HI.
  cbn [option_map]. change (0 + i)%nat with i. f_equal.
  rewrite (nth_indep (map Fin eb) (zn 0) (Fin 0)), (nth_indep (map Fin ed) (zn 0) (Fin 0)), !map_nth.
  - apply row_fin. exact U.
  - inversion FC as [|? ? _ F1]. inversion F1 as [|? ? _ F2]. inversion F2 as [|? ? _ F3]. inversion F3 as [|? ? _ F4]. inversion F4 as [|? ? _ F5]. inversion F5 as [|? ? E6 _]. rewrite E6. exact HI.
  - inversion FC as [|? ? _ F1]. inversion F1 as [|? ? _ F2]. inversion F2 as [|? ? _ F3]. inversion F3 as [|? ? _ F4]. inversion F4 as [|? ? E5 _]. rewrite E5. exact HI.
Qed.
Lemma eglobe_cell : forall i j gam, (i < slices)%nat -> nth_error azimuths j = Some gam ->
  -1 < up (sun_at (rad lat) (rad lon) (rad (IZR tz * 15)) (INR (i / 24)) (INR (i mod 24))) < 1 ->
  cell (so_eglobe s') i j =
  Some (Fin (irradiance (sun_at (rad lat) (rad lon) (rad (IZR tz * 15)) (INR (i / 24)) (INR (i mod 24))) (tilt / 2) gam 0.14 (nth i eb 0) (nth i ed 0))).
Proof. intros i j gam HI HJ U. unfold cell. rewrite eglobe_row by assumption. rewrite nth_error_map, HJ. reflexivity. Qed.
End Year.

(** ** Concrete sites: on the equator, noon of the first day, sun overhead or below the horizon. *)
Definition noon_zero : R := - equation_of_time 0 / 4.
(** The longitude that puts the sun at hour angle [a] at clock hour 12 of day 0 in time zone 0. *)
Definition longitude (a : R) : R := noon_zero + a * 180 / pi_s.
Lemma at_longitude : forall lat a, sun_at lat (rad (longitude a)) (rad (IZR 0 * 15)) (INR (12 / 24)) (INR (12 mod 24)) = sun lat (declination 0) a.
Proof.
  intros lat a. unfold sun_at. replace (day_angle (INR (12 / 24))) with 0 by (unfold day_angle; cbn [Nat.div Nat.divmod fst INR]; lra).
  f_equal. unfold hour_angle. cbv zeta. replace (INR (12 mod 24)) with 12 by (change (12 mod 24)%nat with 12%nat; rewrite INR_IZR_INZ; reflexivity).
  unfold rad, longitude, noon_zero. pose proof pi_pos. generalize (equation_of_time 0). intros q. field. lra.
Qed.
Lemma dec0 : declination 0 = - (402449 / 1000000).
Proof. unfold declination. rewrite !Rmult_0_r, cos_0, sin_0. lra. Qed.
Lemma dec_trig : 0 < cos (declination 0) < 1 /\ sin (declination 0) < 0.
Proof.
  rewrite dec0, cos_neg, sin_neg. pose proof PI2_3_2 as P2. pose proof PI_RGT_0.
  assert (S : 0 < sin (402449 / 1000000)) by (apply sin_gt_0; lra). assert (C : 0 < cos (402449 / 1000000)) by (apply cos_gt_0; lra).
  pose proof (sc (402449 / 1000000)). split; [split; [exact C|nra]|lra].
Qed.
Definition site (lon : R) : epw xr := mkEpw [] [] (Some (Fin 0, Fin lon, 0%Z)) (ep_data newEpw).
Definition beam_year : list (list xr) :=
  let z := repeat (Fin 0) slices in [z; z; z; z; map Fin (repeat 1 slices); map Fin (repeat 0 slices); z].
Lemma beam_table : year_table beam_year.
Proof.
  split; [reflexivity|]. unfold beam_year. repeat (apply Forall_cons; [rewrite ?map_length, repeat_length; apply slices_Z|]). apply Forall_nil.
Qed.
Lemma slices_12 : (12 < slices)%nat.
Proof. pose proof slices_Z. lia. Qed.
Lemma nth_repeat_in : forall n i (x d : R), (i < n)%nat -> nth i (repeat x n) d = x.
Proof. induction n; intros i x d H; [lia|]. destruct i; [reflexivity|]. apply IHn. lia. Qed.

(** The result of one calculation on [beam_year] from a fresh object. *)
Lemma beam_case : forall frame tilt a, timeFrame = Ok frame -> -1 < cos (declination 0) * cos a < 1 -> exists s0 s',
  newSolar (site (longitude a)) (Fin tilt) = Ok s0 /\ calculate frame beam_year s0 = Ok s' /\
  forall j gam, nth_error azimuths j = Some gam ->
    cell (so_eglobe s') 12 j = Some (Fin (irradiance (sun 0 (declination 0) a) (tilt / 2) gam 0.14 1 0)).
Proof.
  intros frame tilt a TF U. pose proof (timeFrame_good frame TF) as GF.
  destruct (newSolar_site (site (longitude a)) (Fin tilt) _ _ _ eq_refl) as [s0 N0]. exists s0.
  destruct (columns _ beam_table) as (c1&c2&c3&c4&c5&c6&c7&EQ&FC).
  exists (calculated s0 c1 c2 c3 c4 c5 c6 c7). split; [exact N0|].
  assert (CA : calculate frame beam_year s0 = Ok (calculated s0 c1 c2 c3 c4 c5 c6 c7)) by (rewrite EQ; apply calculate_ok; [exact GF|eapply newSolar_shape; exact N0|exact FC]).
  split; [exact CA|]. intros j gam HJ.
  rewrite (eglobe_cell frame (site (longitude a)) tilt 0 (longitude a) 0 s0 s0 (calculated s0 c1 c2 c3 c4 c5 c6 c7) [] (repeat (Fin 0) slices) (repeat (Fin 0) slices) (repeat (Fin 0) slices) (repeat (Fin 0) slices) (repeat (Fin 0) slices) (repeat 1 slices) (repeat 0 slices) TF eq_refl N0 (Forall_nil _) eq_refl beam_table CA 12 j gam slices_12 HJ).
  - rewrite at_longitude. unfold rad. replace (0 * pi_s / 180) with 0 by lra. rewrite !nth_repeat_in by apply slices_12. reflexivity.
  - rewrite at_longitude. unfold rad. replace (0 * pi_s / 180) with 0 by lra. unfold sun. cbn [up]. rewrite cos_0, sin_0. lra.
Qed.

Lemma C40_site_l : forall frame, timeFrame = Ok frame -> exists (e1 e2 : epw xr) tilt s1 s2 r1 r2 data,
  newSolar e1 tilt = Ok s1 /\ newSolar e2 tilt = Ok s2 /\ year_table data /\
  calculate frame data s1 = Ok r1 /\ calculate frame data s2 = Ok r2 /\ cell (so_eglobe r1) 12 0 <> cell (so_eglobe r2) 12 0.
Proof.
  intros frame TF. destruct dec_trig as [C S].
  destruct (beam_case frame 0 0 TF) as (s1&r1&N1&C1&H1). { rewrite cos_0. lra. }
  destruct (beam_case frame 0 (- PI) TF) as (s2&r2&N2&C2&H2). { rewrite cos_neg, cos_PI. lra. }
  exists (site (longitude 0)), (site (longitude (- PI))), (Fin 0), s1, s2, r1, r2, beam_year.
  split; [exact N1|]. split; [exact N2|]. split; [exact beam_table|]. split; [exact C1|]. split; [exact C2|].
  rewrite (H1 0%nat 0 eq_refl), (H2 0%nat 0 eq_refl). intros Q. assert (QQ : forall x y, Some (Fin x) = Some (Fin y) -> x = y) by (intros; congruence).
  apply QQ in Q. unfold irradiance, sun, normal, dot, diffuse_on in Q. cbv zeta in Q. cbn [south west up] in Q.
  replace (0 / 2) with 0 in Q by lra. rewrite cos_neg, sin_neg, cos_PI, sin_PI, cos_0, sin_0 in Q.
  destruct (Rlt_dec (pi_s / 2) 0) as [B|B]; [pose proof pi_pos; lra|].
  rewrite Rmax_left in Q by lra. rewrite Rmax_right in Q by lra. lra.
Qed.
Lemma C42_night_l : forall frame, timeFrame = Ok frame -> exists (e : epw xr) s s' x,
  newSolar e PI_ = Ok s /\ calculate frame beam_year s = Ok s' /\ cell (so_eglobe s') 12 4 = Some (Fin x) /\ x < 0.
Proof.
  intros frame TF. destruct dec_trig as [C S].
  destruct (beam_case frame pi_s (- PI) TF) as (s2&r2&N2&C2&H2). { rewrite cos_neg, cos_PI. lra. }
  exists (site (longitude (- PI))), s2, r2. eexists. split; [rewrite PI_fin; exact N2|]. split; [exact C2|]. split; [exact (H2 4%nat pi_s eq_refl)|].
  unfold irradiance, sun, normal, dot, diffuse_on. cbv zeta. cbn [south west up]. rewrite cos_neg, sin_neg, cos_PI, sin_PI, cos_0, sin_0.
  destruct (Rlt_dec (pi_s / 2) (pi_s / 2)) as [B|B]; [lra|]. pose proof pi_pos. pose proof pi_lt. assert (3 < pi_s) by (unfold pi_s; lra). pose proof PI_4.
  assert (CP : cos pi_s <= 0) by (apply cos_le_0; lra). assert (SH : 0 <= sin (pi_s / 2)) by (apply sin_ge_0; lra).
  assert (CH : 0 <= cos (pi_s / 2)) by (apply cos_ge_0; lra).
  assert (CL : cos (pi_s / 2) < 1). { assert (0 < sin (pi_s / 2)) by (apply sin_gt_0; lra). pose proof (sc (pi_s / 2)). nra. }
  rewrite Rmax_right; [nra|]. set (c := cos (declination 0)) in *. set (sd := sin (declination 0)) in *.
  assert (0 <= sin (pi_s / 2) * - cos pi_s) by (apply Rmult_le_pos; lra). nra.
Qed.
Lemma noon_up : -1 < up (sun 0 (declination 0) 0) < 1.
Proof. destruct dec_trig as [C _]. unfold sun. cbn [up]. rewrite cos_0, sin_0. lra. Qed.
Lemma days_range : forall k, (k < 12)%nat -> (28 <= days_of (Z.of_nat k + 1) <= 31)%Z.
Proof. intros k H. do 12 (destruct k as [|k]; [vm_compute; split; discriminate|]). lia. Qed.
Lemma frame_exists : exists frame, timeFrame = Ok frame.
Proof. destruct timeFrame_spec as (f&H&_). exists f. exact H. Qed.
Lemma solar_case : exists frame (s : solar xr), timeFrame = Ok frame /\ newSolar (site 0) PI_ = Ok s /\ year_table beam_year.
Proof.
  destruct frame_exists as [f Hf]. destruct (newSolar_site (site 0) PI_ (Fin 0) (Fin 0) 0%Z eq_refl) as [s Hs].
  exists f, s. split; [exact Hf|]. split; [exact Hs|exact beam_table].
Qed.
