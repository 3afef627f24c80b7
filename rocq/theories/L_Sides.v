From Coq Require Import ZArith Lia Reals Lra Psatz.
From Verif Require Import Base Num Xr M_TimeFrame M_Epw M_Solar S_Calendar S_Solar S_Epw S_Sides L_Xr L_Calendar L_HourlyShape L_Epw L_Solar L_Solar2 L_Solar3 L_SolarR L_Solar4 L_Solar5 L_Solar6.
Open Scope R_scope.
Open Scope list_scope.

Lemma year_cell : forall lat lon tz tilt eb ed r i j gam, calculated_year lat lon tz tilt eb ed r ->
  (i < slices)%nat -> nth_error azimuths j = Some gam -> off_zenith (sun_in lat lon tz i) ->
  cell (so_eglobe r) i j = Some (Fin (irradiance (sun_in lat lon tz i) (tilt / 2) gam 0.14 (nth i eb 0) (nth i ed 0))).
Proof.
  intros lat lon tz tilt eb ed r i j gam (frame&e&s0&s&datas&dbt&dpt&rh&egh&wind&TF&SI&NE&DS&HI&TA&CA) LI NJ OZ.
  exact (eglobe_cell frame e tilt lat lon tz s0 s r datas dbt dpt rh egh wind eb ed TF SI NE DS HI TA CA i j gam LI NJ OZ).
Qed.

Lemma trig_abs : forall x, -1 <= cos x <= 1 /\ -1 <= sin x <= 1.
Proof. intros x. split; [apply COS_bound|apply SIN_bound]. Qed.
Lemma dec_bound : forall g, - (1/2) < declination g < 1/2.
Proof.
  intros g. unfold declination. pose proof (trig_abs g). pose proof (trig_abs (2 * g)). pose proof (trig_abs (3 * g)). lra.
Qed.
Lemma dec_cos : forall g, 0 < cos (declination g).
Proof. intros g. pose proof (dec_bound g). pose proof PI2_3_2. apply cos_gt_0; lra. Qed.

Lemma sun_in_eq : forall lat lon tz i, sun_in lat lon tz i =
  sun (rad lat) (declination (day_angle (INR (i / 24)))) ((solar_time lon tz i - 12) * pi_s / 12).
Proof. intros. unfold sun_in, sun_at, hour_angle, solar_time. cbv zeta. f_equal. lra. Qed.

Lemma west_morning : forall lat lon tz i, 0 < solar_time lon tz i < 12 -> west (sun_in lat lon tz i) < 0.
Proof.
  intros lat lon tz i H. rewrite sun_in_eq. unfold sun. cbn [west]. pose proof (dec_cos (day_angle (INR (i / 24)))) as D.
  set (t := solar_time lon tz i) in *. pose proof pi_pos. pose proof pi_lt.
  assert (0 < sin ((12 - t) * pi_s / 12)). { apply sin_gt_0; [apply Rmult_lt_0_compat; [|lra]; apply Rmult_lt_0_compat; lra|nra]. }
  replace ((t - 12) * pi_s / 12) with (- ((12 - t) * pi_s / 12)) by lra. rewrite sin_neg. nra.
Qed.
Lemma west_afternoon : forall lat lon tz i, 12 < solar_time lon tz i < 24 -> 0 < west (sun_in lat lon tz i).
Proof.
  intros lat lon tz i H. rewrite sun_in_eq. unfold sun. cbn [west]. pose proof (dec_cos (day_angle (INR (i / 24)))) as D.
  set (t := solar_time lon tz i) in *. pose proof pi_pos. pose proof pi_lt.
  assert (0 < sin ((t - 12) * pi_s / 12)). { apply sin_gt_0; [apply Rmult_lt_0_compat; [|lra]; apply Rmult_lt_0_compat; lra|nra]. }
  nra.
Qed.
Lemma off_west : forall lat lon tz i, west (sun_in lat lon tz i) <> 0 -> off_zenith (sun_in lat lon tz i).
Proof.
  intros lat lon tz i H. unfold off_zenith. pose proof (sun_unit (rad lat) (declination (day_angle (INR (i / 24)))) ((solar_time lon tz i - 12) * pi_s / 12)) as U.
  rewrite <- sun_in_eq in U. unfold unit_vector, dot in U. set (d := sun_in lat lon tz i) in *.
  assert (0 < west d * west d) by nra. nra.
Qed.

Lemma factor_mono : forall c d, -1 <= c -> c <= d -> d <= 1 -> sky_factor c <= sky_factor d.
Proof.
  intros c d H1 H2 H3. unfold sky_factor. apply Rmax_lub; [apply Rmax_l|].
  destruct (Rle_dec c (-3/10)) as [A|A].
  - apply Rle_trans with 0.45; [|apply Rmax_l]. nra.
  - apply Rle_trans with (0.55 + 0.437 * d + 0.313 * (d * d)); [nra|apply Rmax_r].
Qed.
Lemma irradiance_mono : forall s tilt g h rho eb ed, unit_vector s -> 0 <= sin tilt -> 0 <= eb -> 0 <= ed ->
  dot s (normal tilt g) <= dot s (normal tilt h) ->
  irradiance s tilt g rho eb ed <= irradiance s tilt h rho eb ed /\
  (0 < eb -> 0 < dot s (normal tilt h) -> dot s (normal tilt g) < dot s (normal tilt h) -> irradiance s tilt g rho eb ed < irradiance s tilt h rho eb ed).
Proof.
  intros s tilt g h rho eb ed U S B D L. unfold irradiance. cbv zeta.
  pose proof (dot_bound _ _ U (normal_unit tilt g)) as B1. pose proof (dot_bound _ _ U (normal_unit tilt h)) as B2.
  set (c := dot s (normal tilt g)) in *. set (d := dot s (normal tilt h)) in *.
  pose proof (factor_mono c d (proj1 B1) L (proj2 B2)) as F.
  assert (P : diffuse_on tilt ed (sky_factor c) <= diffuse_on tilt ed (sky_factor d)).
  { unfold diffuse_on. assert (ed * sky_factor c * sin tilt <= ed * sky_factor d * sin tilt) by (apply Rmult_le_compat_r; [exact S|apply Rmult_le_compat_l; assumption]).
    destruct (Rlt_dec (pi_s / 2) tilt); [assumption|]. lra. }
  split.
  - assert (eb * Rmax c 0 <= eb * Rmax d 0). { apply Rmult_le_compat_l; [exact B|]. unfold Rmax. destruct (Rle_dec c 0), (Rle_dec d 0); lra. }
    lra.
  - intros E H HL. assert (eb * Rmax c 0 < eb * Rmax d 0). { apply Rmult_lt_compat_l; [exact E|]. unfold Rmax. destruct (Rle_dec c 0), (Rle_dec d 0); lra. }
    lra.
Qed.

Lemma mirror_azimuth : forall a b, In (a, b) mirrored_walls -> exists g, 0 < g < PI /\ nth_error azimuths a = Some (- g) /\ nth_error azimuths b = Some g.
Proof.
  intros a b I. pose proof pi_pos. pose proof pi_lt.
  destruct I as [I|[I|[I|[]]]]; injection I as <- <-; [exists (pi_s / 4)|exists (pi_s / 2)|exists (3 * pi_s / 4)];
    (split; [lra|]); (split; [cbn [nth_error azimuths]; f_equal; lra|cbn [nth_error azimuths]; f_equal; lra]).
Qed.
Lemma mirror_dot : forall s tilt g, dot s (normal tilt (- g)) - dot s (normal tilt g) = - 2 * west s * (sin tilt * sin g).
Proof. intros. unfold dot, normal. cbn [south west up]. rewrite cos_neg, sin_neg. lra. Qed.

Lemma nth_nonneg : forall l i, Forall (Rle 0) l -> 0 <= nth i l 0.
Proof.
  intros l i H. destruct (nth_in_or_default i l 0) as [I|E]; [|rewrite E; lra].
  rewrite Forall_forall in H. apply H. exact I.
Qed.

Lemma C85_morning_l : forall lat lon tz tilt eb ed r i east west',
  calculated_year lat lon tz tilt eb ed r -> Forall (Rle 0) eb -> Forall (Rle 0) ed -> 0 <= tilt / 2 <= PI ->
  (i < slices)%nat -> In (east, west') mirrored_walls -> 0 < solar_time lon tz i < 12 ->
  exists x y gam, nth_error azimuths east = Some gam /\ cell (so_eglobe r) i east = Some (Fin x) /\ cell (so_eglobe r) i west' = Some (Fin y) /\ y <= x /\
    (0 < nth i eb 0 -> 0 < tilt / 2 < PI -> 0 < dot (sun_in lat lon tz i) (normal (tilt / 2) gam) -> y < x).
Proof.
  intros lat lon tz tilt eb ed r i a b CY HB HD HT LI IN ST.
  pose proof (west_morning lat lon tz i ST) as W. assert (OZ : off_zenith (sun_in lat lon tz i)) by (apply off_west; lra).
  destruct (mirror_azimuth a b IN) as (g&G&NA&NB). assert (SG : 0 < sin g) by (apply sin_gt_0; lra).
  assert (ST0 : 0 <= sin (tilt / 2)) by (apply sin_ge_0; lra).
  eexists _, _, (- g). split; [exact NA|]. split; [exact (year_cell _ _ _ _ _ _ _ i a _ CY LI NA OZ)|]. split; [exact (year_cell _ _ _ _ _ _ _ i b _ CY LI NB OZ)|].
  pose proof (mirror_dot (sun_in lat lon tz i) (tilt / 2) g) as MD.
  assert (U : unit_vector (sun_in lat lon tz i)) by (rewrite sun_in_eq; apply sun_unit).
  assert (0 <= sin (tilt / 2) * sin g) by (apply Rmult_le_pos; lra).
  destruct (irradiance_mono (sun_in lat lon tz i) (tilt / 2) g (- g) 0.14 (nth i eb 0) (nth i ed 0) U ST0 (nth_nonneg eb i HB) (nth_nonneg ed i HD)) as [L S]; [nra|].
  split; [exact L|]. intros E T0 D0. apply S; [exact E|exact D0|].
  assert (0 < sin (tilt / 2)) by (apply sin_gt_0; lra). assert (0 < sin (tilt / 2) * sin g) by (apply Rmult_lt_0_compat; lra). nra.
Qed.
Lemma C85_afternoon_l : forall lat lon tz tilt eb ed r i east west',
  calculated_year lat lon tz tilt eb ed r -> Forall (Rle 0) eb -> Forall (Rle 0) ed -> 0 <= tilt / 2 <= PI ->
  (i < slices)%nat -> In (east, west') mirrored_walls -> 12 < solar_time lon tz i < 24 ->
  exists x y gam, nth_error azimuths west' = Some gam /\ cell (so_eglobe r) i west' = Some (Fin x) /\ cell (so_eglobe r) i east = Some (Fin y) /\ y <= x /\
    (0 < nth i eb 0 -> 0 < tilt / 2 < PI -> 0 < dot (sun_in lat lon tz i) (normal (tilt / 2) gam) -> y < x).
Proof.
  intros lat lon tz tilt eb ed r i a b CY HB HD HT LI IN ST.
  pose proof (west_afternoon lat lon tz i ST) as W. assert (OZ : off_zenith (sun_in lat lon tz i)) by (apply off_west; lra).
  destruct (mirror_azimuth a b IN) as (g&G&NA&NB). assert (SG : 0 < sin g) by (apply sin_gt_0; lra).
  assert (ST0 : 0 <= sin (tilt / 2)) by (apply sin_ge_0; lra).
  eexists _, _, g. split; [exact NB|]. split; [exact (year_cell _ _ _ _ _ _ _ i b _ CY LI NB OZ)|]. split; [exact (year_cell _ _ _ _ _ _ _ i a _ CY LI NA OZ)|].
  pose proof (mirror_dot (sun_in lat lon tz i) (tilt / 2) g) as MD.
  assert (U : unit_vector (sun_in lat lon tz i)) by (rewrite sun_in_eq; apply sun_unit).
  assert (0 <= sin (tilt / 2) * sin g) by (apply Rmult_le_pos; lra).
  destruct (irradiance_mono (sun_in lat lon tz i) (tilt / 2) (- g) g 0.14 (nth i eb 0) (nth i ed 0) U ST0 (nth_nonneg eb i HB) (nth_nonneg ed i HD)) as [L S]; [nra|].
  split; [exact L|]. intros E T0 D0. apply S; [exact E|exact D0|].
  assert (0 < sin (tilt / 2)) by (apply sin_gt_0; lra). assert (0 < sin (tilt / 2) * sin g) by (apply Rmult_lt_0_compat; lra). nra.
Qed.

(** Two hours of one day at the same distance from solar noon. *)
Lemma sun_mirror : forall lat lon tz i i', (i / 24 = i' / 24)%nat -> solar_time lon tz i + solar_time lon tz i' = 24 ->
  south (sun_in lat lon tz i') = south (sun_in lat lon tz i) /\ west (sun_in lat lon tz i') = - west (sun_in lat lon tz i) /\ up (sun_in lat lon tz i') = up (sun_in lat lon tz i).
Proof.
  intros lat lon tz i i' D S. rewrite !sun_in_eq, <- D.
  replace ((solar_time lon tz i' - 12) * pi_s / 12) with (- ((solar_time lon tz i - 12) * pi_s / 12)) by (replace (solar_time lon tz i') with (24 - solar_time lon tz i) by lra; lra).
  unfold sun. cbn [south west up]. rewrite cos_neg, sin_neg. repeat split; lra.
Qed.
Lemma irradiance_mirror : forall s s' tilt g rho eb ed, south s' = south s -> west s' = - west s -> up s' = up s ->
  irradiance s' tilt g rho eb ed = irradiance s tilt (- g) rho eb ed.
Proof.
  intros s s' tilt g rho eb ed E1 E2 E3. unfold irradiance. cbv zeta.
  replace (dot s' (normal tilt g)) with (dot s (normal tilt (- g))); [rewrite E3; reflexivity|].
  unfold dot, normal. cbn [south west up]. rewrite E1, E2, E3, cos_neg, sin_neg. lra.
Qed.
Lemma C85_mirror_l : forall lat lon tz tilt eb ed r i i' a b,
  calculated_year lat lon tz tilt eb ed r -> (i < slices)%nat -> (i' < slices)%nat -> (i / 24 = i' / 24)%nat ->
  solar_time lon tz i + solar_time lon tz i' = 24 -> off_zenith (sun_in lat lon tz i) ->
  nth i eb 0 = nth i' eb 0 -> nth i ed 0 = nth i' ed 0 -> In (a, b) ((0, 0)%nat :: mirrored_walls) ->
  exists x y, cell (so_eglobe r) i a = Some (Fin x) /\ cell (so_eglobe r) i' b = Some (Fin x) /\
    cell (so_eglobe r) i b = Some (Fin y) /\ cell (so_eglobe r) i' a = Some (Fin y).
Proof.
  intros lat lon tz tilt eb ed r i i' a b CY LI LI' DD TT OZ EB ED IN.
  destruct (sun_mirror lat lon tz i i' DD TT) as (M1&M2&M3).
  assert (OZ' : off_zenith (sun_in lat lon tz i')) by (unfold off_zenith in *; rewrite M3; exact OZ).
  assert (X : exists g, nth_error azimuths a = Some (- g) /\ nth_error azimuths b = Some g).
  { destruct IN as [IN|IN]; [injection IN as <- <-; exists 0; split; [cbn; f_equal; lra|reflexivity]|].
    destruct (mirror_azimuth a b IN) as (g&_&NA&NB). exists g. split; assumption. }
  destruct X as (g&NA&NB). eexists _, _. split; [exact (year_cell _ _ _ _ _ _ _ i a _ CY LI NA OZ)|].
  rewrite (year_cell _ _ _ _ _ _ _ i' b _ CY LI' NB OZ'), (year_cell _ _ _ _ _ _ _ i' a _ CY LI' NA OZ').
  rewrite (irradiance_mirror _ _ (tilt / 2) g 0.14 _ _ M1 M2 M3), (irradiance_mirror _ _ (tilt / 2) (- g) 0.14 _ _ M1 M2 M3), Ropp_involutive, <- EB, <- ED.
  split; [reflexivity|]. split; [exact (year_cell _ _ _ _ _ _ _ i b _ CY LI NB OZ)|reflexivity].
Qed.

(** ** Linearity *)
Lemma combined_nth : forall a b xs ys zs i, combined a b xs ys zs -> nth i zs 0 = a * nth i xs 0 + b * nth i ys 0.
Proof.
  intros a b xs ys zs i [L ->]. revert ys L i. induction xs as [|x xs IH]; intros [|y ys] L i; try discriminate; [destruct i; cbn; lra|].
  injection L as L. destruct i; [reflexivity|]. cbn [combine map nth]. apply IH. exact L.
Qed.
Lemma irradiance_linear : forall s tilt g rho a b eb1 ed1 eb2 ed2,
  irradiance s tilt g rho (a * eb1 + b * eb2) (a * ed1 + b * ed2) = a * irradiance s tilt g rho eb1 ed1 + b * irradiance s tilt g rho eb2 ed2.
Proof. intros. unfold irradiance, diffuse_on. cbv zeta. destruct (Rlt_dec (pi_s / 2) tilt); field. Qed.
Lemma azimuth_at : forall j, (j < 8)%nat -> exists g, nth_error azimuths j = Some g.
Proof. intros j H. destruct (nth_error azimuths j) as [g|] eqn:E; [exists g; reflexivity|]. apply nth_error_None in E. cbn in E. lia. Qed.
Lemma C86_hours_l : forall lat lon tz tilt a b eb1 ed1 eb2 ed2 eb ed r1 r2 r i j,
  calculated_year lat lon tz tilt eb1 ed1 r1 -> calculated_year lat lon tz tilt eb2 ed2 r2 -> calculated_year lat lon tz tilt eb ed r ->
  combined a b eb1 eb2 eb -> combined a b ed1 ed2 ed -> (i < slices)%nat -> (j < 8)%nat -> off_zenith (sun_in lat lon tz i) ->
  exists x1 x2, cell (so_eglobe r1) i j = Some (Fin x1) /\ cell (so_eglobe r2) i j = Some (Fin x2) /\ cell (so_eglobe r) i j = Some (Fin (a * x1 + b * x2)).
Proof.
  intros lat lon tz tilt a b eb1 ed1 eb2 ed2 eb ed r1 r2 r i j Y1 Y2 Y CB CD LI LJ OZ. destruct (azimuth_at j LJ) as [g NJ].
  eexists _, _. split; [exact (year_cell _ _ _ _ _ _ _ i j _ Y1 LI NJ OZ)|]. split; [exact (year_cell _ _ _ _ _ _ _ i j _ Y2 LI NJ OZ)|].
  rewrite (year_cell _ _ _ _ _ _ _ i j _ Y LI NJ OZ), (combined_nth a b _ _ _ i CB), (combined_nth a b _ _ _ i CD), irradiance_linear. reflexivity.
Qed.

(** Outside the tropics the sun is never at the zenith. *)
Lemma off_tropics : forall lat lon tz i, 29 <= Rabs lat <= 90 -> off_zenith (sun_in lat lon tz i).
Proof.
  intros lat lon tz i H. rewrite sun_in_eq. set (ha := (solar_time lon tz i - 12) * pi_s / 12). set (d := declination (day_angle (INR (i / 24)))).
  assert (D : - (1/2) < d < 1/2) by apply dec_bound. assert (DC : 0 < cos d) by apply dec_cos.
  assert (P3 : 3.14 < pi_s) by (unfold pi_s; lra). pose proof pi_lt as PL. pose proof PI_4 as P4.
  assert (Q : 1/2 < Rabs (rad lat) <= PI / 2). { unfold rad. replace (lat * pi_s / 180) with (lat * (pi_s / 180)) by lra. rewrite Rabs_mult, (Rabs_right (pi_s / 180)) by lra. nra. }
  assert (CL : 0 <= cos (rad lat)). { rewrite <- cos_abs. apply cos_ge_0; lra. }
  unfold off_zenith, sun. cbn [up].
  pose proof (COS_bound ha) as [C1 C2]. assert (CC : 0 <= cos (rad lat) * cos d) by (apply Rmult_le_pos; lra).
  assert (U : cos (rad lat) * (cos d * cos ha) + sin (rad lat) * sin d <= cos (rad lat - d)) by (rewrite cos_minus; nra).
  assert (L : - cos (rad lat + d) <= cos (rad lat) * (cos d * cos ha) + sin (rad lat) * sin d) by (rewrite cos_plus; nra).
  assert (K : forall x, 0 < Rabs x < PI -> cos x < 1).
  { intros x X. rewrite <- cos_abs. rewrite <- cos_0. apply cos_decreasing_1; lra. }
  assert (K1 : cos (rad lat - d) < 1) by (apply K; unfold Rabs in *; destruct (Rcase_abs (rad lat)), (Rcase_abs (rad lat - d)); lra).
  assert (K2 : cos (rad lat + d) < 1) by (apply K; unfold Rabs in *; destruct (Rcase_abs (rad lat)), (Rcase_abs (rad lat + d)); lra).
  lra.
Qed.

(** ** The monthly means *)
Lemma eglobe_length : forall lat lon tz tilt eb ed r, calculated_year lat lon tz tilt eb ed r -> length (so_eglobe r) = slices.
Proof.
  intros lat lon tz tilt eb ed r (frame&e&s0&s&datas&dbt&dpt&rh&egh&wind&TF&SI&NE&DS&HI&TA&CA).
  pose proof (timeFrame_good frame TF) as GF. destruct (history_ok frame GF datas s0 s DS (newSolar_shape _ _ _ NE) HI) as [SH CO].
  destruct (columns _ TA) as (c1&c2&c3&c4&c5&c6&c7&EQ&FC). injection EQ as <- <- <- <- <- <- <-.
  rewrite (calculate_ok frame s) in CA by assumption.
  assert (E' : r = calculated s dbt dpt rh egh (map Fin eb) (map Fin ed) wind) by congruence.
  rewrite E'. unfold calculated. cbn [so_eglobe]. rewrite map_length, seq_length. reflexivity.
Qed.
Definition wall_year (lat lon : R) (tz : Z) (tilt g : R) (eb ed : list R) : list R :=
  map (fun i => irradiance (sun_in lat lon tz i) (tilt / 2) g 0.14 (nth i eb 0) (nth i ed 0)) (seq 0 slices).
Lemma series_fin : forall lat lon tz tilt eb ed r j g, calculated_year lat lon tz tilt eb ed r -> (forall i, off_zenith (sun_in lat lon tz i)) ->
  nth_error azimuths j = Some g -> surface_series j (so_eglobe r) = map Fin (wall_year lat lon tz tilt g eb ed).
Proof.
  intros lat lon tz tilt eb ed r j g CY OZ NJ. pose proof (eglobe_length _ _ _ _ _ _ _ CY) as LE. unfold surface_series, wall_year.
  apply nth_error_ext. intros i. destruct (Nat.lt_ge_cases i slices) as [LI|GE].
  - pose proof (year_cell _ _ _ _ _ _ _ i j g CY LI NJ (OZ i)) as C. unfold cell in C.
    rewrite !nth_error_map. rewrite (@nth_error_nth' nat (seq 0 slices) i 0%nat) by (rewrite seq_length; exact LI). rewrite seq_nth by exact LI. cbn [option_map].
    destruct (nth_error (so_eglobe r) i) as [row|]; [|discriminate]. cbn [option_map]. f_equal. change (0 + i)%nat with i. apply nth_error_nth. exact C.
  - rewrite (proj2 (nth_error_None _ i)), (proj2 (nth_error_None _ i)); [reflexivity| |]; rewrite !map_length, ?seq_length; lia.
Qed.
Lemma mean_linear : forall a b (f g : nat -> R) l, mean (map (fun i => a * f i + b * g i) l) = a * mean (map f l) + b * mean (map g l).
Proof.
  intros a b f g l. unfold mean. rewrite !map_length. unfold Rdiv. generalize (/ INR (length l)). intros q.
  replace (fold_right Rplus 0 (map (fun i => a * f i + b * g i) l)) with (a * fold_right Rplus 0 (map f l) + b * fold_right Rplus 0 (map g l)); [lra|].
  induction l as [|x l IH]; cbn [map fold_right]; lra.
Qed.
Lemma C86_months_l : forall lat lon tz tilt a b eb1 ed1 eb2 ed2 eb ed r1 r2 r k j,
  calculated_year lat lon tz tilt eb1 ed1 r1 -> calculated_year lat lon tz tilt eb2 ed2 r2 -> calculated_year lat lon tz tilt eb ed r ->
  combined a b eb1 eb2 eb -> combined a b ed1 ed2 ed -> (k < 12)%nat -> (j < 8)%nat -> (forall i, off_zenith (sun_in lat lon tz i)) ->
  exists x1 x2, cell (av_msol (so_avg r1)) k j = Some (Fin x1) /\ cell (av_msol (so_avg r2)) k j = Some (Fin x2) /\
    cell (av_msol (so_avg r)) k j = Some (Fin (a * x1 + b * x2)).
Proof.
  intros lat lon tz tilt a b eb1 ed1 eb2 ed2 eb ed r1 r2 r k j Y1 Y2 Y CB CD LK LJ OZ. destruct (azimuth_at j LJ) as [g NJ].
  assert (M : forall eb ed r, calculated_year lat lon tz tilt eb ed r -> cell (av_msol (so_avg r)) k j = Some (Fin (mean (month_part (Z.of_nat k + 1) (wall_year lat lon tz tilt g eb ed))))).
  { clear eb ed r Y CB CD Y1 Y2. intros eb ed r Y. pose proof Y as (frame&e&s0&s&datas&dbt&dpt&rh&egh&wind&TF&SI&NE&DS&HI&TA&CA).
    destruct (C39_calculated_l frame e (Fin tilt) s0 datas s dbt dpt rh egh (map Fin eb) (map Fin ed) wind TF NE DS HI TA) as (r'&CA'&_&_&_&_&_&_&_&_&C).
    assert (r' = r) as -> by congruence. rewrite (C k j LK LJ), (series_fin _ _ _ _ _ _ _ j g Y OZ NJ).
    apply monthly_mean_fin; [|exact LK]. unfold wall_year. rewrite map_length, seq_length. reflexivity. }
  eexists _, _. split; [exact (M _ _ _ Y1)|]. split; [exact (M _ _ _ Y2)|]. rewrite (M _ _ _ Y). do 2 f_equal.
  assert (N : forall eb ed, month_part (Z.of_nat k + 1) (wall_year lat lon tz tilt g eb ed) = map (fun i => nth i (wall_year lat lon tz tilt g eb ed) 0) (hours_of k)).
  { intros. apply month_part_seq; [exact LK|]. unfold wall_year. rewrite map_length, seq_length. reflexivity. }
  rewrite !N, <- mean_linear. f_equal. apply map_ext_in. intros i I.
  destruct (Nat.lt_ge_cases i slices) as [LI|GE].
  - assert (V : forall eb ed, nth i (wall_year lat lon tz tilt g eb ed) 0 = irradiance (sun_in lat lon tz i) (tilt / 2) g 0.14 (nth i eb 0) (nth i ed 0)).
    { intros. apply nth_error_nth. unfold wall_year. rewrite nth_error_map. rewrite (@nth_error_nth' nat (seq 0 slices) i 0%nat) by (rewrite seq_length; exact LI). rewrite seq_nth by exact LI. reflexivity. }
    rewrite !V, (combined_nth a b _ _ _ i CB), (combined_nth a b _ _ _ i CD). apply irradiance_linear.
  - assert (V : forall eb ed, nth i (wall_year lat lon tz tilt g eb ed) 0 = 0).
    { intros. apply nth_overflow. unfold wall_year. rewrite map_length, seq_length. exact GE. }
    rewrite !V. lra.
Qed.

(** ** Cases *)
Lemma year_exists_l : forall lat lon tz tilt eb ed, length eb = slices -> length ed = slices -> exists r, calculated_year lat lon tz tilt eb ed r.
Proof.
  intros lat lon tz tilt eb ed LB LD. destruct frame_exists as [frame TF]. pose proof (timeFrame_good frame TF) as GF.
  set (e := mkEpw [] [] (Some (Fin lat, Fin lon, tz)) (ep_data newEpw) : epw xr).
  destruct (newSolar_site e (Fin tilt) _ _ _ eq_refl) as [s0 N0]. set (z := repeat (Fin 0) slices).
  assert (TA : year_table [z; z; z; z; map Fin eb; map Fin ed; z]).
  { split; [reflexivity|]. unfold z. repeat (apply Forall_cons; [rewrite ?map_length, ?repeat_length, ?LB, ?LD; apply slices_Z|]). apply Forall_nil. }
  destruct (columns _ TA) as (c1&c2&c3&c4&c5&c6&c7&EQ&FC).
  exists (calculated s0 c1 c2 c3 c4 c5 c6 c7), frame, e, s0, s0, [], z, z, z, z, z.
  split; [exact TF|]. split; [reflexivity|]. split; [exact N0|]. split; [constructor|]. split; [reflexivity|]. split; [exact TA|].
  rewrite EQ. apply calculate_ok; [exact GF|eapply newSolar_shape; exact N0|exact FC].
Qed.
(** At longitude [noon_zero] in time zone 0 solar time is clock time on the first day. *)
Lemma first_day : forall h, (h < 24)%nat -> solar_time noon_zero 0 h = INR h.
Proof.
  intros h H. unfold solar_time. rewrite Nat.mod_small, Nat.div_small by exact H. change (INR 0) with 0.
  replace (day_angle 0) with 0 by (unfold day_angle; lra). unfold rad, noon_zero. pose proof pi_pos. generalize (equation_of_time 0). intros q. field. lra.
Qed.
Lemma six_eighteen : 0 < solar_time noon_zero 0 6 < 12 /\ 12 < solar_time noon_zero 0 18 < 24 /\ solar_time noon_zero 0 6 + solar_time noon_zero 0 18 = 24 /\
  (6 / 24 = 18 / 24)%nat /\ (18 < slices)%nat.
Proof.
  rewrite !first_day by lia. rewrite !INR_IZR_INZ. cbn [Z.of_nat Pos.of_succ_nat Pos.succ]. pose proof slices_Z. repeat split; try lra; lia.
Qed.
