(** SolarRadiation on finite weather: the computed irradiance is the geometric one. *)
From Coq Require Import ZArith Lia Reals Lra Psatz.
From Verif Require Import Base Num Xr M_TimeFrame M_Epw M_Solar S_Solar L_Xr L_Solar3 L_SolarR.
Open Scope R_scope.

Ltac xfin := repeat first [rewrite zn_fin | rewrite lit_fin | rewrite add_fin | rewrite sub_fin | rewrite mul_fin | rewrite opp_fin | rewrite abs_fin
  | rewrite max_fin | rewrite sin_fin | rewrite cos_fin | rewrite atan2_fin].
Ltac rn := cbv [zn]; cbn [lit nadd nsub nmul ndiv nopp nabs nlt neqb npow nsin ncos nasin nacos natan2 R_num]; cbv [Rlit]; rewrite ?nmax_R.

Lemma pi_pos : 0 < pi_s.
Proof. unfold pi_s. lra. Qed.
Lemma pi_lt : pi_s < PI.
Proof. exact PI_below. Qed.

Section Finite.
Variables tilt mer lon lat rho : R.
Variable g : list (list xr).
Variable a : averages xr.
Let s : solar xr := mkSolar (Fin tilt) (Fin mer) (Fin lon) (Fin lat) (Fin rho) g a.

Lemma PI_fin : PI_ = Fin pi_s.
Proof. reflexivity. Qed.
Lemma rev_fin : forall day, revolutionAngle day = Fin (day_angle (IZR day)).
Proof.
  intros day. unfold revolutionAngle. rewrite PI_fin. xfin. rewrite div_fin by (rn; lra). f_equal. unfold day_angle. rn. lra.
Qed.
Lemma eot_fin : forall r, equationOfTime (Fin r) = Fin (equation_of_time r).
Proof.
  intros r. unfold equationOfTime. xfin. f_equal. unfold equation_of_time. rn. replace (2 / 1 * r) with (2 * r) by lra. lra.
Qed.
Lemma dec_fin : forall r, solarDeclination (Fin r) = Fin (declination r).
Proof.
  intros r. unfold solarDeclination. xfin. f_equal. unfold declination. rn. replace (2 / 1 * r) with (2 * r) by lra. replace (3 / 1 * r) with (3 * r) by lra. lra.
Qed.
Lemma ha_fin : forall gg hour, solarHourAngle (apparentSolarTime s hour (Fin (equation_of_time gg))) = Fin (hour_angle lon mer gg (IZR hour)).
Proof.
  intros gg hour. unfold solarHourAngle, apparentSolarTime. cbn [s so_lon so_meridian]. rewrite PI_fin. pose proof pi_pos as PP.
  xfin. rewrite !div_fin by (rn; lra). xfin. rewrite !div_fin by (rn; lra). f_equal. unfold hour_angle. cbv zeta. rn. field. lra.
Qed.

Lemma alt_fin : forall dec ha, solarAltitude s (Fin dec) (Fin ha) = Fin (altitude lat dec ha).
Proof.
  intros dec ha. unfold solarAltitude. cbn [s so_lat]. xfin.
  assert (E : (ncos lat * ncos dec * ncos ha + nsin lat * nsin dec)%num = up (sun lat dec ha)) by (unfold sun; cbn [up]; rn; ring).
  rewrite E. rewrite asin_fin by apply up_bound. reflexivity.
Qed.
Lemma az_sin_fin : forall dec ha, cos (altitude lat dec ha) <> 0 ->
  solarAzimuthSin (Fin dec) (Fin ha) (Fin (altitude lat dec ha)) = Fin (west (sun lat dec ha) / cos (altitude lat dec ha)).
Proof.
  intros dec ha H. unfold solarAzimuthSin. xfin. rewrite div_fin by exact H. f_equal. unfold sun. cbn [west]. rn. f_equal. ring.
Qed.
Lemma az_cos_fin : forall dec ha, cos (altitude lat dec ha) <> 0 ->
  solarAzimuthCos s (Fin dec) (Fin ha) (Fin (altitude lat dec ha)) = Fin (south (sun lat dec ha) / cos (altitude lat dec ha)).
Proof.
  intros dec ha H. unfold solarAzimuthCos. cbn [s so_lat]. xfin. rewrite div_fin by exact H. f_equal. unfold sun. cbn [south]. rn. f_equal. ring.
Qed.
Lemma az_fin : forall dec ha, cos (altitude lat dec ha) <> 0 ->
  solarAzimuth (solarAzimuthSin (Fin dec) (Fin ha) (Fin (altitude lat dec ha))) (solarAzimuthCos s (Fin dec) (Fin ha) (Fin (altitude lat dec ha))) = Fin (azimuth lat dec ha).
Proof. intros dec ha H. unfold solarAzimuth. rewrite az_sin_fin, az_cos_fin by exact H. reflexivity. Qed.

Lemma aoi_fin : forall alt az gam, angleOfIncidence (Fin alt) (surfaceSolarAzimuth (Fin az) (Fin gam)) (Fin tilt) =
  Fin (acos (dot (sky alt az) (normal tilt gam))).
Proof.
  intros alt az gam. unfold angleOfIncidence, surfaceSolarAzimuth. xfin.
  assert (E : (ncos alt * ncos (nabs (az - gam)) * nsin tilt + nsin alt * ncos tilt)%num = dot (sky alt az) (normal tilt gam)) by (rn; apply incidence_dot).
  rewrite E. rewrite acos_fin by (apply dot_bound; [apply sky_unit|apply normal_unit]). reflexivity.
Qed.
Lemma cos_aoi : forall alt az gam, cos (acos (dot (sky alt az) (normal tilt gam))) = dot (sky alt az) (normal tilt gam).
Proof. intros. apply cos_acos. apply dot_bound; [apply sky_unit|apply normal_unit]. Qed.
Lemma factor_fin : forall x, diffuseFactor (Fin x) = Fin (sky_factor (cos x)).
Proof.
  intros x. unfold diffuseFactor. rewrite cos_fin. change (@zn xr _ 2) with (Fin (Rlit 2 1)).
  replace (Rlit 2 1) with 2 by (unfold Rlit; lra). rewrite pow_two. xfin. f_equal. unfold sky_factor. rn. f_equal; lra.
Qed.
Lemma direct_fin : forall eb x, totalDirect (Fin eb) (Fin x) = Fin (eb * Rmax (cos x) 0).
Proof. intros eb x. unfold totalDirect. xfin. f_equal. rn. f_equal. f_equal. lra. Qed.
Lemma diffuse_fin : forall ed y, totalDiffuse (Fin ed) (Fin y) (Fin tilt) = Fin (diffuse_on tilt ed y).
Proof.
  intros ed y. unfold totalDiffuse, diffuse_on. rewrite PI_fin. xfin. rewrite div_fin by (rn; lra). rewrite lt_fin.
  rn. replace (pi_s / (2 / 1)) with (pi_s / 2) by lra. unfold Rltb. destruct (Rlt_dec (pi_s / 2) tilt); reflexivity.
Qed.
Lemma ground_fin : forall eb ed alt, groundReflected (Fin eb) (Fin ed) (Fin rho) (Fin alt) (Fin tilt) =
  Fin ((eb * sin alt + ed) * rho * (1 - cos tilt) / 2).
Proof. intros. unfold groundReflected. xfin. rewrite div_fin by (rn; lra). f_equal. rn. lra. Qed.

(** One surface, given where the sun stands. *)
Lemma surface_fin : forall alt az eb ed gam,
  surfaceIrradiance s (Fin alt) (Fin az) (groundReflected (Fin eb) (Fin ed) (so_rho s) (Fin alt) (so_tilt s)) (Fin eb) (Fin ed) (Fin gam) =
  Fin (irradiance (sky alt az) tilt gam rho eb ed).
Proof.
  intros. unfold surfaceIrradiance, totalIrradiance. cbv zeta. cbn [s so_rho so_tilt]. rewrite aoi_fin, direct_fin, factor_fin, diffuse_fin, ground_fin, cos_aoi.
  xfin. f_equal.
Qed.

Lemma azimuths_fin : SurfaceAzimuths = map Fin azimuths.
Proof.
  unfold SurfaceAzimuths, azimuths. rewrite PI_fin. cbn [map]. xfin.
  rewrite !div_fin by (rn; lra). rn. repeat f_equal; lra.
Qed.

Definition day_hour (i : nat) : R * R := (INR (i / 24), INR (i mod 24)).

Lemma row_fin : forall i eb ed,
  let S := sun_at lat lon mer (INR (i / 24)) (INR (i mod 24)) in
  -1 < up S < 1 ->
  irradiance_row s (clock i) (Fin eb) (Fin ed) = map (fun gam => Fin (irradiance S tilt gam rho eb ed)) azimuths.
Proof.
  intros i eb ed S H. unfold irradiance_row, sunPosition, clock. cbn [tc_ytd tc_hour]. cbv zeta.
  rewrite rev_fin, eot_fin, ha_fin, dec_fin, alt_fin. unfold S, sun_at in H |- *. rewrite !INR_IZR_INZ in H |- *.
  set (dec := declination _) in *. set (ha := hour_angle _ _ _ _) in *.
  assert (NZ : cos (altitude lat dec ha) <> 0).
  { intros C. pose proof (sc (altitude lat dec ha)) as E. rewrite C, sin_altitude in E. nra. }
  rewrite az_fin by exact NZ. rewrite azimuths_fin, map_map. apply map_ext. intros gam. rewrite surface_fin. rewrite sky_sun by exact NZ. reflexivity.
Qed.
End Finite.

(** Bounds. *)
Lemma sky_factor_bounds : forall c, -1 <= c <= 1 -> 0.45 <= sky_factor c <= 1.3.
Proof.
  intros c H. unfold sky_factor. split; [apply Rmax_l|]. apply Rmax_lub; [lra|]. nra.
Qed.
Lemma direct_bounds : forall eb c, 0 <= eb -> -1 <= c <= 1 -> 0 <= eb * Rmax c 0 <= eb.
Proof. intros eb c H1 H2. assert (0 <= Rmax c 0 <= 1) by (split; [apply Rmax_r|apply Rmax_lub; lra]). nra. Qed.
Lemma diffuse_nonneg : forall tilt ed y, 0 <= tilt <= PI -> 0 <= ed -> 0 <= y -> 0 <= diffuse_on tilt ed y.
Proof.
  intros tilt ed y HT HE HY. assert (S : 0 <= sin tilt) by (apply sin_ge_0; lra). unfold diffuse_on. destruct (Rlt_dec (pi_s / 2) tilt).
  - apply Rmult_le_pos; [apply Rmult_le_pos|]; assumption.
  - assert (0 <= cos tilt) by (apply cos_ge_0; pose proof pi_lt; lra). apply Rmult_le_pos; [exact HE|]. assert (0 <= y * sin tilt) by (apply Rmult_le_pos; assumption). lra.
Qed.
Lemma irradiance_nonneg : forall S tilt gam rho eb ed, unit_vector S -> 0 <= up S -> 0 <= tilt <= PI -> 0 <= rho -> 0 <= eb -> 0 <= ed ->
  0 <= irradiance S tilt gam rho eb ed.
Proof.
  intros S tilt gam rho eb ed HS HU HT HR HB HD. unfold irradiance. cbv zeta.
  pose proof (dot_bound S (normal tilt gam) HS (normal_unit tilt gam)) as DB.
  pose proof (direct_bounds eb _ HB DB) as [D1 _]. pose proof (sky_factor_bounds _ DB) as [F1 _].
  pose proof (diffuse_nonneg tilt ed _ HT HD (Rle_trans _ _ _ (ltac:(lra) : 0 <= 0.45) F1)) as DN.
  assert (C : cos tilt <= 1) by apply COS_bound.
  assert (0 <= (eb * up S + ed) * rho * (1 - cos tilt)).
  { apply Rmult_le_pos; [apply Rmult_le_pos; [|exact HR]|lra]. assert (0 <= eb * up S) by (apply Rmult_le_pos; assumption). lra. }
  lra.
Qed.
