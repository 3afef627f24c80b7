(** C39, C40, C41, C42: weather averages, sun position and surface irradiance. *)
From Coq Require Import ZArith Lia Reals Lra.
From Verif Require Import Base Num Xr M_TimeFrame M_Epw M_Solar S_Calendar S_Solar S_Epw L_Calendar L_Solar2 L_Solar3 L_SolarR L_Solar4 L_Solar5 L_Solar6.
Open Scope nat_scope.
Open Scope list_scope.

(** Whatever years were calculated before ([datas]), calculating a year table succeeds and every
    average is the sum over its hours divided by their number; the monthly irradiance of surface [j]
    is the monthly mean of the hourly irradiance of that surface. *)
Theorem C39_calculated : forall T (N : Num T) frame (e : epw T) tilt s0 datas s dbt dpt rh egh eb ed wind,
  timeFrame = Ok frame -> newSolar e tilt = Ok s0 -> Forall year_table datas -> ofold (fun s d => calculate frame d s) datas s0 = Ok s ->
  year_table [dbt; dpt; rh; egh; eb; ed; wind] ->
  exists s', calculate frame [dbt; dpt; rh; egh; eb; ed; wind] s = Ok s' /\
    av_mdbt (so_avg s') = monthly_means dbt /\ av_mdpt (so_avg s') = monthly_means dpt /\ av_mrh (so_avg s') = monthly_means rh /\
    av_megh (so_avg s') = monthly_means egh /\ av_mwind (so_avg s') = monthly_means wind /\
    av_hdbt (so_avg s') = hourly_means dbt /\ av_hdpt (so_avg s') = hourly_means dpt /\ av_hegh (so_avg s') = hourly_means egh /\
    forall k j, k < 12 -> j < 8 -> cell (av_msol (so_avg s')) k j = nth_error (monthly_means (surface_series j (so_eglobe s'))) k.
Proof. exact @C39_calculated_l. Qed.
Print Assumptions C39_calculated.

(** On numbers these are the arithmetic means. *)
Theorem C39_means : forall (xs : list R), length xs = slices ->
  (forall k, k < 12 -> nth_error (monthly_means (map Fin xs)) k = Some (Fin (mean (month_part (Z.of_nat k + 1) xs)))) /\
  (forall k h, k < 12 -> h < 24 -> cell (hourly_means (map Fin xs)) k h = Some (Fin (mean (hour_part (Z.of_nat k + 1) (Z.of_nat h) xs)))).
Proof. intros xs H. exact (conj (fun k => monthly_mean_fin xs k H) (fun k h => hourly_mean_fin xs k h H)). Qed.
Print Assumptions C39_means.

(** A mean lies between any bounds of the values it is taken over. *)
Theorem C39_bounds : forall (l : list R) lo hi, l <> [] -> (forall x, In x l -> lo <= x <= hi)%R -> (lo <= mean l <= hi)%R.
Proof. exact mean_bounds_l. Qed.
Print Assumptions C39_bounds.

(** Every month and every clock hour of it has values. *)
Theorem C39_counts : forall (xs : list R) k h, k < 12 -> h < 24 -> length xs = slices ->
  length (month_part (Z.of_nat k + 1) xs) = Z.to_nat (24 * days_of (Z.of_nat k + 1)) /\
  length (hour_part (Z.of_nat k + 1) (Z.of_nat h) xs) = Z.to_nat (days_of (Z.of_nat k + 1)) /\
  (28 <= days_of (Z.of_nat k + 1) <= 31)%Z.
Proof.
  intros xs k h HK HH HL. exact (conj (month_hours_length R xs k HK HL) (conj (hour_part_length R xs k h HK HH HL) (days_range k HK))).
Qed.
Print Assumptions C39_counts.

(** The monthly mean is the mean of the 24 clock hour means. *)
Theorem C39_hours : forall (xs : list R) m, length xs = slices -> (1 <= m <= 12)%Z ->
  mean (month_part m xs) = mean (map (fun h => mean (hour_part m h xs)) (zrange 0 24)).
Proof. exact hours_mean_l. Qed.
Print Assumptions C39_hours.

(** Calculating again after any number of years gives what a fresh object for the same site and
    tilt gives.  The full property asks for a fresh object for the reloaded weather, whatever its
    site; that is false, as the next theorem shows. *)
Theorem C40_same_site_partial : forall T (N : Num T) frame (e0 e1 : epw T) tilt s0 s1 datas s data,
  timeFrame = Ok frame -> ep_site e0 = ep_site e1 -> newSolar e0 tilt = Ok s0 -> newSolar e1 tilt = Ok s1 ->
  Forall year_table datas -> ofold (fun s d => calculate frame d s) datas s0 = Ok s -> year_table data ->
  calculate frame data s = calculate frame data s1.
Proof. exact @C40_again_l. Qed.
Print Assumptions C40_same_site_partial.

(** The site is read once, in the constructor: with weather of another site the object made before
    the reload gives a different irradiance. *)
Theorem C40_site_refuted : forall frame, timeFrame = Ok frame -> exists (e1 e2 : epw xr) tilt s1 s2 r1 r2 data,
  newSolar e1 tilt = Ok s1 /\ newSolar e2 tilt = Ok s2 /\ year_table data /\
  calculate frame data s1 = Ok r1 /\ calculate frame data s2 = Ok r2 /\ cell (so_eglobe r1) 12 0 <> cell (so_eglobe r2) 12 0.
Proof. exact C40_site_l. Qed.
Print Assumptions C40_site_refuted.

(** The sun: for every latitude, declination and hour angle the altitude is a number in
    [-pi/2, pi/2] whose sine is the height of the sun; off the zenith and nadir the azimuth sine and
    cosine lie on the unit circle, altitude and azimuth point at the sun, and the angle of incidence
    on every surface is a number in [0, pi] whose cosine is the projection on the surface normal. *)
Theorem C41_sun : forall (s : solar xr) lat dec ha, so_lat s = Fin lat -> exists alt,
  solarAltitude s (Fin dec) (Fin ha) = Fin alt /\ (- PI / 2 <= alt <= PI / 2)%R /\ sin alt = S_Solar.up (sun lat dec ha) /\
  ((-1 < S_Solar.up (sun lat dec ha) < 1)%R -> exists sn cs az,
     solarAzimuthSin (Fin dec) (Fin ha) (Fin alt) = Fin sn /\ solarAzimuthCos s (Fin dec) (Fin ha) (Fin alt) = Fin cs /\
     (sn * sn + cs * cs = 1)%R /\ solarAzimuth (Fin sn) (Fin cs) = Fin az /\ (- PI <= az <= PI)%R /\
     sky alt az = sun lat dec ha /\
     forall tilt gam, exists x, angleOfIncidence (Fin alt) (surfaceSolarAzimuth (Fin az) (Fin gam)) (Fin tilt) = Fin x /\
       (0 <= x <= PI)%R /\ cos x = dot (sun lat dec ha) (normal tilt gam)).
Proof. exact C41_l. Qed.
Print Assumptions C41_sun.

(** A sun that is neither at the zenith nor at the nadir. *)
Example C41_case : (-1 < S_Solar.up (sun 0 (declination 0) 0) < 1)%R.
Proof. exact noon_up. Qed.

(** The hourly irradiance of a calculated year is the sum of beam, sky and ground parts for the
    position of the sun at the site (degrees become radians with the source's pi; the surfaces are
    tilted by half of the constructor argument; ground reflectance 0.14). *)
Theorem C42_hourly : forall frame (e : epw xr) tilt lat lon tz s0 s s' datas dbt dpt rh egh wind (eb ed : list R),
  timeFrame = Ok frame -> ep_site e = Some (Fin lat, Fin lon, tz) -> newSolar e (Fin tilt) = Ok s0 ->
  Forall year_table datas -> ofold (fun s d => calculate frame d s) datas s0 = Ok s ->
  year_table [dbt; dpt; rh; egh; map Fin eb; map Fin ed; wind] ->
  calculate frame [dbt; dpt; rh; egh; map Fin eb; map Fin ed; wind] s = Ok s' ->
  forall i j gam, i < slices -> nth_error azimuths j = Some gam ->
  let S := sun_at (rad lat) (rad lon) (rad (IZR tz * 15)) (INR (i / 24)) (INR (i mod 24)) in
  (-1 < S_Solar.up S < 1)%R ->
  cell (so_eglobe s') i j = Some (Fin (irradiance S (tilt / 2) gam 0.14 (nth i eb 0%R) (nth i ed 0%R))).
Proof. exact eglobe_cell. Qed.
Print Assumptions C42_hourly.

(** Bounds of the beam part and of the sky factor. *)
Theorem C42_bounds : forall lat dec ha tilt gam eb, (0 <= eb)%R ->
  let c := dot (sun lat dec ha) (normal tilt gam) in
  (0 <= eb * Rmax c 0 <= eb)%R /\ (0.45 <= sky_factor c <= 1.3)%R.
Proof.
  intros lat dec ha tilt gam eb H. exact (conj (direct_bounds eb _ H (dot_bound _ _ (sun_unit lat dec ha) (normal_unit tilt gam)))
    (sky_factor_bounds _ (dot_bound _ _ (sun_unit lat dec ha) (normal_unit tilt gam)))).
Qed.
Print Assumptions C42_bounds.

(** The model's sky factor and beam part are those of the specification. *)
Theorem C42_parts : forall eb x, totalDirect (Fin eb) (Fin x) = Fin (eb * Rmax (cos x) 0) /\ diffuseFactor (Fin x) = Fin (sky_factor (cos x)).
Proof. intros eb x. exact (conj (direct_fin eb x) (factor_fin x)). Qed.
Print Assumptions C42_parts.

(** While the sun is not below the horizon the total is not negative.  Below the horizon it can be. *)
Theorem C42_day_partial : forall lat dec ha tilt gam rho eb ed, (0 <= S_Solar.up (sun lat dec ha))%R -> (0 <= tilt <= PI)%R ->
  (0 <= rho)%R -> (0 <= eb)%R -> (0 <= ed)%R -> (0 <= irradiance (sun lat dec ha) tilt gam rho eb ed)%R.
Proof. intros lat dec ha tilt gam rho eb ed H1 H2 H3 H4 H5. exact (irradiance_nonneg _ tilt gam rho eb ed (sun_unit lat dec ha) H1 H2 H3 H4 H5). Qed.
Print Assumptions C42_day_partial.

(** With the sun below the horizon and beam irradiance in the file, the ground reflects a negative
    amount: a north wall gets less than nothing. *)
Theorem C42_night_refuted : forall frame, timeFrame = Ok frame -> exists (e : epw xr) s s' x,
  newSolar e PI_ = Ok s /\ calculate frame beam_year s = Ok s' /\ cell (so_eglobe s') 12 4 = Some (Fin x) /\ (x < 0)%R.
Proof. exact C42_night_l. Qed.
Print Assumptions C42_night_refuted.

(** The hypotheses above are met: the calendar exists, and [beam_year] is a year table. *)
Example C39_case : exists frame (s : solar xr), timeFrame = Ok frame /\ newSolar (site 0) PI_ = Ok s /\ year_table beam_year.
Proof. exact solar_case. Qed.
