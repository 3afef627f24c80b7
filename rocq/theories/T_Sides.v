(** C85, C86: the sun moves from east to west, and the irradiance follows the radiation of the file. *)
From Coq Require Import ZArith Lia Reals Lra.
From Verif Require Import Base Num Xr M_TimeFrame M_Epw M_Solar S_Solar S_Epw S_Sides L_Solar2 L_Solar3 L_Solar6 L_Sides.
Open Scope nat_scope.
Open Scope list_scope.

(** Before solar noon a wall on the east side gets at least as much as its mirror image on the west
    side, and more when there is beam radiation and the sun shines on it. *)
Theorem C85_morning : forall lat lon tz tilt eb ed r i east west',
  calculated_year lat lon tz tilt eb ed r -> Forall (Rle 0) eb -> Forall (Rle 0) ed -> (0 <= tilt / 2 <= PI)%R ->
  i < slices -> In (east, west') mirrored_walls -> (0 < solar_time lon tz i < 12)%R ->
  exists x y gam, nth_error azimuths east = Some gam /\ cell (so_eglobe r) i east = Some (Fin x) /\ cell (so_eglobe r) i west' = Some (Fin y) /\ (y <= x)%R /\
    ((0 < nth i eb 0)%R -> (0 < tilt / 2 < PI)%R -> (0 < dot (sun_in lat lon tz i) (normal (tilt / 2) gam))%R -> (y < x)%R).
Proof. exact C85_morning_l. Qed.
Print Assumptions C85_morning.

(** After solar noon it is the other way round. *)
Theorem C85_afternoon : forall lat lon tz tilt eb ed r i east west',
  calculated_year lat lon tz tilt eb ed r -> Forall (Rle 0) eb -> Forall (Rle 0) ed -> (0 <= tilt / 2 <= PI)%R ->
  i < slices -> In (east, west') mirrored_walls -> (12 < solar_time lon tz i < 24)%R ->
  exists x y gam, nth_error azimuths west' = Some gam /\ cell (so_eglobe r) i west' = Some (Fin x) /\ cell (so_eglobe r) i east = Some (Fin y) /\ (y <= x)%R /\
    ((0 < nth i eb 0)%R -> (0 < tilt / 2 < PI)%R -> (0 < dot (sun_in lat lon tz i) (normal (tilt / 2) gam))%R -> (y < x)%R).
Proof. exact C85_afternoon_l. Qed.
Print Assumptions C85_afternoon.

(** Two hours of one day at the same distance from solar noon with the same radiation: the sides
    are exchanged, and the south wall gets the same. *)
Theorem C85_mirror : forall lat lon tz tilt eb ed r i i' a b,
  calculated_year lat lon tz tilt eb ed r -> i < slices -> i' < slices -> i / 24 = i' / 24 ->
  (solar_time lon tz i + solar_time lon tz i' = 24)%R -> off_zenith (sun_in lat lon tz i) ->
  nth i eb 0%R = nth i' eb 0%R -> nth i ed 0%R = nth i' ed 0%R -> In (a, b) ((0, 0) :: mirrored_walls) ->
  exists x y, cell (so_eglobe r) i a = Some (Fin x) /\ cell (so_eglobe r) i' b = Some (Fin x) /\
    cell (so_eglobe r) i b = Some (Fin y) /\ cell (so_eglobe r) i' a = Some (Fin y).
Proof. exact C85_mirror_l. Qed.
Print Assumptions C85_mirror.

(** Such hours exist: 6 and 18 o'clock of the first day at a suitable longitude, for any
    radiation; and away from the tropics the sun is never at the zenith. *)
Example C85_case : exists r, calculated_year 45 noon_zero 0 PI (repeat 1%R slices) (repeat 0%R slices) r /\
  (0 < solar_time noon_zero 0 6 < 12)%R /\ (12 < solar_time noon_zero 0 18 < 24)%R /\
  (solar_time noon_zero 0 6 + solar_time noon_zero 0 18 = 24)%R /\ off_zenith (sun_in 45 noon_zero 0 6).
Proof.
  destruct (year_exists_l 45 noon_zero 0 PI (repeat 1%R slices) (repeat 0%R slices) (repeat_length _ _) (repeat_length _ _)) as [r Y].
  exists r. split; [exact Y|]. split; [exact (proj1 six_eighteen)|]. split; [exact (proj1 (proj2 six_eighteen))|].
  split; [exact (proj1 (proj2 (proj2 six_eighteen)))|]. apply off_tropics. rewrite Rabs_right; lra.
Qed.

(** The hourly irradiance of every wall is linear in the beam and diffuse radiation together: the
    result for [a] times one sky plus [b] times another is the same combination of their results. *)
Theorem C86_hours : forall lat lon tz tilt a b eb1 ed1 eb2 ed2 eb ed r1 r2 r i j,
  calculated_year lat lon tz tilt eb1 ed1 r1 -> calculated_year lat lon tz tilt eb2 ed2 r2 -> calculated_year lat lon tz tilt eb ed r ->
  combined a b eb1 eb2 eb -> combined a b ed1 ed2 ed -> i < slices -> j < 8 -> off_zenith (sun_in lat lon tz i) ->
  exists x1 x2, cell (so_eglobe r1) i j = Some (Fin x1) /\ cell (so_eglobe r2) i j = Some (Fin x2) /\ cell (so_eglobe r) i j = Some (Fin (a * x1 + b * x2)%R).
Proof. exact C86_hours_l. Qed.
Print Assumptions C86_hours.

(** So are the monthly means that the monthly engine uses. *)
Theorem C86_months : forall lat lon tz tilt a b eb1 ed1 eb2 ed2 eb ed r1 r2 r k j,
  calculated_year lat lon tz tilt eb1 ed1 r1 -> calculated_year lat lon tz tilt eb2 ed2 r2 -> calculated_year lat lon tz tilt eb ed r ->
  combined a b eb1 eb2 eb -> combined a b ed1 ed2 ed -> k < 12 -> j < 8 -> (forall i, off_zenith (sun_in lat lon tz i)) ->
  exists x1 x2, cell (av_msol (so_avg r1)) k j = Some (Fin x1) /\ cell (av_msol (so_avg r2)) k j = Some (Fin x2) /\
    cell (av_msol (so_avg r)) k j = Some (Fin (a * x1 + b * x2)%R).
Proof. exact C86_months_l. Qed.
Print Assumptions C86_months.

(** A year can be calculated for every site and all radiation, and outside the tropics the sun is
    never at the zenith. *)
Theorem C86_defined : forall lat lon tz tilt eb ed, length eb = slices -> length ed = slices ->
  (exists r, calculated_year lat lon tz tilt eb ed r) /\ ((29 <= Rabs lat <= 90)%R -> forall i, off_zenith (sun_in lat lon tz i)).
Proof. exact (fun lat lon tz tilt eb ed LB LD => conj (year_exists_l lat lon tz tilt eb ed LB LD) (fun H i => off_tropics lat lon tz i H)). Qed.
Print Assumptions C86_defined.
