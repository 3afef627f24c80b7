(** Solar geometry on the reals. *)
From Coq Require Import Reals Lra Psatz ZArith Machin.
From Verif Require Import Base Num Xr M_Solar S_Solar L_Xr L_Office.
Open Scope R_scope.

(** The constant of the source is just below pi. *)
Lemma PI_below : Rlit 31415926535897 10000000000000 < PI.
Proof.
  destruct (PI_2_3_7_ineq 6) as [H _]. unfold Rlit.
  enough (31415926535897 / 10000000000000 / 4 < sum_f_R0 (tg_alt PI_2_3_7_tg) (S (2 * 6))) by lra.
  unfold tg_alt, PI_2_3_7_tg, Ratan_seq. cbn [sum_f_R0 Nat.mul Nat.add pow INR]. lra.
Qed.

Lemma sc : forall x, sin x * sin x + cos x * cos x = 1.
Proof. intros x. pose proof (sin2_cos2 x) as H. unfold Rsqr in H. exact H. Qed.

Lemma sun_unit : forall lat dec ha, unit_vector (sun lat dec ha).
Proof.
  intros lat dec ha. unfold unit_vector, dot, sun. cbn [south west up].
  pose proof (sc lat). pose proof (sc dec). pose proof (sc ha).
  transitivity ((sin lat * sin lat + cos lat * cos lat) * (cos dec * cos dec * (cos ha * cos ha) + sin dec * sin dec) + cos dec * cos dec * (sin ha * sin ha)); [ring|].
  rewrite H. transitivity (cos dec * cos dec * (sin ha * sin ha + cos ha * cos ha) + sin dec * sin dec); [ring|]. rewrite H1. lra.
Qed.
Lemma normal_unit : forall tilt az, unit_vector (normal tilt az).
Proof.
  intros tilt az. unfold unit_vector, dot, normal. cbn [south west up]. pose proof (sc tilt). pose proof (sc az).
  transitivity (sin tilt * sin tilt * (sin az * sin az + cos az * cos az) + cos tilt * cos tilt); [ring|]. rewrite H0. lra.
Qed.
Lemma sky_unit : forall alt az, unit_vector (sky alt az).
Proof.
  intros alt az. unfold unit_vector, dot, sky. cbn [south west up]. pose proof (sc alt). pose proof (sc az).
  transitivity (cos alt * cos alt * (sin az * sin az + cos az * cos az) + sin alt * sin alt); [ring|]. rewrite H0. lra.
Qed.
Lemma dot_bound : forall a b, unit_vector a -> unit_vector b -> -1 <= dot a b <= 1.
Proof.
  unfold unit_vector, dot. intros [a1 a2 a3] [b1 b2 b3]. cbn [south west up]. intros H1 H2. split.
  - enough (0 <= (a1 + b1) * (a1 + b1) + (a2 + b2) * (a2 + b2) + (a3 + b3) * (a3 + b3)) by lra.
    pose proof (Rle_0_sqr (a1 + b1)). pose proof (Rle_0_sqr (a2 + b2)). pose proof (Rle_0_sqr (a3 + b3)). unfold Rsqr in *. lra.
  - enough (0 <= (a1 - b1) * (a1 - b1) + (a2 - b2) * (a2 - b2) + (a3 - b3) * (a3 - b3)) by lra.
    pose proof (Rle_0_sqr (a1 - b1)). pose proof (Rle_0_sqr (a2 - b2)). pose proof (Rle_0_sqr (a3 - b3)). unfold Rsqr in *. lra.
Qed.
Lemma up_bound : forall lat dec ha, -1 <= up (sun lat dec ha) <= 1.
Proof.
  intros lat dec ha. pose proof (sun_unit lat dec ha) as H. unfold unit_vector, dot in H.
  set (x := south _) in *. set (y := west _) in *. set (z := up _) in *. nra.
Qed.

(** atan2 of a point of the unit circle is its angle. *)
Lemma atan_ratio : forall x y, 0 < x -> x * x + y * y = 1 -> cos (atan (y / x)) = x /\ sin (atan (y / x)) = y.
Proof.
  intros x y Hx H. rewrite cos_atan, sin_atan.
  assert (E : 1 + (y / x)² = / (x * x)). { unfold Rsqr. field_simplify; [|lra|lra]. f_equal. nra. }
  rewrite E. replace (/ (x * x)) with ((/ x) * (/ x)) by (field; lra).
  rewrite sqrt_square by (left; apply Rinv_0_lt_compat; exact Hx). split; field; lra.
Qed.
Lemma atan2_circle : forall x y, x * x + y * y = 1 -> cos (Ratan2 y x) = x /\ sin (Ratan2 y x) = y.
Proof.
  intros x y H. unfold Ratan2. destruct (Rlt_dec 0 x) as [P|P]; [apply atan_ratio; assumption|].
  destruct (Rlt_dec x 0) as [Q|Q].
  - destruct (atan_ratio (- x) (- y)) as [C S]; [lra|lra|].
    replace (- y / - x) with (y / x) in C, S by (field; lra).
    destruct (Rlt_dec y 0).
    + replace (atan (y / x) - PI) with (- (PI - atan (y / x))) by ring. rewrite cos_neg, sin_neg.
      rewrite Rtrigo_facts.cos_pi_minus, Rtrigo_facts.sin_pi_minus. lra.
    + rewrite neg_cos, neg_sin. lra.
  - assert (x = 0) by lra. subst x. assert (Y : (y - 1) * (y + 1) = 0) by nra.
    apply Rmult_integral in Y. destruct (Rlt_dec 0 y); [|destruct (Rlt_dec y 0)].
    + rewrite cos_PI2, sin_PI2. lra.
    + rewrite cos_neg, sin_neg, cos_PI2, sin_PI2. lra.
    + exfalso. assert (y = 0) by lra. subst y. lra.
Qed.

(** The computed altitude and azimuth point at the sun. *)
Definition altitude (lat dec ha : R) : R := asin (up (sun lat dec ha)).
Lemma sin_altitude : forall lat dec ha, sin (altitude lat dec ha) = up (sun lat dec ha).
Proof. intros. apply sin_asin, up_bound. Qed.
Lemma cos_altitude_nonneg : forall lat dec ha, 0 <= cos (altitude lat dec ha).
Proof. intros. apply cos_ge_0; apply asin_bound. Qed.
Lemma horizontal : forall lat dec ha, south (sun lat dec ha) * south (sun lat dec ha) + west (sun lat dec ha) * west (sun lat dec ha) =
  cos (altitude lat dec ha) * cos (altitude lat dec ha).
Proof.
  intros. pose proof (sun_unit lat dec ha) as H. unfold unit_vector, dot in H. pose proof (sc (altitude lat dec ha)) as S.
  rewrite sin_altitude in S. lra.
Qed.
Definition azimuth (lat dec ha : R) : R :=
  let c := cos (altitude lat dec ha) in Ratan2 (west (sun lat dec ha) / c) (south (sun lat dec ha) / c).
Lemma sky_sun : forall lat dec ha, cos (altitude lat dec ha) <> 0 -> sky (altitude lat dec ha) (azimuth lat dec ha) = sun lat dec ha.
Proof.
  intros lat dec ha H. pose proof (horizontal lat dec ha) as E. pose proof (sin_altitude lat dec ha) as U.
  unfold azimuth. cbv zeta. set (c := cos (altitude lat dec ha)) in *.
  destruct (atan2_circle (south (sun lat dec ha) / c) (west (sun lat dec ha) / c)) as [C S].
  - transitivity ((south (sun lat dec ha) * south (sun lat dec ha) + west (sun lat dec ha) * west (sun lat dec ha)) / (c * c)); [field; exact H|].
    rewrite E. field. exact H.
  - unfold sky. fold c. rewrite C, S, U. destruct (sun lat dec ha) as [s w u]. cbn [south west up]. f_equal; field; exact H.
Qed.

Lemma cos_abs : forall x, cos (Rabs x) = cos x.
Proof. intros x. unfold Rabs. destruct (Rcase_abs x); [apply cos_neg|reflexivity]. Qed.
Lemma incidence_dot : forall alt az tilt g,
  cos alt * cos (Rabs (az - g)) * sin tilt + sin alt * cos tilt = dot (sky alt az) (normal tilt g).
Proof. intros. rewrite cos_abs, cos_minus. unfold dot, sky, normal. cbn [south west up]. ring. Qed.

Lemma pow_two : forall c, npow (Fin c) (Fin 2) = Fin (c * c).
Proof.
  intros c. cbn [npow xr_num xpow]. destruct (Req_EM_T 2 0); [lra|].
  assert (I2 : Int_part 2 = 2%Z).
  { exact (L_Office.Int_part_IZR 2). }
  destruct (Rlt_dec 0 c).
  - unfold Rpow. destruct (Rlt_dec 0 c); [|lra]. f_equal. replace 2 with (INR 2) by (cbn; lra). rewrite Rpower_pow by assumption. cbn. ring.
  - destruct (Req_EM_T c 0) as [->|NZ]; [destruct (Rlt_dec 0 2); [f_equal; ring|lra]|].
    unfold Rpow_int. rewrite I2. destruct (Req_EM_T (IZR 2) 2); [|lra]. f_equal. change (c * (c * 1) = c * c). ring.
Qed.
