(** Irradiance in doubles away from the zenith: every intermediate value is a number of moderate size. *)
From Coq Require Import Reals Lra Psatz Lia ZArith Bool List QArith Qreals.
From Flocq Require Import Core.Core IEEE754.BinarySingleNaN Relative.
From Verif Require Import Base Num Xr Dbl L_Dbl M_TimeFrame M_Epw M_Solar S_Epw L_Epw L_Solar2 L_Solar3 L_Solar5 S_DoubleMonthly L_Double2 L_Double6 L_Double7 L_DoubleWater S_DoubleSun E_Sun L_DoubleSun.
Import ListNotations.
Open Scope R_scope.

(** ** A calculus of bounds. *)
Notation e13 := (1 / 10000000000000) (only parsing).
Notation e15 := (1 / 1000000000000000) (only parsing).
Notation e30 := (1 / 1000000000000000000000000000000) (only parsing).
Lemma rnd_err : forall r, Rabs (rnd r - r) <= Rabs r * e15 + e30.
Proof.
  intros r. destruct (div_eps r) as (e&t&E&T&->).
  assert (U : uro <= e15) by (unfold uro; cbn; lra).
  assert (S : smallest_step <= e30).
  { unfold smallest_step. apply Rle_trans with (/ IZR (2 ^ 100)); [|cbn; lra]. apply Rinv_le; [apply IZR_lt; lia|]. apply IZR_le. apply Z.pow_le_mono_r; lia. }
  replace (r * (1 + e) + t - r) with (r * e + t) by ring. eapply Rle_trans; [apply Rabs_triang|]. rewrite Rabs_mult. pose proof (Rabs_pos r). nra.
Qed.
Lemma is_rnd_small : forall r z, is_rnd r z -> Rabs r <= 1000000000000000000 -> is_finite z = true /\ B2R z = rnd r.
Proof.
  intros r z H B. unfold is_rnd in H. rewrite Rlt_bool_true in H; [exact H|]. pose proof (rnd_err r) as E.
  assert (Rabs (rnd r) <= Rabs (rnd r - r) + Rabs r) by (replace (rnd r) with ((rnd r - r) + r) at 1 by ring; apply Rabs_triang).
  apply Rle_lt_trans with 2000000000000000000; [lra|]. apply Rlt_le_trans with (bpow radix2 70); [cbn; lra|apply bpow_le; lia].
Qed.
Lemma b_rnd : forall r z A C, is_rnd r z -> Rabs r <= A -> A + A * e15 + e30 <= C -> A <= 1000000000000000000 -> bounded C z.
Proof.
  intros r z A C H B E M. destruct (is_rnd_small r z H ltac:(lra)) as [F V]. split; [exact F|]. rewrite V. pose proof (rnd_err r) as D.
  assert (Rabs (rnd r) <= Rabs (rnd r - r) + Rabs r) by (replace (rnd r) with ((rnd r - r) + r) at 1 by ring; apply Rabs_triang). lra.
Qed.
Lemma b_add : forall A B C x y, bounded A x -> bounded B y -> (A + B) + (A + B) * e15 + e30 <= C -> A + B <= 1000000000000000000 -> bounded C (Bplus mode_NE x y).
Proof. intros A B C x y [F X] [G Y] E M. eapply b_rnd; [apply plus_rnd; assumption| |exact E|exact M]. eapply Rle_trans; [apply Rabs_triang|lra]. Qed.
Lemma b_sub : forall A B C x y, bounded A x -> bounded B y -> (A + B) + (A + B) * e15 + e30 <= C -> A + B <= 1000000000000000000 -> bounded C (Bminus mode_NE x y).
Proof. intros A B C x y [F X] [G Y] E M. eapply b_rnd; [apply minus_rnd; assumption| |exact E|exact M]. unfold Rminus. eapply Rle_trans; [apply Rabs_triang|]. rewrite Rabs_Ropp. lra. Qed.
Lemma b_mul : forall A B C x y, bounded A x -> bounded B y -> (A * B) + (A * B) * e15 + e30 <= C -> A * B <= 1000000000000000000 -> bounded C (Bmult mode_NE x y).
Proof. intros A B C x y [F X] [G Y] E M. eapply b_rnd; [apply mult_rnd; assumption| |exact E|exact M]. rewrite Rabs_mult. apply Rmult_le_compat; auto using Rabs_pos. Qed.
Lemma b_div : forall A m C x y, bounded A x -> is_finite y = true -> 0 < m -> m <= Rabs (B2R y) -> A / m + A / m * e15 + e30 <= C -> A / m <= 1000000000000000000 -> bounded C (Bdiv mode_NE x y).
Proof.
  intros A m C x y [F X] G P Y E M. assert (N : B2R y <> 0) by (intro Z; rewrite Z, Rabs_R0 in Y; lra).
  eapply b_rnd; [apply div_rnd; assumption| |exact E|exact M]. unfold Rdiv. rewrite Rabs_mult, Rabs_inv.
  apply Rmult_le_compat; auto using Rabs_pos; [left; apply Rinv_0_lt_compat; lra|]. apply Rinv_le; assumption.
Qed.
Lemma b_weak : forall A C x, bounded A x -> A <= C -> bounded C x.
Proof. intros A C x [F X] H. split; [exact F|lra]. Qed.
Lemma b_abs : forall A x, bounded A x -> bounded A (Babs x).
Proof. intros A x [F X]. split; [rewrite is_finite_Babs; exact F|rewrite B2R_Babs, Rabs_Rabsolu; exact X]. Qed.
Lemma b_opp : forall A x, bounded A x -> bounded A (Bopp x).
Proof. intros A x [F X]. split; [rewrite is_finite_Bopp; exact F|rewrite B2R_Bopp, Rabs_Ropp; exact X]. Qed.
Lemma b_z : forall z C, (- 9000 <= z <= 9000)%Z -> IZR (Z.abs z) <= C -> bounded C (z2d z).
Proof. intros z C H B. destruct (z2d_val z H) as [F V]. split; [exact F|]. rewrite V, <- abs_IZR. exact B. Qed.
Lemma b_max : forall {L : libm} A x y, bounded A x -> bounded A y -> bounded A (@nmax double (dbl_num L) x y).
Proof. intros L A x y X Y. unfold nmax. destruct (nlt x y); assumption. Qed.
Ltac litb := match goal with |- bounded ?C ?x => let y := eval vm_compute in (B2SF x) in match y with SpecFloat.S754_finite ?s ?m ?e =>
  let H := fresh in assert (H : B2SF x = SpecFloat.S754_finite s m e) by (vm_compute; reflexivity); apply sf_value in H; destruct H as [? H];
  split; [assumption|rewrite H; unfold F2R; cbn; rewrite ?Rabs_pos_eq by lra; lra] end end.

(** ** Sines, cosines and angles. *)
Lemma sin_le : forall x, Rabs (sin x) <= Rabs x.
Proof.
  intros x. destruct (Rtotal_order x 0) as [H | [-> | H]].
  - rewrite (Rabs_left x H). replace x with (- (- x)) at 1 by ring. rewrite sin_neg, Rabs_Ropp. apply Rabs_le. pose proof (sin_lt_x (- x) ltac:(lra)). split; [|lra].
    destruct (Rle_dec (- x) 1) as [S | S]. + pose proof PI2_3_2. pose proof (sin_ge_0 (- x) ltac:(lra) ltac:(unfold PI2 in *; lra)). lra. + pose proof (SIN_bound (- x)). lra.
  - rewrite sin_0, Rabs_R0. lra.
  - rewrite (Rabs_pos_eq x) by lra. apply Rabs_le. pose proof (sin_lt_x x H). split; [|lra].
    destruct (Rle_dec x 1) as [S | S]. + pose proof PI2_3_2. pose proof (sin_ge_0 x ltac:(lra) ltac:(unfold PI2 in *; lra)). lra. + pose proof (SIN_bound x). lra.
Qed.
Lemma cos_lip : forall x y, Rabs (cos x - cos y) <= Rabs (x - y).
Proof.
  intros x y. rewrite form2. rewrite !Rabs_mult. pose proof (sin_le ((x - y) / 2)) as A. pose proof (SIN_bound ((x + y) / 2)) as B. apply Rabs_le in B.
  assert (E : Rabs ((x - y) / 2) = Rabs (x - y) / 2) by (unfold Rdiv; rewrite Rabs_mult, (Rabs_pos_eq (/ 2)) by lra; reflexivity). rewrite E in A.
  replace (Rabs (-2)) with 2 by (rewrite Rabs_left; lra). pose proof (Rabs_pos (sin ((x - y) / 2))). pose proof (Rabs_pos (sin ((x + y) / 2))). nra.
Qed.
Lemma sin_far : forall x, 52 / 100 <= Rabs x <= 16 / 10 -> 496 / 1000 <= Rabs (sin x).
Proof.
  assert (P : forall x, 52 / 100 <= x <= 16 / 10 -> 496 / 1000 <= sin x).
  { intros x H. destruct (pre_sin_bound x 0 ltac:(lra) ltac:(lra)) as [A _]. change (2 * 0 + 1)%nat with 1%nat in A.
    assert (E : sin_approx x 1 = x - x * x * x / 6) by (unfold sin_approx, sin_term; cbn; field). rewrite E in A.
    assert (0 <= (x - 52 / 100) * (1 - (x * x + 52 / 100 * x + 2704 / 10000) / 6)) by (apply Rmult_le_pos; nra). lra. }
  intros x H. destruct (Rle_dec 0 x) as [S | S].
  - rewrite (Rabs_pos_eq x S) in H. specialize (P x H). rewrite Rabs_pos_eq; lra.
  - rewrite (Rabs_left x) in H by lra. specialize (P (- x) H). rewrite sin_neg in P. rewrite Rabs_left; lra.
Qed.
(** Two directions whose heights differ are not aligned. *)
Lemma apart : forall l d, 496 / 1000 <= Rabs (sin l) -> Rabs d <= 489 / 1000 ->
  Rabs (cos l) * Rabs (cos d) + Rabs (sin l) * Rabs (sin d) <= 1 - 2 / 100000.
Proof.
  intros l d A B. pose proof (sin_le d) as C. pose proof (sin2_cos2 l) as P. pose proof (sin2_cos2 d) as Q.
  rewrite (Rsqr_abs (sin l)), (Rsqr_abs (cos l)) in P. rewrite (Rsqr_abs (sin d)), (Rsqr_abs (cos d)) in Q. unfold Rsqr in *.
  set (a := Rabs (cos l)) in *. set (b := Rabs (sin l)) in *. set (c := Rabs (cos d)) in *. set (e := Rabs (sin d)) in *. clearbody a b c e.
  assert (7 / 1000 <= b - e) by lra. pose proof (Rle_0_sqr (a - c)) as S. unfold Rsqr in S. assert (49 / 1000000 <= (b - e) * (b - e)) by nra. nra.
Qed.
Lemma rnd_one : forall r, Rabs r <= 1 + 1 / 20000000000000000 -> Rabs (rnd r) <= 1.
Proof.
  assert (T : rnd (1 + 1 / 20000000000000000) = 1).
  { rewrite (rnd_at (1 + 1 / 20000000000000000) 4503599627370496 (-52)).
    - unfold F2R. cbn [Fnum Fexp]. change (bpow radix2 (-52)) with (/ 4503599627370496). lra.
    - change (bpow radix2 (- -52)) with 4503599627370496. cbn [Z.pow Z.pow_pos Pos.iter Z.mul Pos.mul]. split; lra.
    - lia.
    - change (bpow radix2 (- -52)) with 4503599627370496. apply Rabs_def1; lra. }
  intros r H. apply Rabs_le_inv in H. apply Rabs_le. split.
  - rewrite <- T, <- round_NE_opp. apply rnd_mono. lra.
  - rewrite <- T. apply rnd_mono. lra.
Qed.
(** A product with a factor of size at most one does not grow. *)
Lemma b_shrink : forall A x y : double, is_finite x = true -> Rabs (B2R x) <= B2R A -> is_finite A = true -> B2R A <= 1 -> bounded 1 y ->
  is_finite (Bmult mode_NE x y) = true /\ Rabs (B2R (Bmult mode_NE x y)) <= B2R A.
Proof.
  intros A x y F X FA A1 [G Y]. assert (P : Rabs (B2R x * B2R y) <= B2R A). { rewrite Rabs_mult. pose proof (Rabs_pos (B2R x)). pose proof (Rabs_pos (B2R y)). nra. }
  destruct (is_rnd_small _ _ (mult_rnd x y F G) ltac:(lra)) as [K V]. split; [exact K|]. rewrite V. apply Rabs_le_inv in P. apply Rabs_le. split.
  - rewrite <- (rnd_B2R A), <- round_NE_opp. apply rnd_mono. lra.
  - rewrite <- (rnd_B2R A). apply rnd_mono. lra.
Qed.

(** The size of a concrete double. *)
Definition small10 (x : double) : bool :=
  match B2SF x with SpecFloat.S754_zero _ => true | SpecFloat.S754_finite _ m e => (Zpos m <? 10 * 2 ^ (- e))%Z && (e <? 0)%Z | _ => false end.
Lemma bool_bounded : forall x, small10 x = true -> bounded 10 x.
Proof.
  intros x H. unfold small10 in H. destruct x as [z|z| |z m e h]; try discriminate.
  - split; [reflexivity|]. cbn. rewrite Rabs_R0. lra.
  - cbn [B2SF] in H. apply andb_true_iff in H as [H1 H2]. apply Z.ltb_lt in H1, H2. split; [reflexivity|]. cbn [B2R]. rewrite <- F2R_Zabs, abs_cond_Zopp. cbn [Z.abs].
    unfold F2R. cbn [Fnum Fexp]. apply IZR_lt in H1. rewrite mult_IZR in H1. change 2%Z with (radix_val radix2) in H1. rewrite IZR_Zpower in H1 by lia.
    pose proof (bpow_gt_0 radix2 e) as P. assert (E : bpow radix2 (- e) * bpow radix2 e = 1) by (rewrite <- bpow_plus, Z.add_opp_diag_l; reflexivity).
    change (Z.abs (Zpos m)) with (Zpos m). nra.
Qed.

Section Sun.
Context {L : libm}.
Hypothesis GL : good_libm L.
Lemma s1 : forall x, is_finite x = true -> bounded 1 (lm_sin x).
Proof. intros x F. destruct (gl_sin L GL x F) as [[A _] B]. split; assumption. Qed.
Lemma c1 : forall x, is_finite x = true -> bounded 1 (lm_cos x).
Proof. intros x F. destruct (gl_cos L GL x F) as [[A _] B]. split; assumption. Qed.
Lemma p13 : 1 / 10 ^ 13 = e13.
Proof. cbn. lra. Qed.
Lemma s_err : forall x, is_finite x = true -> Rabs (B2R (lm_sin x) - sin (B2R x)) <= e13.
Proof. intros x F. destruct (gl_sin L GL x F) as [[_ A] _]. rewrite p13 in A. exact A. Qed.
Lemma c_err : forall x, is_finite x = true -> Rabs (B2R (lm_cos x) - cos (B2R x)) <= e13.
Proof. intros x F. destruct (gl_cos L GL x F) as [[_ A] _]. rewrite p13 in A. exact A. Qed.
Lemma abs_near : forall a b e, Rabs (a - b) <= e -> Rabs a <= Rabs b + e.
Proof. intros a b e H. replace a with ((a - b) + b) at 1 by ring. eapply Rle_trans; [apply Rabs_triang|]. lra. Qed.

Lemma PI_b : bounded (31416 / 10000) (@PI_ double (dbl_num L)).
Proof. litb. Qed.
Lemma PI_low : 3 <= B2R (@PI_ double (dbl_num L)).
Proof.
  assert (H : B2SF (@PI_ double (dbl_num L)) = SpecFloat.S754_finite false 7074237752028230 (-51)) by (vm_compute; reflexivity).
  apply sf_value in H. destruct H as [_ H]. rewrite H. unfold F2R. cbn. lra.
Qed.

Variables (s : solar double) (i : nat).
Hypothesis TILT : so_tilt s = Bdiv mode_NE (@PI_ double (dbl_num L)) (z2d 2).
Hypothesis RHO : so_rho s = dlit 14 100.
Hypothesis LAT : is_finite (so_lat s) = true /\ 52 / 100 <= Rabs (B2R (so_lat s)) <= 16 / 10.
Hypothesis LON : bounded 100 (so_lon s).
Hypothesis MER : bounded 100 (so_meridian s).
Hypothesis HI : (i < slices)%nat.

Definition rev_ : double := @revolutionAngle double (dbl_num L) (tc_ytd (clock i)).
Definition dec_ : double := @solarDeclination double (dbl_num L) rev_.
Definition ha_ : double := @solarHourAngle double (dbl_num L) (apparentSolarTime s (tc_hour (clock i)) (equationOfTime rev_)).
Definition alt_ : double := @solarAltitude double (dbl_num L) s dec_ ha_.
Lemma day_range : (0 <= tc_ytd (clock i) <= 364)%Z /\ (0 <= tc_hour (clock i) <= 23)%Z.
Proof.
  unfold clock. cbn [tc_ytd tc_hour]. pose proof slices_Z as Z. rewrite Nat2Z.inj_div, Nat2Z.inj_mod. apply Nat2Z.inj_lt in HI. rewrite Z in HI.
  change (Z.of_nat 24) with 24%Z. pose proof (Z.mod_pos_bound (Z.of_nat i) 24 ltac:(lia)). pose proof (Z.div_pos (Z.of_nat i) 24 ltac:(lia) ltac:(lia)).
  assert (Z.of_nat i / 24 < 365)%Z by (apply Z.div_lt_upper_bound; lia). lia.
Qed.
Lemma rev_b : bounded 7 rev_.
Proof.
  destruct day_range as [D _]. unfold rev_, revolutionAngle. generalize dependent (tc_ytd (clock i)). intros d D. unfold zn. cbn [nmul ndiv lit dbl_num dlit].
  apply (b_div 2300 365 7); [|apply z2d_val; lia|lra|rewrite (proj2 (z2d_val 365 ltac:(lia))), Rabs_pos_eq; lra|lra|lra].
  apply (b_mul (62833 / 10000) 364 2300); [|apply b_z; [lia|apply IZR_le; lia]|lra|lra].
  apply (b_mul 2 (31416 / 10000) (62833 / 10000)); [apply b_z; [lia|apply IZR_le; lia]|exact PI_b|lra|lra].
Qed.
Lemma two_rev : is_finite (Bmult mode_NE (z2d 2) rev_) = true /\ is_finite (Bmult mode_NE (z2d 3) rev_) = true.
Proof.
  pose proof rev_b as R. split.
  - apply (b_mul 2 7 20); [apply b_z; [lia|apply IZR_le; lia]|exact R|lra|lra].
  - apply (b_mul 3 7 30); [apply b_z; [lia|apply IZR_le; lia]|exact R|lra|lra].
Qed.
Lemma dec_b : bounded (489 / 1000) dec_.
Proof.
  unfold dec_, solarDeclination, zn. cbn [nsub nadd nmul ncos nsin lit dbl_num]. change (dlit 2 1) with (z2d 2). change (dlit 3 1) with (z2d 3).
  destruct two_rev as [T2 T3]. pose proof rev_b as [R _].
  apply (b_add (487465 / 1000000) (1482 / 1000000)); [|apply (b_mul (1481 / 1000000) 1); [litb|apply s1; exact T3|lra|lra]|lra|lra].
  apply (b_sub (484765 / 1000000) (2699 / 1000000)); [|apply (b_mul (2698 / 1000000) 1); [litb|apply c1; exact T3|lra|lra]|lra|lra].
  apply (b_add (483855 / 1000000) (909 / 1000000)); [|apply (b_mul (908 / 1000000) 1); [litb|apply s1; exact T2|lra|lra]|lra|lra].
  apply (b_sub (477094 / 1000000) (6760 / 1000000)); [|apply (b_mul (6759 / 1000000) 1); [litb|apply c1; exact T2|lra|lra]|lra|lra].
  apply (b_add (406834 / 1000000) (70259 / 1000000)); [|apply (b_mul (70258 / 1000000) 1); [litb|apply s1; exact R|lra|lra]|lra|lra].
  apply (b_sub (6919 / 1000000) (399914 / 1000000)); [litb|apply (b_mul (399913 / 1000000) 1); [litb|apply c1; exact R|lra|lra]|lra|lra].
Qed.
Lemma ha_b : is_finite ha_ = true.
Proof.
  destruct day_range as [_ D]. unfold ha_, solarHourAngle, apparentSolarTime, equationOfTime, zn. generalize dependent (tc_hour (clock i)). intros h D.
  cbn [nsub nadd nmul ndiv ncos nsin lit dbl_num]. change (dlit 2 1) with (z2d 2). change (dlit 15 1) with (z2d 15). change (dlit 12 1) with (z2d 12). change (dlit 60 1) with (z2d 60). change (dlit 180 1) with (z2d 180). change (dlit h 1) with (z2d h).
  destruct two_rev as [T2 _]. pose proof rev_b as [R _].
  enough (B : bounded 10000 (Bplus mode_NE (Bplus mode_NE (z2d h) (Bdiv mode_NE (@equationOfTime double (dbl_num L) rev_) (z2d 60)))
     (Bdiv mode_NE (Bminus mode_NE (so_lon s) (so_meridian s)) (Bdiv mode_NE (@PI_ double (dbl_num L)) (z2d 12))))).
  { apply (b_div 1000000 180 10000); [|apply z2d_val; lia|lra|rewrite (proj2 (z2d_val 180 ltac:(lia))), Rabs_pos_eq; lra|lra|lra].
    apply (b_mul 200000 (31416 / 10000)); [|exact PI_b|lra|lra]. apply (b_mul 15 10100); [apply b_z; [lia|apply IZR_le; lia]| |lra|lra].
    apply (b_sub 10000 12); [exact B|apply b_z; [lia|apply IZR_le; lia]|lra|lra]. }
  apply (b_add 30 2000); [| |lra|lra].
  - apply (b_add 24 1); [apply b_z; [lia|apply IZR_le; lia]| |lra|lra].
    apply (b_div 50 60); [|apply z2d_val; lia|lra|rewrite (proj2 (z2d_val 60 ltac:(lia))), Rabs_pos_eq; lra|lra|lra].
    unfold equationOfTime, zn. cbn [nsub nadd nmul ncos nsin lit dbl_num]. change (dlit 2 1) with (z2d 2).
    apply (b_mul 3 12); [litb| |lra|lra]. apply (b_sub 6 5); [|apply (b_mul (409 / 100) 1); [litb|apply s1; exact T2|lra|lra]|lra|lra].
    apply (b_sub 4 (15 / 10)); [|apply (b_mul (147 / 100) 1); [litb|apply c1; exact T2|lra|lra]|lra|lra].
    apply (b_sub (21 / 100) (33 / 10)); [|apply (b_mul (321 / 100) 1); [litb|apply s1; exact R|lra|lra]|lra|lra].
    apply (b_add (1 / 100) (19 / 100)); [litb|apply (b_mul (187 / 1000) 1); [litb|apply c1; exact R|lra|lra]|lra|lra].
  - assert (Q : B2SF (Bdiv mode_NE (@PI_ double (dbl_num L)) (z2d 12)) = SpecFloat.S754_finite false 4716158501352153 (-54)) by (vm_compute; reflexivity).
    apply sf_value in Q. destruct Q as [Q1 Q2]. apply (b_div 201 (2 / 10)); [|exact Q1|lra|rewrite Q2; unfold F2R; cbn; rewrite Rabs_pos_eq; lra|lra|lra].
    apply (b_sub 100 100); [exact LON|exact MER|lra|lra].
Qed.
Definition up_ : double := Bplus mode_NE (Bmult mode_NE (Bmult mode_NE (lm_cos (so_lat s)) (lm_cos dec_)) (lm_cos ha_)) (Bmult mode_NE (lm_sin (so_lat s)) (lm_sin dec_)).
Lemma alt_eq : alt_ = lm_asin up_.
Proof. reflexivity. Qed.
Lemma up_b : bounded (1 - 1 / 100000) up_.
Proof.
  destruct LAT as [FL RL]. pose proof dec_b as [FD RD]. pose proof ha_b as FH. pose proof (apart _ _ (sin_far _ RL) RD) as AP.
  pose proof (abs_near _ _ _ (c_err _ FL)) as A1. pose proof (abs_near _ _ _ (c_err _ FD)) as A2.
  pose proof (abs_near _ _ _ (s_err _ FL)) as A3. pose proof (abs_near _ _ _ (s_err _ FD)) as A4.
  destruct (c1 _ FL) as [F1 _]. destruct (c1 _ FD) as [F2 _]. destruct (s1 _ FL) as [F3 _]. destruct (s1 _ FD) as [F4 _]. pose proof (c1 _ FH) as B5.
  assert (Q1 : Rabs (cos (B2R (so_lat s))) <= 1) by (apply Rabs_le; apply COS_bound). assert (Q2 : Rabs (cos (B2R dec_)) <= 1) by (apply Rabs_le; apply COS_bound).
  assert (Q3 : Rabs (sin (B2R (so_lat s))) <= 1) by (apply Rabs_le; apply SIN_bound). assert (Q4 : Rabs (sin (B2R dec_)) <= 1) by (apply Rabs_le; apply SIN_bound).
  pose proof (Rabs_pos (cos (B2R (so_lat s)))) as P1. pose proof (Rabs_pos (cos (B2R dec_))) as P2. pose proof (Rabs_pos (sin (B2R (so_lat s)))) as P3. pose proof (Rabs_pos (sin (B2R dec_))) as P4.
  set (a := Rabs (cos (B2R (so_lat s)))) in *. set (c := Rabs (cos (B2R dec_))) in *. set (b := Rabs (sin (B2R (so_lat s)))) in *. set (e := Rabs (sin (B2R dec_))) in *. clearbody a b c e.
  assert (M1 : 0 <= a * c <= 1) by nra. assert (M2 : 0 <= b * e <= 1) by nra.
  unfold up_. apply (b_add (a * c + 1 / 100000000000) (b * e + 1 / 100000000000)); [| |lra|lra].
  - apply (b_mul (a * c + 1 / 1000000000000) 1); [|exact B5|lra|lra].
    apply (b_mul (a + e13) (c + e13)); [split; assumption|split; assumption| |]; replace ((a + e13) * (c + e13)) with (a * c + e13 * (a + c) + e13 * e13) by field; lra.
  - apply (b_mul (b + e13) (e + e13)); [split; assumption|split; assumption| |]; replace ((b + e13) * (e + e13)) with (b * e + e13 * (b + e) + e13 * e13) by field; lra.
Qed.
Lemma alt_b : is_finite alt_ = true /\ Rabs (B2R alt_ - asin (B2R up_)) <= e13.
Proof.
  destruct up_b as [F B]. rewrite alt_eq. destruct (gl_asin L GL up_ F ltac:(lra)) as [A C]. rewrite p13 in C. split; assumption.
Qed.
Lemma cos_alt_low : 1 / 1000 <= B2R (lm_cos alt_).
Proof.
  destruct up_b as [_ B]. destruct alt_b as [F A]. pose proof (c_err _ F) as C. pose proof (cos_lip (B2R alt_) (asin (B2R up_))) as D.
  rewrite cos_asin in D by (apply Rabs_le_inv in B; lra).
  assert (S : 2 / 1000 <= sqrt (1 - Rsqr (B2R up_))).
  { rewrite <- (sqrt_square (2 / 1000)) by lra. apply sqrt_le_1; [lra| |]; apply Rabs_le_inv in B; unfold Rsqr; nra. }
  apply Rabs_le_inv in C. apply Rabs_le_inv in D. apply Rabs_le_inv in A.
  assert (Rabs (B2R alt_ - asin (B2R up_)) <= e13) by (apply Rabs_le; exact A). lra.
Qed.
Definition az_ : double := @solarAzimuth double (dbl_num L) (solarAzimuthSin dec_ ha_ alt_) (solarAzimuthCos s dec_ ha_ alt_).
Lemma az_b : bounded 10 az_.
Proof.
  destruct LAT as [FL _]. pose proof dec_b as [FD _]. pose proof ha_b as FH. destruct alt_b as [FA _]. destruct (c1 _ FA) as [FC _]. pose proof cos_alt_low as LO.
  assert (LO' : 1 / 1000 <= Rabs (B2R (lm_cos alt_))) by (rewrite Rabs_pos_eq; lra).
  unfold az_, solarAzimuth, solarAzimuthSin, solarAzimuthCos. cbn [natan2 nsub nmul ndiv ncos nsin dbl_num].
  match goal with |- bounded 10 (lm_atan2 ?x ?y) => assert (X : bounded 10000 x); [|assert (Y : bounded 10000 y); [|destruct X as [X _]; destruct Y as [Y _]; exact (gl_atan2 L GL x y X Y)]] end.
  - apply (b_div 2 (1 / 1000)); [|exact FC|lra|exact LO'|lra|lra]. apply (b_mul 1 1); [apply s1; exact FH|apply c1; exact FD|lra|lra].
  - apply (b_div 5 (1 / 1000)); [|exact FC|lra|exact LO'|lra|lra]. apply (b_sub 2 2); [| |lra|lra].
    + apply (b_mul (11 / 10) 1); [|apply s1; exact FL|lra|lra]. apply (b_mul 1 1); [apply c1; exact FH|apply c1; exact FD|lra|lra].
    + apply (b_mul 1 1); [apply s1; exact FD|apply c1; exact FL|lra|lra].
Qed.
Lemma sun_eq : sunPosition (N := dbl_num L) s (clock i) = (alt_, az_).
Proof. unfold sunPosition, az_, alt_, ha_, dec_, rev_. cbv zeta. reflexivity. Qed.

(** ** One surface. *)
Lemma tilt_trig : is_finite (so_tilt s) = true /\ Rabs (B2R (lm_cos (so_tilt s))) <= 2 * e13.
Proof.
  rewrite TILT. set (t := Bdiv mode_NE (@PI_ double (dbl_num L)) (z2d 2)).
  assert (H : B2SF t = SpecFloat.S754_finite false 7074237752028230 (-52)) by (vm_compute; reflexivity). clearbody t.
  apply sf_value in H. destruct H as [F V]. split; [exact F|]. pose proof (abs_near _ _ _ (c_err t F)) as A.
  assert (V' : B2R t = Q2R (7074237752028230 # 4503599627370496)).
  { rewrite V. unfold F2R, Q2R. cbn [Fnum Fexp cond_Zopp Qnum Qden]. change (bpow radix2 (-52)) with (/ 4503599627370496). reflexivity. }
  destruct (cos_in (7074237752028230 # 4503599627370496) (-1 # 10000000000000) (1 # 10000000000000)) as [B C]; try (vm_compute; reflexivity).
  rewrite <- V' in B, C. unfold Q2R in B, C. cbn [Qnum Qden] in B, C.
  assert (Rabs (cos (B2R t)) <= e13) by (apply Rabs_le; lra). lra.
Qed.
Definition inc (ssa : double) : double :=
  Bplus mode_NE (Bmult mode_NE (Bmult mode_NE (lm_cos alt_) (lm_cos ssa)) (lm_sin (so_tilt s))) (Bmult mode_NE (lm_sin alt_) (lm_cos (so_tilt s))).
Lemma inc_b : forall ssa, is_finite ssa = true -> bounded 1 (inc ssa).
Proof.
  intros ssa FS. destruct alt_b as [FA _]. destruct (c1 _ FA) as [FC BC]. destruct (s1 _ FA) as [FN BN]. pose proof cos_alt_low as LO. destruct tilt_trig as [FT CT]. destruct (c1 _ FT) as [FCT _].
  rewrite (Rabs_pos_eq (B2R (lm_cos alt_))) in BC by lra.
  destruct (b_shrink (lm_cos alt_) (lm_cos alt_) (lm_cos ssa) FC ltac:(rewrite Rabs_pos_eq; lra) FC BC (c1 _ FS)) as [F1 B1].
  destruct (b_shrink (lm_cos alt_) _ (lm_sin (so_tilt s)) F1 B1 FC BC (s1 _ FT)) as [F2 B2].
  set (q := Bmult mode_NE (Bmult mode_NE (lm_cos alt_) (lm_cos ssa)) (lm_sin (so_tilt s))) in *.
  assert (B3 : bounded (Rabs (B2R (lm_sin alt_)) * (3 * e13) + e30) (Bmult mode_NE (lm_sin alt_) (lm_cos (so_tilt s)))).
  { pose proof (Rabs_pos (B2R (lm_sin alt_))) as P. pose proof (Rabs_pos (B2R (lm_cos (so_tilt s)))) as P'.
    apply (b_mul (Rabs (B2R (lm_sin alt_))) (2 * e13)); [split; [exact FN|lra]|split; assumption| |]; lra. }
  destruct B3 as [F3 B3]. set (r := Bmult mode_NE (lm_sin alt_) (lm_cos (so_tilt s))) in *.
  assert (SC : Rabs (B2R (lm_sin alt_)) * Rabs (B2R (lm_sin alt_)) + B2R (lm_cos alt_) * B2R (lm_cos alt_) <= 1 + 1 / 1000000000000).
  { pose proof (abs_near _ _ _ (s_err _ FA)) as A1. pose proof (abs_near _ _ _ (c_err _ FA)) as A2. rewrite (Rabs_pos_eq (B2R (lm_cos alt_))) in A2 by lra.
    pose proof (sin2_cos2 (B2R alt_)) as Q. rewrite (Rsqr_abs (sin (B2R alt_))), (Rsqr_abs (cos (B2R alt_))) in Q. unfold Rsqr in Q.
    assert (Q3 : Rabs (cos (B2R alt_)) <= 1) by (apply Rabs_le; apply COS_bound). assert (Q4 : Rabs (sin (B2R alt_)) <= 1) by (apply Rabs_le; apply SIN_bound).
    pose proof (Rabs_pos (B2R (lm_sin alt_))) as P1. pose proof (Rabs_pos (sin (B2R alt_))) as P2. pose proof (Rabs_pos (cos (B2R alt_))) as P3.
    set (a := Rabs (B2R (lm_sin alt_))) in *. set (b := B2R (lm_cos alt_)) in *. set (c := Rabs (sin (B2R alt_))) in *. set (d := Rabs (cos (B2R alt_))) in *. clearbody a b c d.
    assert (a * a <= (c + e13) * (c + e13)) by (apply Rmult_le_compat; lra). assert (b * b <= (d + e13) * (d + e13)) by (apply Rmult_le_compat; lra).
    replace ((c + e13) * (c + e13)) with (c * c + 2 * e13 * c + e13 * e13) in * by field. replace ((d + e13) * (d + e13)) with (d * d + 2 * e13 * d + e13 * e13) in * by field. lra. }
  assert (W : Rabs (B2R q + B2R r) <= 1 + 1 / 20000000000000000).
  { eapply Rle_trans; [apply Rabs_triang|]. pose proof (Rabs_pos (B2R (lm_sin alt_))) as P1.
    set (a := Rabs (B2R (lm_sin alt_))) in *. set (b := B2R (lm_cos alt_)) in *. clearbody a b. destruct (Rle_dec (1 / 10000) a) as [S | S].
    - assert (b <= 1 - a * a / 2 + 1 / 1000000000000) by nra. assert (1 / 100000000 <= a * a) by nra. lra.
    - lra. }
  unfold inc. fold q. fold r. destruct (is_rnd_small _ _ (plus_rnd q r F2 F3) ltac:(lra)) as [F4 V4]. split; [exact F4|]. rewrite V4. apply rnd_one. exact W.
Qed.
Variables (eb ed : double).
Hypothesis EB : bounded 1000000 eb.
Hypothesis ED : bounded 1000000 ed.
Lemma ground_b : bounded 400000 (@groundReflected double (dbl_num L) eb ed (so_rho s) alt_ (so_tilt s)).
Proof.
  destruct alt_b as [FA _]. destruct tilt_trig as [FT _]. unfold groundReflected, zn. rewrite RHO. cbn [nadd nsub nmul ndiv ncos nsin lit dbl_num]. change (dlit 1 1) with (z2d 1). change (dlit 2 1) with (z2d 2).
  apply (b_div 700000 2); [|apply z2d_val; lia|lra|rewrite (proj2 (z2d_val 2 ltac:(lia))), Rabs_pos_eq; lra|lra|lra].
  apply (b_mul 310000 (21 / 10)); [|apply (b_sub 1 1); [apply b_z; [lia|apply IZR_le; lia]|apply c1; exact FT|lra|lra]|lra|lra].
  apply (b_mul 2100000 (141 / 1000)); [|litb|lra|lra]. apply (b_add 1000001 1000000); [|exact ED|lra|lra].
  apply (b_mul 1000000 1); [exact EB|apply s1; exact FA|lra|lra].
Qed.
Lemma surface_b : forall g a, bounded 400000 g -> bounded 10 a -> bounded 10000000 (@surfaceIrradiance double (dbl_num L) s alt_ az_ g eb ed a).
Proof.
  intros g a G A. destruct tilt_trig as [FT _]. unfold surfaceIrradiance, totalIrradiance. cbv zeta.
  assert (SSA : is_finite (@surfaceSolarAzimuth double (dbl_num L) az_ a) = true).
  { unfold surfaceSolarAzimuth. cbn [nabs nsub dbl_num]. apply (b_abs 30). apply (b_sub 10 10); [exact az_b|exact A|lra|lra]. }
  assert (W : bounded 1 (inc (@surfaceSolarAzimuth double (dbl_num L) az_ a))) by (apply inc_b; exact SSA).
  set (ssa := @surfaceSolarAzimuth double (dbl_num L) az_ a) in *. clearbody ssa.
  assert (FI : is_finite (@angleOfIncidence double (dbl_num L) alt_ ssa (so_tilt s)) = true).
  { destruct W as [W1 W2]. exact (proj1 (gl_acos L GL (inc ssa) W1 W2)). }
  set (aoi := @angleOfIncidence double (dbl_num L) alt_ ssa (so_tilt s)) in *. clearbody aoi. pose proof (c1 _ FI) as CI.
  assert (PW : bounded 2 (lm_pow (lm_cos aoi) (z2d 2))).
  { destruct CI as [C1 C2]. destruct (gl_pow L GL _ C1 C2) as [P1 P2]. rewrite p13 in P2. split; [exact P1|]. apply abs_near in P2. rewrite Rabs_mult in P2. pose proof (Rabs_pos (B2R (lm_cos aoi))). nra. }
  assert (Y : bounded 2 (@diffuseFactor double (dbl_num L) aoi)).
  { unfold diffuseFactor, zn. apply b_max; cbn [nadd nmul ncos npow lit dbl_num]; [litb|]. change (dlit 2 1) with (z2d 2).
    apply (b_add 1 (65 / 100)); [|apply (b_mul (314 / 1000) 2); [litb|exact PW|lra|lra]|lra|lra].
    apply (b_add (551 / 1000) (44 / 100)); [litb|apply (b_mul (438 / 1000) 1); [litb|exact CI|lra|lra]|lra|lra]. }
  cbn [nadd dbl_num]. apply (b_add 5000000 400000); [|exact G|lra|lra]. apply (b_add 1000001 3500000); [| |lra|lra].
  - unfold totalDirect. cbn [nmul ncos dbl_num]. apply (b_mul 1000000 1); [exact EB| |lra|lra]. apply b_max; [exact CI|]. unfold zn. cbn [lit dbl_num]. apply (b_z 0); [lia|apply IZR_le; lia].
  - unfold totalDiffuse. destruct (nlt _ _); cbn [nadd nmul ncos nsin dbl_num].
    + apply (b_mul 2100000 1); [|apply s1; exact FT|lra|lra]. apply (b_mul 1000000 2); [exact ED|exact Y|lra|lra].
    + apply (b_mul 1000000 (32 / 10)); [exact ED| |lra|lra]. apply (b_add (21 / 10) 1); [|apply c1; exact FT|lra|lra].
      apply (b_mul 2 1); [exact Y|apply s1; exact FT|lra|lra].
Qed.
Lemma row_b : Forall (bounded 10000000) (irradiance_row (N := dbl_num L) s (clock i) eb ed).
Proof.
  unfold irradiance_row. rewrite sun_eq. apply Forall_map. pose proof ground_b as G.
  assert (A : Forall (bounded 10) (@SurfaceAzimuths double (dbl_num L))).
  { unfold SurfaceAzimuths. do 8 (apply Forall_cons; [apply bool_bounded; vm_compute; reflexivity|]). apply Forall_nil. }
  eapply Forall_impl; [|exact A]. intros a B. apply surface_b; assumption.
Qed.
End Sun.

(** ** The angles of the site. *)
Section Site.
Context {L : libm}.
Lemma PI_more : 314 / 100 <= B2R (@PI_ double (dbl_num L)).
Proof.
  assert (H : B2SF (@PI_ double (dbl_num L)) = SpecFloat.S754_finite false 7074237752028230 (-51)) by (vm_compute; reflexivity).
  apply sf_value in H. destruct H as [_ H]. rewrite H. unfold F2R. cbn. lra.
Qed.
Lemma abs_low : forall a b e, Rabs (a - b) <= e -> Rabs b - e <= Rabs a.
Proof. intros a b e H. rewrite Rabs_minus_sym in H. pose proof (abs_near _ _ _ H). lra. Qed.
Lemma site_lat : forall lat : double, is_finite lat = true -> 30 <= Rabs (B2R lat) <= 90 ->
  let l := Bdiv mode_NE (Bmult mode_NE lat (@PI_ double (dbl_num L))) (z2d 180) in is_finite l = true /\ 52 / 100 <= Rabs (B2R l) <= 16 / 10.
Proof.
  intros lat F H l. pose proof (@PI_b L) as [FP BP]. pose proof PI_more as PL. destruct (z2d_val 180 ltac:(lia)) as [F180 V180].
  assert (M : is_finite (Bmult mode_NE lat (@PI_ double (dbl_num L))) = true /\ 942 / 10 - 1 / 1000 <= Rabs (B2R (Bmult mode_NE lat (@PI_ double (dbl_num L)))) <= 283).
  { assert (RP : Rabs (B2R lat * B2R (@PI_ double (dbl_num L))) = Rabs (B2R lat) * B2R (@PI_ double (dbl_num L))) by (rewrite Rabs_mult, (Rabs_pos_eq (B2R (PI_))) by lra; reflexivity).
    rewrite Rabs_pos_eq in BP by lra.
    destruct (is_rnd_small _ _ (mult_rnd lat (@PI_ double (dbl_num L)) F FP)) as [FM VM]; [rewrite RP; nra|]. split; [exact FM|]. rewrite VM.
    pose proof (rnd_err (B2R lat * B2R (@PI_ double (dbl_num L)))) as E. pose proof (abs_near _ _ _ E). pose proof (abs_low _ _ _ E). rewrite RP in *.
    set (a := Rabs (B2R lat)) in *. set (p := B2R (@PI_ double (dbl_num L))) in *. clearbody a p. assert (942 / 10 <= a * p <= 28275 / 100) by nra. lra. }
  destruct M as [FM BM]. set (m := Bmult mode_NE lat (@PI_ double (dbl_num L))) in *. clearbody m.
  assert (RD : Rabs (B2R m / B2R (z2d 180)) = Rabs (B2R m) / 180) by (rewrite V180; unfold Rdiv; rewrite Rabs_mult, (Rabs_pos_eq (/ 180)) by lra; reflexivity).
  destruct (is_rnd_small _ _ (div_rnd m (z2d 180) FM F180 ltac:(rewrite V180; lra))) as [FD VD]; [rewrite RD; lra|]. split; [exact FD|]. unfold l. rewrite VD.
  pose proof (rnd_err (B2R m / B2R (z2d 180))) as E. pose proof (abs_near _ _ _ E). pose proof (abs_low _ _ _ E). rewrite RD in *. lra.
Qed.
Lemma site_lon : forall lon : double, bounded 180 lon -> bounded 100 (Bdiv mode_NE (Bmult mode_NE lon (@PI_ double (dbl_num L))) (z2d 180)).
Proof.
  intros lon H. apply (b_div 600 180); [|apply z2d_val; lia|lra|rewrite (proj2 (z2d_val 180 ltac:(lia))), Rabs_pos_eq; lra|lra|lra].
  apply (b_mul 180 (31416 / 10000)); [exact H|apply PI_b|lra|lra].
Qed.
Lemma site_zone : forall tz, (-24 <= tz <= 24)%Z -> bounded 100 (Bdiv mode_NE (Bmult mode_NE (Bmult mode_NE (z2d tz) (z2d 15)) (@PI_ double (dbl_num L))) (z2d 180)).
Proof.
  intros tz H. apply (b_div 1300 180); [|apply z2d_val; lia|lra|rewrite (proj2 (z2d_val 180 ltac:(lia))), Rabs_pos_eq; lra|lra|lra].
  apply (b_mul 361 (31416 / 10000)); [|apply PI_b|lra|lra]. apply (b_mul 24 15); [apply b_z; [lia|apply IZR_le; lia]|apply b_z; [lia|apply IZR_le; lia]|lra|lra].
Qed.
End Site.

Lemma nth_bounded : forall l i, Forall (bounded 1000000) l -> bounded 1000000 (nth i l (z2d 0)).
Proof.
  intros l. induction l as [|x l IH]; intros i H.
  - replace (nth i [] (z2d 0)) with (z2d 0) by (destruct i; reflexivity). apply b_z; [lia|apply IZR_le; lia].
  - inversion H as [|? ? H1 H2]. destruct i; [exact H1|apply IH; exact H2].
Qed.
Lemma C121_far_l : forall L, good_libm L -> forall frame (e : epw double) lat lon tz s0 datas s s' dbt dpt rh egh eb ed wind,
  timeFrame = Ok frame -> ep_site e = Some (lat, lon, tz) -> is_finite lat = true -> 30 <= Rabs (B2R lat) <= 90 -> bounded 180 lon -> (-24 <= tz <= 24)%Z ->
  newSolar (N := dbl_num L) e (@PI_ double (dbl_num L)) = Ok s0 ->
  Forall year_table datas -> ofold (fun s d => calculate (N := dbl_num L) frame d s) datas s0 = Ok s ->
  year_table [dbt; dpt; rh; egh; eb; ed; wind] -> Forall (bounded 1000000) eb -> Forall (bounded 1000000) ed ->
  calculate (N := dbl_num L) frame [dbt; dpt; rh; egh; eb; ed; wind] s = Ok s' ->
  forall i, (i < 365 * 24)%nat -> exists row, nth_error (so_eglobe s') i = Some row /\ length row = 8%nat /\ Forall (bounded 10000000) row.
Proof.
  intros L GL frame e lat lon tz s0 datas s s' dbt dpt rh egh eb ed wind TF SITE FL RL LON TZ NEW DS HIST TAB BB BD CALC i HI.
  assert (HS : (i < slices)%nat) by (pose proof slices_Z; lia).
  exists (irradiance_row (N := dbl_num L) s0 (clock i) (nth i eb (@zn double (dbl_num L) 0)) (nth i ed (@zn double (dbl_num L) 0))).
  split; [|split].
  - exact (year_row (N := dbl_num L) frame e _ s0 datas s s' dbt dpt rh egh eb ed wind i TF NEW DS HIST TAB CALC HS).
  - apply irradiance_row_length.
  - unfold newSolar in NEW. rewrite SITE in NEW. assert (J : forall A (a b : A), Ok a = Ok b -> a = b) by (intros; congruence). apply J in NEW.
    apply row_b; try assumption; try (rewrite <- NEW; reflexivity).
    + rewrite <- NEW. exact (@site_lat L lat FL RL).
    + rewrite <- NEW. exact (@site_lon L lon LON).
    + rewrite <- NEW. exact (@site_zone L tz TZ).
    + apply nth_bounded. exact BB.
    + apply nth_bounded. exact BD.
Qed.

(** ** A library that rounds the exact values. *)
Definition unless_nan (x y : double) : double := if is_nan x then B754_nan else y.
Definition ideal : libm := {|
  lm_pow := fun x _ => r2d (B2R x * B2R x); lm_exp := fun x => x;
  lm_sin := fun x => unless_nan x (r2d (sin (B2R x))); lm_cos := fun x => unless_nan x (r2d (cos (B2R x)));
  lm_asin := fun x => unless_nan x (if Rle_bool (Rabs (B2R x)) 1 then r2d (asin (B2R x)) else B754_nan);
  lm_acos := fun x => unless_nan x (if Rle_bool (Rabs (B2R x)) 1 then r2d (acos (B2R x)) else B754_nan);
  lm_atan2 := fun y x => r2d (Ratan2 (B2R y) (B2R x)) |}.
Lemma not_nan : forall x y : double, is_finite x = true -> unless_nan x y = y.
Proof. intros x y F. unfold unless_nan. destruct x; try discriminate; reflexivity. Qed.
Lemma sin_1 : forall r, Rabs (sin r) <= 1. Proof. intros. apply Rabs_le, SIN_bound. Qed.
Lemma cos_1 : forall r, Rabs (cos r) <= 1. Proof. intros. apply Rabs_le, COS_bound. Qed.
Lemma near13 : forall r, Rabs r <= 4 -> within (1 / 10 ^ 13) r (r2d r).
Proof.
  intros r H. destruct (r2d_ok r ltac:(lra)) as [F V]. split; [exact F|]. rewrite V, p13. pose proof (rnd_err r). lra.
Qed.
Lemma atan_2 : forall r, - 2 <= atan r <= 2.
Proof. intros r. pose proof (atan_bound r). pose proof PI_4. lra. Qed.
Lemma ideal_exact : exact_libm ideal.
Proof.
  split.
  - intros x F. cbn [lm_sin ideal]. rewrite not_nan by exact F. apply r2d_ok. pose proof (sin_1 (B2R x)). lra.
  - intros x F. cbn [lm_cos ideal]. rewrite not_nan by exact F. apply r2d_ok. pose proof (cos_1 (B2R x)). lra.
  - intros x F H. cbn [lm_asin ideal]. rewrite not_nan by exact F. rewrite Rle_bool_false by exact H. reflexivity.
  - repeat split.
Qed.
Lemma ideal_good : good_libm ideal.
Proof.
  split.
  - intros x F. cbn [lm_sin ideal]. rewrite not_nan by exact F. pose proof (sin_1 (B2R x)) as B. split; [apply near13; lra|]. destruct (r2d_ok (sin (B2R x)) ltac:(lra)) as [_ V]. rewrite V. apply (rnd_le_1 _ 1); [exact B|lia].
  - intros x F. cbn [lm_cos ideal]. rewrite not_nan by exact F. pose proof (cos_1 (B2R x)) as B. split; [apply near13; lra|]. destruct (r2d_ok (cos (B2R x)) ltac:(lra)) as [_ V]. rewrite V. apply (rnd_le_1 _ 1); [exact B|lia].
  - intros x F B. cbn [lm_asin ideal]. rewrite not_nan by exact F. rewrite Rle_bool_true by exact B. apply near13. pose proof (asin_bound (B2R x)). pose proof PI_4. apply Rabs_le. lra.
  - intros x F B. cbn [lm_acos ideal]. rewrite not_nan by exact F. rewrite Rle_bool_true by exact B. apply near13. pose proof (acos_bound (B2R x)). pose proof PI_4. apply Rabs_le. lra.
  - intros x y _ _. cbn [lm_atan2 ideal].
    assert (B : Rabs (Ratan2 (B2R x) (B2R y)) <= 10).
    { apply Rabs_le. unfold Ratan2. pose proof (atan_bound (B2R x / B2R y)). pose proof PI_4. pose proof PI_RGT_0. repeat match goal with |- context [if ?b then _ else _] => destruct b end; lra. }
    destruct (r2d_ok (Ratan2 (B2R x) (B2R y)) ltac:(lra)) as [F V]. split; [exact F|]. rewrite V. apply (rnd_le_1 _ 10); [exact B|lia].
  - intros x F B. cbn [lm_pow ideal]. apply near13. rewrite Rabs_mult. pose proof (Rabs_pos (B2R x)). nra.
Qed.
Lemma sunny_table : year_table sunny_year.
Proof. split; [reflexivity|]. unfold sunny_year. repeat (apply Forall_cons; [rewrite repeat_length; apply slices_Z|]). apply Forall_nil. Qed.
Lemma sunny_ok : forall L frame lat lon tz tilt, timeFrame = Ok frame -> exists s0 s', newSolar (N := dbl_num L) (at_site lat lon tz) tilt = Ok s0 /\
  calculate (N := dbl_num L) frame sunny_year s0 = Ok s'.
Proof.
  intros L frame lat lon tz tilt TF. pose proof (timeFrame_good frame TF) as GF.
  destruct (newSolar_site (N := dbl_num L) (at_site lat lon tz) tilt lat lon tz eq_refl) as [s0 N0]. exists s0.
  destruct (columns _ sunny_table) as (c1&c2&c3&c4&c5&c6&c7&EQ&FC). rewrite EQ.
  eexists. split; [exact N0|]. apply calculate_ok; [exact GF|eapply newSolar_shape; exact N0|exact FC].
Qed.
Lemma C121_refuted_l : exists L, exact_libm L /\ good_libm L /\ forall frame, timeFrame = Ok frame -> exists s0 s',
  newSolar (N := dbl_num L) (at_site latitude_deg longitude_deg 0) (@PI_ double (dbl_num L)) = Ok s0 /\
  calculate (N := dbl_num L) frame sunny_year s0 = Ok s' /\ forall j, (j < 8)%nat -> cell (so_eglobe s') 12 j = Some B754_nan.
Proof.
  exists ideal. split; [exact ideal_exact|]. split; [exact ideal_good|]. intros frame TF.
  destruct (sunny_ok ideal frame latitude_deg longitude_deg 0 (@PI_ double (dbl_num ideal)) TF) as (s0&s'&N0&C). exists s0, s'. split; [exact N0|]. split; [exact C|].
  intros j J. unfold cell. pose proof C as C'. unfold sunny_year in C'. cbv zeta in C'.
  rewrite (C121_zenith_l ideal ideal_exact frame (at_site latitude_deg longitude_deg 0) _ s0 [] s0 s' _ _ _ _ _ _ _ TF eq_refl N0 (Forall_nil _) eq_refl sunny_table C').
  do 8 (destruct j as [|j]; [reflexivity|]). lia.
Qed.
Lemma nth_repeat_all : forall n x, bounded 1000000 x -> Forall (bounded 1000000) (repeat x n).
Proof. intros n x H. apply Forall_forall. intros y Y. apply repeat_spec in Y. subst. exact H. Qed.
Lemma C121_case_l : exists L, good_libm L /\ forall frame, timeFrame = Ok frame -> exists s0 s' dbt dpt rh egh eb ed wind,
  is_finite (dlit 4198 100) = true /\ 30 <= Rabs (B2R (dlit 4198 100)) <= 90 /\ bounded 180 (dlit (-8792) 100) /\
  newSolar (N := dbl_num L) (at_site (dlit 4198 100) (dlit (-8792) 100) (-6)) (@PI_ double (dbl_num L)) = Ok s0 /\
  year_table [dbt; dpt; rh; egh; eb; ed; wind] /\ Forall (bounded 1000000) eb /\ Forall (bounded 1000000) ed /\
  sunny_year = [dbt; dpt; rh; egh; eb; ed; wind] /\ calculate (N := dbl_num L) frame sunny_year s0 = Ok s'.
Proof.
  exists ideal. split; [exact ideal_good|]. intros frame TF.
  destruct (sunny_ok ideal frame (dlit 4198 100) (dlit (-8792) 100) (-6) (@PI_ double (dbl_num ideal)) TF) as (s0&s'&N0&C).
  exists s0, s'. do 7 eexists. split; [reflexivity|]. split; [|split; [|split; [exact N0|split; [exact sunny_table|split; [|split; [|split; [reflexivity|exact C]]]]]]].
  - assert (H : B2SF (dlit 4198 100) = SpecFloat.S754_finite false 5908159761156669 (-47)) by (vm_compute; reflexivity).
    apply sf_value in H. destruct H as [_ H]. rewrite H. unfold F2R. cbn. rewrite Rabs_pos_eq; lra.
  - assert (H : B2SF (dlit (-8792) 100) = SpecFloat.S754_finite true 6186819988100219 (-46)) by (vm_compute; reflexivity).
    apply sf_value in H. destruct H as [F H]. split; [exact F|]. rewrite H. unfold F2R. cbn. rewrite Rabs_left; lra.
  - apply nth_repeat_all. apply b_z; [lia|apply IZR_le; lia].
  - apply nth_repeat_all. apply b_z; [lia|apply IZR_le; lia].
Qed.
