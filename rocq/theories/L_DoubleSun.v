(** Sines and cosines correctly rounded; the site at which the sun is over the zenith. *)
From Coq Require Import Reals Lra Lia ZArith Bool List QArith Qreals Qreduction.
From Flocq Require Import Core.Core IEEE754.BinarySingleNaN.
From Verif Require Import Base Num Xr Dbl L_Dbl M_TimeFrame M_Epw M_Solar S_Epw L_Epw L_Solar2 L_Solar3 L_Solar5 S_DoubleSun E_Sun.
Import ListNotations.
Open Scope R_scope.

(** ** Taylor sums in rationals. *)
(** The terms and the partial sum of cos ([o] = 1) or of sin divided by its argument ([o] = 2). *)
Fixpoint qsum (n : nat) (i : Z) (q t s : Q) : Q :=
  match n with
  | O => s
  | S k => let t' := Qred (- (t * q) * (1 # Z.to_pos (i * (i + 1)))) in qsum k (i + 2) q t' (Qred (s + t'))
  end.
Fixpoint rsum (n : nat) (i : Z) (q t s : R) : R :=
  match n with
  | O => s
  | S k => let t' := - (t * q) * / IZR (i * (i + 1)) in rsum k (i + 2) q t' (s + t')
  end.
Lemma q_r : forall n i q t s, (0 < i)%Z -> Q2R (qsum n i q t s) = rsum n i (Q2R q) (Q2R t) (Q2R s).
Proof.
  induction n as [|n IH]; intros i q t s H; [reflexivity|]. cbn [qsum rsum]. rewrite IH by lia.
  assert (E : Q2R (Qred (- (t * q) * (1 # Z.to_pos (i * (i + 1))))) = - (Q2R t * Q2R q) * / IZR (i * (i + 1))).
  { rewrite (Qeq_eqR _ _ (Qred_correct _)). rewrite Q2R_mult, Q2R_opp, Q2R_mult. f_equal. unfold Q2R. cbn [Qnum Qden].
    rewrite Z2Pos.id by nia. lra. }
  rewrite E. rewrite (Qeq_eqR _ _ (Qred_correct _)), Q2R_plus, E. reflexivity.
Qed.
Lemma cos_term_S : forall a k, cos_term a (S k) = - (cos_term a k * (a * a)) * / IZR ((2 * Z.of_nat k + 1) * (2 * Z.of_nat k + 2)).
Proof.
  intros a k. unfold cos_term. replace (2 * S k)%nat with (S (S (2 * k))) by lia. rewrite !fact_simpl, !mult_INR.
  rewrite <- !tech_pow_Rmult. rewrite mult_IZR. rewrite (INR_IZR_INZ (S (S (2 * k)))), (INR_IZR_INZ (S (2 * k))).
  replace (Z.of_nat (S (S (2 * k)))) with (2 * Z.of_nat k + 2)%Z by lia. replace (Z.of_nat (S (2 * k))) with (2 * Z.of_nat k + 1)%Z by lia.
  assert (IZR (2 * Z.of_nat k + 1) <> 0) by (apply not_0_IZR; lia). assert (IZR (2 * Z.of_nat k + 2) <> 0) by (apply not_0_IZR; lia).
  pose proof (INR_fact_neq_0 (2 * k)). field. auto.
Qed.
Lemma sin_term_S : forall a k, sin_term a (S k) = - (sin_term a k * (a * a)) * / IZR ((2 * Z.of_nat k + 2) * (2 * Z.of_nat k + 3)).
Proof.
  intros a k. unfold sin_term. replace (2 * S k + 1)%nat with (S (S (2 * k + 1))) by lia. rewrite !fact_simpl, !mult_INR.
  rewrite <- !tech_pow_Rmult. rewrite mult_IZR. rewrite (INR_IZR_INZ (S (S (2 * k + 1)))), (INR_IZR_INZ (S (2 * k + 1))).
  replace (Z.of_nat (S (S (2 * k + 1)))) with (2 * Z.of_nat k + 3)%Z by lia. replace (Z.of_nat (S (2 * k + 1))) with (2 * Z.of_nat k + 2)%Z by lia.
  assert (IZR (2 * Z.of_nat k + 2) <> 0) by (apply not_0_IZR; lia). assert (IZR (2 * Z.of_nat k + 3) <> 0) by (apply not_0_IZR; lia).
  pose proof (INR_fact_neq_0 (2 * k + 1)). field. auto.
Qed.
Lemma cos_rsum : forall a n k, sum_f_R0 (cos_term a) (k + n) = rsum n (2 * Z.of_nat k + 1) (a * a) (cos_term a k) (sum_f_R0 (cos_term a) k).
Proof.
  intros a n. induction n as [|n IH]; intros k; [rewrite Nat.add_0_r; reflexivity|]. cbn [rsum].
  replace (k + S n)%nat with (S k + n)%nat by lia. rewrite IH. replace (2 * Z.of_nat k + 1 + 2)%Z with (2 * Z.of_nat (S k) + 1)%Z by lia.
  replace (2 * Z.of_nat k + 1 + 1)%Z with (2 * Z.of_nat k + 2)%Z by lia. rewrite <- cos_term_S. reflexivity.
Qed.
Lemma sin_rsum : forall a n k, sum_f_R0 (sin_term a) (k + n) = rsum n (2 * Z.of_nat k + 2) (a * a) (sin_term a k) (sum_f_R0 (sin_term a) k).
Proof.
  intros a n. induction n as [|n IH]; intros k; [rewrite Nat.add_0_r; reflexivity|]. cbn [rsum].
  replace (k + S n)%nat with (S k + n)%nat by lia. rewrite IH. replace (2 * Z.of_nat k + 2 + 2)%Z with (2 * Z.of_nat (S k) + 2)%Z by lia.
  replace (2 * Z.of_nat k + 2 + 1)%Z with (2 * Z.of_nat k + 3)%Z by lia. rewrite <- sin_term_S. reflexivity.
Qed.
Definition qcos (n : nat) (a : Q) : Q := qsum n 1 (a * a) 1 1.
Definition qsin (n : nat) (a : Q) : Q := qsum n 2 (a * a) a a.
Lemma qcos_ok : forall n a, Q2R (qcos n a) = cos_approx (Q2R a) n.
Proof.
  intros n a. unfold qcos, cos_approx. rewrite q_r by lia. rewrite Q2R_mult. change n with (0 + n)%nat at 2. rewrite cos_rsum.
  cbn [sum_f_R0]. assert (E : cos_term (Q2R a) 0 = Q2R 1) by (unfold cos_term, Q2R; cbn; lra). rewrite E. reflexivity.
Qed.
Lemma qsin_ok : forall n a, Q2R (qsin n a) = sin_approx (Q2R a) n.
Proof.
  intros n a. unfold qsin, sin_approx. rewrite q_r by lia. rewrite Q2R_mult. change n with (0 + n)%nat at 2. rewrite sin_rsum.
  cbn [sum_f_R0]. assert (E : sin_term (Q2R a) 0 = Q2R a) by (unfold sin_term; cbn; lra). rewrite E. reflexivity.
Qed.
Lemma Q_in : forall a lo hi, Qle_bool lo a = true -> Qle_bool a hi = true -> Q2R lo <= Q2R a <= Q2R hi.
Proof. intros a lo hi A B. split; apply Qle_Rle; apply Qle_bool_iff; assumption. Qed.
Lemma cos_in : forall a lo hi, Qle_bool 0 a = true -> Qle_bool a 2 = true -> Qle_bool lo (qcos 13 a) = true -> Qle_bool (qcos 14 a) hi = true ->
  Q2R lo <= cos (Q2R a) <= Q2R hi.
Proof.
  intros a lo hi P A B C. destruct (Q_in _ _ _ P A) as [P' A']. replace (Q2R 0) with 0 in P' by (unfold Q2R; cbn; lra). replace (Q2R 2) with 2 in A' by (unfold Q2R; cbn; lra).
  destruct (pre_cos_bound (Q2R a) 6 ltac:(lra) A') as [U V]. change (2 * 6 + 1)%nat with 13%nat in U. change (2 * (6 + 1))%nat with 14%nat in V.
  rewrite <- qcos_ok in U, V. apply Qle_bool_iff, Qle_Rle in B. apply Qle_bool_iff, Qle_Rle in C. split; eapply Rle_trans; eassumption.
Qed.
Lemma sin_in : forall a lo hi, Qle_bool 0 a = true -> Qle_bool a 2 = true -> Qle_bool lo (qsin 13 a) = true -> Qle_bool (qsin 14 a) hi = true ->
  Q2R lo <= sin (Q2R a) <= Q2R hi.
Proof.
  intros a lo hi P A B C. destruct (Q_in _ _ _ P A) as [P' A']. replace (Q2R 0) with 0 in P' by (unfold Q2R; cbn; lra). replace (Q2R 2) with 2 in A' by (unfold Q2R; cbn; lra).
  destruct (pre_sin_bound (Q2R a) 6 ltac:(lra) ltac:(lra)) as [U V]. change (2 * 6 + 1)%nat with 13%nat in U. change (2 * (6 + 1))%nat with 14%nat in V.
  rewrite <- qsin_ok in U, V. apply Qle_bool_iff, Qle_Rle in B. apply Qle_bool_iff, Qle_Rle in C. split; eapply Rle_trans; eassumption.
Qed.

(** ** Rounding to a known double. *)
Lemma rnd_at : forall x m e, IZR (2 ^ 52) <= x * bpow radix2 (- e) < IZR (2 ^ 53) -> (-1074 <= e)%Z -> Rabs (x * bpow radix2 (- e) - IZR m) < / 2 -> rnd x = F2R (Float radix2 m e).
Proof.
  intros x m e Y E A. assert (X : x = (x * bpow radix2 (- e)) * bpow radix2 e) by (rewrite Rmult_assoc, <- bpow_plus, Z.add_opp_diag_l; cbn; lra).
  set (y := x * bpow radix2 (- e)) in *. clearbody y. pose proof (bpow_gt_0 radix2 e) as P.
  assert (G : mag radix2 x = (53 + e)%Z :> Z).
  { apply mag_unique. rewrite X, Rabs_pos_eq by nra. replace (53 + e - 1)%Z with (52 + e)%Z by lia. rewrite !bpow_plus.
    change (bpow radix2 52) with (IZR (2 ^ 52)). change (bpow radix2 53) with (IZR (2 ^ 53)). split; [apply Rmult_le_compat_r; lra|apply Rmult_lt_compat_r; lra]. }
  assert (C : cexp radix2 fexp64 x = e). { unfold cexp. rewrite G. unfold fexp64, SpecFloat.fexp, SpecFloat.emin. lia. }
  unfold round. rewrite C. f_equal. f_equal. unfold scaled_mantissa. rewrite C. replace (x * bpow radix2 (- e)) with y.
  - cbn [round_mode]. apply Znearest_imp. exact A.
  - rewrite X. rewrite Rmult_assoc, <- bpow_plus, Z.add_opp_diag_r. cbn. lra.
Qed.
Lemma rnd_is : forall x m e, (2 ^ 52 < m < 2 ^ 53)%Z -> (-1074 <= e)%Z -> Rabs (x * bpow radix2 (- e) - IZR m) < / 2 -> rnd x = F2R (Float radix2 m e).
Proof.
  intros x m e M E A. apply rnd_at; [|exact E|exact A]. set (y := x * bpow radix2 (- e)) in *. clearbody y. apply Rabs_def2 in A.
  assert (IZR (2 ^ 52 + 1) <= IZR m <= IZR (2 ^ 53 - 1)) by (split; apply IZR_le; lia). rewrite plus_IZR in H. rewrite minus_IZR in H. lra.
Qed.
(** The double [m * 2^e]. *)
Definition mk (m e : Z) : double := binary_normalize 53 1024 _ _ mode_NE m e false.
Lemma same_double : forall x z : double, is_finite x = true -> B2R x = B2R z -> is_finite_strict z = true -> x = z.
Proof.
  intros x z F E G. apply B2R_inj; [|exact G|exact E]. destruct x as [s|s| |s m e h]; try discriminate; [|reflexivity].
  exfalso. destruct z as [t|t| |t k f i]; try discriminate. cbn in E. symmetry in E. apply eq_0_F2R in E. destruct t; discriminate.
Qed.
(** [x] is [m * 2^-k] within 511/1024 of a unit. *)
Definition low (m : Z) (k : positive) : Q := (1024 * m - 511) # (1024 * 2 ^ k).
Definition high (m : Z) (k : positive) : Q := (1024 * m + 511) # (1024 * 2 ^ k).
Lemma rounds_to : forall x m k, (2 ^ 52 < m < 2 ^ 53)%Z -> (Zpos k <= 1074)%Z -> Q2R (low m k) <= x <= Q2R (high m k) ->
  rnd x = F2R (Float radix2 m (Zneg k)).
Proof.
  intros x m k M K [A B]. apply rnd_is; [exact M|lia|]. change (- Zneg k)%Z with (Zpos k). unfold low, high, Q2R in *. cbn [Qnum Qden] in *.
  rewrite minus_IZR in A. rewrite plus_IZR in B. rewrite mult_IZR in A, B. rewrite Pos2Z.inj_mul, Pos2Z.inj_pow, mult_IZR in A, B. change (IZR (2 ^ Zpos k)) with (bpow radix2 (Zpos k)) in A, B.
  pose proof (bpow_gt_0 radix2 (Zpos k)) as P. set (b := bpow radix2 (Zpos k)) in *. clearbody b. 
  assert (x = (x * b) * / b) by (field; lra). set (y := x * b) in *. clearbody y. rewrite H in A, B. rewrite Rinv_mult in A, B by lra.
  assert (0 < / b) by (apply Rinv_0_lt_compat; exact P). set (c := / b) in *. clearbody c.
  assert (IZR m - 511 / 1024 <= y) by (apply (Rmult_le_reg_r c); [assumption|nra]). assert (y <= IZR m + 511 / 1024) by (apply (Rmult_le_reg_r c); [assumption|nra]).
  apply Rabs_def1; lra.
Qed.
Lemma mk_value : forall (z : double) s m e, B2SF z = SpecFloat.S754_finite s m e -> is_finite_strict z = true /\ B2R z = F2R (Float radix2 (cond_Zopp s (Zpos m)) e).
Proof. intros z s m e H. rewrite <- SF2R_B2SF. destruct z; try discriminate. injection H as -> -> ->. split; reflexivity. Qed.

Lemma neg_cos : forall L, exact_libm L -> forall (x z : double) a m k, is_finite x = true -> B2R x = - Q2R a ->
  Qle_bool 0 a = true -> Qle_bool a 2 = true -> Qle_bool (low (Zpos m) k) (qcos 13 a) = true -> Qle_bool (qcos 14 a) (high (Zpos m) k) = true ->
  (2 ^ 52 < Zpos m < 2 ^ 53)%Z -> (Zpos k <= 1074)%Z -> B2SF z = SpecFloat.S754_finite false m (Zneg k) -> lm_cos x = z.
Proof.
  intros L EL x z a m k F X A B C D M K Z. destruct (el_cos L EL x F) as [G V]. destruct (mk_value _ _ _ _ Z) as [S W].
  apply same_double; [exact G| |exact S]. rewrite V, W, X, cos_neg. apply rounds_to; [exact M|exact K|]. apply cos_in; assumption.
Qed.
Lemma neg_sin : forall L, exact_libm L -> forall (x z : double) a m k, is_finite x = true -> B2R x = - Q2R a ->
  Qle_bool 0 a = true -> Qle_bool a 2 = true -> Qle_bool (low (Zpos m) k) (qsin 13 a) = true -> Qle_bool (qsin 14 a) (high (Zpos m) k) = true ->
  (2 ^ 52 < Zpos m < 2 ^ 53)%Z -> (Zpos k <= 1074)%Z -> B2SF z = SpecFloat.S754_finite true m (Zneg k) -> lm_sin x = z.
Proof.
  intros L EL x z a m k F X A B C D M K Z. destruct (el_sin L EL x F) as [G V]. destruct (mk_value _ _ _ _ Z) as [S W].
  apply same_double; [exact G| |exact S]. rewrite V, W, X, sin_neg. rewrite round_NE_opp. cbn [cond_Zopp]. rewrite F2R_Zopp. f_equal.
  apply rounds_to; [exact M|exact K|]. apply sin_in; assumption.
Qed.
Lemma neg_value : forall (x : double) m k, B2SF x = SpecFloat.S754_finite true m (Zneg k) -> is_finite x = true /\ B2R x = - Q2R (Zpos m # (2 ^ k)).
Proof.
  intros x m k H. destruct (mk_value _ _ _ _ H) as [S V]. split; [destruct x; [discriminate S|discriminate S|discriminate S|reflexivity]|]. rewrite V. unfold F2R, Q2R. cbn [Fnum Fexp Qnum Qden cond_Zopp].
  rewrite opp_IZR. rewrite Pos2Z.inj_pow. change (Zneg k) with (- Zpos k)%Z. rewrite bpow_opp. change (IZR (2 ^ Zpos k)) with (bpow radix2 (Zpos k)). lra.
Qed.

(** ** The site. *)
Definition decD : double := mk (-7249876665742515) (-54).
Definition latD : double := mk (-7249876694271768) (-54).
Lemma trig_dec : forall L, exact_libm L -> lm_cos decD = mk 8287564993256560 (-53) /\ lm_sin decD = mk (-7055750816789120) (-54).
Proof.
  intros L EL. assert (B : B2SF decD = SpecFloat.S754_finite true 7249876665742515 (-54)) by (vm_compute; reflexivity).
  destruct (neg_value _ _ _ B) as [F V]. split.
  - apply (neg_cos L EL _ _ _ 8287564993256560 53 F V); try (vm_compute; reflexivity); lia.
  - apply (neg_sin L EL _ _ _ 7055750816789120 54 F V); try (vm_compute; reflexivity); lia.
Qed.
Lemma trig_lat : forall L, exact_libm L -> lm_cos latD = mk 8287564987669493 (-53) /\ lm_sin latD = mk (-7055750843039016) (-54).
Proof.
  intros L EL. assert (B : B2SF latD = SpecFloat.S754_finite true 7249876694271768 (-54)) by (vm_compute; reflexivity).
  destruct (neg_value _ _ _ B) as [F V]. split.
  - apply (neg_cos L EL _ _ _ 8287564987669493 53 F V); try (vm_compute; reflexivity); lia.
  - apply (neg_sin L EL _ _ _ 7055750843039016 54 F V); try (vm_compute; reflexivity); lia.
Qed.
Lemma trig_zero : forall L, exact_libm L -> lm_cos (B754_zero false) = z2d 1 /\ exists s, lm_sin (B754_zero false) = B754_zero s.
Proof.
  intros L EL. split.
  - destruct (el_cos L EL (B754_zero false) eq_refl) as [F V]. cbn [B2R] in V. rewrite cos_0 in V.
    assert (W : B2R (z2d 1) = 1). { assert (B : B2SF (z2d 1) = SpecFloat.S754_finite false 4503599627370496 (-52)) by (vm_compute; reflexivity).
      destruct (mk_value _ _ _ _ B) as [_ ->]. unfold F2R. cbn. lra. }
    apply same_double; [exact F| |reflexivity]. rewrite V, <- W. apply rnd_B2R.
  - destruct (el_sin L EL (B754_zero false) eq_refl) as [F V]. cbn [B2R] in V. rewrite sin_0, rnd_0 in V.
    destruct (lm_sin (B754_zero false)) as [s|s| |s m e h]; try discriminate; [exists s; reflexivity|].
    exfalso. cbn in V. apply eq_0_F2R in V. destruct s; discriminate.
Qed.

(** The computed sine of the altitude at noon of the first day is above one. *)
Definition over : double := mk 4503599627370497 (-52).
Section Zenith.
Context {L : libm}.
Hypothesis EL : exact_libm L.
#[local] Existing Instance dbl_num.
Lemma rev_0 : revolutionAngle (N := dbl_num L) 0 = B754_zero false.
Proof. vm_compute. reflexivity. Qed.
Lemma zero_times : forall z, In z [2; 3]%Z -> Bmult mode_NE (dlit z 1) (B754_zero false) = B754_zero false.
Proof. intros z [<- | [<- | []]]; vm_compute; reflexivity. Qed.
Lemma dec_0 : solarDeclination (N := dbl_num L) (B754_zero false) = decD.
Proof.
  destruct (trig_zero L EL) as (C&s&S). unfold solarDeclination, zn. cbn [nsub nadd nmul ncos nsin lit dbl_num].
  rewrite !zero_times by (cbn; auto). rewrite !C, !S. destruct s; apply B2SF_inj; vm_compute; reflexivity.
Qed.
Definition eotD : double := equationOfTime (N := dbl_num {| lm_pow := fun x _ => x; lm_exp := fun x => x; lm_sin := fun x => x;
  lm_cos := fun x => z2d 1; lm_asin := fun x => x; lm_acos := fun x => x; lm_atan2 := fun x _ => x |}) (B754_zero false).
Lemma eot_0 : equationOfTime (N := dbl_num L) (B754_zero false) = eotD.
Proof.
  destruct (trig_zero L EL) as (C&s&S). unfold equationOfTime, zn. cbn [nsub nadd nmul ncos nsin lit dbl_num].
  rewrite !zero_times by (cbn; auto). rewrite !C, !S. destruct s; apply B2SF_inj; vm_compute; reflexivity.
Qed.
Variables (s : solar double).
Hypothesis LAT : so_lat s = (latitude_deg * PI_ / zn 180)%num.
Hypothesis LON : so_lon s = (longitude_deg * PI_ / zn 180)%num.
Hypothesis MER : so_meridian s = (zn 0 * zn 15 * PI_ / zn 180)%num.
Lemma lat_D : so_lat s = latD.
Proof. rewrite LAT. apply B2SF_inj. vm_compute. reflexivity. Qed.
Lemma ha_0 : solarHourAngle (N := dbl_num L) (apparentSolarTime s 12 eotD) = B754_zero false.
Proof. unfold apparentSolarTime. rewrite LON, MER. apply B2SF_inj. vm_compute. reflexivity. Qed.
Lemma alt_nan : fst (sunPosition (N := dbl_num L) s (clock 12)) = B754_nan.
Proof.
  unfold sunPosition. cbn [fst]. change (tc_ytd (clock 12)) with 0%Z. change (tc_hour (clock 12)) with 12%Z. rewrite rev_0, dec_0, eot_0, ha_0.
  unfold solarAltitude. rewrite lat_D. cbn [nadd nmul ncos nsin nasin dbl_num]. destruct (trig_dec L EL) as [-> ->]. destruct (trig_lat L EL) as [-> ->]. destruct (trig_zero L EL) as [-> _].
  match goal with |- lm_asin ?x = _ => assert (B : B2SF x = SpecFloat.S754_finite false 4503599627370497 (-52)) by (vm_compute; reflexivity); set (y := x) in * end.
  clearbody y. destruct (mk_value _ _ _ _ B) as [S V]. apply (el_asin_out L EL); [destruct y; [discriminate S|discriminate S|discriminate S|reflexivity]|].
  rewrite V. unfold F2R. cbn [Fnum Fexp cond_Zopp]. change (bpow radix2 (-52)) with (/ 4503599627370496). rewrite Rabs_pos_eq; lra.
Qed.
Lemma nan_mult_l : forall x : double, Bmult mode_NE B754_nan x = B754_nan.
Proof. reflexivity. Qed.
Lemma nan_mult_r : forall x : double, Bmult mode_NE x B754_nan = B754_nan.
Proof. intros x. destruct x; reflexivity. Qed.
Lemma nan_plus : forall x : double, Bplus mode_NE B754_nan x = B754_nan.
Proof. reflexivity. Qed.
Lemma row_nan : forall b d, irradiance_row (N := dbl_num L) s (clock 12) b d = repeat B754_nan 8.
Proof.
  intros b d. unfold irradiance_row. pose proof alt_nan as A. destruct (sunPosition s (clock 12)) as [alt az]. cbn [fst] in A. subst alt.
  assert (E : forall g a, surfaceIrradiance (N := dbl_num L) s B754_nan az g b d a = B754_nan).
  { intros g a. unfold surfaceIrradiance, angleOfIncidence, totalIrradiance, totalDirect. cbn [nadd nmul ncos nsin nacos dbl_num].
    destruct (el_nan L EL) as (E1&E2&E3). rewrite E2. rewrite !nan_mult_l, nan_plus, E3, E2.
    unfold nmax. cbn [nlt dbl_num]. change (Bltb B754_nan (zn 0)) with false. cbn iota. rewrite nan_mult_r. reflexivity. }
  unfold SurfaceAzimuths. cbn [map]. rewrite !E. reflexivity.
Qed.
End Zenith.

(** ** A whole year. *)
Lemma year_row {T} {N : Num T} : forall frame (e : epw T) tilt s0 datas s s' dbt dpt rh egh eb ed wind i,
  timeFrame = Ok frame -> newSolar e tilt = Ok s0 -> Forall year_table datas -> ofold (fun s d => calculate frame d s) datas s0 = Ok s ->
  year_table [dbt; dpt; rh; egh; eb; ed; wind] -> calculate frame [dbt; dpt; rh; egh; eb; ed; wind] s = Ok s' -> (i < slices)%nat ->
  nth_error (so_eglobe s') i = Some (irradiance_row s0 (clock i) (nth i eb (zn 0)) (nth i ed (zn 0))).
Proof.
  intros frame e tilt s0 datas s s' dbt dpt rh egh eb ed wind i TF NEW DS HIST TAB CALC HI. pose proof (timeFrame_good frame TF) as GF.
  destruct (history_ok frame GF datas s0 s DS (newSolar_shape _ _ _ NEW) HIST) as [SH CO].
  destruct (columns _ TAB) as (c1&c2&c3&c4&c5&c6&c7&EQ&FC). injection EQ as <- <- <- <- <- <- <-.
  rewrite (calculate_ok frame s) in CALC by assumption. rewrite (calculated_constants s s0) in CALC by exact CO.
  assert (E' : s' = calculated s0 dbt dpt rh egh eb ed wind) by congruence.
  rewrite E'. unfold calculated. cbn [so_eglobe]. rewrite nth_error_map.
  rewrite (@nth_error_nth' nat (seq 0 slices) i 0%nat) by (rewrite seq_length; exact HI). rewrite seq_nth by exact HI.
  cbn [option_map]. change (0 + i)%nat with i. reflexivity.
Qed.
Lemma C121_zenith_l : forall L, exact_libm L -> forall frame (e : epw double) tilt s0 datas s s' dbt dpt rh egh eb ed wind,
  timeFrame = Ok frame -> ep_site e = Some (latitude_deg, longitude_deg, 0%Z) -> newSolar (N := dbl_num L) e tilt = Ok s0 ->
  Forall year_table datas -> ofold (fun s d => calculate (N := dbl_num L) frame d s) datas s0 = Ok s ->
  year_table [dbt; dpt; rh; egh; eb; ed; wind] -> calculate (N := dbl_num L) frame [dbt; dpt; rh; egh; eb; ed; wind] s = Ok s' ->
  nth_error (so_eglobe s') 12 = Some (repeat B754_nan 8).
Proof.
  intros L EL frame e tilt s0 datas s s' dbt dpt rh egh eb ed wind TF SITE NEW DS HIST TAB CALC.
  rewrite (year_row (N := dbl_num L) frame e tilt s0 datas s s' dbt dpt rh egh eb ed wind 12 TF NEW DS HIST TAB CALC).
  - f_equal. unfold newSolar in NEW. rewrite SITE in NEW. assert (J : forall A (a b : A), Ok a = Ok b -> a = b) by (intros; congruence). apply J in NEW. apply row_nan; [exact EL|..]; rewrite <- NEW; reflexivity.
  - pose proof slices_Z. lia.
Qed.

(** ** Such libraries exist: round the exact value. *)
Definition r2d (r : R) : double :=
  binary_normalize 53 1024 _ _ mode_NE (Ztrunc (scaled_mantissa radix2 fexp64 (rnd r))) (cexp radix2 fexp64 (rnd r)) false.
Lemma rnd_le_1 : forall r b, Rabs r <= IZR b -> (0 <= b <= 1000)%Z -> Rabs (rnd r) <= IZR b.
Proof.
  intros r b H B. assert (G : rnd (IZR b) = IZR b).
  { apply round_generic; [apply valid_rnd_round_mode|]. replace (IZR b) with (F2R (Float radix2 b 0)) by (unfold F2R; cbn; lra). apply generic_format_F2R. intros NZ.
    unfold cexp. assert (M : (mag radix2 (F2R (Float radix2 b 0)) <= 53)%Z).
    { apply mag_le_bpow; [intro E; apply eq_0_F2R in E; cbn in E; lia|]. unfold F2R. cbn [Fnum Fexp]. rewrite Rmult_1_r. rewrite Rabs_pos_eq by (apply IZR_le; lia).
      change (bpow radix2 53) with (IZR (2 ^ 53)). apply IZR_lt. lia. }
    unfold fexp64, SpecFloat.fexp, SpecFloat.emin. lia. }
  apply Rabs_le_inv in H. apply Rabs_le. split.
  - rewrite <- G, <- round_NE_opp. apply rnd_mono. lra.
  - rewrite <- G. apply rnd_mono. lra.
Qed.
Lemma r2d_ok : forall r, Rabs r <= 1000 -> nearest r (r2d r).
Proof.
  intros r H. assert (G : generic_format radix2 fexp64 (rnd r)) by (apply generic_format_round; [exact valid64|apply valid_rnd_round_mode]).
  unfold r2d. set (m := Ztrunc (scaled_mantissa radix2 fexp64 (rnd r))) in *. set (x := cexp radix2 fexp64 (rnd r)) in *.
  assert (G' : F2R (Float radix2 m x) = rnd r) by (symmetry; exact G). clearbody m x.
  pose proof (binary_normalize_correct 53 1024 _ _ mode_NE m x false) as C. cbv zeta in C.
  rewrite G' in C. assert (G2 : round radix2 (SpecFloat.fexp 53 1024) (round_mode mode_NE) (rnd r) = rnd r) by (apply round_generic; [apply valid_rnd_round_mode|exact G]).
  rewrite G2 in C. pose proof (rnd_le_1 r 1000 H ltac:(lia)) as B.
  rewrite Rlt_bool_true in C.
  - destruct C as (C1&C2&_). split; assumption.
  - eapply Rle_lt_trans; [exact B|]. apply Rlt_le_trans with (bpow radix2 20); [cbn; lra|apply bpow_le; lia].
Qed.
