(** Order and sign facts of double arithmetic. *)
From Coq Require Import Reals Lra ZArith Bool List Lia.
From Flocq Require Import Core.Core IEEE754.BinarySingleNaN.
From Verif Require Import Base Num Xr Dbl.
Open Scope R_scope.

Definition fexp64 := SpecFloat.fexp 53 1024.
Notation rnd := (round radix2 fexp64 (round_mode mode_NE)).
Notation huge := (bpow radix2 1024).
#[global] Instance valid64 : Valid_exp fexp64.
Proof. apply fexp_correct. exact prec53. Qed.

(** [z] is the double nearest to [r], infinite on overflow. *)
Definition is_rnd (r : R) (z : double) : Prop :=
  if Rlt_bool (Rabs (rnd r)) huge then is_finite z = true /\ B2R z = rnd r else z = B754_infinity (Rlt_bool r 0).

Lemma rnd_mono : forall a b, a <= b -> rnd a <= rnd b.
Proof. intros. apply round_le; [exact valid64|apply valid_rnd_round_mode|assumption]. Qed.
Lemma rnd_0 : rnd 0 = 0.
Proof. apply round_0. apply valid_rnd_round_mode. Qed.
Lemma rnd_nonneg : forall a, 0 <= a -> 0 <= rnd a.
Proof. intros. rewrite <- rnd_0. apply rnd_mono. assumption. Qed.
Lemma rnd_nonpos : forall a, a <= 0 -> rnd a <= 0.
Proof. intros. rewrite <- rnd_0. apply rnd_mono. assumption. Qed.
Lemma huge_pos : 0 < huge. Proof. apply bpow_gt_0. Qed.
Lemma rnd_B2R : forall x : double, rnd (B2R x) = B2R x.
Proof. intros x. apply round_generic; [apply valid_rnd_round_mode|]. apply generic_format_B2R. Qed.
Lemma B2R_huge : forall x : double, Rabs (B2R x) < huge.
Proof. intros. apply abs_B2R_lt_emax. Qed.

Lemma inf_of_SF : forall (z : double) s, B2SF z = binary_overflow 53 1024 mode_NE s -> z = B754_infinity s.
Proof. intros z s H. cbn in H. destruct z; cbn in H; try discriminate. injection H as ->. reflexivity. Qed.

Lemma sign_R : forall x : double, is_finite x = true -> (Bsign x = false -> 0 <= B2R x) /\ (Bsign x = true -> B2R x <= 0).
Proof.
  intros [s|s| |s m e h] F; cbn in *; try discriminate; try (split; intros; lra).
  destruct s; split; intros E; try discriminate.
  - apply F2R_le_0. cbn. lia.
  - apply F2R_ge_0. cbn. lia.
Qed.
Lemma over_pos : forall r, huge <= Rabs (rnd r) -> 0 <= r -> Rlt_bool r 0 = false.
Proof. intros. apply Rlt_bool_false. assumption. Qed.
Lemma over_neg : forall r, huge <= Rabs (rnd r) -> r <= 0 -> Rlt_bool r 0 = true.
Proof.
  intros r H L. apply Rlt_bool_true. destruct (Req_dec r 0) as [->|]; [|lra]. rewrite rnd_0, Rabs_R0 in H. pose proof huge_pos. lra.
Qed.

Lemma plus_rnd : forall x y : double, is_finite x = true -> is_finite y = true -> is_rnd (B2R x + B2R y) (Bplus mode_NE x y).
Proof.
  intros x y X Y. pose proof (Bplus_correct 53 1024 _ _ mode_NE x y X Y) as C. unfold is_rnd. fold fexp64 in C.
  destruct (Rlt_bool_spec (Rabs (rnd (B2R x + B2R y))) huge) as [O|O].
  - destruct C as (C1&C2&_). split; assumption.
  - destruct C as (C1&C2). apply inf_of_SF in C1. rewrite C1. f_equal. symmetry. destruct (Bsign x) eqn:E.
    + apply over_neg; [exact O|]. pose proof (proj2 (sign_R x X) E). pose proof (proj2 (sign_R y Y) (eq_sym C2)). lra.
    + apply over_pos; [exact O|]. pose proof (proj1 (sign_R x X) E). pose proof (proj1 (sign_R y Y) (eq_sym C2)). lra.
Qed.
Lemma minus_rnd : forall x y : double, is_finite x = true -> is_finite y = true -> is_rnd (B2R x - B2R y) (Bminus mode_NE x y).
Proof.
  intros x y X Y. pose proof (Bminus_correct 53 1024 _ _ mode_NE x y X Y) as C. unfold is_rnd. fold fexp64 in C.
  destruct (Rlt_bool_spec (Rabs (rnd (B2R x - B2R y))) huge) as [O|O].
  - destruct C as (C1&C2&_). split; assumption.
  - destruct C as (C1&C2). apply inf_of_SF in C1. rewrite C1. f_equal. symmetry. destruct (Bsign x) eqn:E.
    + apply over_neg; [exact O|]. pose proof (proj2 (sign_R x X) E). assert (Bsign y = false) as E2 by (destruct (Bsign y); [discriminate|reflexivity]). pose proof (proj1 (sign_R y Y) E2). lra.
    + apply over_pos; [exact O|]. pose proof (proj1 (sign_R x X) E). assert (Bsign y = true) as E2 by (destruct (Bsign y); [reflexivity|discriminate]). pose proof (proj2 (sign_R y Y) E2). lra.
Qed.
Lemma mult_rnd : forall x y : double, is_finite x = true -> is_finite y = true -> is_rnd (B2R x * B2R y) (Bmult mode_NE x y).
Proof.
  intros x y X Y. pose proof (Bmult_correct 53 1024 _ _ mode_NE x y) as C. unfold is_rnd. fold fexp64 in C.
  destruct (Rlt_bool_spec (Rabs (rnd (B2R x * B2R y))) huge) as [O|O].
  - destruct C as (C1&C2&_). rewrite X, Y in C2. split; assumption.
  - apply inf_of_SF in C. rewrite C. f_equal. symmetry. pose proof (sign_R x X) as [P1 P2]. pose proof (sign_R y Y) as [Q1 Q2].
    destruct (Bsign x), (Bsign y); cbn [xorb]; [apply over_pos|apply over_neg|apply over_neg|apply over_pos]; try exact O;
    repeat match goal with H : ?a = ?a -> _ |- _ => specialize (H eq_refl) | H : _ = _ -> _ |- _ => clear H end; nra.
Qed.
Lemma div_rnd : forall x y : double, is_finite x = true -> is_finite y = true -> B2R y <> 0 -> is_rnd (B2R x / B2R y) (Bdiv mode_NE x y).
Proof.
  intros x y X Y NZ. pose proof (Bdiv_correct 53 1024 _ _ mode_NE x y NZ) as C. unfold is_rnd. fold fexp64 in C.
  destruct (Rlt_bool_spec (Rabs (rnd (B2R x / B2R y))) huge) as [O|O].
  - destruct C as (C1&C2&_). rewrite X in C2. split; assumption.
  - apply inf_of_SF in C. rewrite C. f_equal. symmetry. pose proof (sign_R x X) as [P1 P2]. pose proof (sign_R y Y) as [Q1 Q2].
    assert (I : (0 < B2R y -> 0 < / B2R y) /\ (B2R y < 0 -> / B2R y < 0)) by (split; intros; [apply Rinv_0_lt_compat|apply Rinv_lt_0_compat]; assumption).
    unfold Rdiv.
    destruct (Bsign x), (Bsign y); cbn [xorb]; [apply over_pos|apply over_neg|apply over_neg|apply over_pos]; try exact O;
    repeat match goal with H : ?a = ?a -> _ |- _ => specialize (H eq_refl) | H : _ = _ -> _ |- _ => clear H end; destruct I as [I1 I2];
    first [assert (0 < / B2R y) by (apply I1; lra)|assert (/ B2R y < 0) by (apply I2; lra)]; nra.
Qed.

(** Comparison. *)
Definition dle (x y : double) : Prop := Bleb x y = true.
Lemma dle_fin : forall x y : double, is_finite x = true -> is_finite y = true -> (dle x y <-> B2R x <= B2R y).
Proof.
  intros x y X Y. unfold dle. rewrite Bleb_correct by assumption. destruct (Rle_bool_spec (B2R x) (B2R y)); split; intros; try reflexivity; try assumption; try discriminate; lra.
Qed.
Lemma is_rnd_mono : forall a b x y, is_rnd a x -> is_rnd b y -> a <= b -> dle x y.
Proof.
  intros a b x y X Y L. pose proof (rnd_mono a b L) as M. unfold is_rnd in X, Y. pose proof huge_pos as P.
  destruct (Rlt_bool_spec (Rabs (rnd a)) huge) as [OA|OA]; destruct (Rlt_bool_spec (Rabs (rnd b)) huge) as [OB|OB].
  - destruct X as [F1 E1], Y as [F2 E2]. apply dle_fin; [assumption..|]. rewrite E1, E2. exact M.
  - destruct X as [F1 E1]. subst y. assert (Rlt_bool b 0 = false) as ->.
    { apply Rlt_bool_false. destruct (Rle_dec 0 b); [assumption|exfalso]. assert (rnd b <= 0) by (apply rnd_nonpos; lra).
      rewrite Rabs_left1 in OB by assumption. apply Rabs_def2 in OA. lra. }
    destruct x; cbn in F1; try discriminate; reflexivity.
  - destruct Y as [F2 E2]. subst x. assert (Rlt_bool a 0 = true) as ->.
    { apply over_neg; [exact OA|]. destruct (Rle_dec a 0); [assumption|exfalso]. assert (0 <= rnd a) by (apply rnd_nonneg; lra).
      rewrite Rabs_right in OA by lra. apply Rabs_def2 in OB. lra. }
    destruct y; cbn in F2; try discriminate; reflexivity.
  - subst x y. destruct (Rlt_bool_spec a 0), (Rlt_bool_spec b 0); try reflexivity. lra.
Qed.
Lemma is_rnd_notnan : forall a x, is_rnd a x -> is_nan x = false.
Proof. intros a x H. unfold is_rnd in H. destruct (Rlt_bool (Rabs (rnd a)) huge); [destruct H as [H _]; destruct x; try reflexivity; discriminate|subst; reflexivity]. Qed.
Lemma is_rnd_self : forall x : double, is_finite x = true -> is_rnd (B2R x) x.
Proof. intros x F. unfold is_rnd. rewrite rnd_B2R, Rlt_bool_true by apply B2R_huge. split; [exact F|reflexivity]. Qed.

Lemma dle_refl : forall x : double, is_nan x = false -> dle x x.
Proof.
  intros x N. destruct (is_finite x) eqn:F; [apply dle_fin; [assumption..|lra]|]. destruct x as [|[]| |]; cbn in F, N; try discriminate; reflexivity.
Qed.
Lemma dle_trans : forall x y z : double, dle x y -> dle y z -> dle x z.
Proof.
  intros x y z A B. unfold dle in *.
  destruct (is_finite x) eqn:FX; destruct (is_finite y) eqn:FY; destruct (is_finite z) eqn:FZ;
  try (apply dle_fin; [assumption..|]; apply dle_fin in A; [|assumption..]; apply dle_fin in B; [|assumption..]; lra);
  destruct x as [?|[]| |[] ? ? ?], y as [?|[]| |[] ? ? ?], z as [?|[]| |[] ? ? ?]; cbn in FX, FY, FZ; try discriminate; try reflexivity; cbn in A, B; discriminate.
Qed.
Lemma dlt_dle : forall x y : double, Bltb x y = true -> dle x y.
Proof.
  intros x y. unfold dle, Bltb, Bleb, SpecFloat.SFltb, SpecFloat.SFleb. destruct (SpecFloat.SFcompare (B2SF x) (B2SF y)) as [[]|]; congruence.
Qed.
Lemma dnlt_dle : forall x y : double, is_nan x = false -> is_nan y = false -> Bltb x y = false -> dle y x.
Proof.
  intros x y X Y H. destruct (is_finite x) eqn:FX; destruct (is_finite y) eqn:FY.
  - apply dle_fin; [assumption..|]. rewrite Bltb_correct in H by assumption. destruct (Rlt_bool_spec (B2R x) (B2R y)); [discriminate|assumption].
  - destruct x as [?|[]| |[] ? ? ?], y as [?|[]| |[] ? ? ?]; cbn in *; try discriminate; reflexivity.
  - destruct x as [?|[]| |[] ? ? ?], y as [?|[]| |[] ? ? ?]; cbn in *; try discriminate; reflexivity.
  - destruct x as [?|[]| |[] ? ? ?], y as [?|[]| |[] ? ? ?]; cbn in *; try discriminate; reflexivity.
Qed.

(** ** Doubles without a minus sign: +0, positive numbers, +infinity, NaN. *)
Definition unsigned (x : double) : Prop := is_nan x = false -> Bsign x = false.
Lemma uns_plus : forall x y, unsigned x -> unsigned y -> unsigned (Bplus mode_NE x y).
Proof.
  intros x y X Y. unfold unsigned in *. destruct (is_finite x) eqn:FX; destruct (is_finite y) eqn:FY.
  - intros _. assert (SX : Bsign x = false) by (apply X; destruct x; try discriminate; reflexivity).
    assert (SY : Bsign y = false) by (apply Y; destruct y; try discriminate; reflexivity).
    pose proof (Bplus_correct 53 1024 _ _ mode_NE x y FX FY) as C. destruct (Rlt_bool _ _).
    + destruct C as (_&_&C). rewrite C. rewrite SX, SY. pose proof (proj1 (sign_R x FX) SX). pose proof (proj1 (sign_R y FY) SY).
      destruct (Rcompare_spec (B2R x + B2R y) 0); [lra|reflexivity|reflexivity].
    + destruct C as (C&_). apply inf_of_SF in C. rewrite C, SX. reflexivity.
  - destruct x as [[]|[]| |[] ? ? ?], y as [[]|[]| |[] ? ? ?]; cbn in *; try discriminate; auto.
  - destruct x as [[]|[]| |[] ? ? ?], y as [[]|[]| |[] ? ? ?]; cbn in *; try discriminate; auto.
  - destruct x as [[]|[]| |[] ? ? ?], y as [[]|[]| |[] ? ? ?]; cbn in *; try discriminate; auto.
Qed.
Lemma mult_sign : forall x y : double, is_nan (Bmult mode_NE x y) = false -> Bsign (Bmult mode_NE x y) = xorb (Bsign x) (Bsign y).
Proof.
  intros x y. pose proof (Bmult_correct 53 1024 _ _ mode_NE x y) as C. destruct (Rlt_bool _ _); [apply C|]. intros _. apply inf_of_SF in C. rewrite C. reflexivity.
Qed.
Lemma div_sign : forall x y : double, is_nan (Bdiv mode_NE x y) = false -> Bsign (Bdiv mode_NE x y) = xorb (Bsign x) (Bsign y).
Proof.
  intros x y. destruct (Req_dec (B2R y) 0) as [Z|Z].
  - destruct y as [s|s| |s m e h]; cbn [B2R] in Z.
    + destruct x as [[]|[]| |[] ? ? ?]; destruct s; cbn; congruence.
    + destruct x as [[]|[]| |[] ? ? ?]; destruct s; cbn; congruence.
    + destruct x; cbn; congruence.
    + exfalso. apply eq_0_F2R in Z. destruct s; discriminate.
  - pose proof (Bdiv_correct 53 1024 _ _ mode_NE x y Z) as C. destruct (Rlt_bool _ _); [apply C|]. intros _. apply inf_of_SF in C. rewrite C. reflexivity.
Qed.
Lemma mult_nan : forall x y : double, is_nan (Bmult mode_NE x y) = false -> is_nan x = false /\ is_nan y = false.
Proof. intros x y. destruct x, y; cbn; try discriminate; auto. Qed.
Lemma div_nan : forall x y : double, is_nan (Bdiv mode_NE x y) = false -> is_nan x = false /\ is_nan y = false.
Proof. intros x y. destruct x, y; cbn; try discriminate; auto. Qed.
Lemma uns_mult : forall x y, unsigned x -> unsigned y -> unsigned (Bmult mode_NE x y).
Proof. intros x y X Y N. rewrite mult_sign by exact N. apply mult_nan in N as [N1 N2]. rewrite X, Y by assumption. reflexivity. Qed.
Lemma uns_div : forall x y, unsigned x -> unsigned y -> unsigned (Bdiv mode_NE x y).
Proof. intros x y X Y N. rewrite div_sign by exact N. apply div_nan in N as [N1 N2]. rewrite X, Y by assumption. reflexivity. Qed.
Lemma uns_nonneg : forall x : double, unsigned x -> Bltb x (z2d 0) = false.
Proof. intros x X. destruct x as [[]|[]| |[] ? ? ?]; cbn in *; try reflexivity; specialize (X eq_refl); discriminate. Qed.
Lemma uns_z2d : forall z, (0 <= z)%Z -> unsigned (z2d z).
Proof.
  intros z Z _. unfold z2d. pose proof (binary_normalize_correct 53 1024 _ _ mode_NE z 0 false) as C. cbv zeta in C.
  assert (0 <= F2R (Float radix2 z 0)) by (apply F2R_ge_0; exact Z).
  destruct (Rlt_bool _ _).
  - destruct C as (_&_&C). rewrite C. destruct (Rcompare_spec (F2R (Float radix2 z 0)) 0); [lra|reflexivity|reflexivity].
  - apply inf_of_SF in C. rewrite C. apply Rlt_bool_false. assumption.
Qed.
Lemma uns_lit : forall n d, (0 <= n)%Z -> unsigned (dlit n d).
Proof. intros n d N. unfold dlit. destruct d; try (apply uns_div; apply uns_z2d; lia). apply uns_z2d. exact N. Qed.
