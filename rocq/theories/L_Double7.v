(** Weather averages in doubles: rounding of sums of either sign and of the division. *)
From Coq Require Import Reals Lra Psatz ZArith Bool List Lia.
From Flocq Require Import Core.Core IEEE754.BinarySingleNaN Plus_error Relative.
From Verif Require Import Base Num Xr Dbl L_Dbl M_TimeFrame S_Calendar S_Solar S_Double S_DoubleMonthly L_Calendar L_Weather2 L_Solar5 L_Double L_Double2 L_Double6.
Import ListNotations.
Open Scope R_scope.

Definition size_sum (l : list double) : R := fold_right Rplus 0 (map (fun x => Rabs (B2R x)) l).
Lemma size_pos : forall l, 0 <= size_sum l.
Proof. induction l as [|x l IH]; [cbn; lra|]. change (size_sum (x :: l)) with (Rabs (B2R x) + size_sum l). pose proof (Rabs_pos (B2R x)). lra. Qed.
Lemma sum_size : forall l, Rabs (exact_sum l) <= size_sum l.
Proof.
  induction l as [|x l IH]; [cbn; rewrite Rabs_R0; lra|]. change (exact_sum (x :: l)) with (B2R x + exact_sum l). change (size_sum (x :: l)) with (Rabs (B2R x) + size_sum l).
  pose proof (Rabs_triang (B2R x) (exact_sum l)). lra.
Qed.

Definition top : R := bpow radix2 1000.
Lemma top_pos : 0 < top. Proof. apply bpow_gt_0. Qed.
(** Multiples of 2^1000 are exact and small enough. *)
Lemma multiple_exact : forall n, (0 <= n <= 9000)%Z -> rnd (IZR n * top) = IZR n * top /\ IZR n * top < huge.
Proof.
  intros n H. split.
  - apply round_generic; [apply valid_rnd_N|]. apply (generic_format_FLT radix2 (3 - 1024 - 53) 53). exists (Float radix2 n 1000); [reflexivity| |cbn; lia].
    cbn. change (2 ^ 53)%Z with 9007199254740992%Z. lia.
  - assert (E : forall e, (e = 24 + 1000)%Z -> bpow radix2 e = bpow radix2 24 * bpow radix2 1000) by (intros e ->; apply bpow_plus).
    rewrite (E 1024%Z eq_refl). unfold top. apply (Rmult_lt_compat_r (bpow radix2 1000)); [apply bpow_gt_0|].
    apply Rle_lt_trans with (IZR 9000); [apply IZR_le; lia|]. cbn. lra.
Qed.
Lemma rnd_opp : forall a, rnd (- a) = - rnd a.
Proof. intros a. apply round_NE_opp. Qed.
Lemma rnd_below : forall n r, (0 <= n <= 9000)%Z -> Rabs r <= IZR n * top -> Rabs (rnd r) <= IZR n * top.
Proof.
  intros n r H B. destruct (multiple_exact n H) as [E _]. apply Rabs_le_inv' in B. apply Rabs_le. split.
  - rewrite <- E, <- rnd_opp. apply rnd_mono. lra.
  - rewrite <- E. apply rnd_mono. lra.
Qed.
Lemma is_rnd_below : forall n r x, (0 <= n <= 9000)%Z -> is_rnd r x -> Rabs r <= IZR n * top -> is_finite x = true /\ B2R x = rnd r /\ Rabs (B2R x) <= IZR n * top.
Proof.
  intros n r x H R B. pose proof (rnd_below n r H B) as K. destruct (multiple_exact n H) as [_ LT]. unfold is_rnd in R. rewrite Rlt_bool_true in R by lra.
  destruct R as [R1 R2]. split; [exact R1|]. split; [exact R2|]. rewrite R2. exact K.
Qed.

Lemma sum_error_any : forall l (a : double) n, (0 <= n)%Z -> (n + Z.of_nat (length l) <= 9000)%Z -> is_finite a = true -> Rabs (B2R a) <= IZR n * top ->
  Forall (fun x => is_finite x = true /\ Rabs (B2R x) <= top) l ->
  let s := fold_left (Bplus mode_NE) l a in
  is_finite s = true /\ Rabs (B2R s) <= IZR (n + Z.of_nat (length l)) * top /\
  Rabs (B2R s - (B2R a + exact_sum l)) <= ((1 + uro) ^ length l - 1) * (Rabs (B2R a) + size_sum l).
Proof.
  assert (U : 0 < uro) by (rewrite uro_val; lra).
  induction l as [|x l IH]; intros a n N0 NL FA BA F; cbv zeta.
  - cbn [fold_left length]. rewrite Z.add_0_r. split; [exact FA|]. split; [exact BA|]. unfold exact_sum, size_sum. cbn. rewrite Rplus_0_r, Rminus_diag_eq, Rabs_R0 by reflexivity. lra.
  - inversion F as [|? ? [FX BX] F']; subst. cbn [fold_left]. cbn [length] in NL.
    assert (AX : Rabs (B2R a + B2R x) <= IZR (n + 1) * top). { rewrite plus_IZR. pose proof (Rabs_triang (B2R a) (B2R x)). lra. }
    destruct (is_rnd_below (n + 1) (B2R a + B2R x) (Bplus mode_NE a x) ltac:(lia) (plus_rnd a x FA FX) AX) as (FS&VS&BS).
    destruct (IH (Bplus mode_NE a x) (n + 1)%Z ltac:(lia) ltac:(lia) FS BS F') as (F1&B1&E).
    split; [exact F1|]. split; [replace (n + Z.of_nat (length (x :: l)))%Z with (n + 1 + Z.of_nat (length l))%Z by (cbn [length]; lia); exact B1|].
    destruct (plus_eps a x) as (e&E1&E2). rewrite VS, E2 in E.
    change (exact_sum (x :: l)) with (B2R x + exact_sum l). change (size_sum (x :: l)) with (Rabs (B2R x) + size_sum l).
    set (z := B2R (fold_left _ _ _)) in *. set (q := B2R a + B2R x) in *. cbn [length pow]. set (w := (1 + uro) ^ length l) in *. set (S := exact_sum l) in *. set (A := size_sum l) in *.
    assert (W : 1 <= w) by (apply pow_R1_Rle; lra). pose proof (size_pos l) as PA. fold A in PA.
    pose proof (Rabs_triang (B2R a) (B2R x)) as T. fold q in T. set (Q := Rabs (B2R a) + Rabs (B2R x)) in *. assert (Q0 : 0 <= Rabs q) by apply Rabs_pos.
    assert (D1 : Rabs (q * (1 + e)) <= Rabs q * (1 + uro)).
    { rewrite Rabs_mult. apply Rmult_le_compat_l; [exact Q0|]. pose proof (Rabs_triang 1 e). rewrite Rabs_R1 in H. lra. }
    assert (D2 : Rabs (q * e) <= Rabs q * uro) by (rewrite Rabs_mult; apply Rmult_le_compat_l; assumption).
    replace (z - (B2R a + (B2R x + S))) with ((z - (q * (1 + e) + S)) + q * e) by (unfold q; ring).
    eapply Rle_trans; [apply Rabs_triang|]. replace (Rabs (B2R a) + (Rabs (B2R x) + A)) with (Q + A) by (unfold Q; ring).
    assert (B3 : (w - 1) * (Rabs (q * (1 + e)) + A) <= (w - 1) * (Q * (1 + uro) + A)) by (apply Rmult_le_compat_l; [lra|]; nra).
    assert (B4 : 0 <= uro * w * A) by (apply Rmult_le_pos; [apply Rmult_le_pos; lra|exact PA]).
    assert (B5 : Rabs q * uro <= Q * uro) by (apply Rmult_le_compat_r; lra).
    nra.
Qed.

Lemma div_eps : forall r, exists e t, Rabs e <= uro /\ Rabs t <= smallest_step /\ rnd r = r * (1 + e) + t.
Proof.
  intros r. destruct (error_N_FLT radix2 (3 - 1024 - 53) 53 eq_refl (fun z => negb (Z.even z)) r) as (e&t&E1&E2&_&E3).
  exists e, t. split; [exact E1|]. split; [|exact E3]. eapply Rle_trans; [exact E2|]. unfold smallest_step.
  replace (IZR (2 ^ 1075)) with (bpow radix2 1075) by (symmetry; apply (IZR_Zpower radix2); lia).
  rewrite <- bpow_opp. replace (/ 2) with (bpow radix2 (-1)) by (cbn; lra). rewrite <- bpow_plus. apply bpow_le. lia.
Qed.

Lemma ordinary_top : IZR (10 ^ 300) <= top.
Proof. unfold top. rewrite <- (IZR_Zpower radix2) by lia. apply IZR_le. vm_compute. discriminate. Qed.

Section D.
Context {L : libm}.
Lemma mean_close : forall (l : list double) n, (1 <= n)%Z -> length l = Z.to_nat n -> (n <= 799)%Z -> Forall ordinary l ->
  close_mean (ndiv (accumulate l) (zn n)) l.
Proof.
  intros l n N1 LN N2 O. unfold close_mean. set (s := accumulate l). change (accumulate l) with (fold_left (Bplus mode_NE) l (z2d 0)) in s.
  assert (F : Forall (fun x => is_finite x = true /\ Rabs (B2R x) <= top) l).
  { eapply Forall_impl; [|exact O]. intros x [X1 X2]. split; [exact X1|]. pose proof ordinary_top. lra. }
  destruct (sum_error_any l (z2d 0) 0 ltac:(lia) ltac:(lia) eq_refl) as (FS&BS&ES); [change (B2R (z2d 0)) with 0; rewrite Rabs_R0; lra|exact F|].
  fold s in FS, BS, ES. change (B2R (z2d 0)) with 0 in ES. rewrite Rabs_R0, !Rplus_0_l in ES.
  destruct (z2d_val n ltac:(lia)) as [FN VN]. assert (NP : 1 <= IZR n) by (apply IZR_le; lia).
  assert (IN : INR (length l) = IZR n) by (rewrite LN, INR_IZR_INZ, Z2Nat.id by lia; reflexivity).
  assert (DR : is_rnd (B2R s / IZR n) (ndiv s (zn n))). { rewrite <- VN. apply div_rnd; [exact FS|exact FN|rewrite VN; lra]. }
  assert (SM : Rabs (B2R s / IZR n) <= IZR (0 + Z.of_nat (length l)) * top).
  { unfold Rdiv. rewrite Rabs_mult. rewrite (Rabs_pos_eq (/ IZR n)) by (left; apply Rinv_0_lt_compat; lra).
    assert (/ IZR n <= 1) by (rewrite <- Rinv_1; apply Rinv_le_contravar; lra). assert (0 < / IZR n) by (apply Rinv_0_lt_compat; lra). pose proof (Rabs_pos (B2R s)). nra. }
  destruct (is_rnd_below _ _ _ (ltac:(lia) : (0 <= 0 + Z.of_nat (length l) <= 9000)%Z) DR SM) as (FD&VD&_). split; [exact FD|]. rewrite VD.
  destruct (div_eps (B2R s / IZR n)) as (e&t&E1&E2&->). unfold exact_mean, mean_size. fold (size_sum l). rewrite IN.
  pose proof (sum_size l) as SS. pose proof (size_pos l) as PA. set (A := size_sum l) in *. set (S := exact_sum l) in *. set (z := B2R s) in *.
  pose proof (month_hours_bound (Datatypes.S (length l)) ltac:(lia)) as W. cbn [pow] in W. set (w := (1 + uro) ^ length l) in *.
  assert (U : 0 < uro) by (rewrite uro_val; lra). assert (W1 : 1 <= w) by (apply pow_R1_Rle; lra).
  assert (IP : 0 < / IZR n) by (apply Rinv_0_lt_compat; lra). unfold Rdiv. set (i := / IZR n) in *. clearbody i.
  replace (z * i * (1 + e) + t - S * i) with (i * ((z - S) * (1 + e) + S * e) + t) by ring.
  eapply Rle_trans; [apply Rabs_triang|]. apply Rplus_le_compat; [|exact E2]. rewrite Rabs_mult, (Rabs_pos_eq i) by lra.
  replace (/ 10000000000000 * (A * i)) with (i * (/ 10000000000000 * A)) by ring. apply Rmult_le_compat_l; [lra|].
  eapply Rle_trans; [apply Rabs_triang|]. rewrite !Rabs_mult. assert (E3 : Rabs (1 + e) <= 1 + uro) by (pose proof (Rabs_triang 1 e) as T; rewrite Rabs_R1 in T; lra).
  assert (P1 : Rabs (z - S) * Rabs (1 + e) <= ((w - 1) * A) * (1 + uro)) by (apply Rmult_le_compat; [apply Rabs_pos|apply Rabs_pos|exact ES|exact E3]).
  assert (P2 : Rabs S * Rabs e <= A * uro) by (apply Rmult_le_compat; [apply Rabs_pos|apply Rabs_pos|exact SS|exact E1]).
  assert (P3 : ((1 + uro) * w - 1) * A <= / 10000000000000 * A) by (apply Rmult_le_compat_r; assumption). nra.
Qed.
End D.
