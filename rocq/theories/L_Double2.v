From Coq Require Import Reals Lra Psatz ZArith Bool List Lia.
From Flocq Require Import Core.Core IEEE754.BinarySingleNaN Plus_error Relative.
From Verif Require Import Base Num Xr Dbl L_Dbl M_Params M_TimeFrame M_Hourly S_Results S_Calendar S_Double L_HourlyShape L_HourlyOut L_Double.
Import ListNotations.
Open Scope R_scope.

(** ** Signs of the table *)
Section Signs.
Context {L : libm}.
Variable p : params_t double.
Hypothesis UB : unsigned_building p.

Lemma vectors_nn : forall raw, Forall hour_nn raw -> Forall (Forall not_negative) (resultVectors p raw).
Proof.
  intros raw H. rewrite Forall_forall in H.
  assert (K : unsigned (@zn double _ 1000)) by (apply zn_uns; lia).
  assert (E : forall f : hourres double -> double, (forall h, hour_nn h -> not_negative (f h)) -> Forall not_negative (map (fun w => (w / zn 1000)%num) (map f raw))).
  { intros f F. apply Forall_forall. intros x I. rewrite map_map in I. apply in_map_iff in I as (h&<-&I). apply nn_div; [apply F, H, I|exact K]. }
  assert (Z : Forall not_negative (map (fun w : double => (w / zn 1000)%num) (map (fun _ : hourres double => zn 0) raw))) by (apply E; intros; reflexivity).
  destruct (eta_uns p UB (accumulate (map hr_Qneed_ht raw)) (accumulate (map hr_Qneed_cl raw))) as [U1 U2].
  assert (V1 : Forall not_negative (map (fun w : double => (w / zn 1000)%num) (map (fun need => (need / eta_dist_ht p (accumulate (map hr_Qneed_ht raw)) (accumulate (map hr_Qneed_cl raw)) / ht_efficiency (pa_heating p))%num) (map hr_Qneed_ht raw)))).
  { rewrite (map_map hr_Qneed_ht). apply (E (fun h => (hr_Qneed_ht h / _ / _)%num)). intros h (A&_). apply nn_div; [apply nn_div; [exact A|exact U1]|apply plain_uns, (ub_efficiency p UB)]. }
  assert (V2 : Forall not_negative (map (fun w : double => (w / zn 1000)%num) (map (fun need => (need / eta_dist_cl p (accumulate (map hr_Qneed_ht raw)) (accumulate (map hr_Qneed_cl raw)) / cl_cop (pa_cooling p))%num) (map hr_Qneed_cl raw)))).
  { rewrite (map_map hr_Qneed_cl). apply (E (fun h => (hr_Qneed_cl h / _ / _)%num)). intros h (_&A&_). apply nn_div; [apply nn_div; [exact A|exact U2]|apply plain_uns, (ub_cop p UB)]. }
  unfold resultVectors. cbv zeta. cbn [map].
  repeat (apply Forall_cons; [match goal with |- Forall _ (map _ (if ?c then _ else _)) => destruct c | _ => idtac end;
    first [exact Z|exact V1|exact V2|apply E; intros h A; unfold hour_nn in A; apply A]|]). apply Forall_nil.
Qed.

Lemma table_sign_l : forall ws r0 agg rows r k v, simulate p ws r0 agg = Ok (rows, r) -> (k < 13)%nat -> is_series k rows v -> Forall not_negative v.
Proof.
  intros ws r0 agg rows r k v H K S. destruct (simulate_det _ _ _ _ _ _ H) as (raw&HR&_&C). pose proof (vectors_nn raw (raw_sign p UB _ _ _ _ HR)) as V.
  destruct (nth_error (resultVectors p raw) k) as [c|] eqn:E.
  - pose proof (C k c E) as S'. rewrite (is_series_fun _ _ _ _ S S'). pose proof (proj1 (Forall_forall _ _) V c (nth_error_In _ _ E)) as NC.
    destruct agg; [|exact NC]. apply Forall_forall. intros x I. apply in_map_iff in I as (m&<-&_). apply acc_nn. apply month_part_Forall. exact NC.
  - apply nth_error_None in E. rewrite (proj1 (resultVectors_shape p raw)) in E. lia.
Qed.
End Signs.

(** ** Rounding of sums *)
Definition uro : R := / 2 * bpow radix2 (- (53) + 1).
Lemma uro_val : uro = / 9007199254740992.
Proof. unfold uro. cbn. lra. Qed.
Lemma plus_eps : forall x y : double, exists e, Rabs e <= uro /\ rnd (B2R x + B2R y) = (B2R x + B2R y) * (1 + e).
Proof.
  intros x y. destruct (FLT_plus_error_N_ex radix2 (3 - 1024 - 53) 53 (fun z => negb (Z.even z)) (B2R x) (B2R y)) as (e&E1&E2).
  - exact (generic_format_B2R 53 1024 x).
  - exact (generic_format_B2R 53 1024 y).
  - exists e. split; [|exact E2]. eapply Rle_trans; [exact E1|]. unfold u_ro. fold uro.
    assert (0 < uro) by (rewrite uro_val; lra). apply Rmult_le_reg_r with (1 + uro); [lra|]. unfold Rdiv. rewrite Rmult_assoc, Rinv_l by lra. nra.
Qed.

Lemma Rabs_le_inv' : forall x y, Rabs x <= y -> - y <= x <= y.
Proof. intros x y H. unfold Rabs in H. destruct (Rcase_abs x); lra. Qed.

Lemma fold_stuck : forall l (a : double), Forall not_negative l -> not_negative a -> is_finite (fold_left (Bplus mode_NE) l a) = true -> is_finite a = true.
Proof.
  induction l as [|x l IH]; intros a F A H; [exact H|]. inversion F as [|? ? X F']; subst. cbn [fold_left] in H. apply IH in H; [|exact F'|apply nn_plus; assumption].
  destruct a as [[]|[]| |[] ? ? ?]; try reflexivity; try discriminate A; exfalso; destruct x as [[]|[]| |[] ? ? ?]; discriminate.
Qed.
Lemma plus_fin_r : forall a x : double, not_negative a -> not_negative x -> is_finite (Bplus mode_NE a x) = true -> is_finite x = true.
Proof. intros a x A X H. destruct x as [[]|[]| |[] ? ? ?]; try reflexivity; exfalso; destruct a as [[]|[]| |[] ? ? ?]; discriminate. Qed.
Lemma sum_error : forall l (a : double), Forall not_negative l -> not_negative a -> is_finite (fold_left (Bplus mode_NE) l a) = true ->
  Forall (fun x => is_finite x = true) l /\
  Rabs (B2R (fold_left (Bplus mode_NE) l a) - (B2R a + exact_sum l)) <= ((1 + uro) ^ length l - 1) * (B2R a + exact_sum l).
Proof.
  assert (U : 0 < uro) by (rewrite uro_val; lra).
  induction l as [|x l IH]; intros a F A H.
  - split; [apply Forall_nil|]. cbn. unfold exact_sum. cbn. rewrite Rplus_0_r, Rminus_diag_eq, Rabs_R0 by reflexivity. lra.
  - inversion F as [|? ? X F']; subst. cbn [fold_left] in *. pose proof (nn_plus _ _ A X) as AX.
    pose proof (fold_stuck _ _ F' AX H) as FX. destruct (IH _ F' AX H) as [G E].
    assert (FA : is_finite a = true) by (apply (fold_stuck [x]); [constructor; [exact X|constructor]|exact A|exact FX]).
    assert (FXx : is_finite x = true) by exact (plus_fin_r _ _ A X FX).
    split; [apply Forall_cons; assumption|].
    pose proof (plus_rnd a x FA FXx) as P. unfold is_rnd in P. destruct (Rlt_bool _ _); [|rewrite P in FX; discriminate]. destruct P as [_ P].
    destruct (plus_eps a x) as (e&E1&E2). rewrite P, E2 in E.
    change (exact_sum (x :: l)) with (B2R x + exact_sum l). set (S := exact_sum l) in *. set (z := B2R (fold_left (Bplus mode_NE) l (Bplus mode_NE a x))) in *.
    assert (PS : 0 <= S). { unfold S, exact_sum. clear - F'. induction F' as [|y l Y F IH]; cbn; [lra|]. pose proof (nn_R y Y). lra. }
    pose proof (nn_R a A) as PA. pose proof (nn_R x X) as PX. set (q := B2R a + B2R x) in *. cbn [length pow]. set (w := (1 + uro) ^ length l) in *.
    assert (W : 1 <= w) by (apply pow_R1_Rle; lra). assert (Q : 0 <= q) by (unfold q; lra). apply Rabs_le_inv' in E1. apply Rabs_le_inv' in E.
    replace (B2R a + (B2R x + S)) with (q + S) by (unfold q; ring).
    assert (B1 : q * e <= q * uro) by nra. assert (B2 : - (q * uro) <= q * e) by nra.
    assert (B3 : (w - 1) * (q * (1 + e) + S) <= (w - 1) * (q * (1 + uro) + S)) by (apply Rmult_le_compat_l; lra).
    assert (B4 : 0 <= uro * w * S) by (apply Rmult_le_pos; [apply Rmult_le_pos; lra|exact PS]).
    apply Rabs_le. split; nra.
Qed.

Lemma pow_bound : forall n, INR n * uro < 1 -> (1 + uro) ^ n - 1 <= INR n * uro / (1 - INR n * uro).
Proof.
  intros n H. assert (U : 0 < uro < 1) by (rewrite uro_val; lra).
  assert (B : forall k, 1 - INR k * uro <= (1 - uro) ^ k).
  { induction k as [|k IH]; [cbn; lra|]. rewrite S_INR. cbn [pow]. assert (0 <= INR k) by apply pos_INR.
    assert ((1 - INR k * uro) * (1 - uro) <= (1 - uro) ^ k * (1 - uro)) by (apply Rmult_le_compat_r; lra). nra. }
  assert (P : (1 + uro) ^ n * (1 - uro) ^ n <= 1).
  { rewrite <- Rpow_mult_distr. replace 1 with (1 ^ n) at 3 by apply pow1. apply pow_incr. nra. }
  specialize (B n). apply Rmult_le_reg_r with (1 - INR n * uro); [lra|]. unfold Rdiv. rewrite (Rmult_assoc (INR n * uro)), Rinv_l, Rmult_1_r by lra.
  assert (1 <= (1 + uro) ^ n) by (apply pow_R1_Rle; lra).
  assert ((1 + uro) ^ n * (1 - INR n * uro) <= (1 + uro) ^ n * (1 - uro) ^ n) by (apply Rmult_le_compat_l; lra). lra.
Qed.
Lemma month_hours_bound : forall n, (n <= 800)%nat -> (1 + uro) ^ n - 1 <= / 10000000000000.
Proof.
  intros n H. assert (Q : 0 <= INR n <= 800). { split; [apply pos_INR|]. apply le_INR in H. replace (INR 800) with 800 in H by (rewrite INR_IZR_INZ; reflexivity). exact H. }
  assert (X : 0 <= INR n * uro <= 800 / 9007199254740992) by (rewrite uro_val; lra).
  eapply Rle_trans; [apply pow_bound; lra|]. apply Rmult_le_reg_r with (1 - INR n * uro); [lra|]. unfold Rdiv. rewrite Rmult_assoc, Rinv_l by lra. lra.
Qed.
Lemma year_hours_bound : forall n, (Z.of_nat n <= 8800)%Z -> (1 + uro) ^ n - 1 <= / 1000000000000.
Proof.
  intros n H. assert (Q : 0 <= INR n <= 8800). { split; [apply pos_INR|]. rewrite INR_IZR_INZ. apply IZR_le. exact H. }
  assert (X : 0 <= INR n * uro <= 8800 / 9007199254740992) by (rewrite uro_val; lra).
  eapply Rle_trans; [apply pow_bound; lra|]. apply Rmult_le_reg_r with (1 - INR n * uro); [lra|]. unfold Rdiv. rewrite Rmult_assoc, Rinv_l by lra. lra.
Qed.
Lemma exact_sum_pos : forall l, Forall not_negative l -> 0 <= exact_sum l.
Proof. intros l F. unfold exact_sum. induction F as [|y l Y F IH]; cbn; [lra|]. pose proof (nn_R y Y). lra. Qed.
Lemma exact_sum_app : forall a b, exact_sum (a ++ b) = exact_sum a + exact_sum b.
Proof. intros a b. unfold exact_sum. induction a as [|x a IH]; cbn; [lra|]. rewrite IH. lra. Qed.

Section Sums.
Context {L : libm}.
Lemma accumulate_error : forall l eps, Forall not_negative l -> is_finite (accumulate l) = true -> (1 + uro) ^ length l - 1 <= eps ->
  Forall (fun x => is_finite x = true) l /\ Rabs (B2R (accumulate l) - exact_sum l) <= eps * exact_sum l.
Proof.
  intros l eps F H E. change (accumulate l) with (fold_left (Bplus mode_NE) l (z2d 0)) in *.
  destruct (sum_error l (z2d 0) F eq_refl H) as [G S]. split; [exact G|]. change (B2R (z2d 0)) with 0 in S. rewrite Rplus_0_l in S.
  eapply Rle_trans; [exact S|]. apply Rmult_le_compat_r; [apply exact_sum_pos; exact F|exact E].
Qed.
End Sums.
