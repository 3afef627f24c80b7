(** The utilisation curve of ISO 13790 is monotone. *)
From Coq Require Import Reals Lra Psatz.
From Verif Require Import S_MonthlyHeat L_MonthlyNeed.
Open Scope R_scope.

Lemma ln_le_pred z : 0 < z -> ln z <= z - 1.
Proof.
  intros Z. destruct (Req_EM_T z 1) as [-> | N]; [rewrite ln_1; lra|].
  apply Rlt_le. apply exp_lt_inv. rewrite exp_ln by exact Z. assert (z - 1 <> 0) by lra. pose proof (exp_ineq1 (z - 1) H). lra.
Qed.
(** Weighted means. *)
Lemma mean_power u th : 0 < u -> 0 < th <= 1 -> Rpower u th <= th * u + (1 - th).
Proof.
  intros U T. set (m := th * u + (1 - th)). assert (M : 0 < m) by (unfold m; assert (0 < th * u) by (apply Rmult_lt_0_compat; lra); lra).
  rewrite <- (exp_ln m M). unfold Rpower. assert (K : th * ln u <= ln m).
  { pose proof (ln_le_pred (u / m) ltac:(apply Rdiv_lt_0_compat; lra)) as A. pose proof (ln_le_pred (1 / m) ltac:(apply Rdiv_lt_0_compat; lra)) as B.
    unfold Rdiv in A, B. rewrite ln_mult in A, B by (try apply Rinv_0_lt_compat; lra). rewrite ln_Rinv in A, B by lra. rewrite ln_1 in B.
    assert (E : th * (u * / m) + (1 - th) * (1 * / m) = 1) by (unfold m in *; field; lra).
    assert (th * (ln u + - ln m) <= th * (u * / m - 1)) by (apply Rmult_le_compat_l; lra).
    assert ((1 - th) * (0 + - ln m) <= (1 - th) * (1 * / m - 1)) by (apply Rmult_le_compat_l; lra). lra. }
  destruct (Req_EM_T (th * ln u) (ln m)) as [E|N]; [rewrite E; lra|]. apply Rlt_le, exp_increasing. lra.
Qed.
Lemma bernoulli z b : 0 < z -> 1 <= b -> 1 + b * (z - 1) <= Rpower z b.
Proof.
  intros Z B. pose proof (mean_power (Rpower z b) (/ b) ltac:(apply exp_pos)) as M. assert (IB : 0 < / b <= 1).
  { split; [apply Rinv_0_lt_compat; lra|]. rewrite <- Rinv_1. apply Rinv_le_contravar; lra. }
  specialize (M IB). rewrite Rpower_mult, Rinv_r, Rpower_1 in M by lra.
  assert (K : b * z <= b * (/ b * Rpower z b + (1 - / b))) by (apply Rmult_le_compat_l; lra).
  replace (b * (/ b * Rpower z b + (1 - / b))) with (Rpower z b + b - 1) in K by (field; lra). lra.
Qed.
Lemma tangent x y b : 0 < x -> 0 < y -> 1 <= b -> Rpower x b + b * Rpower x b / x * (y - x) <= Rpower y b.
Proof.
  intros X Y B. pose proof (bernoulli (y / x) b ltac:(apply Rdiv_lt_0_compat; lra) B) as K. pose proof (exp_pos (b * ln x)) as P. change (0 < Rpower x b) in P.
  assert (E : Rpower y b = Rpower x b * Rpower (y / x) b). { rewrite Rpower_mult_distr by (try apply Rdiv_lt_0_compat; lra). f_equal. field. lra. }
  rewrite E. apply (Rmult_le_compat_l (Rpower x b)) in K; [|lra]. replace (Rpower x b + b * Rpower x b / x * (y - x)) with (Rpower x b * (1 + b * (y / x - 1))) by (field; lra). exact K.
Qed.

(** The part of the losses that the gains do not cover. *)
Definition uncovered (a g : R) : R := 1 - utilisation a g * g.
Lemma uncovered_eq a g : 0 < a -> 0 < g -> g <> 1 -> uncovered a g = (1 - g) / (1 - Rpower g (a + 1)).
Proof.
  intros A G N. unfold uncovered, utilisation. rewrite power_succ by exact G.
  assert (Rpower g a * g <> 1) by (rewrite <- power_succ by exact G; apply power_one_iff; lra). field. lra.
Qed.
Lemma uncovered_pos a g : 0 < a -> 0 < g -> g <> 1 -> 0 < uncovered a g < 1.
Proof. intros A G N. destruct (utilisation_range a g A G N) as [U V]. unfold uncovered. assert (0 < utilisation a g * g) by (apply Rmult_lt_0_compat; lra). lra. Qed.
Lemma cross u v x y : 0 < v * y -> x * v <= u * y -> (0 < y -> x / y <= u / v) /\ (y < 0 -> x / y <= u / v).
Proof.
  intros P C. assert (V0 : v <> 0) by (intros ->; lra). assert (Y0 : y <> 0) by (intros ->; lra).
  assert (K : x / y <= u / v). { apply Rmult_le_reg_r with (v * y); [exact P|]. replace (x / y * (v * y)) with (x * v) by (field; exact Y0). replace (u / v * (v * y)) with (u * y) by (field; exact V0). exact C. }
  auto.
Qed.
Lemma uncovered_gamma a g g' : 0 < a -> 0 < g -> g <> 1 -> g' <> 1 -> g <= g' -> uncovered a g' <= uncovered a g.
Proof.
  intros A G N N' L. rewrite !uncovered_eq by lra. set (b := a + 1). assert (B : 1 <= b) by (unfold b; lra).
  set (u := Rpower g b). set (v := Rpower g' b).
  destruct (Rlt_dec g' 1) as [L'|L'].
  - pose proof (power_lt1 g b ltac:(lra) ltac:(lra)) as U. pose proof (power_lt1 g' b ltac:(lra) ltac:(lra)) as V. fold u v in U, V.
    refine (proj1 (cross (1 - g) (1 - u) (1 - g') (1 - v) _ _) _); [apply Rmult_lt_0_compat; lra| |lra].
    pose proof (tangent g' 1 b ltac:(lra) ltac:(lra) B) as T1. pose proof (tangent g' g b ltac:(lra) G B) as T2. fold u v in T1, T2. set (s := b * v / g') in *.
    replace (Rpower 1 b) with 1 in T1 by (unfold Rpower; rewrite ln_1, Rmult_0_r, exp_0; reflexivity).
    apply (Rmult_le_compat_l (g' - g)) in T1; [|lra]. apply (Rmult_le_compat_l (1 - g')) in T2; [|lra]. lra.
  - pose proof (power_gt1 g' b ltac:(lra) ltac:(lra)) as V. fold v in V. destruct (Rlt_dec g 1) as [L1|L1].
    + pose proof (power_lt1 g b ltac:(lra) ltac:(lra)) as U. fold u in U.
      pose proof (bernoulli g b G B) as T1. pose proof (bernoulli g' b ltac:(lra) B) as T2. fold u v in T1, T2.
      apply Rle_trans with (1 / b).
      * apply Rmult_le_reg_r with (b * (v - 1)); [apply Rmult_lt_0_compat; lra|]. replace ((1 - g') / (1 - v) * (b * (v - 1))) with (b * (g' - 1)) by (field; lra). replace (1 / b * (b * (v - 1))) with (v - 1) by (field; lra). lra.
      * apply Rmult_le_reg_r with (b * (1 - u)); [apply Rmult_lt_0_compat; lra|]. replace ((1 - g) / (1 - u) * (b * (1 - u))) with (b * (1 - g)) by (field; lra). replace (1 / b * (b * (1 - u))) with (1 - u) by (field; lra). lra.
    + pose proof (power_gt1 g b ltac:(lra) ltac:(lra)) as U. fold u in U.
      refine (proj2 (cross (1 - g) (1 - u) (1 - g') (1 - v) _ _) _); [|  |lra].
      * replace ((1 - u) * (1 - v)) with ((u - 1) * (v - 1)) by ring. apply Rmult_lt_0_compat; lra.
      * pose proof (tangent g 1 b G ltac:(lra) B) as T1. pose proof (tangent g g' b G ltac:(lra) B) as T2. fold u v in T1, T2. set (s := b * u / g) in *.
        replace (Rpower 1 b) with 1 in T1 by (unfold Rpower; rewrite ln_1, Rmult_0_r, exp_0; reflexivity).
        apply (Rmult_le_compat_l (g' - g)) in T1; [|lra]. apply (Rmult_le_compat_l (g - 1)) in T2; [|lra]. lra.
Qed.
Lemma uncovered_exponent a a' g : 0 < a' -> a' <= a -> 0 < g -> g <> 1 -> uncovered a g <= uncovered a' g.
Proof.
  intros A' L G N. rewrite !uncovered_eq by lra. destruct (Rlt_dec g 1) as [L1|L1].
  - pose proof (power_lt1 g (a + 1) ltac:(lra) ltac:(lra)) as U. pose proof (power_lt1 g (a' + 1) ltac:(lra) ltac:(lra)) as V.
    assert (K : Rpower g (a + 1) <= Rpower g (a' + 1)).
    { unfold Rpower. assert (LN : ln g < 0) by (rewrite <- ln_1; apply ln_increasing; lra). destruct (Req_EM_T a a') as [-> | NE]; [lra|]. apply Rlt_le, exp_increasing.
      assert (0 < (a - a') * - ln g) by (apply Rmult_lt_0_compat; lra). lra. }
    unfold Rdiv. apply Rmult_le_compat_l; [lra|]. apply Rinv_le_contravar; lra.
  - pose proof (power_gt1 g (a + 1) ltac:(lra) ltac:(lra)) as U. pose proof (power_gt1 g (a' + 1) ltac:(lra) ltac:(lra)) as V.
    assert (K : Rpower g (a' + 1) <= Rpower g (a + 1)) by (apply Rle_Rpower; lra).
    replace ((1 - g) / (1 - Rpower g (a + 1))) with ((g - 1) / (Rpower g (a + 1) - 1)) by (field; lra). replace ((1 - g) / (1 - Rpower g (a' + 1))) with ((g - 1) / (Rpower g (a' + 1) - 1)) by (field; lra).
    unfold Rdiv. apply Rmult_le_compat_l; [lra|]. apply Rinv_le_contravar; lra.
Qed.
