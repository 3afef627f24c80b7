From Coq Require Import Reals Lra Psatz ZArith Bool List Lia.
From Flocq Require Import Core.Core IEEE754.BinarySingleNaN Plus_error Relative.
From Verif Require Import Base Num Xr Dbl L_Dbl M_Params M_TimeFrame M_Hourly S_Results S_Calendar S_Double L_HourlyShape L_HourlyOut.
Import ListNotations.
Open Scope R_scope.

Lemma Ok_inj : forall A (a b : A), Ok a = Ok b -> a = b.
Proof. intros A a b H. congruence. Qed.

(** ** Not negative *)
Lemma nn_cases : forall x : double, not_negative x <-> is_nan x = true \/ Bsign x = false \/ x = B754_zero true.
Proof.
  intros x. unfold not_negative. destruct x as [[]|[]| |[] ? ? ?]; cbn; split; intros H; auto; try discriminate;
  destruct H as [H|[H|H]]; try discriminate; reflexivity.
Qed.
Lemma uns_nn : forall x, unsigned x -> not_negative x.
Proof. exact uns_nonneg. Qed.
Lemma plain_uns : forall x, plain x -> unsigned x.
Proof. intros x [_ S] _. exact S. Qed.
Lemma nn_R : forall x : double, not_negative x -> 0 <= B2R x.
Proof.
  intros x X. apply nn_cases in X as [X|[X|X]]; [destruct x; try discriminate; cbn; lra| |subst; cbn; lra].
  destruct (is_finite x) eqn:F; [apply sign_R; assumption|]. destruct x; try discriminate; cbn; lra.
Qed.
Lemma nn_plus : forall x y, not_negative x -> not_negative y -> not_negative (Bplus mode_NE x y).
Proof.
  intros x y X Y. pose proof X as X'. pose proof Y as Y'. apply nn_cases in X, Y. destruct X as [X|[X|X]].
  - destruct x; try discriminate. reflexivity.
  - destruct Y as [Y|[Y|Y]].
    + destruct y; try discriminate. destruct x; reflexivity.
    + apply uns_nn, uns_plus; intros _; assumption.
    + subst y. destruct x as [[]|[]| |[] ? ? ?]; cbn in *; try discriminate; reflexivity.
  - subst x. destruct y as [[]|[]| |[] ? ? ?]; cbn in *; try discriminate; reflexivity.
Qed.
Lemma nn_mult : forall x y, not_negative x -> unsigned y -> not_negative (Bmult mode_NE x y).
Proof.
  intros x y X Y. apply nn_cases in X. destruct X as [X|[X|X]].
  - destruct x; try discriminate. reflexivity.
  - apply uns_nn, uns_mult; [intros _; exact X|exact Y].
  - subst x. destruct y as [[]|[]| |[] ? ? ?]; reflexivity.
Qed.
Lemma nn_div : forall x y, not_negative x -> unsigned y -> not_negative (Bdiv mode_NE x y).
Proof.
  intros x y X Y. apply nn_cases in X. destruct X as [X|[X|X]].
  - destruct x; try discriminate. reflexivity.
  - apply uns_nn, uns_div; [intros _; exact X|exact Y].
  - subst x. destruct y as [[]|[]| |[] ? ? ?]; reflexivity.
Qed.

Lemma above_pos : forall c x : double, positive c -> Bltb c x = true \/ Bleb c x = true -> Bsign x = false /\ (is_finite x = true -> is_finite_strict x = true).
Proof.
  intros c x P H. unfold positive in P. destruct c as [[]|[]| |[] ? ? ?]; cbn in P; try discriminate;
  destruct x as [[]|[]| |[] ? ? ?]; cbn in H; destruct H; try discriminate; split; auto; discriminate.
Qed.
Lemma tiny_pos : positive (dlit 1 10000).
Proof. vm_compute. reflexivity. Qed.
Lemma mult_number : forall x y : double, is_nan x = false -> is_finite_strict y = true -> is_nan (Bmult mode_NE x y) = false.
Proof.
  intros x y X Y. destruct (is_finite x) eqn:F.
  - apply (is_rnd_notnan (B2R x * B2R y)). apply mult_rnd; [exact F|]. destruct y; try discriminate; reflexivity.
  - destruct x, y; try discriminate; reflexivity.
Qed.
Lemma div_number : forall x y : double, is_nan x = false -> is_finite_strict y = true -> is_nan (Bdiv mode_NE x y) = false.
Proof.
  intros x y X Y. destruct (is_finite x) eqn:F.
  - apply (is_rnd_notnan (B2R x / B2R y)). apply div_rnd; [exact F| |].
    + destruct y; try discriminate; reflexivity.
    + destruct y as [|?| |s m e h]; try discriminate. intros Z. cbn in Z. apply eq_0_F2R in Z. destruct s; discriminate.
  - destruct x, y; try discriminate; reflexivity.
Qed.

Section D.
Context {L : libm}.
Notation N := (dbl_num L).

Lemma max0_uns : forall x : double, unsigned (nmax (zn 0) x).
Proof.
  intros x. unfold nmax. change (@nlt double _ (zn 0) x) with (Bltb (z2d 0) x). destruct (Bltb (z2d 0) x) eqn:E; [|apply uns_z2d; lia].
  intros _. destruct x as [[]|[]| |[] ? ? ?]; cbn in *; try discriminate; reflexivity.
Qed.
Lemma max0_spec : forall x : double, at_least_0 (nmax (zn 0) x) /\ (positive (nmax (zn 0) x) -> positive x).
Proof.
  intros x. unfold nmax. change (@nlt double _ (zn 0) x) with (Bltb (z2d 0) x). destruct (Bltb (z2d 0) x) eqn:E.
  - split; [|auto]. destruct x as [[]|[]| |[] ? ? ?]; cbn in *; try discriminate; reflexivity.
  - split; [reflexivity|]. unfold positive. change (@zn double _ 0) with (z2d 0). cbn. discriminate.
Qed.
Lemma max_uns : forall x c : double, unsigned c -> positive c -> unsigned (nmax x c).
Proof.
  intros x c U P. unfold nmax. change (@nlt double _ x c) with (Bltb x c). destruct (Bltb x c) eqn:E; [exact U|].
  intros NX. destruct x as [[]|[]| |[] ? ? ?]; cbn in *; try discriminate; try reflexivity; exfalso;
  destruct c as [[]|[]| |[] ? ? ?]; cbn in *; try discriminate; unfold positive in P; cbn in P; discriminate.
Qed.
Lemma max_nn : forall x c : double, not_negative c -> is_nan c = false -> not_negative (nmax x c).
Proof.
  intros x c U NC. unfold nmax. change (@nlt double _ x c) with (Bltb x c). destruct (Bltb x c) eqn:E; [exact U|].
  destruct x as [[]|[]| |[] ? ? ?]; try reflexivity; exfalso;
  destruct c as [[]|[]| |[] ? ? ?]; unfold not_negative in U; cbn in *; discriminate.
Qed.
Lemma acc_nn : forall l, Forall not_negative l -> not_negative (accumulate l).
Proof.
  intros l. unfold accumulate. assert (Z : not_negative (zn 0)) by reflexivity. revert Z. generalize (@zn double _ 0) as a.
  induction l as [|x l IH]; intros a A F; [exact A|]. inversion F; subst. cbn [fold_left]. apply IH; [apply nn_plus|]; assumption.
Qed.

(** ** One hour *)
Lemma C03_double_l : forall (p : params_t double) i sc w th, let h := fst (calculateHour p i sc w th) in
  at_least_0 (hr_Qneed_ht h) /\ at_least_0 (hr_Qneed_cl h) /\ ~ (positive (hr_Qneed_ht h) /\ positive (hr_Qneed_cl h)).
Proof.
  intros p i sc w th. unfold calculateHour. cbn [fst hr_Qneed_ht hr_Qneed_cl].
  set (q := plantPower _ _ _ _ _). clearbody q. split; [apply max0_spec|]. split; [apply max0_spec|].
  intros [H1 H2]. apply max0_spec in H1. apply max0_spec in H2. change (- q)%num with (Bopp q) in H2.
  unfold positive in *. destruct q as [[]|[]| |[] ? ? ?]; cbn in *; discriminate.
Qed.

Variable p : params_t double.
Hypothesis UB : unsigned_building p.
Lemma lit_uns : forall n d, (0 <= n)%Z -> unsigned (lit n d).
Proof. exact uns_lit. Qed.
Lemma zn_uns : forall z, (0 <= z)%Z -> unsigned (zn z).
Proof. intros. apply lit_uns. assumption. Qed.
Lemma area_uns : unsigned (st_floorArea (pa_structure p)).
Proof.
  destruct (ub_area p UB) as (F&A&_). intros _. exact (proj1 (above_pos _ _ tiny_pos (or_intror A))).
Qed.
Lemma one_R : B2R (z2d 1) = 1.
Proof. unfold B2R, z2d. cbn. unfold F2R. cbn. lra. Qed.
Lemma nat_le_one : dle (areaNatRatio p) (z2d 1) /\ is_nan (areaNatRatio p) = false.
Proof.
  destruct (ub_area p UB) as (F&A&B). unfold areaNatRatio. set (A0 := st_floorArea (pa_structure p)) in *. set (n := nmax _ _).
  assert (X : dle n A0). { unfold n, nmax. match goal with |- dle (if ?c then _ else _) _ => destruct c end; assumption. }
  assert (PA : 0 < B2R A0).
  { apply dle_fin in A; [|reflexivity|exact F]. assert (0 < B2R (dlit 1 10000)); [|lra]. unfold dlit, B2R. cbn. apply F2R_gt_0. reflexivity. }
  assert (NZ : 0 <= B2R n \/ True) by (right; exact I).
  assert (FN : is_finite n = true).
  { unfold n, nmax. match goal with |- is_finite (if ?c then _ else _) = true => destruct c eqn:E end; [|reflexivity].
    change (Bltb (dlit 1 10000) (li_naturallyLightedArea (pa_lighting p)) = true) in E.
    destruct (li_naturallyLightedArea (pa_lighting p)) as [[]|[]| |[] ? ? ?]; try reflexivity; try discriminate.
    clear - F B. exfalso. destruct A0 as [[]|[]| |[] ? ? ?]; cbn in *; discriminate. }
  assert (D : is_rnd (B2R n / B2R A0) (ndiv n A0)) by (apply div_rnd; [exact FN|exact F|lra]).
  split; [|exact (is_rnd_notnan _ _ D)].
  apply (is_rnd_mono (B2R n / B2R A0) 1 _ _ D).
  - rewrite <- one_R. apply is_rnd_self. reflexivity.
  - apply dle_fin in X; [|exact FN|exact F]. apply Rmult_le_reg_r with (B2R A0); [exact PA|]. unfold Rdiv. rewrite Rmult_assoc, Rinv_l, Rmult_1_r by lra. lra.
Qed.
Lemma nat_uns : unsigned (areaNatRatio p).
Proof.
  unfold areaNatRatio. apply uns_div; [|exact area_uns]. unfold nmax. match goal with |- unsigned (if ?c then _ else _) => destruct c eqn:E end; [|apply lit_uns; lia].
  change (Bltb (dlit 1 10000) (li_naturallyLightedArea (pa_lighting p)) = true) in E. intros _.
  exact (proj1 (above_pos _ _ tiny_pos (or_introl E))).
Qed.
Lemma rest_uns : unsigned (Bminus mode_NE (z2d 1) (areaNatRatio p)).
Proof.
  destruct nat_le_one as [A NN]. pose proof nat_uns as U. destruct (is_finite (areaNatRatio p)) eqn:F.
  - intros _. pose proof (Bminus_correct 53 1024 _ _ mode_NE (z2d 1) _ eq_refl F) as C. apply dle_fin in A; [|exact F|reflexivity]. rewrite one_R in *.
    destruct (Rlt_bool _ _).
    + destruct C as (_&_&C). rewrite C. destruct (Rcompare_spec (1 - B2R (areaNatRatio p)) 0); [lra|reflexivity|reflexivity].
    + destruct C as (C&_). apply inf_of_SF in C. rewrite C. reflexivity.
  - destruct (areaNatRatio p) as [[]|[]| |[] ? ? ?]; try discriminate. specialize (U eq_refl). discriminate.
Qed.
Lemma control_uns : unsigned (fst (lighting_control (pa_building p) (pa_lighting p))).
Proof.
  destruct (ub_control p UB) as (A&B&C&D). unfold lighting_control.
  destruct (_ && _)%bool; [apply plain_uns; exact A|]. destruct (_ <? _)%num; [apply plain_uns; exact B|]. destruct (_ <? _)%num; apply plain_uns; assumption.
Qed.

Definition sched_uns (sc : sched double) : Prop :=
  plain (sc_vent sc) /\ unsigned (sc_extEquip sc) /\ unsigned (sc_intEquip sc) /\ unsigned (sc_extLight sc) /\ unsigned (sc_intLight sc).
Lemma cell_uns : forall a b c d h k, sched_uns (sched_cell p a b c d h k).
Proof.
  intros. destruct (ub_fan p UB) as [_ F]. destruct (ub_equip p UB) as [E1 E2]. destruct (ub_density p UB) as [D1 D2]. pose proof (ub_extEquip p UB).
  unfold sched_uns, sched_cell. cbn [sc_vent sc_extEquip sc_intEquip sc_extLight sc_intLight].
  split; [destruct (_ && _)%bool; [exact F|split; reflexivity]|].
  repeat split; try match goal with |- unsigned (if ?c then _ else _) => destruct c end; first [apply F|apply plain_uns; assumption|apply zn_uns; lia|reflexivity].
Qed.
Definition hour_nn (h : hourres double) : Prop :=
  not_negative (hr_Qneed_ht h) /\ not_negative (hr_Qneed_cl h) /\ not_negative (hr_illum h) /\ not_negative (hr_illum_ext h) /\
  not_negative (hr_fan h) /\ not_negative (hr_pump h) /\ not_negative (hr_plug h) /\ not_negative (hr_extEquip h) /\ not_negative (hr_dhw h).
Lemma hour_sign : forall r0 i sc w th, initialize p r0 = Ok i -> sched_uns sc -> hour_nn (fst (calculateHour p i sc w th)).
Proof.
  intros r0 i sc w th HI (S1&S2&S3&S4&S5). unfold initialize in HI. destruct (negb (structure_nine (pa_structure p))); [discriminate|].
  apply Ok_inj in HI. destruct (ub_fan p UB) as [F1 F2]. destruct (ub_ht_pumps p UB) as [P1 P2]. destruct (ub_cl_pumps p UB) as [P3 P4].
  unfold calculateHour. cbn [fst]. unfold hour_nn. cbn [hr_Qneed_ht hr_Qneed_cl hr_illum hr_illum_ext hr_fan hr_pump hr_plug hr_extEquip hr_dhw].
  split; [apply uns_nn, max0_uns|]. split; [apply uns_nn, max0_uns|].
  split. { apply nn_mult; [|exact S5]. unfold electricForTotalLightArea. apply uns_nn. apply uns_plus.
    - apply uns_mult; [apply max0_uns|]. rewrite <- HI. cbn [hi_areaNatRatio]. exact nat_uns.
    - apply uns_mult; rewrite <- HI; cbn [hi_areaNatRatio hi_maxRatio]; [exact rest_uns|exact control_uns]. }
  split. { unfold exteriorLighting. destruct (_ <? _)%num; [reflexivity|]. apply uns_nn, uns_div; [|exact area_uns]. apply uns_mult; [apply plain_uns, (ub_extLight p UB)|exact S4]. }
  split. { unfold fanEnergy. apply nn_div; [|apply zn_uns; lia]. apply nn_mult; [|apply zn_uns; lia]. apply nn_mult; [|apply plain_uns; exact F1].
    apply max_nn; unfold ventFlow.
    - apply uns_nn, uns_div; [|exact area_uns]. apply uns_mult; [apply plain_uns; exact S1|apply lit_uns; lia].
    - apply div_number; [apply mult_number; [apply S1|reflexivity]|]. destruct (ub_area p UB) as (FA&A&_).
      exact (proj2 (above_pos _ _ tiny_pos (or_intror A)) FA). }
  split. { unfold pumpEnergy. destruct (_ <? _)%num; [apply uns_nn, uns_mult; apply plain_uns; assumption|]. destruct (_ <? _)%num; [apply uns_nn, uns_mult; apply plain_uns; assumption|reflexivity]. }
  split; [apply uns_nn; exact S3|]. split; [apply uns_nn, uns_div; [exact S2|exact area_uns]|reflexivity].
Qed.
Lemma raw_sign : forall ws r0 raw r, simulateRaw p ws r0 = Ok (raw, r) -> Forall hour_nn raw.
Proof.
  intros ws r0 raw r H. unfold simulateRaw in H. apply obind_ok in H as (tbl&HT&H). apply obind_ok in H as (i&HI&H).
  apply obind_ok in H as (fr&_&H). apply obind_ok in H as (raw'&HY&H). assert (raw' = raw) by congruence. subst raw'.
  assert (TB : forall a b sc, sched_at tbl a b = Ok sc -> sched_uns sc).
  { unfold populateSchedules in HT. apply obind_ok in HT as (a1&_&HT). apply obind_ok in HT as (a2&_&HT). apply obind_ok in HT as (a3&_&HT). apply obind_ok in HT as (a4&_&HT).
    apply Ok_inj in HT. subst tbl. intros a b sc S. unfold sched_at in S. destruct (_ || _)%bool; [discriminate|]. apply obind_ok in S as (row&R1&R2).
    unfold vget in R1, R2. rewrite nth_error_map in R1. destruct (nth_error (zrange 0 24) _) as [z|]; cbn [option_map] in R1; [|discriminate]. apply Ok_inj in R1. subst row.
    rewrite nth_error_map in R2. destruct (nth_error (zrange 0 7) _) as [y|]; cbn [option_map] in R2; [|discriminate]. apply Ok_inj in R2. subst sc. apply cell_uns. }
  apply Forall_forall. intros h I. apply In_nth_error in I as [k K]. destruct (yearLoop_nth _ _ _ _ _ _ _ HY k h K) as (c&w&sc&th&_&_&_&SC&->).
  apply (hour_sign r0); [exact HI|]. exact (TB _ _ _ SC).
Qed.
Lemma one_tenth : positive (lit 1 10).
Proof. reflexivity. Qed.
Lemma eta_uns : forall a b, unsigned (eta_dist_ht p a b) /\ unsigned (eta_dist_cl p a b).
Proof.
  intros a b. unfold eta_dist_ht, eta_dist_cl, f_dem_cl, f_dem_ht. pose proof (plain_uns _ (ub_ht_loss p UB)). pose proof (plain_uns _ (ub_cl_loss p UB)). pose proof (plain_uns _ (ub_waste p UB)).
  split; (apply uns_div; [apply zn_uns; lia|]); (apply uns_plus; [apply uns_plus; [apply zn_uns; lia|assumption]|]);
  (apply uns_div; [assumption|]); (apply max_uns; [apply lit_uns; lia|exact one_tenth]).
Qed.
End D.
