(** Exterior lights of the monthly engine in doubles. *)
From Coq Require Import Reals Lra Psatz ZArith Bool List Lia.
From Flocq Require Import Core.Core IEEE754.BinarySingleNaN Relative.
From Verif Require Import Base Num Xr Dbl L_Dbl M_Params M_Monthly S_Calendar S_Results S_Locality S_Monthly S_DoubleTotals S_DoubleWater S_DoubleLights S_DoubleOutside
  L_Double L_Double2 L_Double6 L_Double7 L_Double8 L_Double9 L_DoubleAppliances L_DoubleWater L_DoubleLights L_Monthly L_Monthly3 E_SmallOffice E_Monthly.
Import ListNotations.
Open Scope R_scope.

Lemma series_cell {T} k (rows : list (list T)) v : is_series k rows v -> forall n x, nth_error v n = Some x -> cell rows n k = Some x.
Proof.
  intros S. induction S as [|r y rows v E S IH]; intros n x N; [destruct n; discriminate N|]. destruct n as [|n]; [|exact (IH n x N)].
  cbn [nth_error] in N. rewrite <- N. exact E.
Qed.
Section D.
Context {L : libm}.
Lemma zero_iff (x : double) : (x =? zn 0)%num = true <-> is_zero x.
Proof.
  change (x =? zn 0)%num with (Beqb x (z2d 0)). unfold is_zero. destruct (is_finite x) eqn:F.
  - rewrite Beqb_correct by (try exact F; reflexivity). change (B2R (z2d 0)) with 0. destruct (Req_bool_spec (B2R x) 0); split; try tauto; intros; try discriminate; tauto.
  - split; [|intros [A _]; discriminate A]. intros H. destruct x as [s|s| |s m e B]; try discriminate F; try (destruct s); discriminate H.
Qed.
Lemma lit_cases (x : double) : ((x =? zn 0)%num = false /\ ~ is_zero x) \/ ((x =? zn 0)%num = true /\ is_zero x).
Proof. destruct ((x =? zn 0)%num) eqn:E; [right|left]; (split; [reflexivity|]); rewrite <- zero_iff; [exact E|]. rewrite E. discriminate. Qed.
Lemma first_spec (row : list double) : forall n i, firstLit n row = Some i -> exists k, i = (n + k)%nat /\ (exists x, nth_error row k = Some x /\ ~ is_zero x) /\
  forall h x, nth_error row h = Some x -> (h < k)%nat -> is_zero x.
Proof.
  induction row as [|y row IH]; intros n i H; [discriminate H|]. cbn [firstLit] in H. destruct (lit_cases y) as [[E Q]|[E Q]]; rewrite E in H; cbn [negb] in H.
  - injection H as <-. exists 0%nat. split; [lia|]. split; [exists y; now split|]. intros h x _ R. lia.
  - destruct (IH _ _ H) as (k & -> & X & R). exists (S k). split; [lia|]. split; [exact X|]. intros [|h] x N M; [injection N as <-; exact Q|]. apply (R h x N). lia.
Qed.
Lemma last_spec (row : list double) : forall n i, lastLit n row = Some i -> exists k, i = (n + k)%nat /\ (exists x, nth_error row k = Some x /\ ~ is_zero x) /\
  forall h x, nth_error row h = Some x -> (k < h)%nat -> is_zero x.
Proof.
  assert (NN : forall (row : list double) n, lastLit n row = None -> forall h x, nth_error row h = Some x -> is_zero x).
  { clear. induction row as [|y row IH]; intros n H h x N; [destruct h; discriminate N|]. cbn [lastLit] in H. destruct (lastLit (S n) row) eqn:E; [discriminate H|].
    destruct (lit_cases y) as [[G Q]|[G Q]]; rewrite G in H; [discriminate H|]. destruct h as [|h]; [injection N as <-; exact Q|]. exact (IH _ E h x N). }
  induction row as [|y row IH]; intros n i H; [discriminate H|]. cbn [lastLit] in H. destruct (lastLit (S n) row) as [j|] eqn:E.
  - injection H as <-. destruct (IH _ _ E) as (k & -> & X & Q). exists (S k). split; [lia|]. split; [exact X|]. intros [|h] x N M; [lia|]. apply (Q h x N). lia.
  - destruct (lit_cases y) as [[G Q]|[G Q]]; rewrite G in H; [|discriminate H]. injection H as <-. exists 0%nat. split; [lia|]. split; [exists y; now split|]. intros [|h] x M R; [lia|]. exact (NN _ _ E h x M).
Qed.
(** The share of dark hours: a difference, but of numbers at least 1/24 apart. *)
Lemma dark_near y z : whole y z -> (1 <= z <= 24)%Z -> near 25 5 (Bminus mode_NE (z2d 1) (Bdiv mode_NE y (z2d 24))) (1 - IZR z / 24).
Proof.
  intros [F V] B. destruct (z2d_val 24 ltac:(lia)) as [F4 V4]. destruct (z2d_val 1 ltac:(lia)) as [F1 V1].
  pose proof (IZR_le 1 z ltac:(lia)) as Z1. pose proof (IZR_le z 24 ltac:(lia)) as Z2.
  pose proof (div_rnd y (z2d 24) F F4 ltac:(rewrite V4; lra)) as R. rewrite V, V4 in R.
  destruct (is_rnd_below 1 _ _ ltac:(lia) R) as (FQ & VQ & _).
  { rewrite Rabs_pos_eq by lra. assert (1 <= top) by (unfold top; change 1 with (bpow radix2 0); apply bpow_le; lia). lra. }
  set (q := Bdiv mode_NE y (z2d 24)) in *. apply (near_rnd 24 5 (1 - B2R q)); [lia|lia|rewrite <- V1; apply minus_rnd; assumption|].
  destruct (Z.eq_dec z 24) as [-> |N].
  - left. split; [lra|]. assert (RR : rnd (24 / 24) = 1). { replace (24 / 24) with (B2R (z2d 1)) by (rewrite V1; lra). transitivity (B2R (z2d 1)); [|exact V1]. unfold rnd. apply round_generic; [apply valid_rnd_N|apply generic_format_B2R]. }
    rewrite VQ, RR. ring.
  - right. pose proof (IZR_le z 23 ltac:(lia)) as Z3. split; [change (bpow radix2 (Z.opp 5)) with (/ 32); change (bpow radix2 5) with 32; lra|].
    destruct (relative_error_N_FLT_ex radix2 (3 - 1024 - 53) 53 eq_refl (fun z => negb (Z.even z)) (IZR z / 24)) as (d & D1 & D2).
    { rewrite Rabs_pos_eq by lra. apply Rle_trans with (bpow radix2 (- 5)); [apply bpow_le; lia|]. change (bpow radix2 (- 5)) with (/ 32). lra. }
    change (Rabs d <= uro) in D1. apply abs_between in D1. assert (EQ : B2R q = IZR z / 24 * (1 + d)) by (rewrite VQ; unfold rnd; exact D2). rewrite EQ.
    set (v := 1 - IZR z / 24). assert (VR : / 24 <= v <= 1) by (unfold v; lra). exists (1 - (1 - v) * d / v).
    assert (G : 1 + 48 * uro <= g1 ^ 24).
    { assert (I : forall n, 1 + INR n * (2 * uro) <= g1 ^ n). { pose proof uro_small as U. induction n as [|n IH]; [cbn; lra|]. rewrite S_INR. cbn [pow]. unfold g1 at 1. pose proof (pos_INR n). nra. }
      specialize (I 24%nat). replace (INR 24) with 24 in I by (cbn; lra). lra. }
    assert (K : Rabs ((1 - v) * d / v) <= 23 * uro).
    { unfold Rdiv. rewrite !Rabs_mult, (Rabs_pos_eq (1 - v)), (Rabs_pos_eq (/ v)) by (try lra; left; apply Rinv_0_lt_compat; lra).
      assert (/ v <= 24) by (rewrite <- (Rinv_inv 24); apply Rinv_le_contravar; lra). assert (Rabs d <= uro) by (apply Rabs_le; lra).
      assert (I1 : (1 - v) * / v <= 23). { replace ((1 - v) * / v) with (/ v - 1) by (field; lra). lra. }
      replace ((1 - v) * Rabs d * / v) with ((1 - v) * / v * Rabs d) by ring. apply Rmult_le_compat; [|apply Rabs_pos|exact I1|assumption]. apply Rmult_le_pos; [lra|left; apply Rinv_0_lt_compat; lra]. }
    apply abs_between in K. set (t := (1 - v) * d / v) in *. pose proof uro_small as U. split; [|unfold t, v; field; lra].
    split; [lra|]. split; [lra|]. apply Rle_trans with (1 + 48 * uro); [|exact G]. apply Rmult_le_reg_r with (1 - t); [lra|]. rewrite Rinv_l by lra. nra.
Qed.
Lemma sun_down_near (row : list double) f : length row = 24%nat -> fracSunDown row = Ok f -> exists i j, day_span row i j /\ (i <= j < 24)%nat /\ near 25 5 f (1 - INR (j - i + 1) / 24).
Proof.
  intros LR H. unfold fracSunDown in H. destruct (firstLit 0 row) as [i|] eqn:A; [|discriminate H]. destruct (lastLit 0 row) as [j|] eqn:B; [|discriminate H].
  destruct (first_spec _ _ _ A) as (i' & -> & (x & X1 & X2) & XQ). destruct (last_spec _ _ _ B) as (j' & -> & (y & Y1 & Y2) & YQ). exists i', j'.
  assert (J : (j' < 24)%nat) by (rewrite <- LR; apply nth_error_Some; congruence).
  assert (IJ : (i' <= j')%nat). { destruct (Nat.le_gt_cases i' j') as [Q|Q]; [exact Q|]. exfalso. apply Y2. exact (XQ j' y Y1 Q). }
  split; [split; [eauto|split; [eauto|intros h z N [Q|Q]; eauto]]|]. split; [lia|]. injection H as <-. cbn [Nat.add].
  change (zn 1 - (zn (Z.of_nat j') - zn (Z.of_nat i') + zn 1) / zn 24)%num with (Bminus mode_NE (z2d 1) (Bdiv mode_NE (Bplus mode_NE (Bminus mode_NE (z2d (Z.of_nat j')) (z2d (Z.of_nat i'))) (z2d 1)) (z2d 24))).
  assert (W : whole (Bplus mode_NE (Bminus mode_NE (z2d (Z.of_nat j')) (z2d (Z.of_nat i'))) (z2d 1)) (Z.of_nat (j' - i' + 1))).
  { replace (Z.of_nat (j' - i' + 1)) with (Z.of_nat j' - Z.of_nat i' + 1)%Z by lia. apply whole_add; [apply whole_sub; [apply whole_z; lia|apply whole_z; lia|lia]|apply whole_z; lia|lia]. }
  rewrite INR_IZR_INZ. apply dark_near; [exact W|lia].
Qed.
Variable p : params_t double.
Notation A := (st_floorArea (pa_structure p)).
Hypothesis (HA : is_finite A = true /\ moderate (B2R A)) (HE : some_or_none (li_exteriorEnergy (pa_lighting p))).
Lemma C120_l w rows : simulateMonthly p w = Ok rows -> forall m row, nth_error (mw_mhEgh w) m = Some row ->
  exists i j, day_span row i j /\ (i <= j < 24)%nat /\ exists x, cell rows m elec_ext_lights = Some x /\ is_finite x = true /\ Rabs (B2R x - outside_exact p m i j) <= outside_exact p m i j / 10000000000000.
Proof.
  intros H k row N. destruct (simulateMonthly_cases _ _ _ H) as (m & RU & _ & S'). specialize (S' elec_ext_lights _ eq_refl). rewrite (rn_lu _ _ _ RU) in S'.
  pose proof (rn_bd _ _ _ RU) as B. destruct (rn_tab _ _ _ RU) as (_ & _ & (L1 & L2) & _). unfold solarRadiationBreakdown in B. cbv zeta in B.
  destruct (omap fracSunDown (mw_mhEgh w)) as [d| |] eqn:E; [cbn [obind] in B|discriminate B|discriminate B]. injection B as B. rewrite <- B in S'. cbn [lightingEnergyUse lu_ext bd_hrsSunDown] in S'.
  assert (D : exists f, nth_error d k = Some f /\ fracSunDown row = Ok f).
  { clear - E N. revert k d E N. induction (mw_mhEgh w) as [|r l IH]; intros k d E N; [destruct k; discriminate N|].
    cbn [omap] in E. destruct (fracSunDown r) as [f| |] eqn:F; [cbn [obind] in E|discriminate E|discriminate E].
    destruct (omap fracSunDown l) as [d'| |] eqn:G; [cbn [obind] in E|discriminate E|discriminate E]. injection E as <-.
    destruct k as [|k]; [injection N as <-; exists f; split; [reflexivity|exact F]|]. exact (IH k d' eq_refl N). }
  destruct D as (f & Hd & Hf). assert (K : (k < 12)%nat) by (rewrite <- L1; apply nth_error_Some; congruence).
  destruct (sun_down_near row f (L2 row (nth_error_In _ _ N)) Hf) as (i & j & SP & IJ & NF). exists i, j. split; [exact SP|]. split; [exact IJ|].
  assert (Hk : exists z, nth_error (@hoursInMonth double _) k = Some (z2d z) /\ (1 <= z <= 9000)%Z /\ IZR z = month_hours k).
  { clear - K. unfold month_hours, hoursInMonth. do 12 (destruct k as [|k]; [eexists; split; [reflexivity|]; split; [lia|cbn [nth days_in_month]; rewrite <- mult_IZR; reflexivity]|]). lia. }
  destruct Hk as (z & Hk & ZR & ZV). destruct HA as [FA MA]. destruct (near_moderate _ FA MA) as [NA ZA].
  pose proof (div' (near_some _ HE) (near_z 1000 ltac:(lia)) ltac:(lia) ltac:(lia) ltac:(lia) ltac:(lia) ltac:(apply not_0_IZR; discriminate)) as X1.
  pose proof (mult' NF (near_z z ZR) ltac:(lia) ltac:(lia) ltac:(lia) ltac:(lia)) as X2.
  pose proof (sdiv' (mult' X2 X1 ltac:(lia) ltac:(lia) ltac:(lia) ltac:(lia)) NA ltac:(lia) ltac:(lia) ltac:(lia) ltac:(lia) ZA) as X3.
  apply near_close in X3; [|lia].
  assert (EQ : outside_exact p k i j = (1 - INR (j - i + 1) / 24) * IZR z * (B2R (li_exteriorEnergy (pa_lighting p)) / IZR 1000) / B2R A) by (unfold outside_exact; rewrite <- ZV; field; exact ZA).
  rewrite EQ. eexists. split; [|exact X3].
  assert (NX : nth_error (divs (scale (vmul d hoursInMonth) (li_exteriorEnergy (pa_lighting p) / zn 1000)%num) A) k = Some (sdiv (Bmult mode_NE (Bmult mode_NE f (z2d z)) (Bdiv mode_NE (li_exteriorEnergy (pa_lighting p)) (z2d 1000))) A)).
  { unfold divs, scale, vmul. rewrite !nth_error_map. rewrite (nth_zipw _ _ _ _ _ _ Hd Hk). reflexivity. }
  exact (series_cell _ _ _ S' k _ NX).
Qed.
End D.
Lemma mild_day {L : libm} : day_span (nth 0 (mw_mhEgh (@mildYear double (dbl_num L))) []) 7 16.
Proof.
  destruct (z2d_val 200 ltac:(lia)) as [F V]. assert (NZ : ~ is_zero (z2d 200)) by (intros [_ E]; rewrite V in E; lra).
  split; [exists (z2d 200); split; [reflexivity|exact NZ]|]. split; [exists (z2d 200); split; [reflexivity|exact NZ]|].
  assert (Z : is_zero (z2d 0)) by (split; reflexivity).
  intros h x N Q. change (nth 0 (mw_mhEgh mildYear) []) with (repeat (z2d 0) 7 ++ repeat (z2d 200) 10 ++ repeat (z2d 0) 7) in N.
  destruct (Nat.lt_ge_cases h 7) as [A|A].
  - rewrite nth_error_app1 in N by (rewrite repeat_length; exact A). apply nth_error_In, repeat_spec in N. subst x. exact Z.
  - rewrite nth_error_app2 in N by (rewrite repeat_length; exact A). rewrite repeat_length in N. rewrite nth_error_app2 in N by (rewrite repeat_length; lia). apply nth_error_In, repeat_spec in N. subst x. exact Z.
Qed.
Lemma office_outside {L : libm} : let p := @monthlyOffice double (dbl_num L) in
  (is_finite (st_floorArea (pa_structure p)) = true /\ moderate (B2R (st_floorArea (pa_structure p)))) /\ some_or_none (li_exteriorEnergy (pa_lighting p)).
Proof. cbv zeta. split; (split; [vm_compute; reflexivity|]); try right; moderately. Qed.
