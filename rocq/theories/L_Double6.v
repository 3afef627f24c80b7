(** The monthly engine in doubles: signs of the clock-driven end uses. *)
From Coq Require Import Reals Lra Psatz ZArith Bool List Lia.
From Flocq Require Import Core.Core IEEE754.BinarySingleNaN.
From Verif Require Import Base Num Xr Dbl L_Dbl M_Params M_Monthly S_Results S_Monthly S_Double S_DoubleMonthly L_HourlyShape L_Monthly L_Monthly3 L_Double.
Import ListNotations.
Open Scope R_scope.

Lemma z2d_val : forall z, (- 9000 <= z <= 9000)%Z -> is_finite (z2d z) = true /\ B2R (z2d z) = IZR z.
Proof.
  intros z Z. unfold z2d. pose proof (binary_normalize_correct 53 1024 _ _ mode_NE z 0 false) as C. cbv zeta in C.
  assert (V : F2R (Float radix2 z 0) = IZR z) by (unfold F2R; cbn; lra).
  assert (G : generic_format radix2 (SpecFloat.fexp 53 1024) (IZR z)).
  { apply (generic_format_FLT radix2 (3 - 1024 - 53) 53). exists (Float radix2 z 0); [symmetry; exact V| |cbn; lia]. cbn. change (2 ^ 53)%Z with 9007199254740992%Z. lia. }
  rewrite V in C. rewrite (round_generic radix2 _ _ _ G) in C.
  rewrite Rlt_bool_true in C; [destruct C as (C1&C2&_); split; assumption|].
  apply Rlt_le_trans with (IZR 10000); [|apply Rle_trans with (bpow radix2 53); [cbn; lra|apply bpow_le; lia]].
  rewrite <- abs_IZR. apply IZR_lt. lia.
Qed.
Lemma within_rnd : forall lo hi r x, (- 9000 <= lo <= 9000)%Z -> (- 9000 <= hi <= 9000)%Z -> is_rnd r x -> IZR lo <= r <= IZR hi -> within lo hi x.
Proof.
  intros lo hi r x A B R [H1 H2]. destruct (z2d_val lo A) as [F1 V1]. destruct (z2d_val hi B) as [F2 V2].
  assert (P1 : rnd r <= IZR hi) by (rewrite <- V2, <- rnd_B2R; apply rnd_mono; lra).
  assert (P2 : IZR lo <= rnd r) by (rewrite <- V1, <- rnd_B2R; apply rnd_mono; lra).
  unfold is_rnd in R. rewrite Rlt_bool_true in R.
  - destruct R as [R1 R2]. split; [exact R1|]. rewrite R2. lra.
  - pose proof (B2R_huge (z2d lo)) as K1. pose proof (B2R_huge (z2d hi)) as K2. rewrite V1 in K1. rewrite V2 in K2.
    apply Rabs_def2 in K1. apply Rabs_def2 in K2. apply Rabs_def1; lra.
Qed.
Lemma within_nn : forall hi x, within 0 hi x -> not_negative x.
Proof.
  intros hi x [F [H _]]. unfold not_negative. rewrite Bltb_correct by (try exact F; reflexivity). apply Rlt_bool_false. change (B2R (z2d 0)) with 0. exact H.
Qed.
Lemma within_notnan : forall lo hi x, within lo hi x -> is_nan x = false.
Proof. intros lo hi x [F _]. destruct x; try discriminate; reflexivity. Qed.
Lemma uns_mult_nn : forall x y, unsigned x -> not_negative y -> not_negative (Bmult mode_NE x y).
Proof.
  intros x y X Y. apply nn_cases in Y. destruct Y as [Y|[Y|Y]].
  - destruct y; try discriminate. destruct x; reflexivity.
  - apply uns_nn, uns_mult; [exact X|intros _; exact Y].
  - subst y. destruct x as [[]|[]| |[] ? ? ?]; reflexivity.
Qed.
Lemma number_mult : forall x y : double, is_finite_strict x = true -> is_nan y = false -> is_nan (Bmult mode_NE x y) = false.
Proof.
  intros x y X Y. destruct (is_finite y) eqn:F.
  - apply (is_rnd_notnan (B2R x * B2R y)). apply mult_rnd; [|exact F]. destruct x; try discriminate; reflexivity.
  - destruct x, y; try discriminate; reflexivity.
Qed.

Section D.
Context {L : libm}.
Notation N := (dbl_num L).

Lemma zn_is : forall z, (zn z : double) = z2d z.
Proof. reflexivity. Qed.
Lemma sdiv_nn : forall a b : double, not_negative a -> unsigned b -> not_negative (sdiv a b).
Proof. intros a b A B. unfold sdiv. destruct (b =? zn 0)%num; [reflexivity|]. apply nn_div; assumption. Qed.
Lemma divs_nn : forall v b, Forall not_negative v -> unsigned b -> Forall not_negative (divs v b).
Proof. intros v b V B. unfold divs. induction V; constructor; [apply sdiv_nn; assumption|exact IHV]. Qed.
Lemma scale_nn : forall v s, Forall not_negative v -> unsigned s -> Forall not_negative (scale v s).
Proof. intros v s V S. unfold scale. induction V; constructor; [apply nn_mult; assumption|exact IHV]. Qed.
Lemma scale_uns : forall v s, Forall unsigned v -> not_negative s -> Forall not_negative (scale v s).
Proof. intros v s V S. unfold scale. induction V; constructor; [apply uns_mult_nn; assumption|exact IHV]. Qed.
Lemma all12_nn : Forall not_negative (all12 (zn 0)).
Proof. apply Forall_forall. intros x I. apply repeat_spec in I. subst x. reflexivity. Qed.
Lemma zipw_max_nn : forall a b, Forall not_negative b -> Forall (fun x => is_nan x = false) b -> Forall not_negative (vmax a b).
Proof.
  unfold vmax. induction a as [|x a IH]; intros b B NB; [constructor|]. destruct b as [|y b]; [constructor|]. inversion B; inversion NB; subst.
  cbn [zipw]. constructor; [apply max_nn; assumption|apply IH; assumption].
Qed.

(** ** Opening hours *)
Variable p : params_t double.
Hypothesis UM : unsigned_monthly p.
Notation po := (pa_population p).
Lemma ltb_0 : forall x : double, is_finite x = true -> (x <? zn 0)%num = true -> B2R x < 0.
Proof.
  intros x F H. change (Bltb x (z2d 0) = true) in H. rewrite Bltb_correct in H by (try exact F; reflexivity). change (B2R (z2d 0)) with 0 in H.
  destruct (Rlt_bool_spec (B2R x) 0); [assumption|discriminate].
Qed.
Lemma ltb_0_not : forall x : double, is_finite x = true -> (x <? zn 0)%num = false -> 0 <= B2R x.
Proof.
  intros x F H. change (Bltb x (z2d 0) = false) in H. rewrite Bltb_correct in H by (try exact F; reflexivity). change (B2R (z2d 0)) with 0 in H.
  destruct (Rlt_bool_spec (B2R x) 0); [discriminate|assumption].
Qed.
Lemma hours_within : within 0 24 (hoursPerDay po).
Proof.
  destruct (um_hours p UM) as [[F1 H1] [F2 H2]]. unfold hoursPerDay. cbv zeta. set (h := (po_hoursEnd po - po_hoursStart po)%num).
  assert (W : within (-24) 24 h) by (apply (within_rnd _ _ (B2R (po_hoursEnd po) - B2R (po_hoursStart po))); [lia..|apply minus_rnd; assumption|lra]).
  destruct W as [F W]. destruct (h <? zn 0)%num eqn:E; [apply ltb_0 in E; [|exact F]|apply ltb_0_not in E; [split; [exact F|lra]|exact F]].
  destruct (z2d_val 24 ltac:(lia)) as [F24 V24]. apply (within_rnd _ _ (B2R h + B2R (z2d 24))); [lia..|apply plus_rnd; assumption|rewrite V24; lra].
Qed.
Lemma days_within : within 0 7 (daysPerWeek po).
Proof.
  destruct (um_days p UM) as [[F1 H1] [F2 H2]]. unfold daysPerWeek. cbv zeta. set (d0 := (po_daysEnd po - po_daysStart po)%num).
  assert (W0 : within (-6) 6 d0) by (apply (within_rnd _ _ (B2R (po_daysEnd po) - B2R (po_daysStart po))); [lia..|apply minus_rnd; assumption|lra]).
  destruct W0 as [F0 W0]. set (d := (d0 + zn 1)%num). destruct (z2d_val 1 ltac:(lia)) as [G1 V1].
  assert (W : within (-5) 7 d) by (apply (within_rnd _ _ (B2R d0 + B2R (z2d 1))); [lia..|apply plus_rnd; assumption|rewrite V1; lra]).
  destruct W as [F W]. destruct (d <? zn 0)%num eqn:E; [apply ltb_0 in E; [|exact F]|apply ltb_0_not in E; [split; [exact F|lra]|exact F]].
  destruct (z2d_val 7 ltac:(lia)) as [F7 V7]. apply (within_rnd _ _ (B2R d + B2R (z2d 7))); [lia..|apply plus_rnd; assumption|rewrite V7; lra].
Qed.
Notation wk := (oc_wk_day (scheduleAndOccupancy po)).
Lemma week_within : within 0 1 wk.
Proof.
  destruct hours_within as [F1 H1]. destruct days_within as [F2 H2]. unfold scheduleAndOccupancy. cbn [oc_wk_day].
  set (q := (hoursPerDay po * daysPerWeek po)%num).
  assert (W : within 0 168 q) by (apply (within_rnd _ _ (B2R (hoursPerDay po) * B2R (daysPerWeek po))); [lia..|apply mult_rnd; assumption|nra]).
  destruct W as [F W]. destruct (z2d_val 168 ltac:(lia)) as [G V].
  apply (within_rnd _ _ (B2R q / B2R (z2d 168))); [lia..|apply div_rnd; [assumption..|rewrite V; lra]|rewrite V; lra].
Qed.
Lemma rest_within : within 0 1 (Bminus mode_NE (z2d 1) wk).
Proof.
  destruct week_within as [F H]. destruct (z2d_val 1 ltac:(lia)) as [G V].
  apply (within_rnd _ _ (B2R (z2d 1) - B2R wk)); [lia..|apply minus_rnd; assumption|rewrite V; lra].
Qed.

(** ** Columns *)
Lemma area_u : unsigned (st_floorArea (pa_structure p)). Proof. apply plain_uns, (um_area p UM). Qed.
Lemma nums_uns : forall l, Forall (fun z => (0 <= z)%Z) l -> Forall unsigned (map (@zn double N) l).
Proof. induction 1; constructor; [apply uns_z2d; assumption|assumption]. Qed.
Lemma hours_uns : Forall unsigned (@hoursInMonth double N).
Proof. apply nums_uns. repeat constructor; lia. Qed.
Lemma plug_nn : forall a b, plain a -> plain b -> Forall not_negative (plugLoad a b wk).
Proof.
  intros a b A B. unfold plugLoad. apply divs_nn; [|apply uns_z2d; lia]. apply scale_uns; [exact hours_uns|].
  apply nn_plus; [exact (uns_mult_nn a wk (plain_uns _ A) (within_nn _ _ week_within))|].
  exact (uns_mult_nn b _ (plain_uns _ B) (within_nn _ _ rest_within)).
Qed.
Lemma water_nn : Forall not_negative (fst (heatedWater p)) /\ Forall not_negative (snd (heatedWater p)).
Proof.
  assert (W : Forall not_negative (hotWaterNeed p)).
  { unfold hotWaterNeed. cbv zeta. generalize (divs (vsub (divs (divs (divs (scale daysInMonth (hotWaterYear p)) daysInYear) (ht_hotWaterDistributionEfficiency (pa_heating p))) kWh2MJ) (all12 (zn 0))) (ht_hotWaterSystemEfficiency (pa_heating p))) as l.
    induction l as [|x l IH]; constructor; [apply max_nn; reflexivity|exact IH]. }
  unfold heatedWater. destruct (_ =? _)%num; cbn [fst snd]; split; try exact W; exact all12_nn.
Qed.
Lemma ms_strict : Forall (fun x => is_finite_strict x = true /\ Bsign x = false) (@megasecondsInMonth double N).
Proof. unfold megasecondsInMonth. repeat constructor; vm_compute; reflexivity. Qed.
Lemma fan_nn : forall Th Tc qh qc, Forall not_negative (fanEnergyMonthly p wk Th Tc qh qc).
Proof.
  intros Th Tc qh qc. destruct (um_fans p UM) as [U1 U2]. destruct (um_rate p UM) as [R1 R2].
  unfold fanEnergyMonthly. cbv zeta. apply divs_nn; [|apply uns_lit; lia]. apply divs_nn; [|exact area_u].
  apply scale_nn; [|apply uns_div; [apply uns_mult; apply plain_uns; assumption|apply uns_z2d; lia]].
  set (s := (ve_supplyRate (pa_ventilation p) * wk * zn 1000000)%num).
  assert (S0 : not_negative (Bmult mode_NE (ve_supplyRate (pa_ventilation p)) wk)) by (apply uns_mult_nn; [apply plain_uns; exact R1|exact (within_nn _ _ week_within)]).
  assert (S1 : not_negative s) by (apply nn_mult; [exact S0|apply uns_z2d; lia]).
  assert (S2 : is_nan s = false).
  { apply mult_number; [|reflexivity]. destruct week_within as [FW _]. apply (is_rnd_notnan (B2R (ve_supplyRate (pa_ventilation p)) * B2R wk)). apply mult_rnd; assumption. }
  assert (V : Forall (fun x => not_negative x /\ is_nan x = false) (divs (scale megasecondsInMonth s) (zn 1000))).
  { unfold divs, scale. rewrite map_map. pose proof ms_strict as M. induction M as [|x l [X1 X2] M IH]; constructor; [|exact IH].
    unfold sdiv. change (zn 1000 =? zn 0)%num with false. cbv iota. split.
    - apply nn_div; [|apply uns_z2d; lia]. apply uns_mult_nn; [intros _; exact X2|exact S1].
    - apply div_number; [|reflexivity]. exact (number_mult x s X1 S2). }
  apply zipw_max_nn; [eapply Forall_impl; [|exact V]; intros x [X _]; exact X|eapply Forall_impl; [|exact V]; intros x [_ X]; exact X].
Qed.

Lemma lit_order : forall (row : list double) n i j, firstLit n row = Some i -> lastLit n row = Some j -> (n <= i <= j /\ j < n + length row)%nat.
Proof.
  induction row as [|x row IH]; intros n i j A B; [discriminate|]. cbn [firstLit lastLit] in A, B.
  destruct (negb (x =? zn 0)%num) eqn:E.
  - injection A as <-. destruct (lastLit (S n) row) as [j'|] eqn:LJ.
    + injection B as <-. assert (K : exists i', firstLit (S n) row = Some i').
      { clear - LJ. revert n j' LJ. induction row as [|y row IH]; intros n j LJ; [discriminate|]. cbn [firstLit lastLit] in *.
        destruct (negb (y =? zn 0)%num); [eauto|]. destruct (lastLit (S (S n)) row) eqn:E2; [|discriminate]. eapply IH. exact E2. }
      destruct K as [i' K]. specialize (IH _ _ _ K LJ). cbn [length]. lia.
    + injection B as <-. cbn [length]. lia.
  - destruct (lastLit (S n) row) as [j'|] eqn:LJ; [|discriminate]. injection B as <-. specialize (IH _ _ _ A LJ). cbn [length]. lia.
Qed.
Lemma down_nn : forall (row : list double) x, length row = 24%nat -> fracSunDown row = Ok x -> not_negative x.
Proof.
  intros row x LR H. unfold fracSunDown in H. destruct (firstLit 0 row) as [i|] eqn:A; [|discriminate]. destruct (lastLit 0 row) as [j|] eqn:B; [|discriminate].
  apply Ok_inj in H. destruct (lit_order row 0 i j A B) as [O1 O2]. rewrite LR in O2. subst x.
  destruct (z2d_val (Z.of_nat j) ltac:(lia)) as [FJ VJ]. destruct (z2d_val (Z.of_nat i) ltac:(lia)) as [FI VI].
  assert (RI : 0 <= IZR (Z.of_nat i)) by (apply IZR_le; lia). assert (RJ : IZR (Z.of_nat j) <= 23) by (apply IZR_le; lia).
  assert (RIJ : IZR (Z.of_nat i) <= IZR (Z.of_nat j)) by (apply IZR_le; lia).
  assert (W1 : within 0 23 (Bminus mode_NE (z2d (Z.of_nat j)) (z2d (Z.of_nat i)))) by (eapply within_rnd; [lia..|apply minus_rnd; assumption|rewrite VI, VJ; lra]).
  destruct (z2d_val 1 ltac:(lia)) as [F1 V1]. destruct (z2d_val 24 ltac:(lia)) as [F24 V24]. destruct W1 as [G1 W1].
  assert (W2 : within 0 24 (Bplus mode_NE (Bminus mode_NE (z2d (Z.of_nat j)) (z2d (Z.of_nat i))) (z2d 1))) by (eapply within_rnd; [lia..|apply plus_rnd; assumption|rewrite V1; lra]).
  destruct W2 as [G2 W2].
  assert (W3 : within 0 1 (Bdiv mode_NE (Bplus mode_NE (Bminus mode_NE (z2d (Z.of_nat j)) (z2d (Z.of_nat i))) (z2d 1)) (z2d 24))).
  { eapply within_rnd; [lia..|apply div_rnd; [assumption..|rewrite V24; lra]|rewrite V24; lra]. }
  destruct W3 as [G3 W3]. apply (within_nn 1). apply (within_rnd _ _ (B2R (z2d 1) - B2R (Bdiv mode_NE (Bplus mode_NE (Bminus mode_NE (z2d (Z.of_nat j)) (z2d (Z.of_nat i))) (z2d 1)) (z2d 24)))); [lia..|apply minus_rnd; assumption|rewrite V1; lra].
Qed.
Lemma lamps_nn : forall w m, run p w m -> Forall not_negative (lu_ext (mr_lu m)).
Proof.
  intros w m R. rewrite (rn_lu _ _ _ R). unfold lightingEnergyUse. cbn [lu_ext].
  apply scale_nn; [|apply uns_div; [apply plain_uns, (um_lamps p UM)|apply uns_z2d; lia]].
  pose proof (rn_bd _ _ _ R) as B. unfold solarRadiationBreakdown in B. cbv zeta in B. apply obind_ok in B as (down&D&B). apply Ok_inj in B. rewrite <- B. cbn [bd_hrsSunDown].
  destruct (rn_tab _ _ _ R) as (_&_&[_ T24]&_).
  assert (DN : Forall not_negative down).
  { destruct (omap_inv _ _ _ D) as [DL DV]. apply Forall_forall. intros x I. apply In_nth_error in I as [k K].
    destruct (nth_error (mw_mhEgh w) k) as [row|] eqn:E.
    - destruct (DV _ _ E) as (b&B1&B2). rewrite K in B1. injection B1 as <-. apply (down_nn row); [apply T24; exact (nth_error_In _ _ E)|exact B2].
    - apply nth_error_None in E. assert (k < length down)%nat by (apply nth_error_Some; congruence). lia. }
  unfold vmul. pose proof hours_uns as H. revert H. generalize (@hoursInMonth double N) as hs. clear - DN. revert DN.
  induction 1 as [|x l X DN IH]; intros hs H; [constructor|]. destruct hs as [|h hs]; [constructor|]. inversion H; subst. cbn [zipw]. constructor; [apply nn_mult; assumption|apply IH; assumption].
Qed.

Lemma monthly_sign_l : forall w rows k v, simulateMonthly p w = Ok rows -> In k clock_driven -> is_series k rows v -> Forall not_negative v.
Proof.
  intros w rows k v H K S. destruct (simulateMonthly_cases p w rows H) as (m&R&TS&C).
  assert (G : forall c, nth_error (columns p m) k = Some c -> v = c).
  { intros c E. specialize (C k c E). clear - S C. unfold is_series in *. revert v c S C. induction rows as [|r rows IH]; intros v c S C; inversion S; inversion C; subst; [reflexivity|].
    f_equal; [congruence|apply IH; assumption]. }
  pose proof (rn_oc _ _ _ R) as OC. pose proof (um_elec p UM) as [E1 E2]. pose proof (um_gas p UM) as [G1 G2].
  unfold columns, outputColumns in G. cbv zeta in G. rewrite OC in G.
  unfold clock_driven in K. cbn [In] in K. repeat (destruct K as [<-|K]; [rewrite (G _ eq_refl)|]); [..|destruct K].
  - apply divs_nn; [exact (lamps_nn w m R)|exact area_u].
  - rewrite (rn_needs _ _ _ R). unfold heatingAndCooling. cbn [ne_fan]. rewrite OC. apply fan_nn.
  - apply plug_nn; assumption.
  - exact all12_nn.
  - rewrite (rn_dhw _ _ _ R). apply divs_nn; [apply water_nn|exact area_u].
  - apply plug_nn; assumption.
  - rewrite (rn_dhw _ _ _ R). apply divs_nn; [apply water_nn|exact area_u].
Qed.
End D.
