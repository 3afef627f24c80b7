(** A month that is not a number, through the yearly sums of the monthly engine. *)
From Coq Require Import Reals Lra Lia ZArith Bool List.
From Flocq Require Import Core.Core IEEE754.BinarySingleNaN.
From Verif Require Import Base Num Xr Dbl L_Dbl M_Params M_Monthly S_Results S_Monthly L_Monthly L_Monthly3 L_Scaling7 L_Double6 S_BrokenMonth.
Import ListNotations.

Notation nan := (B754_nan : double).
Lemma pnl : forall x : double, Bplus mode_NE nan x = nan. Proof. reflexivity. Qed.
Lemma pnr : forall x : double, Bplus mode_NE x nan = nan. Proof. destruct x; reflexivity. Qed.
Lemma snl : forall x : double, Bminus mode_NE nan x = nan. Proof. reflexivity. Qed.
Lemma snr : forall x : double, Bminus mode_NE x nan = nan. Proof. destruct x; reflexivity. Qed.
Lemma tnl : forall x : double, Bmult mode_NE nan x = nan. Proof. reflexivity. Qed.
Lemma tnr : forall x : double, Bmult mode_NE x nan = nan. Proof. destruct x; reflexivity. Qed.
Lemma dnl : forall x : double, Bdiv mode_NE nan x = nan. Proof. reflexivity. Qed.
Lemma dnr : forall x : double, Bdiv mode_NE x nan = nan. Proof. destruct x; reflexivity. Qed.
Lemma sum_nan : forall (l : list double) x, In nan l \/ x = nan -> fold_left (Bplus mode_NE) l x = nan.
Proof.
  induction l as [|y l IH]; intros x H; [destruct H as [[] | ->]; reflexivity|]. cbn [fold_left]. apply IH.
  destruct H as [[-> | H] | ->]; [right; apply pnr|left; exact H|right; reflexivity].
Qed.
Definition alln (l : list double) : Prop := Forall (fun x => x = nan) l.
Lemma alln_map : forall f l, (forall x : double, f x = nan) -> alln (map f l).
Proof. intros f l H. unfold alln. apply Forall_forall. intros y I. apply in_map_iff in I as (x&<-&_). apply H. Qed.
Lemma alln_mapn : forall f l, f nan = nan -> alln l -> alln (map f l).
Proof. intros f l H A. unfold alln in *. rewrite Forall_forall in *. intros y I. apply in_map_iff in I as (x&<-&X). rewrite (A x X). exact H. Qed.
Lemma alln_zl : forall (f : double -> double -> double) a b, (forall y, f nan y = nan) -> alln a -> alln (zipw f a b).
Proof. intros f a b H A. revert b. induction A as [|x a -> A IH]; intros [|y b]; cbn [zipw]; constructor; [apply H|apply IH]. Qed.
Lemma alln_zr : forall (f : double -> double -> double) a b, (forall y, f y nan = nan) -> alln b -> alln (zipw f a b).
Proof. intros f a b H B. revert a. induction B as [|x b -> B IH]; intros [|y a]; cbn [zipw]; constructor; [apply H|apply IH]. Qed.
Lemma in_zl : forall (f : double -> double -> double) a b, (forall y, f nan y = nan) -> length a = length b -> In nan a -> In nan (zipw f a b).
Proof. intros f a b H E I. destruct (zipw_in1 f a b nan E I) as (y&Y). rewrite H in Y. exact Y. Qed.
Lemma in_zr : forall (f : double -> double -> double) a b, (forall y, f y nan = nan) -> length a = length b -> In nan b -> In nan (zipw f a b).
Proof. intros f a b H E I. destruct (zipw_in2 f a b nan E I) as (y&Y). rewrite H in Y. exact Y. Qed.
Lemma in_mapn : forall (f : double -> double) l, f nan = nan -> In nan l -> In nan (map f l).
Proof. intros f l H I. apply in_map_iff. exists nan. split; assumption. Qed.

Lemma positive_nz : forall x : double, positive x -> Beqb x (z2d 0) = false.
Proof. intros [[]|[]| |[] m e B]; unfold positive; vm_compute; congruence. Qed.
Definition tiny : double := binary_normalize 53 1024 _ _ mode_NE 1 (-1022) false.
Lemma positive_tiny : forall x : double, positive x -> Beqb (Bplus mode_NE x tiny) (z2d 0) = false.
Proof.
  intros x P. apply positive_nz. unfold positive in *. destruct (is_finite x) eqn:F.
  - assert (FT : is_finite tiny = true) by reflexivity.
    assert (T0 : (0 < B2R tiny)%R). { assert (Bltb (z2d 0) tiny = true) as H by reflexivity. rewrite Bltb_correct in H by reflexivity. destruct (Rlt_bool_spec (B2R (z2d 0)) (B2R tiny)) as [K|K]; [exact K|discriminate H]. }
    rewrite Bltb_correct in P by (try exact F; reflexivity). destruct (Rlt_bool_spec (B2R (z2d 0)) (B2R x)) as [K|K]; [|discriminate P]. change (B2R (z2d 0)) with 0%R in K.
    pose proof (plus_rnd x tiny F FT) as R. unfold is_rnd in R.
    assert (G : (B2R tiny <= rnd (B2R x + B2R tiny))%R). { rewrite <- (rnd_B2R tiny) at 1. apply rnd_mono. lra. }
    destruct (Rlt_bool _ _).
    + destruct R as [R1 R2]. rewrite Bltb_correct by (try exact R1; reflexivity). apply Rlt_bool_true. rewrite R2. change (B2R (z2d 0)) with 0%R. lra.
    + rewrite R, Rlt_bool_false by lra. reflexivity.
  - destruct x as [|[]| |]; try discriminate F; try discriminate P. reflexivity.
Qed.

Section D.
Context {L : libm}.
#[local] Existing Instance dbl_num.
Lemma sdr : forall x : double, sdiv (N := dbl_num L) x nan = nan.
Proof. intros x. unfold sdiv. change (neqb nan (zn 0)) with false. cbn iota. apply dnr. Qed.
Lemma sdl : forall y : double, Beqb y (z2d 0) = false -> sdiv (N := dbl_num L) nan y = nan.
Proof. intros y H. unfold sdiv. change (neqb y (zn 0)) with (Beqb y (z2d 0)). rewrite H. apply dnl. Qed.
Lemma divs_r : forall v : list double, alln (divs (N := dbl_num L) v nan).
Proof. intros v. unfold divs. apply alln_map. intros x. apply sdr. Qed.
Lemma divs_l : forall (v : list double) y, Beqb y (z2d 0) = false -> alln v -> alln (divs (N := dbl_num L) v y).
Proof. intros v y H A. unfold divs. apply alln_mapn; [apply sdl; exact H|exact A]. Qed.
Lemma vadd_l : forall a b : list double, alln a -> alln (vadd (N := dbl_num L) a b). Proof. intros a b. apply alln_zl. exact pnl. Qed.
Lemma vsum_n : forall v : list double, In nan v -> vsum (N := dbl_num L) v = nan.
Proof. intros v H. unfold vsum, accumulate. cbn [nadd dbl_num]. apply sum_nan. left. exact H. Qed.
Lemma vsum_a : forall v : list double, alln v -> v <> [] -> vsum (N := dbl_num L) v = nan.
Proof. intros [|x v] A H; [congruence|]. apply vsum_n. left. inversion A. assumption. Qed.

(** The shares of demand and with them the distribution efficiencies. *)
Lemma dist_nan : forall p, distHt (N := dbl_num L) p nan nan = nan /\ distCl (N := dbl_num L) p nan nan = nan.
Proof.
  intros p. unfold distHt, distCl, demandCl. change (demandHt (N := dbl_num L) nan nan) with nan.
  change (nmax (zn 1 - nan)%num (lit 1 10)) with nan. cbn [nadd ndiv dbl_num]. rewrite !dnr, !pnr, !dnr. split; reflexivity.
Qed.
Lemma loss_nan : forall v, alln (distLoss (N := dbl_num L) v nan).
Proof. intros v. unfold distLoss. apply divs_r. Qed.
Lemma vadd_r : forall a b : list double, alln b -> alln (vadd (N := dbl_num L) a b). Proof. intros a b. apply alln_zr. exact pnr. Qed.
Lemma scale_a : forall (v : list double) x, alln v -> alln (scale (N := dbl_num L) v x). Proof. intros v x. unfold scale. apply alln_mapn. exact (tnl x). Qed.
Lemma hvac_nan : forall p a b, working p -> let h := hvac (N := dbl_num L) p a b nan nan in
  alln (if (Beqb (ht_energyType (pa_heating p)) (z2d 1) && negb (district_heat p))%bool then hv_elec_ht h else hv_gas_ht h) /\ alln (hv_elec_cl h).
Proof.
  intros p a b (_&W1&W2). destruct (dist_nan p) as (D1&D2). unfold hvac. cbv zeta. rewrite D1, D2. cbn [hv_elec_ht hv_gas_ht hv_elec_cl].
  change (neqb (ht_DH_YesNo (pa_heating p)) (zn 1)) with (district_heat p). change (neqb (cl_DC_YesNo (pa_cooling p)) (zn 1)) with (district_cold p).
  change (neqb (ht_energyType (pa_heating p)) (zn 1)) with (Beqb (ht_energyType (pa_heating p)) (z2d 1)).
  assert (H : forall v d, Beqb d (z2d 0) = false -> alln (divs (N := dbl_num L) (vadd (distLoss v nan) v) d)).
  { intros v d D. apply divs_l; [exact D|]. apply vadd_l, loss_nan. }
  assert (K : forall v x d, Beqb d (z2d 0) = false -> alln (divs (N := dbl_num L) (scale (vadd v (distLoss v nan)) x) d)).
  { intros v x d D. apply divs_l; [exact D|]. apply scale_a, vadd_r, loss_nan. }
  split.
  - destruct (district_heat p).
    + rewrite andb_false_r. cbn iota. destruct (Beqb (ht_energyType (pa_heating p)) (z2d 1)); [|apply vadd_r]; apply K; apply positive_nz; exact W1.
    + rewrite andb_true_r. cbn iota. destruct (Beqb (ht_energyType (pa_heating p)) (z2d 1)); [|apply vadd_l]; apply H; exact (positive_tiny _ W1).
  - destruct (district_cold p).
    + apply vadd_r, K. apply positive_nz. exact W2.
    + apply vadd_l, H. exact (positive_tiny _ W2).
Qed.
Lemma pump_nan : forall p a b, length a = length b -> In nan a -> alln (pump (N := dbl_num L) p a b nan nan).
Proof.
  intros p a b E I. unfold pump. cbv zeta.
  assert (B : In nan (vadd (N := dbl_num L) a b)) by (apply in_zl; [exact pnl|exact E|exact I]).
  assert (LB : length (vadd (N := dbl_num L) a b) = length a) by (unfold vadd; rewrite zipw_length, <- E; apply Nat.min_id).
  assert (M : vsum (N := dbl_num L) (vdiv a (vadd a b)) = nan) by (apply vsum_n, in_zr; [exact sdr|symmetry; exact LB|exact B]).
  rewrite M. destruct (_ || _)%bool; [apply vadd_l, divs_r|].
  change (nadd nan nan) with nan. rewrite (vsum_a (divs (vadd a b) nan)); [apply divs_r|apply divs_r|].
  intros Z. apply (f_equal (@length double)) in Z. unfold divs in Z. rewrite map_length, LB in Z. destruct a; [destruct I|discriminate Z].
Qed.
Lemma area_nan : forall p v, working p -> alln v -> alln (perArea (N := dbl_num L) (st_floorArea (pa_structure p)) v).
Proof. intros p v (W&_) A. unfold perArea. apply divs_l; [vm_compute; reflexivity|]. apply divs_l; [apply positive_nz; exact W|exact A]. Qed.

(** The needs of the broken month. *)
Lemma scale_in : forall (v : list double) s, In nan v -> In nan (scale (N := dbl_num L) v s).
Proof. intros v s. unfold scale. apply in_mapn. exact (tnl s). Qed.
Lemma ms_len : length (@megasecondsInMonth double (dbl_num L)) = 12%nat. Proof. reflexivity. Qed.
Ltac ln := unfold vadd, vsub, vmul, vdiv, vmax, scale, shift, divs in *; repeat (rewrite ?zipw_length, ?map_length, ?ms_len); try lia.
Lemma losses_h : forall p w H Tv Hv, length Tv = 12%nat -> length Hv = 12%nat -> length (mw_mdbt w) = 12%nat -> In nan (mw_mdbt w) -> In nan (lossesHeating (N := dbl_num L) p w H Tv Hv).
Proof.
  intros p w H Tv Hv E1 E2 E3 I. unfold lossesHeating. apply in_zl; [exact pnl|ln|]. apply scale_in. apply in_zl; [exact tnl|ln|]. apply in_zr; [exact snr|lia|exact I].
Qed.
Lemma losses_c : forall p w H Tv Hv, length Tv = 12%nat -> length Hv = 12%nat -> length (mw_mdbt w) = 12%nat -> In nan (mw_mdbt w) -> In nan (lossesCooling (N := dbl_num L) p w H Tv Hv).
Proof.
  intros p w H Tv Hv E1 E2 E3 I. unfold lossesCooling. apply in_zl; [exact pnl|ln|]. apply in_zl; [exact tnl|ln|]. apply scale_in. apply in_zr; [exact snr|lia|exact I].
Qed.
Lemma need_h : forall a l g, length l = length g -> In nan l \/ In nan g -> In nan (needHeating (N := dbl_num L) a l g).
Proof.
  intros a l g E [I|I]; unfold needHeating; [apply in_zl; [exact snl|ln|exact I]|]. apply in_zr; [exact snr|ln|]. apply in_zr; [exact tnr|ln|exact I].
Qed.
Lemma need_c : forall a l g, length l = length g -> In nan l \/ In nan g -> In nan (needCooling (N := dbl_num L) a l g).
Proof.
  intros a l g E [I|I]; unfold needCooling; [|apply in_zl; [exact snl|ln|exact I]]. apply in_zr; [exact snr|ln|]. apply in_zr; [exact tnr|ln|exact I].
Qed.
Lemma irradiance_nan : forall w, full_tables w -> In nan (mw_mEgh w) \/ (exists row, In row (mw_msolar w) /\ In nan row) ->
  exists r, In r (irradiance w) /\ length r = 9%nat /\ In nan r.
Proof.
  intros w ((F1&F2)&_&_&F3&_) [I|(row&R&I)]; unfold irradiance.
  - assert (X : forall (a : list (list double)) b, length a = length b -> In nan b -> exists row, In row a /\ In (row ++ [nan]) (zipw (fun row egh => row ++ [egh]) a b)).
    { induction a as [|x a IH]; intros [|y b] E J; try discriminate E; [destruct J|]. destruct J as [-> | J]; [exists x; split; left; reflexivity|].
      injection E as E. destruct (IH b E J) as (r&A&B). exists r. split; right; assumption. }
    destruct (X _ _ ltac:(rewrite F1, F3; reflexivity) I) as (r&A&B). exists (r ++ [nan]). split; [exact B|]. split; [rewrite app_length, (F2 r A); reflexivity|]. apply in_or_app. right. left. reflexivity.
  - destruct (zipw_in1 (fun (row : list double) egh => row ++ [egh]) (mw_msolar w) (mw_mEgh w) row ltac:(rewrite F1, F3; reflexivity) R) as (y&Y). exists (row ++ [y]). split; [exact Y|].
    split; [rewrite app_length, (F2 row R); reflexivity|]. apply in_or_app. left. exact I.
Qed.
Lemma solar_nan : forall s ws w, nine_surfaces s -> full_tables w -> In nan (mw_mEgh w) \/ (exists row, In row (mw_msolar w) /\ In nan row) -> In nan (solarHeatGain (N := dbl_num L) s ws w).
Proof.
  intros s ws w N F B. destruct (irradiance_nan w F B) as (r&R&LR&I). destruct F as ((F1&_)&_&_&F3&_).
  assert (LI : length (irradiance w) = 12%nat) by (unfold irradiance; rewrite zipw_length, F1, F3; reflexivity).
  unfold solarHeatGain. apply in_zl; [exact tnl|ln|]. apply in_zr; [exact pnr|ln|]. apply in_map_iff. exists r. split; [|exact R].
  assert (LW : length (wallSolarArea (N := dbl_num L) s) = 9%nat).
  { unfold wallSolarArea. ln. rewrite repeat_length, !N by (cbn; tauto). reflexivity. }
  assert (LK : length (skyRadiation (N := dbl_num L) s) = 9%nat).
  { unfold skyRadiation. ln. rewrite !repeat_length, !N by (cbn; tauto). reflexivity. }
  unfold wallGain. apply vsum_n. apply in_zl; [exact snl| |apply in_zr; [exact tnr|lia|exact I]]. ln. rewrite LW, LR, LK. reflexivity.
Qed.
Lemma needs_nan : forall p w m, run (N := dbl_num L) p w m -> broken_month w -> In nan (ne_ht (mr_needs m)) /\ In nan (ne_cl (mr_needs m)).
Proof.
  intros p w m R B. pose proof (rn_tab _ _ _ R) as F. destruct (run_lengths _ _ _ R) as (L1&L2&_). destruct (rn_sol _ _ _ R) as (ws&_&ES).
  assert (LS : length (mr_Esol m) = 12%nat) by (rewrite ES; now apply solar_length). pose proof F as (_&_&_&F1&F2&F3).
  assert (V1 : length (mr_Hve_ht m) = 12%nat) by (rewrite (rn_Hve_ht _ _ _ R); unfold ventilationCalc; rewrite !zipw_length, F2, F3, L1; reflexivity).
  assert (V2 : length (mr_Hve_cl m) = 12%nat) by (rewrite (rn_Hve_cl _ _ _ R); unfold ventilationCalc; rewrite !zipw_length, F2, F3, L2; reflexivity).
  assert (G : forall x, length (totalGain (N := dbl_num L) x (mr_Esol m)) = 12%nat) by (intros x; unfold totalGain; ln).
  assert (H1 : forall x, length (lossesHeating (N := dbl_num L) p w x (te_h (mr_temps m)) (mr_Hve_ht m)) = 12%nat) by (intros x; unfold lossesHeating; ln).
  assert (H2 : forall x, length (lossesCooling (N := dbl_num L) p w x (te_c (mr_temps m)) (mr_Hve_cl m)) = 12%nat) by (intros x; unfold lossesCooling; ln).
  assert (X : In nan (mw_mdbt w) \/ In nan (mr_Esol m)).
  { destruct B as [B|B]; [left; exact B|right]. rewrite ES. apply solar_nan; [exact (rn_surf _ _ _ R)|exact F|exact B]. }
  rewrite (rn_needs _ _ _ R). unfold heatingAndCooling. cbv zeta. cbn [ne_ht ne_cl].
  assert (Y : forall x, In nan (mr_Esol m) -> In nan (totalGain (N := dbl_num L) x (mr_Esol m))) by (intros x I; unfold totalGain; apply in_zr; [exact pnr|ln|exact I]).
  split; [apply need_h; [rewrite H1, G; reflexivity|]|apply need_c; [rewrite H2, G; reflexivity|]]; (destruct X as [X|X]; [left|right; apply Y; exact X]).
  - apply losses_h; assumption.
  - apply losses_c; assumption.
Qed.
Lemma C123_year_l : forall p w rows, simulateMonthly (N := dbl_num L) p w = Ok rows -> broken_month w -> working p ->
  forall row, In row rows -> forall u, In u [heating_column p; elec_cooling; elec_pumps] -> nth_error row u = Some nan.
Proof.
  intros p w rows H B W row I u U. destruct (simulateMonthly_cases p w rows H) as (m&R&_&C). destruct (needs_nan p w m R B) as (N1&N2).
  destruct (run_lengths _ _ _ R) as (_&_&L3&L4&_).
  assert (Y1 : ne_ht_yr (mr_needs m) = nan) by (rewrite (rn_needs _ _ _ R) in N1 |- *; exact (vsum_n _ N1)).
  assert (Y2 : ne_cl_yr (mr_needs m) = nan) by (rewrite (rn_needs _ _ _ R) in N2 |- *; exact (vsum_n _ N2)).
  pose proof (rn_hvac _ _ _ R) as HV. pose proof (rn_pump _ _ _ R) as PU. rewrite Y1, Y2 in HV, PU. destruct (hvac_nan p (ne_ht (mr_needs m)) (ne_cl (mr_needs m)) W) as (A1&A2). rewrite <- HV in A1, A2.
  assert (A3 : alln (mr_pump m)) by (rewrite PU; apply pump_nan; [congruence|exact N1]).
  assert (Z : exists c, nth_error (columns p m) u = Some c /\ alln c).
  { destruct U as [<- | [<- | [<- | []]]].
    - unfold heating_column. destruct (Beqb (ht_energyType (pa_heating p)) (z2d 1) && negb (district_heat p))%bool; eexists; (split; [reflexivity|]); apply area_nan; assumption.
    - eexists. split; [reflexivity|]. apply area_nan; assumption.
    - eexists. split; [reflexivity|]. apply area_nan; assumption. }
  destruct Z as (c&E&A). pose proof (C u c E) as S. clear -S A I. unfold is_series in S. induction S as [|r x rs c S0 S IH]; [destruct I|].
  inversion A. subst. destruct I as [<- | I]; [exact S0|apply IH; assumption].
Qed.
End D.
