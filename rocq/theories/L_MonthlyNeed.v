(** The heat balance of a month. *)
From Coq Require Import Reals Lra Psatz ZArith List Bool Lia.
From Verif Require Import Base Num Xr M_Params M_Monthly M_Map L_Xr L_HourlyShape L_HourlyFin2 S_Calendar S_Schedule S_Results S_Monthly
  S_MonthlySound S_MonthlyHeat S_Physical L_Monthly L_Monthly2 L_Monthly3 L_Monthly4 L_Monthly5 L_MonthlyFin L_MonthlyFin2 L_MonthlyNaN L_MonthlyGain E_SmallOffice E_Monthly.
Import ListNotations.
Open Scope R_scope.

(** *** The utilisation curve *)
Lemma Rpow_R x y : 0 < x -> Rpow x y = Rpower x y.
Proof. intros H. unfold Rpow. destruct (Rlt_dec 0 x); [reflexivity|lra]. Qed.
Lemma power_lt1 g a : 0 < a -> 0 < g < 1 -> 0 < Rpower g a < 1.
Proof.
  intros A G. split; [apply Rpower_pos|]. unfold Rpower. rewrite <- exp_0. apply exp_increasing. assert (ln g < 0) by (rewrite <- ln_1; apply ln_increasing; lra).
  assert (0 < a * - ln g) by (apply Rmult_lt_0_compat; lra). lra.
Qed.
Lemma power_gt1 g a : 0 < a -> 1 < g -> 1 < Rpower g a.
Proof.
  intros A G. unfold Rpower. rewrite <- exp_0. apply exp_increasing. assert (0 < ln g) by (rewrite <- ln_1; apply ln_increasing; lra). now apply Rmult_lt_0_compat.
Qed.
Lemma power_succ g a : 0 < g -> Rpower g (a + 1) = Rpower g a * g.
Proof. intros G. now rewrite Rpower_plus, Rpower_1. Qed.
Lemma power_one_iff g a : 0 < g -> g <> 1 -> a <> 0 -> Rpower g a <> 1.
Proof.
  intros G N A E. unfold Rpower in E. rewrite <- exp_0 in E. apply exp_inv in E. apply Rmult_integral in E. destruct E as [E|E]; [contradiction|].
  apply N. rewrite <- ln_1 in E. apply ln_inv; lra.
Qed.
Lemma utilisation_range a g : 0 < a -> 0 < g -> g <> 1 -> 0 < utilisation a g < 1 /\ utilisation a g * g < 1.
Proof.
  intros A G N. unfold utilisation. rewrite power_succ by exact G. destruct (Rlt_dec g 1) as [L|L].
  - pose proof (power_lt1 g a A (conj G L)) as U. set (u := Rpower g a) in *. clearbody u.
    assert (0 < u * g < u) by (split; [apply Rmult_lt_0_compat; lra|rewrite <- (Rmult_1_r u) at 2; apply Rmult_lt_compat_l; lra]).
    assert (E : 0 < (1 - u) / (1 - u * g) < 1).
    { split; [apply Rmult_lt_0_compat; [lra|apply Rinv_0_lt_compat; lra]|]. apply Rmult_lt_reg_r with (1 - u * g); [lra|]. unfold Rdiv. rewrite Rmult_assoc, Rinv_l by lra. lra. }
    split; [exact E|]. set (e := (1 - u) / (1 - u * g)) in *. clearbody e. assert (e * g < 1 * 1) by (apply Rmult_gt_0_lt_compat; lra). lra.
  - assert (1 < g) by lra. pose proof (power_gt1 g a A H) as U. set (u := Rpower g a) in *. clearbody u.
    assert (K : u < u * g) by (rewrite <- (Rmult_1_r u) at 1; apply Rmult_lt_compat_l; lra).
    replace ((1 - u) / (1 - u * g)) with ((u - 1) / (u * g - 1)) by (field; lra). split; [split|].
    + apply Rmult_lt_0_compat; [lra|apply Rinv_0_lt_compat; lra].
    + apply Rmult_lt_reg_r with (u * g - 1); [lra|]. unfold Rdiv. rewrite Rmult_assoc, Rinv_l by lra. lra.
    + apply Rmult_lt_reg_r with (u * g - 1); [lra|]. replace ((u - 1) / (u * g - 1) * g * (u * g - 1)) with ((u - 1) * g) by (field; lra). lra.
Qed.
Lemma eta_fin a g : 0 < g -> g <> 1 -> a + 1 <> 0 -> ndiv (nsub (zn 1) (npow (Fin g) (Fin a))) (nsub (zn 1) (npow (Fin g) (nadd (Fin a) (zn 1)))) = Fin (utilisation a g).
Proof.
  intros G N A. rewrite zn_fin, add_fin, !pow_fin, !sub_fin, zn_R by exact G. ops. rewrite !Rpow_R by exact G. rewrite div_fin'; [reflexivity|].
  pose proof (power_one_iff g (a + 1) G N A). lra.
Qed.
Lemma eta_one a : ndiv (nsub (zn 1) (npow (Fin 1) (Fin a))) (nsub (zn 1) (npow (Fin 1) (nadd (Fin a) (zn 1)))) = NaN.
Proof.
  rewrite zn_fin, add_fin, !pow_fin, !sub_fin, zn_R by lra. ops. rewrite !Rpow_R by lra.
  assert (P : forall y, Rpower 1 y = 1) by (intros y; unfold Rpower; rewrite ln_1, Rmult_0_r, exp_0; reflexivity). rewrite !P. replace (1 - 1) with 0 by lra.
  cbn [ndiv xr_num xdiv]. destruct (Req_EM_T 0 0) as [_|Z]; [|now destruct Z]. unfold xscale. destruct (Rlt_dec 0 0); [lra|reflexivity].
Qed.
Lemma pos_true (g : R) : 0 < g -> nlt (zn 0) (Fin g) = true.
Proof. intros G. rewrite zn_fin, lt_fin, zn_R. now apply Rltb_true. Qed.
Lemma pos_false (g : R) : g <= 0 -> nlt (zn 0) (Fin g) = false.
Proof. intros G. rewrite zn_fin, lt_fin, zn_R. now apply Rltb_false. Qed.
Lemma etaH_pos a g : 0 < g -> g <> 1 -> a + 1 <> 0 -> etaHeating (Fin a) (Fin g) = Fin (utilisation a g).
Proof. intros. unfold etaHeating. rewrite pos_true by assumption. now apply eta_fin. Qed.
Lemma etaC_pos a g : 0 < g -> g <> 1 -> a + 1 <> 0 -> etaCooling (Fin a) (Fin g) = Fin (utilisation a g).
Proof. intros. unfold etaCooling. rewrite pos_true by assumption. now apply eta_fin. Qed.
Lemma etaH_one a : etaHeating (Fin a) (Fin 1) = NaN.
Proof. unfold etaHeating. rewrite pos_true by lra. apply eta_one. Qed.
Lemma etaC_one a : etaCooling (Fin a) (Fin 1) = NaN.
Proof. unfold etaCooling. rewrite pos_true by lra. apply eta_one. Qed.
Lemma etaH_neg a g : g <= 0 -> g + Rdblmin <> 0 -> etaHeating (Fin a) (Fin g) = Fin (1 / (g + Rdblmin)).
Proof. intros G N. unfold etaHeating. rewrite pos_false by exact G. rewrite dblmin_fin, add_fin, zn_fin, zn_R. now apply div_fin'. Qed.
Lemma etaC_neg a g : g <= 0 -> etaCooling (Fin a) (Fin g) = Fin 1.
Proof. intros G. unfold etaCooling. rewrite pos_false by exact G. rewrite zn_fin, zn_R. reflexivity. Qed.

(** *** Month by month *)
Lemma nth_map_fin v i x : nth_error (map Fin v) i = Some x -> exists y, nth_error v i = Some y /\ x = Fin y.
Proof. rewrite nth_error_map. destruct (nth_error v i) as [y|]; cbn [option_map]; intros H; [|discriminate H]. injection H as <-. eauto. Qed.
Lemma nth_some {A} (l : list A) i n : length l = n -> (i < n)%nat -> exists x, nth_error l i = Some x.
Proof. intros L H. destruct (nth_error l i) as [x|] eqn:E; [eauto|]. apply nth_error_None in E. lia. Qed.
Lemma more_lengths {T} {N : Num T} p w m : run p w m -> length (mr_Esol m) = 12%nat /\ length (mr_Hve_ht m) = 12%nat /\ length (mr_Hve_cl m) = 12%nat.
Proof.
  intros RU. pose proof (rn_tab _ _ _ RU) as F. destruct (rn_sol _ _ _ RU) as (ws & _ & ES). destruct (run_lengths _ _ _ RU) as (L1 & L2 & _).
  assert (LS : length (mr_Esol m) = 12%nat) by (rewrite ES; now apply solar_length). destruct F as (_ & _ & _ & F1 & F2 & F3). split; [exact LS|].
  split; [rewrite (rn_Hve_ht _ _ _ RU)|rewrite (rn_Hve_cl _ _ _ RU)]; unfold ventilationCalc; rewrite !zipw_length, F2, F3, ?L1, ?L2; reflexivity.
Qed.
Lemma lossH_at (p : params_t R) w H tt hv i t te h : nth_error tt i = Some t -> nth_error (mw_mdbt w) i = Some te -> nth_error hv i = Some h -> (i < 12)%nat ->
  nth_error (lossesHeating p w H tt hv) i = Some (month_loss H (st_floorArea (pa_structure p)) h t te i).
Proof.
  intros A B C I. pose proof (mega_nth i I) as M. unfold lossesHeating. cbv zeta. pose proof (nth_zipw nsub _ _ _ _ _ A B) as D.
  pose proof (scale_at _ H _ _ (nth_zipw nmul _ _ _ _ _ D M)) as X. pose proof (nth_zipw nmul _ _ _ _ _ (nth_zipw nmul _ _ _ _ _ (scale_at _ (st_floorArea (pa_structure p)) _ _ C) D) M) as Y.
  unfold vadd, vmul, vsub. rewrite (nth_zipw nadd _ _ _ _ _ X Y). f_equal. ops. unfold month_loss. ring.
Qed.
Lemma lossC_at (p : params_t R) w H tt hv i t te h : nth_error tt i = Some t -> nth_error (mw_mdbt w) i = Some te -> nth_error hv i = Some h -> (i < 12)%nat ->
  nth_error (lossesCooling p w H tt hv) i = Some (month_loss H (st_floorArea (pa_structure p)) h t te i).
Proof.
  intros A B C I. pose proof (mega_nth i I) as M. unfold lossesCooling. cbv zeta. pose proof (nth_zipw nsub _ _ _ _ _ A B) as D.
  pose proof (nth_zipw nmul _ _ _ _ _ (scale_at _ H _ _ D) M) as X. pose proof (nth_zipw nmul _ _ _ _ _ (nth_zipw nmul _ _ _ _ _ (scale_at _ (st_floorArea (pa_structure p)) _ _ C) D) M) as Y.
  unfold vadd, vmul, vsub. rewrite (nth_zipw nadd _ _ _ _ _ X Y). f_equal. ops. unfold month_loss. ring.
Qed.
Lemma gain_at (phi : R) sol i s : nth_error sol i = Some s -> (i < 12)%nat -> nth_error (totalGain phi sol) i = Some (month_gain phi s i).
Proof.
  intros A I. unfold totalGain. pose proof (nth_zipw nadd _ _ _ _ _ (scale_at _ phi _ _ (mega_nth i I)) A) as X. unfold vadd. rewrite X. f_equal. ops. unfold month_gain. ring.
Qed.
Lemma lossH_fin p w H tt hv : lossesHeating (map_params Fin p) (fin_weather w) (Fin H) (map Fin tt) (map Fin hv) = map Fin (lossesHeating p w H tt hv).
Proof.
  unfold lossesHeating, fin_weather. cbn [mw_mdbt map_params pa_structure map_structure st_floorArea]. cbv zeta. rewrite vsub_fin, mega_fin, vmul_fin, !scale_fin, !vmul_fin, vadd_fin. reflexivity.
Qed.
Lemma lossC_fin p w H tt hv : lossesCooling (map_params Fin p) (fin_weather w) (Fin H) (map Fin tt) (map Fin hv) = map Fin (lossesCooling p w H tt hv).
Proof.
  unfold lossesCooling, fin_weather. cbn [mw_mdbt map_params pa_structure map_structure st_floorArea]. cbv zeta. rewrite vsub_fin, mega_fin, !scale_fin, !vmul_fin, vadd_fin. reflexivity.
Qed.
Lemma gain_fin phi sol : totalGain (Fin phi) (map Fin sol) = map Fin (totalGain phi sol).
Proof. unfold totalGain. rewrite mega_fin, scale_fin, vadd_fin. reflexivity. Qed.
Lemma needH_at a Ls Gs i L G : nth_error Ls i = Some L -> nth_error Gs i = Some G ->
  nth_error (needHeating a (map Fin Ls) (map Fin Gs)) i = Some (nsub (Fin L) (nmul (etaHeating a (Fin (sdiv G (L + Rdblmin)))) (Fin G))).
Proof.
  intros A B. unfold needHeating. rewrite dblmin_fin, shift_fin, vdiv_fin. assert (E : nth_error (map (etaHeating a) (map Fin (vdiv Gs (shift Ls ndblmin)))) i = Some (etaHeating a (Fin (sdiv G (L + Rdblmin))))).
  { rewrite map_map, nth_error_map. unfold vdiv. rewrite (nth_zipw sdiv _ _ _ G (L + Rdblmin) B); [reflexivity|]. unfold shift. rewrite nth_error_map, A. reflexivity. }
  unfold vsub, vmul. apply nth_zipw; [now rewrite nth_error_map, A|]. apply nth_zipw; [exact E|now rewrite nth_error_map, B].
Qed.
Lemma needC_at a Ls Gs i L G : nth_error Ls i = Some L -> nth_error Gs i = Some G ->
  nth_error (needCooling a (map Fin Ls) (map Fin Gs)) i = Some (nsub (Fin G) (nmul (etaCooling a (Fin (sdiv L (G + Rdblmin)))) (Fin L))).
Proof.
  intros A B. unfold needCooling. rewrite dblmin_fin, shift_fin, vdiv_fin. assert (E : nth_error (map (etaCooling a) (map Fin (vdiv Ls (shift Gs ndblmin)))) i = Some (etaCooling a (Fin (sdiv L (G + Rdblmin))))).
  { rewrite map_map, nth_error_map. unfold vdiv. rewrite (nth_zipw sdiv _ _ _ L (G + Rdblmin) A); [reflexivity|]. unfold shift. rewrite nth_error_map, B. reflexivity. }
  unfold vsub, vmul. apply nth_zipw; [now rewrite nth_error_map, B|]. apply nth_zipw; [exact E|now rewrite nth_error_map, A].
Qed.
Lemma temps_tau {T} {N : Num T} (p : params_t T) oc bd H a b c te : interiorTemp p oc bd H a b c = Ok te -> te_tau te = timeConstant p (nadd H (ve_H_ve (pa_ventilation p))).
Proof.
  unfold interiorTemp. intros E. destruct (bemAdjust _) as [adj| |]; [cbn [obind] in E|discriminate E|discriminate E]. apply ok_inj in E. now rewrite <- E.
Qed.
Lemma exponent p w m r : sound p -> run p w r -> fin_run m r ->
  nadd (ht_a_H0 (pa_heating (map_params Fin p))) (ndiv (te_tau (mr_temps m)) (ht_tau_H0 (pa_heating (map_params Fin p)))) = Fin (utilisation_exponent p).
Proof.
  intros S E F. rewrite (fr_temps _ _ F). cbn [fin_temps te_tau map_params pa_heating map_heating ht_a_H0 ht_tau_H0]. rewrite div_fin' by apply S. rewrite add_fin. f_equal.
  pose proof (rn_temps _ _ _ E) as B. cbv zeta in B. rewrite (temps_tau _ _ _ _ _ _ _ _ B), cap_R, (rn_H _ _ _ E), UA_R by apply S. reflexivity.
Qed.
(** The heat balance of every month, in terms of the data. *)
Lemma month_balance p w m i : sound p -> monthlyAll (map_params Fin p) (fin_weather w) = Ok m -> (i < 12)%nat ->
  exists t tc te hve hvc sol phi, month_data p w m i t tc te hve hvc sol phi /\
  let A := st_floorArea (pa_structure p) in let UA := envelope_UA (pa_structure p) in let a := Fin (utilisation_exponent p) in
  let L := month_loss UA A hve t te i in let K := month_loss UA A hvc tc te i in let G := month_gain phi sol i in
  nth_error (ne_ht (mr_needs m)) i = Some (nsub (Fin L) (nmul (etaHeating a (Fin (sdiv G (L + Rdblmin)))) (Fin G))) /\
  nth_error (ne_cl (mr_needs m)) i = Some (nsub (Fin G) (nmul (etaCooling a (Fin (sdiv K (G + Rdblmin)))) (Fin K))).
Proof.
  intros S M I. apply monthlyAll_run in M. destruct (run_fin _ _ _ S M) as (r & E & F).
  destruct (run_lengths _ _ _ E) as (L1 & L2 & _). destruct (more_lengths _ _ _ E) as (L3 & L4 & L5). pose proof (rn_tab _ _ _ E) as (_ & _ & _ & _ & T2 & _).
  destruct (nth_some _ i _ L1 I) as [t T]. destruct (nth_some _ i _ L2 I) as [tc TC]. destruct (nth_some _ i _ L3 I) as [sol SOL].
  destruct (nth_some _ i _ L4 I) as [hve HVE]. destruct (nth_some _ i _ L5 I) as [hvc HVC]. destruct (nth_some _ i _ T2 I) as [te TE].
  exists t, tc, te, hve, hvc, sol, (internalHeatGain (pa_structure p) (mr_gains r)). split.
  { constructor; rewrite ?(fr_temps _ _ F), ?(fr_Hve_ht _ _ F), ?(fr_Hve_cl _ _ F), ?(fr_sol _ _ F), ?(fr_gains _ _ F); cbn [fin_temps te_h te_c]; rewrite ?nth_error_map, ?T, ?TC, ?SOL, ?HVE, ?HVC; try reflexivity; try assumption.
  }
  cbv zeta. rewrite (rn_needs _ _ _ M). unfold heatingAndCooling. cbn [ne_ht ne_cl]. rewrite (exponent _ _ _ _ S E F).
  rewrite (fr_temps _ _ F), (fr_Hve_ht _ _ F), (fr_Hve_cl _ _ F), (fr_sol _ _ F), (fr_gains _ _ F), (fr_H _ _ F). cbn [fin_temps te_h te_c].
  rewrite lossH_fin, lossC_fin. change (pa_structure (map_params Fin p)) with (map_structure Fin (pa_structure p)). rewrite internal_fin, gain_fin.
  pose proof (rn_H _ _ _ E) as HH. rewrite UA_R in HH by apply S. rewrite HH. split.
  - apply needH_at; [now apply lossH_at|now apply gain_at].
  - apply needC_at; [now apply lossC_at|now apply gain_at].
Qed.

(** *** Bounds *)
Lemma balance_pos a L G : 0 < a -> 0 < L -> 0 < G -> G <> L + Rdblmin -> let e := utilisation a (G / (L + Rdblmin)) in
  0 < e < 1 /\ Rmax 0 (L - G) <= L - e * G + Rdblmin /\ L - e * G <= L.
Proof.
  intros A HL HG N e. pose proof Rdblmin_pos as P. set (d := Rdblmin) in *. clearbody d.
  assert (GP : 0 < G / (L + d)) by (apply Rmult_lt_0_compat; [lra|apply Rinv_0_lt_compat; lra]).
  assert (G1 : G / (L + d) <> 1). { intros C. apply N. rewrite <- (Rmult_1_l (L + d)), <- C. field. lra. }
  destruct (utilisation_range a _ A GP G1) as [E1 E2]. fold e in E1, E2. clearbody e. split; [exact E1|].
  assert (e * G < L + d). { replace (e * G) with (e * (G / (L + d)) * (L + d)) by (field; lra). apply Rlt_le_trans with (1 * (L + d)); [apply Rmult_lt_compat_r; lra|lra]. }
  assert (e * G < G) by (apply Rlt_le_trans with (1 * G); [apply Rmult_lt_compat_r; lra|lra]). assert (0 < e * G) by (apply Rmult_lt_0_compat; lra).
  split; [apply Rmax_lub; lra|lra].
Qed.
Lemma need_at_pos a L G : 0 < a -> 0 < L -> 0 < G -> G <> L + Rdblmin ->
  nsub (Fin L) (nmul (etaHeating (Fin a) (Fin (sdiv G (L + Rdblmin)))) (Fin G)) = Fin (L - utilisation a (G / (L + Rdblmin)) * G) /\
  nsub (Fin L) (nmul (etaCooling (Fin a) (Fin (sdiv G (L + Rdblmin)))) (Fin G)) = Fin (L - utilisation a (G / (L + Rdblmin)) * G).
Proof.
  intros A HL HG N. pose proof Rdblmin_pos as P. rewrite sdiv_R by lra.
  assert (GP : 0 < G / (L + Rdblmin)) by (apply Rmult_lt_0_compat; [lra|apply Rinv_0_lt_compat; lra]).
  assert (G1 : G / (L + Rdblmin) <> 1). { intros C. apply N. rewrite <- (Rmult_1_l (L + Rdblmin)), <- C. field. lra. }
  rewrite etaH_pos, etaC_pos by (assumption || lra). split; reflexivity.
Qed.
Lemma need_at_one a L : 0 < L ->
  nsub (Fin L) (nmul (etaHeating (Fin a) (Fin (sdiv (L + Rdblmin) (L + Rdblmin)))) (Fin (L + Rdblmin))) = NaN /\
  nsub (Fin L) (nmul (etaCooling (Fin a) (Fin (sdiv (L + Rdblmin) (L + Rdblmin)))) (Fin (L + Rdblmin))) = NaN.
Proof.
  intros HL. pose proof Rdblmin_pos as P. rewrite sdiv_R by lra. replace ((L + Rdblmin) / (L + Rdblmin)) with 1 by (field; lra). rewrite etaH_one, etaC_one. split; reflexivity.
Qed.
(** No transfer to the outside, or from the outside: all gains are to be cooled, and the outside's heat. *)
Lemma need_cl_in a K G : K <= 0 -> 0 < G -> nsub (Fin G) (nmul (etaCooling (Fin a) (Fin (sdiv K (G + Rdblmin)))) (Fin K)) = Fin (G - K).
Proof.
  intros HK HG. pose proof Rdblmin_pos as P. rewrite sdiv_R by lra. rewrite etaC_neg; [rewrite mul_fin, sub_fin; f_equal; ops; lra|].
  assert (0 <= - K / (G + Rdblmin)) by (apply Rmult_le_pos; [lra|apply Rlt_le, Rinv_0_lt_compat; lra]). unfold Rdiv in *. lra.
Qed.

Lemma C29_heating_l p w m i : sound p -> 0 < utilisation_exponent p -> monthlyAll (map_params Fin p) (fin_weather w) = Ok m -> (i < 12)%nat ->
  exists t tc te hve hvc sol phi, month_data p w m i t tc te hve hvc sol phi /\
  let L := month_loss (envelope_UA (pa_structure p)) (st_floorArea (pa_structure p)) hve t te i in let G := month_gain phi sol i in
  (0 < L -> 0 < G -> G <> L + Rdblmin -> exists eta, 0 < eta < 1 /\ eta = utilisation (utilisation_exponent p) (G / (L + Rdblmin)) /\
     nth_error (ne_ht (mr_needs m)) i = Some (Fin (L - eta * G)) /\ Rmax 0 (L - G) <= L - eta * G + Rdblmin /\ L - eta * G <= L) /\
  (0 < L -> G = L + Rdblmin -> nth_error (ne_ht (mr_needs m)) i = Some NaN).
Proof.
  intros S A M I. destruct (month_balance p w m i S M I) as (t & tc & te & hve & hvc & sol & phi & D & NH & _). exists t, tc, te, hve, hvc, sol, phi. split; [exact D|].
  cbv zeta in *. set (L := month_loss _ _ hve t te i) in *. set (G := month_gain phi sol i) in *. split.
  - intros HL HG N. exists (utilisation (utilisation_exponent p) (G / (L + Rdblmin))). destruct (balance_pos _ L G A HL HG N) as (B1 & B2 & B3).
    rewrite (proj1 (need_at_pos _ L G A HL HG N)) in NH. repeat split; try assumption; lra.
  - intros HL E. rewrite NH, E. f_equal. now apply need_at_one.
Qed.
Lemma C29_cooling_l p w m i : sound p -> 0 < utilisation_exponent p -> monthlyAll (map_params Fin p) (fin_weather w) = Ok m -> (i < 12)%nat ->
  exists t tc te hve hvc sol phi, month_data p w m i t tc te hve hvc sol phi /\
  let L := month_loss (envelope_UA (pa_structure p)) (st_floorArea (pa_structure p)) hvc tc te i in let G := month_gain phi sol i in
  (0 < L -> 0 < G -> L <> G + Rdblmin -> exists eta, 0 < eta < 1 /\ eta = utilisation (utilisation_exponent p) (L / (G + Rdblmin)) /\
     nth_error (ne_cl (mr_needs m)) i = Some (Fin (G - eta * L)) /\ Rmax 0 (G - L) <= G - eta * L + Rdblmin /\ G - eta * L <= G) /\
  (L <= 0 -> 0 < G -> nth_error (ne_cl (mr_needs m)) i = Some (Fin (G - L))) /\
  (0 < G -> L = G + Rdblmin -> nth_error (ne_cl (mr_needs m)) i = Some NaN).
Proof.
  intros S A M I. destruct (month_balance p w m i S M I) as (t & tc & te & hve & hvc & sol & phi & D & _ & NC). exists t, tc, te, hve, hvc, sol, phi. split; [exact D|].
  cbv zeta in *. set (L := month_loss _ _ hvc tc te i) in *. set (G := month_gain phi sol i) in *. split; [|split].
  - intros HL HG N. exists (utilisation (utilisation_exponent p) (L / (G + Rdblmin))). destruct (balance_pos _ G L A HG HL N) as (B1 & B2 & B3).
    rewrite (proj2 (need_at_pos _ G L A HG HL N)) in NC. repeat split; try assumption; lra.
  - intros HL HG. rewrite NC. f_equal. now apply need_cl_in.
  - intros HG E. rewrite NC, E. f_equal. now apply need_at_one.
Qed.
