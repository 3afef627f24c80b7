(** Monthly needs of a building and of a variation of it. *)
From Coq Require Import Reals Lra Psatz ZArith List Bool Lia.
From Verif Require Import Base Num Xr M_Params M_Monthly M_Map L_Xr L_HourlyShape L_HourlyFin2 S_Calendar S_Schedule S_Results S_Monthly S_Physical S_MonthlySound S_MonthlyHeat S_MonthlyCompare
  L_Monthly L_Monthly2 L_Monthly3 L_Monthly4 L_Monthly5 L_MonthlyFin L_MonthlyFin2 L_MonthlyNaN L_MonthlyGain L_MonthlyNeed L_MonthlyTemp L_MonthlyVent L_Utilise.
Import ListNotations.
Open Scope R_scope.

(** *** One month *)
Definition needed (a L G : R) : R := if Req_EM_T G 0 then L else (L + Rdblmin) * uncovered a (G / (L + Rdblmin)) - Rdblmin.
Lemma needed_eq a L G : 0 < L -> L - utilisation a (G / (L + Rdblmin)) * G = (L + Rdblmin) * uncovered a (G / (L + Rdblmin)) - Rdblmin.
Proof. intros HL. pose proof Rdblmin_pos. unfold uncovered. field. lra. Qed.
Lemma heat_needed a L G q : 0 < a -> 0 < L -> 0 <= G -> nsub (Fin L) (nmul (etaHeating (Fin a) (Fin (sdiv G (L + Rdblmin)))) (Fin G)) = Fin q ->
  q = needed a L G /\ G / (L + Rdblmin) <> 1.
Proof.
  intros A HL HG H. pose proof Rdblmin_pos as P. assert (N1 : G <> L + Rdblmin) by (intros ->; rewrite (proj1 (need_at_one a L HL)) in H; discriminate H).
  assert (N2 : G / (L + Rdblmin) <> 1). { intros C. apply N1. rewrite <- (Rmult_1_l (L + Rdblmin)), <- C. field. lra. }
  split; [|exact N2]. unfold needed. destruct (Req_EM_T G 0) as [-> | N].
  - rewrite sdiv_R in H by lra. replace (0 / (L + Rdblmin)) with 0 in H by (field; lra). rewrite etaH_neg, mul_fin, sub_fin in H by lra. injection H as <-. ops. ring.
  - rewrite (proj1 (need_at_pos a L G A HL ltac:(lra) N1)) in H. injection H as <-. now apply needed_eq.
Qed.
Lemma needed_mono a a' L L' G G' : 0 < a' -> a' <= a -> 0 < L -> L <= L' -> 0 <= G' -> G' <= G -> G / (L + Rdblmin) <> 1 -> G' / (L' + Rdblmin) <> 1 ->
  needed a L G <= needed a' L' G'.
Proof.
  intros A' LA HL LL HG' LG N N'. pose proof Rdblmin_pos as P. set (d := Rdblmin) in *. unfold needed. fold d.
  assert (R1 : forall l g, 0 < l -> 0 < g -> 0 < g / (l + d)) by (intros; apply Rdiv_lt_0_compat; lra).
  destruct (Req_EM_T G 0) as [Z|Z], (Req_EM_T G' 0) as [Z'|Z']; [lra|lra| |].
  - pose proof (uncovered_pos a (G / (L + d)) ltac:(lra) ltac:(apply R1; lra) N) as U. assert ((L + d) * uncovered a (G / (L + d)) <= (L + d) * 1) by (apply Rmult_le_compat_l; lra). lra.
  - pose proof (uncovered_pos a (G / (L + d)) ltac:(lra) ltac:(apply R1; lra) N) as U.
    assert (K1 : uncovered a (G / (L + d)) <= uncovered a (G' / (L' + d))).
    { apply uncovered_gamma; try assumption; [lra|apply R1; lra|]. unfold Rdiv. apply Rmult_le_compat; [lra|apply Rlt_le, Rinv_0_lt_compat; lra|lra|apply Rinv_le_contravar; lra]. }
    pose proof (uncovered_exponent a a' (G' / (L' + d)) A' LA ltac:(apply R1; lra) N') as K2.
    assert ((L + d) * uncovered a (G / (L + d)) <= (L' + d) * uncovered a' (G' / (L' + d))) by (apply Rmult_le_compat; lra). lra.
Qed.
(** Cooling: the roles of losses and gains are exchanged. *)
Lemma cool_needed a K G q : 0 < a -> 0 < K -> 0 < G -> nsub (Fin G) (nmul (etaCooling (Fin a) (Fin (sdiv K (G + Rdblmin)))) (Fin K)) = Fin q ->
  q = needed a G K /\ K / (G + Rdblmin) <> 1.
Proof.
  intros A HK HG H. pose proof Rdblmin_pos as P. assert (N1 : K <> G + Rdblmin) by (intros ->; rewrite (proj2 (need_at_one a G HG)) in H; discriminate H).
  assert (N2 : K / (G + Rdblmin) <> 1). { intros C. apply N1. rewrite <- (Rmult_1_l (G + Rdblmin)), <- C. field. lra. }
  split; [|exact N2]. unfold needed. destruct (Req_EM_T K 0) as [Z|Z]; [lra|].
  rewrite (proj2 (need_at_pos a G K A HG HK N1)) in H. injection H as <-. now apply needed_eq.
Qed.

(** *** The building and its variation *)
Section Pair.
Variables (p : params_t R) (x y : R) (us : list R) (c : R).
Let q : params_t R := varied p x y us c.
Variables (w : mweather R) (m m' : mresult xr) (i : nat) (z : Z).
Hypothesis (SP : sound p) (SQ : sound q) (BM : ntrunc (bu_bem (pa_building p)) = Some z) (I : (i < 12)%nat).
Hypothesis (M : monthlyAll (map_params Fin p) (fin_weather w) = Ok m) (M' : monthlyAll (map_params Fin q) (fin_weather w) = Ok m').

Lemma heat_temp (p0 : params_t R) m0 t : sound p0 -> ntrunc (bu_bem (pa_building p0)) = Some z -> monthlyAll (map_params Fin p0) (fin_weather w) = Ok m0 -> no_heat_setback p0 z ->
  nth_error (te_h (mr_temps m0)) i = Some (Fin t) -> t = ht_tempOcc (pa_heating p0) - bem_relief z.
Proof.
  intros S B R NS T. destruct (C32_heating_l p0 w m0 z S B R (Fin t) (nth_error_In _ _ T)) as (t' & E & U & V & W). injection E as <-.
  destruct NS as [N|[N1 N2]]; [exact (W N)|]. specialize (V N1). rewrite Rmin_left in V by exact N2. apply Rle_antisym; assumption.
Qed.
Lemma cool_temp (p0 : params_t R) m0 t : sound p0 -> ntrunc (bu_bem (pa_building p0)) = Some z -> monthlyAll (map_params Fin p0) (fin_weather w) = Ok m0 -> no_cool_setback p0 z ->
  nth_error (te_c (mr_temps m0)) i = Some (Fin t) -> t = cl_tempOcc (pa_cooling p0) + bem_relief z.
Proof.
  intros S B R NS T. destruct (C32_cooling_l p0 w m0 z S B R (Fin t) (nth_error_In _ _ T)) as (t' & E & U & V & W). injection E as <-.
  destruct NS as [N|[N1 N2]]; [exact (W N)|]. specialize (V N1). rewrite Rmin_left in V by exact N2. apply Rle_antisym; assumption.
Qed.

(** What a run says about the data of a month. *)
Lemma data_run (p0 : params_t R) m0 t tc te hve hvc sol phi : sound p0 -> monthlyAll (map_params Fin p0) (fin_weather w) = Ok m0 -> month_data p0 w m0 i t tc te hve hvc sol phi ->
  exists r v, run p0 w r /\ nth_error (mw_mwind w) i = Some v /\ hve = ventilationCoefficient p0 (oc_wk_day (scheduleAndOccupancy (pa_population p0))) te v t /\
    hvc = ventilationCoefficient p0 (oc_wk_day (scheduleAndOccupancy (pa_population p0))) te v tc /\ nth_error (mr_Esol r) i = Some sol /\
    phi = internalHeatGain (pa_structure p0) (mr_gains r).
Proof.
  intros S R D. apply monthlyAll_run in R. destruct (run_fin _ _ _ S R) as (r & E & F). destruct (rn_tab _ _ _ E) as (_ & _ & _ & _ & T2 & T3).
  destruct (nth_some _ i _ T3 I) as [v V]. exists r, v. split; [exact E|]. split; [exact V|].
  assert (AIR : forall tt hs t h, hs = ventilationCalc p0 w (oc_wk_day (mr_occ r)) tt -> nth_error (map Fin hs) i = Some (Fin h) -> nth_error (map Fin tt) i = Some (Fin t) -> h = ventilationCoefficient p0 (oc_wk_day (scheduleAndOccupancy (pa_population p0))) te v t).
  { intros tt hs t0 h -> Q1 Q2. destruct (nth_map_fin _ _ _ Q1) as (y1 & Y1 & Z1). injection Z1 as <-. destruct (nth_map_fin _ _ _ Q2) as (y2 & Y2 & Z2). injection Z2 as <-.
    unfold ventilationCalc in Y1. rewrite (nth_zipw _ _ _ _ _ _ (nth_zipw _ _ _ _ _ _ (md_te _ _ _ _ _ _ _ _ _ _ _ D) V) Y2) in Y1. injection Y1 as <-. rewrite (rn_oc _ _ _ E). reflexivity. }
  split; [|split; [|split]].
  - apply (AIR (te_h (mr_temps r)) (mr_Hve_ht r)); [exact (rn_Hve_ht _ _ _ E)| |].
    + rewrite <- (fr_Hve_ht _ _ F). apply (md_hve _ _ _ _ _ _ _ _ _ _ _ D).
    + pose proof (md_t _ _ _ _ _ _ _ _ _ _ _ D) as Q. rewrite (fr_temps _ _ F) in Q. exact Q.
  - apply (AIR (te_c (mr_temps r)) (mr_Hve_cl r)); [exact (rn_Hve_cl _ _ _ E)| |].
    + rewrite <- (fr_Hve_cl _ _ F). apply (md_hvc _ _ _ _ _ _ _ _ _ _ _ D).
    + pose proof (md_tc _ _ _ _ _ _ _ _ _ _ _ D) as Q. rewrite (fr_temps _ _ F) in Q. exact Q.
  - pose proof (md_sol _ _ _ _ _ _ _ _ _ _ _ D) as Q. rewrite (fr_sol _ _ F) in Q. destruct (nth_map_fin _ _ _ Q) as (y1 & Y1 & Z1). injection Z1 as <-. exact Y1.
  - pose proof (md_phi _ _ _ _ _ _ _ _ _ _ _ D) as Q. rewrite (fr_gains _ _ F) in Q. change (pa_structure (map_params Fin p0)) with (map_structure Fin (pa_structure p0)) in Q. rewrite internal_fin in Q. injection Q as <-. reflexivity.
Qed.

(** Same air and sun; gains by appliances. *)
Lemma wk_share : 0 <= oc_wk_day (scheduleAndOccupancy (pa_population p)) <= 1.
Proof.
  pose proof (sound_occ p SP) as (_ & _ & O & _). cbv zeta in O. rewrite O. pose proof (so_hours p SP). pose proof (so_days p SP). nra.
Qed.
Lemma pair_data t tc te hve hvc sol phi t' tc' te' hve' hvc' sol' phi' : month_data p w m i t tc te hve hvc sol phi -> month_data q w m' i t' tc' te' hve' hvc' sol' phi' ->
  x <= bu_elecApplianceOcc (pa_building p) -> y <= bu_elecApplianceUnocc (pa_building p) ->
  te' = te /\ sol' = sol /\ phi' <= phi /\ (t' = t -> hve' = hve) /\ (tc' = tc -> hvc' = hvc).
Proof.
  intros D D' X Y. assert (TE : te' = te) by (pose proof (md_te _ _ _ _ _ _ _ _ _ _ _ D) as A; rewrite (md_te _ _ _ _ _ _ _ _ _ _ _ D') in A; injection A as ->; reflexivity). subst te'.
  destruct (data_run p m _ _ _ _ _ _ _ SP M D) as (r & v & E & V & H1 & H2 & S1 & P1). destruct (data_run q m' _ _ _ _ _ _ _ SQ M' D') as (r' & v' & E' & V' & H1' & H2' & S1' & P1').
  rewrite V in V'. injection V' as <-. split; [reflexivity|].
  assert (OC : mr_occ r' = mr_occ r) by (rewrite (rn_oc _ _ _ E), (rn_oc _ _ _ E'); reflexivity).
  assert (BD : mr_bd r' = mr_bd r). { pose proof (rn_bd _ _ _ E') as B. rewrite OC, (rn_bd _ _ _ E) in B. now apply ok_inj in B. }
  assert (LU : mr_lu r' = mr_lu r) by (rewrite (rn_lu _ _ _ E), (rn_lu _ _ _ E'), BD; reflexivity).
  assert (SOL : mr_Esol r' = mr_Esol r).
  { destruct (rn_sol _ _ _ E) as (ws & W & ->). destruct (rn_sol _ _ _ E') as (ws' & W' & ->). change (windowSolarArea (pa_structure q)) with (windowSolarArea (pa_structure p)) in W'. rewrite W in W'. apply ok_inj in W'. subst ws'. reflexivity. }
  split. { rewrite SOL, S1 in S1'. injection S1' as <-. reflexivity. }
  split.
  { rewrite P1, P1', (rn_gains _ _ _ E), (rn_gains _ _ _ E'), OC, LU. rewrite (rn_oc _ _ _ E). pose proof wk_share as [K1 K2]. set (k := oc_wk_day _) in *. unfold internalHeatGain, heatGainsAndLosses. cbn [ga_int ga_plug ga_illum].
    cbn [q varied pa_structure pa_building pa_population st_floorArea bu_elecApplianceOcc bu_elecApplianceUnocc bu_gasApplianceOcc bu_gasApplianceUnocc]. ops. rewrite !zn_R.
    pose proof (so_area p SP) as AP. set (A := st_floorArea (pa_structure p)) in *.
    assert (((x + bu_gasApplianceOcc (pa_building p)) * k + (y + bu_gasApplianceUnocc (pa_building p)) * (1 - k)) * A <=
      ((bu_elecApplianceOcc (pa_building p) + bu_gasApplianceOcc (pa_building p)) * k + (bu_elecApplianceUnocc (pa_building p) + bu_gasApplianceUnocc (pa_building p)) * (1 - k)) * A).
    { apply Rmult_le_compat_r; [lra|]. apply Rplus_le_compat; apply Rmult_le_compat_r; lra. }
    lra. }
  split; [intros ->; rewrite H1, H1'; reflexivity|intros ->; rewrite H2, H2'; reflexivity].
Qed.
Lemma dot_mono a u v : all_nonneg a -> Forall2 Rle u v -> dot a u <= dot a v.
Proof.
  intros A F. revert a A. induction F as [|b c' u v B F IH]; intros a A; [destruct a; apply Rle_refl|]. destruct a as [|a0 a]; [apply Rle_refl|].
  assert (A0 : 0 <= a0) by (apply A; now left). specialize (IH a ltac:(intros k K; apply A; now right)). unfold dot, Rsum in *. cbn [combine map fold_right fst snd]. assert (a0 * b <= a0 * c') by (apply Rmult_le_compat_l; assumption). lra.
Qed.
Lemma UA_mono : all_nonneg (st_windowArea (pa_structure p)) -> Forall2 Rle (st_windowU (pa_structure p)) us -> envelope_UA (pa_structure p) <= envelope_UA (pa_structure q).
Proof. intros A F. pose proof (dot_mono _ _ _ A F). unfold envelope_UA. cbn [q varied pa_structure st_wallArea st_wallU st_windowArea st_windowU]. lra. Qed.
Lemma cap_mono : c <= st_interiorHeatCapacity (pa_structure p) -> heat_capacity (pa_structure q) <= heat_capacity (pa_structure p).
Proof. intros C. pose proof (so_area p SP). unfold heat_capacity. cbn [q varied pa_structure st_interiorHeatCapacity st_floorArea st_wallHeatCapacity st_wallArea]. assert (c * st_floorArea (pa_structure p) <= st_interiorHeatCapacity (pa_structure p) * st_floorArea (pa_structure p)) by (apply Rmult_le_compat_r; lra). lra. Qed.
End Pair.

Lemma exponent_mono (p : params_t R) x y us c : sound p -> sound (varied p x y us c) -> 0 < ht_tau_H0 (pa_heating p) -> all_nonneg (st_windowArea (pa_structure p)) ->
  Forall2 Rle (st_windowU (pa_structure p)) us -> c <= st_interiorHeatCapacity (pa_structure p) -> utilisation_exponent (varied p x y us c) <= utilisation_exponent p.
Proof.
  intros SP SQ T A F C. pose proof (UA_mono p x y us c A F) as U. pose proof (cap_mono p x y us c SP C) as K. pose proof (so_loss p SP) as L. pose proof (so_cap _ SQ) as P.
  unfold utilisation_exponent. change (pa_heating (varied p x y us c)) with (pa_heating p). change (pa_ventilation (varied p x y us c)) with (pa_ventilation p).
  apply Rplus_le_compat_l. unfold Rdiv. apply Rmult_le_compat_r; [apply Rlt_le, Rinv_0_lt_compat; exact T|]. apply Rmult_le_compat_r; [lra|].
  apply Rmult_le_compat; [lra|apply Rlt_le, Rinv_0_lt_compat; lra|exact K|apply Rinv_le_contravar; lra].
Qed.

Lemma C91_heating_l (p : params_t R) x y us c w m m' i z a b : let q := varied p x y us c in
  sound p -> sound q -> ntrunc (bu_bem (pa_building p)) = Some z -> no_heat_setback p z -> leaner p x y us c -> all_nonneg (st_windowArea (pa_structure p)) ->
  0 < ht_tau_H0 (pa_heating p) -> 0 < utilisation_exponent q ->
  monthlyAll (map_params Fin p) (fin_weather w) = Ok m -> monthlyAll (map_params Fin q) (fin_weather w) = Ok m' -> (i < 12)%nat ->
  (forall te, nth_error (mw_mdbt w) i = Some te -> te < ht_tempOcc (pa_heating p) - bem_relief z) ->
  (forall t tc te hve hvc sol phi, month_data p w m i t tc te hve hvc sol phi -> 0 < month_loss (envelope_UA (pa_structure p)) (st_floorArea (pa_structure p)) hve t te i) ->
  (forall t tc te hve hvc sol phi, month_data q w m' i t tc te hve hvc sol phi -> 0 <= month_gain phi sol i) ->
  nth_error (ne_ht (mr_needs m)) i = Some (Fin a) -> nth_error (ne_ht (mr_needs m')) i = Some (Fin b) -> a <= b.
Proof.
  intros q SP SQ BM NS [X Y F C] WA T0 EP M M' I COLD LOSS GAIN NA NB.
  destruct (month_balance p w m i SP M I) as (t & tc & te & hve & hvc & sol & phi & D & N & _). cbv zeta in N.
  destruct (month_balance q w m' i SQ M' I) as (t' & tc' & te' & hve' & hvc' & sol' & phi' & D' & N' & _). cbv zeta in N'.
  destruct (pair_data p x y us c w m m' i SP SQ I M M' _ _ _ _ _ _ _ _ _ _ _ _ _ _ D D' X Y) as (-> & -> & PH & HV & _).
  pose proof (heat_temp w i z p m t SP BM M NS (md_t _ _ _ _ _ _ _ _ _ _ _ D)) as T1.
  pose proof (heat_temp w i z q m' t' SQ BM M' NS (md_t _ _ _ _ _ _ _ _ _ _ _ D')) as T2. change (ht_tempOcc (pa_heating q)) with (ht_tempOcc (pa_heating p)) in T2.
  assert (TT : t' = t) by (rewrite T1, T2; reflexivity). rewrite (HV TT), TT in N'. clear HV.
  pose proof (COLD te (md_te _ _ _ _ _ _ _ _ _ _ _ D)) as CO. rewrite <- T1 in CO.
  pose proof (LOSS _ _ _ _ _ _ _ D) as LP. pose proof (GAIN _ _ _ _ _ _ _ D') as GP. pose proof (mega_pos i I) as MS. pose proof (UA_mono p x y us c WA F) as U.
  set (L := month_loss (envelope_UA (pa_structure p)) _ _ _ _ _) in *. set (L' := month_loss (envelope_UA (pa_structure q)) _ _ _ _ _) in *.
  assert (LL : L <= L').
  { unfold L, L', month_loss. apply Rmult_le_compat_r; [lra|]. apply Rmult_le_compat_l; [lra|]. change (st_floorArea (pa_structure q)) with (st_floorArea (pa_structure p)). fold q in U. lra. }
  assert (GG : month_gain phi' sol i <= month_gain phi sol i) by (unfold month_gain; assert (phi' * month_megaseconds i <= phi * month_megaseconds i) by (apply Rmult_le_compat_r; lra); lra).
  pose proof (exponent_mono p x y us c SP SQ T0 WA F C) as AA. fold q in AA.
  rewrite NA in N. injection N as N. rewrite NB in N'. injection N' as N'.
  destruct (heat_needed (utilisation_exponent p) L (month_gain phi sol i) a ltac:(lra) LP ltac:(lra) (eq_sym N)) as [-> N1].
  destruct (heat_needed (utilisation_exponent q) L' (month_gain phi' sol i) b EP ltac:(lra) GP (eq_sym N')) as [-> N2].
  apply needed_mono; try assumption.
Qed.

(** Less appliances and more mass: less cooling. *)
Lemma C91_cooling_l (p : params_t R) x y c w m m' i z a b : let q := varied p x y (st_windowU (pa_structure p)) c in
  sound p -> sound q -> ntrunc (bu_bem (pa_building p)) = Some z -> no_cool_setback p z ->
  x <= bu_elecApplianceOcc (pa_building p) -> y <= bu_elecApplianceUnocc (pa_building p) -> st_interiorHeatCapacity (pa_structure p) <= c ->
  0 < ht_tau_H0 (pa_heating p) -> 0 < utilisation_exponent p ->
  monthlyAll (map_params Fin p) (fin_weather w) = Ok m -> monthlyAll (map_params Fin q) (fin_weather w) = Ok m' -> (i < 12)%nat ->
  (forall t tc te hve hvc sol phi, month_data q w m' i t tc te hve hvc sol phi -> 0 < month_gain phi sol i) ->
  nth_error (ne_cl (mr_needs m)) i = Some (Fin a) -> nth_error (ne_cl (mr_needs m')) i = Some (Fin b) -> b <= a.
Proof.
  intros q SP SQ BM NS X Y C T0 EP M M' I GAIN NA NB.
  destruct (month_balance p w m i SP M I) as (t & tc & te & hve & hvc & sol & phi & D & _ & N). cbv zeta in N.
  destruct (month_balance q w m' i SQ M' I) as (t' & tc' & te' & hve' & hvc' & sol' & phi' & D' & _ & N'). cbv zeta in N'.
  destruct (pair_data p x y _ c w m m' i SP SQ I M M' _ _ _ _ _ _ _ _ _ _ _ _ _ _ D D' X Y) as (-> & -> & PH & _ & HV).
  pose proof (cool_temp w i z p m tc SP BM M NS (md_tc _ _ _ _ _ _ _ _ _ _ _ D)) as T1.
  pose proof (cool_temp w i z q m' tc' SQ BM M' NS (md_tc _ _ _ _ _ _ _ _ _ _ _ D')) as T2. change (cl_tempOcc (pa_cooling q)) with (cl_tempOcc (pa_cooling p)) in T2.
  assert (TT : tc' = tc) by (rewrite T1, T2; reflexivity). rewrite (HV TT), TT in N'. clear HV.
  pose proof (GAIN _ _ _ _ _ _ _ D') as GP. pose proof (mega_pos i I) as MS.
  change (envelope_UA (pa_structure q)) with (envelope_UA (pa_structure p)) in N'. change (st_floorArea (pa_structure q)) with (st_floorArea (pa_structure p)) in N'.
  set (K := month_loss _ _ _ _ _ _) in *.
  assert (GG : month_gain phi' sol i <= month_gain phi sol i) by (unfold month_gain; assert (phi' * month_megaseconds i <= phi * month_megaseconds i) by (apply Rmult_le_compat_r; lra); lra).
  assert (AA : utilisation_exponent p <= utilisation_exponent q).
  { pose proof (so_area p SP) as AP. pose proof (so_loss p SP) as L. unfold utilisation_exponent. change (pa_heating q) with (pa_heating p). change (pa_ventilation q) with (pa_ventilation p). change (envelope_UA (pa_structure q)) with (envelope_UA (pa_structure p)).
    apply Rplus_le_compat_l. unfold Rdiv. apply Rmult_le_compat_r; [apply Rlt_le, Rinv_0_lt_compat; exact T0|]. apply Rmult_le_compat_r; [lra|]. apply Rmult_le_compat_r; [apply Rlt_le, Rinv_0_lt_compat; lra|].
    unfold heat_capacity. cbn [q varied pa_structure st_interiorHeatCapacity st_floorArea st_wallHeatCapacity st_wallArea].
    assert (st_interiorHeatCapacity (pa_structure p) * st_floorArea (pa_structure p) <= c * st_floorArea (pa_structure p)) by (apply Rmult_le_compat_r; lra). lra. }
  rewrite NA in N. injection N as N. rewrite NB in N'. injection N' as N'.
  destruct (Rle_lt_dec K 0) as [KN|KP].
  - assert (E1 : Fin a = Fin (month_gain phi sol i - K)) by (rewrite <- (need_cl_in (utilisation_exponent p) K (month_gain phi sol i) KN ltac:(lra)); exact N).
    assert (E2 : Fin b = Fin (month_gain phi' sol i - K)) by (rewrite <- (need_cl_in (utilisation_exponent q) K (month_gain phi' sol i) KN GP); exact N').
    injection E1 as ->. injection E2 as ->. lra.
  - destruct (cool_needed (utilisation_exponent p) K (month_gain phi sol i) a EP KP ltac:(lra) (eq_sym N)) as [-> N1].
    destruct (cool_needed (utilisation_exponent q) K (month_gain phi' sol i) b ltac:(lra) KP GP (eq_sym N')) as [-> N2].
    apply needed_mono; try assumption; lra.
Qed.
