(** The divisors of the fan energy are positive for supply air warmer than the heated and colder
    than the cooled room. *)
From Coq Require Import Reals Lra Psatz List ZArith Bool Lia.
From Verif Require Import Base Num Xr M_Params M_Hourly M_Monthly M_Map L_Xr S_Calendar S_Schedule S_Results S_Physical S_Monthly S_MonthlySound S_MonthlyHeat S_MonthlyPlant S_MonthlyBalance S_MonthlyTemp S_MonthlyFan.
From Verif Require Import L_Monthly L_Monthly3 L_MonthlyTemp L_MonthlyNeed L_MonthlyFin2 L_MonthlyPlant L_MonthlyBalance L_MonthlyCase L_MonthlyHouse L_MonthlyHouse2 L_MonthlyNight E_Monthly E_House.
Import ListNotations.
Open Scope R_scope.

Lemma relief_pos : forall z, 0 <= bem_relief z.
Proof. intros z. unfold bem_relief. repeat match goal with |- context [if ?c then _ else _] => destruct c | |- context [match ?c with _ => _ end] => destruct c end; lra. Qed.
Lemma bem_known : forall (p : params_t R) w m, monthlyAll (map_params Fin p) (fin_weather w) = Ok m -> exists z, ntrunc (bu_bem (pa_building p)) = Some z.
Proof.
  intros p w m M. destruct (proj1 (monthlyAll_iff _ _) (ex_intro _ m M)) as (_ & _ & _ & _ & z & Z). exists z. exact Z.
Qed.
Lemma C66_supply_l : forall (p : params_t R) w m rows i qh qc, sound p -> supply_air p -> monthlyAll (map_params Fin p) (fin_weather w) = Ok m -> simulateMonthly (map_params Fin p) (fin_weather w) = Ok rows -> (i < 12)%nat ->
  ne_ht (mr_needs m) = map Fin qh -> ne_cl (mr_needs m) = map Fin qc ->
  exists row h c t tc, nth_error rows i = Some row /\ nth_error qh i = Some h /\ nth_error qc i = Some c /\
    nth_error (te_h (mr_temps m)) i = Some (Fin t) /\ nth_error (te_c (mr_temps m)) i = Some (Fin tc) /\
    t < ht_tempOcc (pa_heating p) + ht_dT_supp (pa_heating p) /\ cl_tempOcc (pa_cooling p) - cl_dT_supp (pa_cooling p) < tc /\
    nth_error row elec_fans = Some (Fin (fan_kWh p (fan_air p t tc h c i Rdblmin))).
Proof.
  intros p w m rows i qh qc SO SU M SM I H C. destruct (bem_known p w m M) as [z Z]. pose proof (relief_pos z) as RZ. destruct SU as [S1 S2 S3 S4 S5].
  destruct (simulate_columns _ _ _ _ M SM) as (RU & _ & _). destruct (run_lengths _ _ _ RU) as (L1 & L2 & _).
  destruct (nth_some _ i _ L1 I) as [x X]. destruct (nth_some _ i _ L2 I) as [y Y].
  destruct (C32_heating_l p w m z SO Z M x (nth_error_In _ _ X)) as (t & -> & T & _ & _).
  destruct (C32_cooling_l p w m z SO Z M y (nth_error_In _ _ Y)) as (tc & -> & _ & TC & _). specialize (TC S5). pose proof Rdblmin_pos as TP.
  assert (T1 : t < ht_tempOcc (pa_heating p) + ht_dT_supp (pa_heating p)) by lra.
  assert (T2 : cl_tempOcc (pa_cooling p) - cl_dT_supp (pa_cooling p) < tc).
  { eapply Rlt_le_trans; [|exact TC]. apply Rmin_glb_lt; lra. }
  assert (D1 : ph_rhoCpAir (pa_phys p) * (ht_tempOcc (pa_heating p) + ht_dT_supp (pa_heating p) - t) + Rdblmin <> 0).
  { assert (0 < ph_rhoCpAir (pa_phys p) * (ht_tempOcc (pa_heating p) + ht_dT_supp (pa_heating p) - t)) by (apply Rmult_lt_0_compat; lra). lra. }
  assert (D2 : ph_rhoCpAir (pa_phys p) * (tc - (cl_tempOcc (pa_cooling p) - cl_dT_supp (pa_cooling p))) + Rdblmin <> 0).
  { assert (0 < ph_rhoCpAir (pa_phys p) * (tc - (cl_tempOcc (pa_cooling p) - cl_dT_supp (pa_cooling p)))) by (apply Rmult_lt_0_compat; lra). lra. }
  destruct (C66_l p w m rows i t tc qh qc SO M SM I X Y H C D1 D2) as (row & h & c & R1 & R2 & R3 & R4).
  exists row, h, c, t, tc. repeat split; assumption.
Qed.

Lemma house_supply : forall x e ec dc, supply_air (house x e ec dc).
Proof. intros x e ec dc. constructor; cbn; unfold Rlit; try lra. unfold week_days. cbn. unfold Rlit. repeat match goal with |- context [if ?c then _ else _] => destruct c end; lra. Qed.

(** A need that is not a number. *)
Lemma nan_mul : forall x, nmul NaN x = (NaN : xr). Proof. reflexivity. Qed.
Lemma nan_sdiv : forall r, r <> 0 -> sdiv NaN (Fin r) = (NaN : xr).
Proof. intros r H. unfold sdiv. destruct (neqb (Fin r) (zn 0)) eqn:E; [|reflexivity]. exfalso. apply H. cbn in E. unfold Reqb in E. destruct (Req_EM_T r (Rlit 0 1)) as [-> |]; [unfold Rlit; lra|discriminate]. Qed.
Lemma fan_nan : forall (p : params_t R) wk Th Tc qh qc i t tc c, 0 < st_floorArea (pa_structure p) -> (i < 12)%nat ->
  ph_rhoCpAir (pa_phys p) * (ht_tempOcc (pa_heating p) + ht_dT_supp (pa_heating p) - t) + Rdblmin <> 0 ->
  nth_error Th i = Some (Fin t) -> nth_error Tc i = Some (Fin tc) -> nth_error qh i = Some NaN -> nth_error qc i = Some c ->
  nth_error (fanEnergyMonthly (map_params Fin p) wk Th Tc qh qc) i = Some NaN.
Proof.
  intros p wk Th Tc qh qc i t tc c A I D T TC H C. unfold fanEnergyMonthly. cbv zeta. unfold divs, scale. rewrite !nth_error_map.
  destruct (nth_some (@megasecondsInMonth xr xr_num) i 12 eq_refl I) as [ms MS].
  unfold vmax. rewrite (nth_zipw nmax _ _ i NaN (sdiv (ms * (ve_supplyRate (pa_ventilation (map_params Fin p)) * wk * zn 1000000)) (zn 1000))%num).
  - cbn [option_map]. rewrite nan_mul. cbn [map_params pa_structure]. change (st_floorArea _) with (Fin (st_floorArea (pa_structure p))).
    rewrite nan_sdiv by lra. cbn [lit xr_num]. rewrite nan_sdiv by (unfold Rlit; lra). reflexivity.
  - unfold vadd. assert (exists u, nth_error (vdiv qc (shift (map (fun x => x * ph_rhoCpAir (pa_phys (map_params Fin p))) (map (fun x => x - (cl_tempOcc (pa_cooling (map_params Fin p)) - cl_dT_supp (pa_cooling (map_params Fin p)))) Tc)) ndblmin))%num i = Some u) as [u U].
    { eexists. unfold vdiv. erewrite nth_zipw; [reflexivity|exact C|unfold shift; rewrite !nth_error_map, TC; reflexivity]. }
    rewrite (nth_zipw nadd _ _ i NaN u); [reflexivity| |exact U].
    unfold vdiv. erewrite nth_zipw; [|exact H|unfold shift; rewrite !nth_error_map, T; reflexivity].
    f_equal. replace (_ + _)%num with (Fin (ph_rhoCpAir (pa_phys p) * (ht_tempOcc (pa_heating p) + ht_dT_supp (pa_heating p) - t) + Rdblmin)); [apply nan_sdiv; exact D|].
    symmetry. cbn [map_params pa_phys pa_heating]. cbn. f_equal. ring.
  - rewrite !nth_error_map, MS. reflexivity.
Qed.

Lemma C66_nan_l : forall (p : params_t R) w m rows i, sound p -> supply_air p -> monthlyAll (map_params Fin p) (fin_weather w) = Ok m -> simulateMonthly (map_params Fin p) (fin_weather w) = Ok rows -> (i < 12)%nat ->
  nth_error (ne_ht (mr_needs m)) i = Some NaN -> exists row, nth_error rows i = Some row /\ nth_error row elec_fans = Some NaN.
Proof.
  intros p w m rows i SO SU M SM I H. destruct (bem_known p w m M) as [z Z]. pose proof (relief_pos z) as RZ. destruct SU as [S1 S2 S3 S4 S5].
  destruct (simulate_columns _ _ _ _ M SM) as (RU & _ & SR). destruct (run_lengths _ _ _ RU) as (L1 & L2 & L3 & L4 & _).
  destruct (nth_some _ i _ L1 I) as [x X]. destruct (nth_some _ i _ L2 I) as [y Y]. destruct (nth_some _ i _ L4 I) as [c C].
  destruct (C32_heating_l p w m z SO Z M x (nth_error_In _ _ X)) as (t & -> & T & _ & _).
  destruct (C32_cooling_l p w m z SO Z M y (nth_error_In _ _ Y)) as (tc & -> & _ & _ & _). pose proof Rdblmin_pos as TP.
  assert (D1 : ph_rhoCpAir (pa_phys p) * (ht_tempOcc (pa_heating p) + ht_dT_supp (pa_heating p) - t) + Rdblmin <> 0).
  { assert (0 < ph_rhoCpAir (pa_phys p) * (ht_tempOcc (pa_heating p) + ht_dT_supp (pa_heating p) - t)) by (apply Rmult_lt_0_compat; lra). lra. }
  specialize (SR elec_fans _ eq_refl).
  assert (E : ne_fan (mr_needs m) = fanEnergyMonthly (map_params Fin p) (oc_wk_day (mr_occ m)) (te_h (mr_temps m)) (te_c (mr_temps m)) (ne_ht (mr_needs m)) (ne_cl (mr_needs m))) by (rewrite (rn_needs _ _ _ RU); reflexivity).
  rewrite E in SR. pose proof (fan_nan p (oc_wk_day (mr_occ m)) _ _ _ _ i t tc c (so_area _ SO) I D1 X Y H C) as N.
  revert SR N. generalize (fanEnergyMonthly (map_params Fin p) (oc_wk_day (mr_occ m)) (te_h (mr_temps m)) (te_c (mr_temps m)) (ne_ht (mr_needs m)) (ne_cl (mr_needs m))). clear.
  intros v SR. revert i. induction SR as [|row a rows v A SR IH]; intros [|i] N; try discriminate N; cbn in N.
  - exists row. injection N as ->. split; [reflexivity|exact A].
  - exact (IH i N).
Qed.
Lemma C66_refuted_l : exists (p : params_t R) w m rows row, sound p /\ supply_air p /\ monthlyAll (map_params Fin p) (fin_weather w) = Ok m /\ simulateMonthly (map_params Fin p) (fin_weather w) = Ok rows /\
  nth_error (ne_ht (mr_needs m)) 0 = Some NaN /\ nth_error rows 0 = Some row /\ nth_error row elec_fans = Some NaN.
Proof.
  set (ms := month_megaseconds 0). pose proof (ms_bounds 0 ltac:(lia)) as B. fold ms in B. set (x := (hLoss 10 24 * ms + Rdblmin) / (100 * ms)).
  destruct (house_run x 0 0 0 10) as (m & rows & M & SM).
  assert (N : nth_error (ne_ht (mr_needs m)) 0 = Some NaN).
  { destruct (house_months x 0 0 0 10 m 0) as (_ & N & _); try (apply Rabs_le; lra); [exact M|lia|]. cbv zeta in N. fold ms in N.
    assert (E : hGain x 0 * ms = hLoss 10 24 * ms + Rdblmin) by (unfold hGain, x; field; lra). rewrite E in N. rewrite N. f_equal. apply need_at_one.
    unfold hLoss. pose proof (house_air_bound x 0 0 0 10 24 ltac:(apply Rabs_le; lra)). apply Rmult_lt_0_compat; lra. }
  destruct (C66_nan_l _ _ m rows 0 (house_sound x 0 0 0) (house_supply x 0 0 0) M SM ltac:(lia) N) as (row & R1 & R2).
  exists (house x 0 0 0), (steadyYear 10), m, rows, row. split; [apply house_sound|]. split; [apply house_supply|]. split; [exact M|]. split; [exact SM|]. split; [exact N|]. split; [exact R1|exact R2].
Qed.
Lemma supply_case : let p := house 10 0 1 0 in sound p /\ supply_air p /\ exists m rows qh qc, monthlyAll (map_params Fin p) (fin_weather (steadyYear 30)) = Ok m /\ simulateMonthly (map_params Fin p) (fin_weather (steadyYear 30)) = Ok rows /\
  ne_ht (mr_needs m) = map Fin qh /\ ne_cl (mr_needs m) = map Fin qc.
Proof. cbv zeta. destruct fan_case as (S & m & rows & qh & qc & t & tc & M & SM & H & C & _). split; [exact S|]. split; [apply house_supply|]. exists m, rows, qh, qc. split; [exact M|]. split; [exact SM|]. split; [exact H|exact C]. Qed.
