(** C35, C60: every cell of the table. *)
From Coq Require Import Reals Lra Psatz ZArith List Bool Lia.
From Verif Require Import Base Num Xr M_Params M_Monthly M_Map L_Xr L_HourlyShape L_HourlyFin2 L_Office S_Calendar S_Schedule S_Results S_Monthly S_Physical S_MonthlySound S_MonthlyHeat S_MonthlyPlant
  L_Monthly L_Monthly2 L_Monthly3 L_Monthly4 L_Monthly5 L_MonthlyFin L_MonthlyFin2 L_MonthlyNaN L_MonthlyGain L_MonthlyNeed L_MonthlyPlant.
Import ListNotations.
Open Scope R_scope.

(** *** Fans *)
Lemma fan_fin p wk th tc qh qc : fanEnergyMonthly (map_params Fin p) (Fin wk) (map Fin th) (map Fin tc) (map Fin qh) (map Fin qc) = map Fin (fanEnergyMonthly p wk th tc qh qc).
Proof.
  unfold fanEnergyMonthly. cbn [map_params pa_heating pa_cooling pa_ventilation pa_phys pa_structure map_heating map_cooling map_ventilation map_phys map_structure
    ht_tempOcc ht_dT_supp cl_tempOcc cl_dT_supp ve_supplyRate ve_fanPower ve_fanControlFactor ph_rhoCpAir st_floorArea].
  rewrite dblmin_fin, !(zn_fin 1000), (zn_fin 1000000), lit_fin, add_fin, sub_fin, !mul_fin, (div_fin' _ (zn 1000)) by (rewrite zn_R; lra).
  rewrite (map_map_fin (fun x => nsub (Fin (nadd (ht_tempOcc (pa_heating p)) (ht_dT_supp (pa_heating p)))) x) (fun x => nsub (nadd (ht_tempOcc (pa_heating p)) (ht_dT_supp (pa_heating p))) x)) by (intros; reflexivity).
  rewrite (map_map_fin (fun x => nsub x (Fin (nsub (cl_tempOcc (pa_cooling p)) (cl_dT_supp (pa_cooling p))))) (fun x => nsub x (nsub (cl_tempOcc (pa_cooling p)) (cl_dT_supp (pa_cooling p))))) by (intros; reflexivity).
  rewrite mega_fin, !scale_fin, !shift_fin, !vdiv_fin, !divs_fin, !vadd_fin, vmax_fin, scale_fin, !divs_fin. reflexivity.
Qed.
Lemma zip_max_ge (a b : list R) x : In x (vmax a b) -> exists y, In y b /\ y <= x.
Proof.
  revert b. unfold vmax. induction a as [|u a IH]; intros [|v b] I; try destruct I.
  - subst x. exists v. split; [now left|]. rewrite nmax_R. apply Rmax_r.
  - destruct (IH b H) as (y & J & L). exists y. split; [now right|exact L].
Qed.
Lemma fan_nonneg p wk th tc qh qc : 0 < st_floorArea (pa_structure p) -> 0 <= ve_fanPower (pa_ventilation p) * ve_fanControlFactor (pa_ventilation p) -> 0 <= ve_supplyRate (pa_ventilation p) -> 0 <= wk ->
  forall x, In x (fanEnergyMonthly p wk th tc qh qc) -> 0 <= x.
Proof.
  intros A P S W x I. unfold fanEnergyMonthly in I. rewrite !divs_R in I by (rewrite ?zn_R; (exact lit36 || lra)). rewrite !scale_R, !map_map in I. apply in_map_iff in I. destruct I as (v & <- & I).
  apply zip_max_ge in I. destruct I as (y & I & L). apply in_map_iff in I. destruct I as (u & <- & I).
  assert (U : 0 <= u). { clear -I. unfold megasecondsInMonth in I. apply in_map_iff in I. destruct I as (z & <- & I). ops. cbn [lit R_num]. unfold Rlit. cbn in I. 
    repeat (destruct I as [<-|I]; [rewrite ?zn_R; lra|]). destruct I. }
  ops. rewrite !zn_R in *. assert (0 <= v). { eapply Rle_trans; [|exact L]. ops. unfold Rdiv. apply Rmult_le_pos; [|lra]. apply Rmult_le_pos; [exact U|]. apply Rmult_le_pos; [|lra]. now apply Rmult_le_pos. }
  cbn [lit R_num]. unfold Rlit. unfold Rdiv. apply Rmult_le_pos; [|lra]. apply Rmult_le_pos; [|now apply Rlt_le, Rinv_0_lt_compat]. apply Rmult_le_pos; [assumption|]. apply Rmult_le_pos; [exact P|lra].
Qed.

(** *** Thirteen columns *)
Section Columns.
Context (p : params_t R) (w : mweather R) (m : mresult xr) (rows : list (list xr)) (qh qc : list R).
Context (SO : sound p) (OK : plant_ok p) (M : monthlyAll (map_params Fin p) (fin_weather w) = Ok m) (SM : simulateMonthly (map_params Fin p) (fin_weather w) = Ok rows)
  (H : ne_ht (mr_needs m) = map Fin qh) (C : ne_cl (mr_needs m) = map Fin qc).
Lemma wk_share : 0 <= oc_wk_day (scheduleAndOccupancy (pa_population p)) <= 1.
Proof.
  pose proof (so_hours p SO) as A. pose proof (so_days p SO) as B. unfold scheduleAndOccupancy, hoursInWeek. cbn [oc_wk_day]. rewrite day_length_eq, week_days_eq, zn_R. ops.
  set (h := day_length _) in *. set (d := week_days _) in *. clearbody h d. assert (0 <= h * d) by (apply Rmult_le_pos; lra). assert (h * d <= 24 * 7) by (apply Rmult_le_compat; lra). lra.
Qed.
Lemma fan_column : exists v, is_series elec_fans rows (map Fin v) /\
  (0 <= ve_fanPower (pa_ventilation p) * ve_fanControlFactor (pa_ventilation p) -> 0 <= ve_supplyRate (pa_ventilation p) -> forall x, In x v -> 0 <= x).
Proof.
  destruct (simulate_columns _ _ _ _ M SM) as (RU & _ & S). specialize (S elec_fans _ eq_refl). destruct (run_fin _ _ _ SO RU) as (r & E & F).
  assert (X : ne_fan (mr_needs m) = fanEnergyMonthly (map_params Fin p) (oc_wk_day (mr_occ m)) (te_h (mr_temps m)) (te_c (mr_temps m)) (ne_ht (mr_needs m)) (ne_cl (mr_needs m))) by (rewrite (rn_needs _ _ _ RU); reflexivity).
  rewrite H, C, (fr_temps _ _ F), (rn_oc _ _ _ RU) in X. cbn [map_params pa_population] in X. rewrite oc_fin in X. cbn [fin_oc oc_wk_day fin_temps te_h te_c] in X. rewrite fan_fin in X. rewrite X in S.
  eexists. split; [exact S|]. intros P Q. apply fan_nonneg; try assumption; [apply SO|apply wk_share].
Qed.
Lemma plug_column k a b : nth_error (columns (map_params Fin p) m) k = Some (plugLoad (Fin a) (Fin b) (oc_wk_day (mr_occ m))) -> exists v, is_series k rows (map Fin v) /\ (0 <= a -> 0 <= b -> forall x, In x v -> 0 <= x).
Proof.
  intros K. destruct (simulate_columns _ _ _ _ M SM) as (RU & _ & S). specialize (S k _ K). rewrite (rn_oc _ _ _ RU) in S. cbn [map_params pa_population] in S. rewrite oc_fin in S. cbn [fin_oc oc_wk_day] in S.
  rewrite plug_fin in S. eexists. split; [exact S|]. intros A B x I. unfold plugMonth in I. apply in_map_iff in I. destruct I as (h & <- & I). pose proof wk_share as W.
  assert (0 <= h). { clear -I. unfold hoursInMonth in I. apply in_map_iff in I. destruct I as (z & <- & I). rewrite ?zn_R. apply (IZR_le 0). cbn in I. lia. }
  unfold Rdiv. apply Rmult_le_pos; [|lra]. apply Rmult_le_pos; [assumption|]. assert (0 <= a * oc_wk_day (scheduleAndOccupancy (pa_population p))) by (apply Rmult_le_pos; lra).
  assert (0 <= b * (1 - oc_wk_day (scheduleAndOccupancy (pa_population p)))) by (apply Rmult_le_pos; lra). lra.
Qed.
Context (WA : water_ok p) (TOT : Rsum qh + Rsum qc <> 0).
Definition good (v : list R) : Prop := uses_nonneg p -> (forall q, In q qh -> 0 <= q) -> (forall q, In q qc -> 0 <= q) -> forall x, In x v -> 0 <= x.
Lemma kWh_nonneg x : 0 <= x -> 0 <= kWh_m2 p x.
Proof. intros X. unfold kWh_m2, Rdiv. apply Rmult_le_pos; [|apply Rlt_le, Rinv_0_lt_compat, kWh_pos]. apply Rmult_le_pos; [exact X|]. apply Rlt_le, Rinv_0_lt_compat, OK. Qed.
Lemma lossy_h_nonneg q : 0 <= q -> 0 <= with_heating_losses p qh qc q.
Proof.
  intros Q. unfold with_heating_losses. assert (0 <= ht_hotcoldWasteFactor (pa_heating p) / heating_share qh qc) by (apply Rmult_le_pos; [apply OK|apply Rlt_le, Rinv_0_lt_compat, share_pos]).
  pose proof (pl_loss p OK). apply Rplus_le_le_0_compat; [exact Q|]. apply Rmult_le_pos; lra.
Qed.
Lemma lossy_c_nonneg q : 0 <= q -> 0 <= with_cooling_losses p qh qc q.
Proof.
  intros Q. unfold with_cooling_losses. assert (0 <= ht_hotcoldWasteFactor (pa_heating p) / cooling_share qh qc) by (apply Rmult_le_pos; [apply OK|apply Rlt_le, Rinv_0_lt_compat, share_pos]).
  pose proof (pl_closs p OK). apply Rplus_le_le_0_compat; [exact Q|]. apply Rmult_le_pos; lra.
Qed.
Lemma zero_column k : is_series k rows (repeat (Fin 0) 12) -> exists v, is_series k rows (map Fin v) /\ good v.
Proof. intros S. exists (repeat 0 12). rewrite <- repeat_fin. split; [exact S|]. intros _ _ _ x I. apply repeat_spec in I. subst x. lra. Qed.
Lemma map_column k (f : R -> R) l : is_series k rows (map (fun q => Fin (f q)) l) -> (uses_nonneg p -> (forall q, In q qh -> 0 <= q) -> (forall q, In q qc -> 0 <= q) -> forall q, In q l -> 0 <= f q) ->
  exists v, is_series k rows (map Fin v) /\ good v.
Proof. intros S G. exists (map f l). rewrite map_map. split; [exact S|]. intros U A B x I. apply in_map_iff in I. destruct I as (q & <- & I). now apply G. Qed.
Lemma div_nonneg a b : 0 <= a -> 0 < b -> 0 <= a / b.
Proof. intros A B. apply Rmult_le_pos; [exact A|]. now apply Rlt_le, Rinv_0_lt_compat. Qed.
Lemma plant_columns k : k = elec_heating \/ k = gas_heating \/ k = elec_cooling \/ k = gas_cooling -> exists v, is_series k rows (map Fin v) /\ good v.
Proof.
  intros K. assert (T : Rsum qc + Rsum qh <> 0) by lra. destruct (C30_l p (fin_weather w) m rows qh qc OK M SM H C T) as (P1 & P2 & P3 & P4 & P5). cbv zeta in *. pose proof Rdblmin_pos as D.
  pose proof (pl_eff p OK). pose proof (pl_cop p OK). pose proof (pl_dh p OK). pose proof (pl_dc p OK). pose proof (pl_abs p OK).
  assert (HH : (exists v, is_series elec_heating rows (map Fin v) /\ good v) /\ (exists v, is_series gas_heating rows (map Fin v) /\ good v)).
  { destruct (Req_EM_T (ht_DH_YesNo (pa_heating p)) 1) as [X|X]; [destruct (P3 X) as [S1 S2]|destruct (Req_EM_T (ht_energyType (pa_heating p)) 1) as [Y|Y]; [destruct (P1 X Y) as [S1 S2]|destruct (P2 X Y) as [S1 S2]]].
    - split; [now apply zero_column|]. apply (map_column _ _ _ S2). intros U A _ q I. apply kWh_nonneg, div_nonneg; [|assumption]. apply Rmult_le_pos; [now apply lossy_h_nonneg, A|]. pose proof (un_dh p U). lra.
    - split; [|now apply zero_column]. apply (map_column _ _ _ S1). intros U A _ q I. apply kWh_nonneg, div_nonneg; [now apply lossy_h_nonneg, A|lra].
    - split; [now apply zero_column|]. apply (map_column _ _ _ S2). intros U A _ q I. apply kWh_nonneg, div_nonneg; [now apply lossy_h_nonneg, A|lra]. }
  assert (CC : (exists v, is_series elec_cooling rows (map Fin v) /\ good v) /\ (exists v, is_series gas_cooling rows (map Fin v) /\ good v)).
  { destruct (Req_EM_T (cl_DC_YesNo (pa_cooling p)) 1) as [X|X]; [destruct (P5 X) as [S1 S2]|destruct (P4 X) as [S1 S2]].
    - split; [apply (map_column _ _ _ S1)|apply (map_column _ _ _ S2)]; intros U _ A q I; (apply kWh_nonneg, div_nonneg; [|assumption]); (apply Rmult_le_pos; [now apply lossy_c_nonneg, A|]); [pose proof (un_abs p U)|pose proof (un_dc p U)]; lra.
    - split; [|now apply zero_column]. apply (map_column _ _ _ S1). intros U _ A q I. apply kWh_nonneg, div_nonneg; [now apply lossy_c_nonneg, A|lra]. }
  destruct K as [-> | [-> | [-> | ->]]]; tauto.
Qed.
Lemma in_vadd (a b : list R) x : In x (vadd a b) -> exists y z, In y a /\ In z b /\ x = y + z.
Proof.
  revert b. unfold vadd. induction a as [|u a IH]; intros [|v b] I; try destruct I.
  - subst x. exists u, v. split; [now left|]. split; [now left|]. reflexivity.
  - destruct (IH b H0) as (y & z & Y & Z & ->). exists y, z. split; [now right|]. split; [now right|]. reflexivity.
Qed.
Lemma Rsum_nonneg l : (forall x, In x l -> 0 <= x) -> 0 <= Rsum l.
Proof. induction l as [|a l IH]; intros A; [cbn; lra|]. change (0 <= a + Rsum l). apply Rplus_le_le_0_compat; [apply A; now left|]. apply IH. intros x I. apply A. now right. Qed.
Lemma Rsum_zero l : (forall x, In x l -> 0 <= x) -> Rsum l = 0 -> forall x, In x l -> x = 0.
Proof.
  induction l as [|a l IH]; intros A S x I; [destruct I|]. change (a + Rsum l = 0) in S. assert (0 <= a) by (apply A; now left). assert (0 <= Rsum l) by (apply Rsum_nonneg; intros y J; apply A; now right).
  destruct I as [<-|I]; [lra|]. apply IH; try assumption; [intros y J; apply A; now right|lra].
Qed.
Lemma sdiv_pos0 (a b : R) : 0 <= a -> 0 <= b -> 0 <= sdiv a b.
Proof.
  intros A B. destruct (Req_EM_T b 0) as [->|N]; [|rewrite sdiv_R by exact N; apply div_nonneg; lra].
  unfold sdiv. rewrite zn_R. change (@neqb R _ 0 0) with (Reqb 0 0). rewrite (Reqb_true 0 0 eq_refl). change (0 <= Rdblmax). pose proof Rdblmax_big. lra.
Qed.
Lemma in_zip {A B D} (f : A -> B -> D) a b x : In x (zipw f a b) -> exists y z, In y a /\ In z b /\ x = f y z.
Proof.
  revert b. induction a as [|u a IH]; intros [|v b] I; try destruct I.
  - subst x. exists u, v. split; [now left|]. split; [now left|]. reflexivity.
  - destruct (IH b H0) as (y & z & Y & Z & ->). exists y, z. split; [now right|]. split; [now right|]. reflexivity.
Qed.
Lemma pumps_column : exists v, is_series elec_pumps rows (map Fin v) /\ good v.
Proof.
  destruct (pump_column p (fin_weather w) m rows qh qc (pl_area p OK) M SM H C) as (S & L1 & L2). eexists. split; [exact S|]. intros U A B x I.
  apply in_map_iff in I. destruct I as (y & <- & I). apply kWh_nonneg.
  assert (PQ : forall e r, 0 <= e * r -> 0 <= pumpQ p e r). { intros e r E. unfold pumpQ. replace (e * (365 * 86400 / 1000000) * r * st_floorArea (pa_structure p)) with (e * r * ((365 * 86400 / 1000000) * st_floorArea (pa_structure p))) by ring.
    pose proof (pl_area p OK). apply Rmult_le_pos; [exact E|]. apply Rmult_le_pos; lra. }
  pose proof (PQ _ _ (un_hpump p U)) as Q1. pose proof (PQ _ _ (un_cpump p U)) as Q2. pose proof (Rsum_nonneg _ A) as S1. pose proof (Rsum_nonneg _ B) as S2.
  assert (AB : forall q, In q (vadd qh qc) -> 0 <= q) by (intros q J; destruct (in_vadd _ _ _ J) as (a & b & Ja & Jb & ->); apply Rplus_le_le_0_compat; auto).
  destruct (pump_R p qh qc ltac:(congruence) TOT) as [P1 P2]. cbv zeta in P1, P2. set (Qh := pumpQ p (ht_E_pumps _) _) in *. set (Qc := pumpQ p (cl_E_pumps _) _) in *.
  destruct (Req_EM_T Qh 0) as [Z|Z]; [|destruct (Req_EM_T Qc 0) as [Z'|Z']].
  3:{ rewrite (P1 Z Z') in I. apply in_map_iff in I. destruct I as (q & <- & I). apply Rmult_le_pos; [|lra]. apply div_nonneg; [now apply AB|lra]. }
  all: rewrite P2 in I by tauto; apply in_vadd in I; destruct I as (a & b & Ia & Ib & ->).
  all: assert (SH : forall l, (forall q, In q l -> 0 <= q) -> forall q, In q (vdiv l (vadd qh qc)) -> 0 <= q) by (intros l G q J; destruct (in_zip _ _ _ _ J) as (c & d & Jc & Jd & ->); apply sdiv_pos0; auto).
  all: assert (DV : forall l Q, (forall q, In q l -> 0 <= q) -> 0 <= Q -> forall q, In q (divs (scale (vdiv l (vadd qh qc)) Q) (Rsum (vdiv l (vadd qh qc)))) -> 0 <= q)
    by (intros l Q G NQ q J; unfold divs, scale in J; rewrite map_map in J; apply in_map_iff in J; destruct J as (c & <- & J); apply sdiv_pos0; [apply Rmult_le_pos; [exact (SH l G c J)|exact NQ]|exact (Rsum_nonneg _ (SH l G))]).
  all: apply Rplus_le_le_0_compat; [exact (DV qh Qh A Q1 a Ia)|exact (DV qc Qc B Q2 b Ib)].
Qed.
Lemma lights_column : exists v, is_series elec_int_lights rows (map Fin v) /\ good v.
Proof.
  destruct (C24_split_l p (fin_weather w) rows (so_area p SO) SM) as (a & fr & _ & _ & _ & S). rewrite <- (map_map (fun f => a * f) Fin) in S. eexists. split; [exact S|].
  intros U _ _ x I. pose proof (C24_nonneg_l p (fin_weather w) rows (so_area p SO) (un_day p U) (un_light p U) SM) as N.
  assert (G : forall k (rs : list (list xr)) v, is_series k rs (map Fin v) -> (forall row x, In row rs -> nth_error row k = Some x -> exists r, x = Fin r /\ 0 <= r) -> forall x, In x v -> 0 <= x).
  { clear. intros k rs v. revert rs. induction v as [|y v IH]; intros rs S N x I; [destruct I|]. inversion S as [|row z rs' v' E F]; subst. destruct I as [<-|I].
    - destruct (N row (Fin y) (or_introl eq_refl) E) as (r & Q & Q0). injection Q as ->. exact Q0.
    - apply (IH rs' F); [|exact I]. intros rw u J. apply N. now right. }
  exact (G _ _ _ S N x I).
Qed.
Lemma ext_column : exists v, is_series elec_ext_lights rows (map Fin v) /\ good v.
Proof.
  destruct (C28_l p (fin_weather w) rows (so_area p SO) SM) as (v & LV & S & X). exists v. split; [exact S|]. intros U _ _ x I.
  apply In_nth_error in I. destruct I as (i & I). destruct (simulate_columns _ _ _ _ M SM) as (RU & _). destruct (rn_tab _ _ _ RU) as (_ & _ & (T1 & _) & _).
  assert (LI : (i < 12)%nat) by (rewrite <- LV; apply nth_error_Some; congruence).
  destruct (nth_error (mw_mhEgh (fin_weather w)) i) as [row|] eqn:E. 2:{ apply nth_error_None in E. exfalso. lia. }
  destruct (X i row x E I) as (a & b & _ & AB & ->). apply div_nonneg; [|apply SO]. apply Rmult_le_pos; [apply div_nonneg; [apply U|lra]|]. apply Rmult_le_pos.
  - unfold month_hours. assert (0 <= IZR (nth i days_in_month 0%Z)); [|lra]. apply (IZR_le 0). do 12 (destruct i as [|i]; [cbn; lia|]). lia.
  - assert (INR (b - a + 1) <= INR 24) by (apply le_INR; lia). assert (E24 : INR 24 = 24) by (rewrite INR_IZR_INZ; reflexivity). lra.
Qed.
Lemma all_columns k : (k < 13)%nat -> exists v, is_series k rows (map Fin v) /\ good v.
Proof.
  intros K. destruct (simulate_columns _ _ _ _ M SM) as (RU & _ & S). destruct WA as [W1 W2]. destruct (water_columns p (fin_weather w) rows (so_area p SO) W1 W2 SM) as [X1 X2].
  assert (WM : forall j, is_series j rows (map Fin (waterMonth p)) -> exists v, is_series j rows (map Fin v) /\ good v).
  { intros j J. exists (waterMonth p). split; [exact J|]. intros _ _ _ x I. apply in_map_iff in I. destruct I as (d & <- & _). apply Rmax_r. }
  destruct k as [|[|[|[|[|[|[|[|[|[|[|[|[|k]]]]]]]]]]]]]; try lia; clear K.
  - apply plant_columns. tauto.
  - apply plant_columns. tauto.
  - exact lights_column.
  - exact ext_column.
  - destruct fan_column as (v & F & G). exists v. split; [exact F|]. intros U _ _. apply G; apply U.
  - exact pumps_column.
  - destruct (plug_column elec_int_equip (bu_elecApplianceOcc (pa_building p)) (bu_elecApplianceUnocc (pa_building p)) eq_refl) as (v & F & G). exists v. split; [exact F|]. intros U _ _. apply G; apply U.
  - apply zero_column. specialize (S elec_ext_equip _ eq_refl). unfold all12 in S. rewrite zn_fin, zn_R in S. exact S.
  - destruct (Req_EM_T (ht_hotWaterEnergyType (pa_heating p)) 1) as [E|E]; [apply WM, X1, E|apply zero_column, X2, E].
  - apply plant_columns. tauto.
  - apply plant_columns. tauto.
  - destruct (plug_column gas_equip (bu_gasApplianceOcc (pa_building p)) (bu_gasApplianceUnocc (pa_building p)) eq_refl) as (v & F & G). exists v. split; [exact F|]. intros U _ _. apply G; apply U.
  - destruct (Req_EM_T (ht_hotWaterEnergyType (pa_heating p)) 1) as [E|E]; [apply zero_column, X1, E|apply WM, X2, E].
Qed.
Lemma cell_column row x : In row rows -> In x row -> exists k, (k < 13)%nat /\ nth_error row k = Some x.
Proof.
  intros I J. destruct (simulate_columns _ _ _ _ M SM) as (_ & (_ & F) & _). rewrite Forall_forall in F. specialize (F row I). apply In_nth_error in J. destruct J as (k & J). exists k. split; [|exact J].
  rewrite <- F. apply nth_error_Some. congruence.
Qed.
End Columns.
Lemma C60_table_l p w m rows qh qc : sound p -> plant_ok p -> water_ok p -> monthlyAll (map_params Fin p) (fin_weather w) = Ok m -> simulateMonthly (map_params Fin p) (fin_weather w) = Ok rows ->
  ne_ht (mr_needs m) = map Fin qh -> ne_cl (mr_needs m) = map Fin qc -> Rsum qh + Rsum qc <> 0 ->
  forall row x, In row rows -> In x row -> exists r, x = Fin r.
Proof.
  intros SO OK WA M SM H C T row x I J. destruct (cell_column p w m rows M SM row x I J) as (k & K & E).
  destruct (all_columns p w m rows qh qc SO OK M SM H C WA T k K) as (v & S & _). destruct (series_fin k rows v (fun _ => True) S (fun _ _ => Logic.I) row x I E) as (r & -> & _). now exists r.
Qed.
Lemma C35_l p w m rows qh qc : sound p -> plant_ok p -> water_ok p -> uses_nonneg p -> monthlyAll (map_params Fin p) (fin_weather w) = Ok m -> simulateMonthly (map_params Fin p) (fin_weather w) = Ok rows ->
  ne_ht (mr_needs m) = map Fin qh -> ne_cl (mr_needs m) = map Fin qc -> Rsum qh + Rsum qc <> 0 -> (forall q, In q qh -> 0 <= q) -> (forall q, In q qc -> 0 <= q) ->
  forall row x, In row rows -> In x row -> exists r, x = Fin r /\ 0 <= r.
Proof.
  intros SO OK WA U M SM H C T A B row x I J. destruct (cell_column p w m rows M SM row x I J) as (k & K & E).
  destruct (all_columns p w m rows qh qc SO OK M SM H C WA T k K) as (v & S & G). exact (series_fin k rows v (fun r => 0 <= r) S (G U A B) row x I E).
Qed.
