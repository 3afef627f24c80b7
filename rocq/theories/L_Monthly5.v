(** Hot water, appliances, shading, hours with sun. *)
From Coq Require Import Reals Lra Psatz ZArith List Bool Lia.
From Verif Require Import Base Num Xr M_Params M_Monthly M_Map L_Xr L_HourlyShape L_HourlyFin2 L_Office S_Calendar S_Schedule S_Results S_Monthly
  S_Physical L_Monthly L_Monthly2 L_Monthly3 L_Monthly4 E_SmallOffice E_Monthly.
Import ListNotations.
Open Scope R_scope.

Lemma kWh_fin : @kWh2MJ xr _ = Fin MJ_per_kWh.
Proof. reflexivity. Qed.
Lemma kWh_pos : 0 < MJ_per_kWh. Proof. unfold MJ_per_kWh. lra. Qed.
Lemma if_fin' (b : bool) (x y : list R) : (if b then map Fin x else map Fin y) = map Fin (if b then x else y).
Proof. now destruct b. Qed.

(** *** Hot water *)
Definition waterMonth (p : params_t R) : list R := map (fun d => Rmax (water_year p * (d / 365)) 0) daysInMonth.
Lemma water_need p : 0 < st_floorArea (pa_structure p) -> 0 < ht_hotWaterDistributionEfficiency (pa_heating p) -> 0 < ht_hotWaterSystemEfficiency (pa_heating p) ->
  divs (hotWaterNeed (map_params Fin p)) (Fin (st_floorArea (pa_structure p))) = map Fin (waterMonth p).
Proof.
  intros HA HD HS. unfold hotWaterNeed. cbn [map_params pa_heating map_heating ht_hotWaterDistributionEfficiency ht_hotWaterSystemEfficiency].
  assert (Y : hotWaterYear (map_params Fin p) = Fin (hotWaterYear p)).
  { unfold hotWaterYear. cbn [map_params pa_heating pa_phys map_heating map_phys ht_hotWaterDemand ht_dhw_tset ht_dhw_tsupply ph_rhoCpWater].
    rewrite sub_fin, !mul_fin. reflexivity. }
  rewrite Y, days_fin, kWh_fin. unfold daysInYear. rewrite (zn_fin 365), (zn_fin 0), !zn_R, scale_fin. pose proof kWh_pos as K.
  rewrite divs_fin, divs_R by lra. rewrite divs_fin, divs_R by lra. rewrite divs_fin, divs_R by lra. rewrite all12_fin, vsub_fin, divs_fin, divs_R by lra.
  rewrite (map_map_fin (fun x => nmax x (Fin 0)) (fun x => Rmax x 0)). 2:{ intros x. rewrite max_fin, nmax_R. reflexivity. }
  rewrite divs_fin, divs_R by lra. f_equal. unfold waterMonth, scale, daysInMonth, vsub, all12. cbn [map repeat zipw]. ops. rewrite !zn_R.
  assert (E : forall d, Rmax ((d * hotWaterYear p / 365 / ht_hotWaterDistributionEfficiency (pa_heating p) / MJ_per_kWh - 0) / ht_hotWaterSystemEfficiency (pa_heating p)) 0 / st_floorArea (pa_structure p)
     = Rmax (water_year p * (d / 365)) 0).
  { intros d. unfold Rdiv at 1. rewrite Rmult_comm, <- RmaxRmult by (apply Rlt_le, Rinv_0_lt_compat, HA). rewrite Rmult_0_r. f_equal.
    unfold water_year, hotWaterYear. ops. field. repeat split; lra. }
  rewrite !E. reflexivity.
Qed.
Lemma water_columns p w rows : 0 < st_floorArea (pa_structure p) -> 0 < ht_hotWaterDistributionEfficiency (pa_heating p) -> 0 < ht_hotWaterSystemEfficiency (pa_heating p) ->
  simulateMonthly (map_params Fin p) w = Ok rows ->
  (ht_hotWaterEnergyType (pa_heating p) = 1 -> is_series elec_dhw rows (map Fin (waterMonth p)) /\ is_series gas_dhw rows (repeat (Fin 0) 12)) /\
  (ht_hotWaterEnergyType (pa_heating p) <> 1 -> is_series gas_dhw rows (map Fin (waterMonth p)) /\ is_series elec_dhw rows (repeat (Fin 0) 12)).
Proof.
  intros HA HD HS H. destruct (simulateMonthly_cases _ _ _ H) as (m & R & _ & S').
  pose proof (S' elec_dhw _ eq_refl) as S1. pose proof (S' gas_dhw _ eq_refl) as S2. clear S'. rewrite (rn_dhw _ _ _ R) in S1, S2. unfold heatedWater in S1, S2.
  assert (Z : divs (all12 (zn 0)) (Fin (st_floorArea (pa_structure p))) = repeat (Fin 0) 12).
  { rewrite zn_fin, all12_fin, divs_fin, divs_R by lra. unfold all12. cbn [map repeat]. rewrite zn_R. replace (0 / st_floorArea (pa_structure p)) with 0 by (field; lra). reflexivity. }
  change (st_floorArea (pa_structure (map_params Fin p))) with (Fin (st_floorArea (pa_structure p))) in S1, S2.
  change (ht_hotWaterEnergyType (pa_heating (map_params Fin p))) with (Fin (ht_hotWaterEnergyType (pa_heating p))) in S1, S2.
  rewrite (zn_fin 1), zn_R, eqb_fin in S1, S2. split; intros E.
  - rewrite E in S1, S2. rewrite Reqb_true in S1, S2 by reflexivity. cbn [fst snd] in S1, S2. rewrite water_need in S1 by assumption. rewrite Z in S2. now split.
  - rewrite Reqb_false in S1, S2 by exact E. cbn [fst snd] in S1, S2. rewrite water_need in S2 by assumption. rewrite Z in S1. now split.
Qed.
Lemma waterMonth_sum p : 0 <= water_year p -> waterMonth p = map (fun d => water_year p * (d / 365)) daysInMonth /\ Rsum (waterMonth p) = water_year p.
Proof.
  intros H. assert (E : waterMonth p = map (fun d => water_year p * (d / 365)) daysInMonth).
  { apply map_ext_in. intros d I. apply Rmax_left. apply Rmult_le_pos; [exact H|]. unfold Rdiv. apply Rmult_le_pos; [|lra].
    unfold daysInMonth in I. apply in_map_iff in I. destruct I as (z & <- & I). rewrite zn_R. apply (IZR_le 0). cbn in I. lia. }
  split; [exact E|]. rewrite E. unfold Rsum, daysInMonth. cbn [map fold_right]. rewrite !zn_R. field.
Qed.
Lemma waterMonth_days p m : 0 <= water_year p -> (m < 12)%nat -> nth_error (waterMonth p) m = Some (water_year p * (IZR (nth m days_in_month 0%Z) / 365)).
Proof.
  intros H L. rewrite (proj1 (waterMonth_sum p H)). do 12 (destruct m as [|m]; [cbn [map daysInMonth nth_error nth days_in_month]; rewrite zn_R; reflexivity|]). lia.
Qed.
Lemma C25_l p w rows : 0 < st_floorArea (pa_structure p) -> 0 < ht_hotWaterDistributionEfficiency (pa_heating p) -> 0 < ht_hotWaterSystemEfficiency (pa_heating p) ->
  0 <= water_year p -> simulateMonthly (map_params Fin p) w = Ok rows ->
  exists v, length v = 12%nat /\ all_nonneg v /\ Rsum v = water_year p /\
    (forall m, (m < 12)%nat -> nth_error v m = Some (water_year p * (IZR (nth m days_in_month 0%Z) / 365))) /\
    (ht_hotWaterEnergyType (pa_heating p) = 1 -> is_series elec_dhw rows (map Fin v) /\ is_series gas_dhw rows (repeat (Fin 0) 12)) /\
    (ht_hotWaterEnergyType (pa_heating p) <> 1 -> is_series gas_dhw rows (map Fin v) /\ is_series elec_dhw rows (repeat (Fin 0) 12)).
Proof.
  intros HA HD HS HY H. exists (waterMonth p). split; [reflexivity|]. split; [|split; [now apply waterMonth_sum|split; [intros m L; now apply waterMonth_days|now apply (water_columns p w)]]].
  intros x I. apply in_map_iff in I. destruct I as (d & <- & _). apply Rmax_r.
Qed.
(** Never negative, even when the set-point is below the supply temperature. *)
Lemma C25_nonneg_l p w rows : 0 < st_floorArea (pa_structure p) -> 0 < ht_hotWaterDistributionEfficiency (pa_heating p) -> 0 < ht_hotWaterSystemEfficiency (pa_heating p) ->
  simulateMonthly (map_params Fin p) w = Ok rows ->
  forall row k x, In row rows -> k = elec_dhw \/ k = gas_dhw -> nth_error row k = Some x -> exists r, x = Fin r /\ 0 <= r.
Proof.
  intros HA HD HS H row k x I K X. destruct (water_columns p w rows HA HD HS H) as [W1 W2].
  assert (P : forall r, In r (waterMonth p) -> 0 <= r) by (intros r J; apply in_map_iff in J; destruct J as (d & <- & _); apply Rmax_r).
  assert (Z : forall y, In y (repeat (Fin 0) 12) -> exists r, y = Fin r /\ 0 <= r) by (intros y J; apply repeat_spec in J; subst y; exists 0; split; [reflexivity|lra]).
  destruct (Req_EM_T (ht_hotWaterEnergyType (pa_heating p)) 1) as [E|E]; [destruct (W1 E) as [S1 S2]|destruct (W2 E) as [S2 S1]];
    destruct K as [-> | ->]; first [exact (series_fin _ _ _ _ S1 P row x I X)|exact (series_fin _ _ _ _ S2 P row x I X)|exact (series_forall _ _ _ _ S1 Z row x I X)|exact (series_forall _ _ _ _ S2 Z row x I X)].
Qed.

(** *** Shading *)
Lemma C26_l p w : nine_surfaces (pa_structure p) -> full_tables w -> sun_every_month w -> @bem_castable xr _ p ->
  (shading_coded (pa_structure p) -> exists rows, simulateMonthly p w = Ok rows) /\ (~ shading_coded (pa_structure p) -> simulateMonthly p w = UB).
Proof.
  intros A B C D. split.
  - intros E. apply C18_monthly_defined_l. auto.
  - intros E. destruct (simulateMonthly_ub p w) as [H|H]; [|exact H]. apply C18_monthly_defined_l in H. tauto.
Qed.
Lemma sdf_zero (s : structure_t xr) : In (Fin 0) (st_windowSDF s) -> ~ shading_coded s.
Proof. intros I H. specialize (H _ I). rewrite (trunc_Z 0) in H by lia. destruct H as [H|[H|H]]; discriminate H. Qed.
Lemma C26_office_l w : simulateMonthly (@smallOffice xr _) w = UB.
Proof.
  destruct (simulateMonthly_ub (@smallOffice xr _) w) as [H|H]; [|exact H]. apply C18_monthly_defined_l in H. destruct H as (_ & _ & _ & H & _). exfalso.
  refine (sdf_zero _ _ H). change (In (Fin 0) [@zn xr _ 1; zn 0; zn 1; zn 0; zn 1; zn 0; zn 1; zn 0; zn 1]). rewrite (zn_fin 0), zn_R. right. now left.
Qed.

(** *** Hours with sun *)
Lemma eqb_zero (x : xr) : neqb x (zn 0) = false <-> x <> Fin 0.
Proof.
  rewrite zn_fin, zn_R. destruct x as [r| | |]; cbn [neqb xr_num xeqb]; split; intros H; try discriminate; try reflexivity.
  - intros E. injection E as E. rewrite Reqb_true in H by exact E. discriminate H.
  - apply Reqb_false. intros ->. now apply H.
Qed.
Lemma lit_dec (x : xr) : {x <> Fin 0} + {x = Fin 0}.
Proof. destruct (neqb x (zn 0)) eqn:E; [right|left; now apply eqb_zero]. destruct x as [r| | |]; rewrite zn_fin, zn_R in E; cbn in E; try discriminate E. unfold Reqb in E. destruct (Req_EM_T r 0) as [-> |]; [reflexivity|discriminate E]. Qed.
Lemma firstLit_spec (row : list xr) : forall n i, firstLit n row = Some i -> exists k, i = (n + k)%nat /\ (exists x, nth_error row k = Some x /\ x <> Fin 0) /\
  forall h x, nth_error row h = Some x -> (h < k)%nat -> x = Fin 0.
Proof.
  induction row as [|y row IH]; intros n i H; [discriminate H|]. cbn [firstLit] in H. destruct (lit_dec y) as [L|L].
  - rewrite (proj2 (eqb_zero y) L) in H. injection H as <-. exists 0%nat. split; [lia|]. split; [exists y; now split|]. intros h x _ Q. lia.
  - assert (E : neqb y (zn 0) = true). { destruct (neqb y (zn 0)) eqn:E; [reflexivity|]. apply eqb_zero in E. contradiction. }
    rewrite E in H. cbn [negb] in H. destruct (IH _ _ H) as (k & -> & X & Q). exists (S k). split; [lia|]. split; [exact X|].
    intros [|h] x N Z; [injection N as <-; exact L|]. apply (Q h x N). lia.
Qed.
Lemma lastLit_spec (row : list xr) : forall n i, lastLit n row = Some i -> exists k, i = (n + k)%nat /\ (exists x, nth_error row k = Some x /\ x <> Fin 0) /\
  forall h x, nth_error row h = Some x -> (k < h)%nat -> x = Fin 0.
Proof.
  assert (NN : forall (row : list xr) n, lastLit n row = None -> forall h x, nth_error row h = Some x -> x = Fin 0).
  { clear. induction row as [|y row IH]; intros n H h x N; [destruct h; discriminate N|]. cbn [lastLit] in H. destruct (lastLit (S n) row) eqn:E; [discriminate H|].
    destruct (lit_dec y) as [L|L]; [rewrite (proj2 (eqb_zero y) L) in H; discriminate H|]. destruct h as [|h]; [injection N as <-; exact L|]. exact (IH _ E h x N). }
  induction row as [|y row IH]; intros n i H; [discriminate H|]. cbn [lastLit] in H. destruct (lastLit (S n) row) as [j|] eqn:E.
  - injection H as <-. destruct (IH _ _ E) as (k & -> & X & Q). exists (S k). split; [lia|]. split; [exact X|].
    intros [|h] x N Z; [lia|]. apply (Q h x N). lia.
  - destruct (lit_dec y) as [L|L].
    + rewrite (proj2 (eqb_zero y) L) in H. injection H as <-. exists 0%nat. split; [lia|]. split; [exists y; now split|]. intros [|h] x M Z; [lia|]. exact (NN _ _ E h x M).
    + assert (Q : neqb y (zn 0) = true). { destruct (neqb y (zn 0)) eqn:Q; [reflexivity|]. apply eqb_zero in Q. contradiction. }
      rewrite Q in H. discriminate H.
Qed.
Lemma fracSunDown_spec (row : list xr) f : length row = 24%nat -> fracSunDown row = Ok f -> exists i j, sun_span row i j /\ (i <= j < 24)%nat /\ f = Fin (1 - INR (j - i + 1) / 24).
Proof.
  intros L H. unfold fracSunDown in H. destruct (firstLit 0 row) as [i|] eqn:A; [|discriminate H]. destruct (lastLit 0 row) as [j|] eqn:B; [|discriminate H].
  destruct (firstLit_spec _ _ _ A) as (i' & -> & (x & X1 & X2) & XQ). destruct (lastLit_spec _ _ _ B) as (j' & -> & (y & Y1 & Y2) & YQ). exists i', j'.
  assert (J : (j' < 24)%nat) by (rewrite <- L; apply nth_error_Some; congruence).
  assert (IJ : (i' <= j')%nat). { destruct (Nat.le_gt_cases i' j') as [Q|Q]; [exact Q|]. exfalso. apply Y2. exact (XQ j' y Y1 Q). }
  split; [split; [eauto|split; [eauto|intros h z N [Q|Q]; eauto]]|]. split; [lia|]. apply ok_inj in H. subst f. rewrite !zn_fin, !zn_R, sub_fin, add_fin, div_fin', sub_fin by lra.
  f_equal. ops. rewrite plus_INR, minus_INR, !INR_IZR_INZ by exact IJ. cbn [Nat.add Z.of_nat Pos.of_succ_nat]. reflexivity.
Qed.
Lemma C28_l p w rows : 0 < st_floorArea (pa_structure p) -> simulateMonthly (map_params Fin p) w = Ok rows ->
  exists v, length v = 12%nat /\ is_series elec_ext_lights rows (map Fin v) /\
    forall m row x, nth_error (mw_mhEgh w) m = Some row -> nth_error v m = Some x ->
      exists i j, sun_span row i j /\ (i <= j < 24)%nat /\
        x = li_exteriorEnergy (pa_lighting p) / 1000 * (month_hours m * (1 - INR (j - i + 1) / 24)) / st_floorArea (pa_structure p).
Proof.
  intros HA H. destruct (simulateMonthly_cases _ _ _ H) as (m & RU & _ & S'). specialize (S' elec_ext_lights _ eq_refl). rewrite (rn_lu _ _ _ RU) in S'.
  pose proof (rn_bd _ _ _ RU) as B. destruct (rn_tab _ _ _ RU) as (_ & _ & (L1 & L2) & _). unfold solarRadiationBreakdown in B. cbv zeta in B.
  destruct (omap fracSunDown (mw_mhEgh w)) as [d| |] eqn:E; [cbn [obind] in B|discriminate B|discriminate B]. injection B as B. rewrite <- B in S'. cbn [lightingEnergyUse lu_ext bd_hrsSunDown] in S'.
  assert (D : exists dr, d = map Fin dr /\ length dr = length (mw_mhEgh w) /\ forall m row x, nth_error (mw_mhEgh w) m = Some row -> nth_error dr m = Some x ->
    exists i j, sun_span row i j /\ (i <= j < 24)%nat /\ x = 1 - INR (j - i + 1) / 24).
  { clear - E L2. revert d E. induction (mw_mhEgh w) as [|row l IH]; intros d E.
    - injection E as <-. exists []. split; [reflexivity|]. split; [reflexivity|]. intros [|m] r x N; discriminate N.
    - cbn [omap] in E. destruct (fracSunDown row) as [f| |] eqn:F; [cbn [obind] in E|discriminate E|discriminate E].
      destruct (omap fracSunDown l) as [d'| |] eqn:G; [cbn [obind] in E|discriminate E|discriminate E]. injection E as <-.
      destruct (fracSunDown_spec row f (L2 row (or_introl eq_refl)) F) as (i & j & A & A' & ->).
      destruct (IH (fun r I => L2 r (or_intror I)) d' eq_refl) as (dr & -> & LL & Q). exists ((1 - INR (j - i + 1) / 24) :: dr). split; [reflexivity|].
      split; [cbn; now rewrite LL|]. intros [|m] r x N X; [injection N as <-; injection X as <-; exists i, j; split; [exact A|split; [exact A'|reflexivity]]|]. exact (Q m r x N X). }
  destruct D as (dr & -> & LD & D). rewrite L1 in LD. cbn [map_params pa_lighting pa_structure map_lighting map_structure li_exteriorEnergy st_floorArea] in S'.
  rewrite hours_fin, vmul_fin, zn_fin, zn_R, div_fin', scale_fin, divs_fin, divs_R in S' by lra.
  eexists. split; [|split; [exact S'|]].
  { unfold scale, vmul. rewrite !map_length, zipw_length, LD. reflexivity. }
  intros k row x N X. unfold scale in X. rewrite map_map in X. unfold vmul in X.
  destruct (nth_error dr k) as [y|] eqn:Y. 2:{ exfalso. apply nth_error_None in Y. assert (k < length (mw_mhEgh w))%nat by (apply nth_error_Some; congruence). lia. }
  assert (K : (k < 12)%nat) by (rewrite <- LD; apply nth_error_Some; congruence).
  assert (Hk : nth_error (@hoursInMonth R _) k = Some (month_hours k)).
  { clear - K. unfold month_hours, hoursInMonth. do 12 (destruct k as [|k]; [cbn [map nth_error nth days_in_month]; f_equal; rewrite zn_R; lra|]). lia. }
  destruct (D k row y N Y) as (i & j & A & A' & ->). exists i, j. split; [exact A|]. split; [exact A'|].
  rewrite nth_error_map in X. rewrite (nth_zipw _ _ _ _ _ _ Y Hk) in X. cbn [option_map] in X. injection X as <-. ops. field. lra.
Qed.
(** A month without sun. *)
Definition darkYear : mweather xr :=
  {| mw_msolar := mw_msolar mildYear; mw_mhdbt := mw_mhdbt mildYear; mw_mhEgh := repeat (Fin 0) 24 :: tl (mw_mhEgh mildYear);
     mw_mEgh := mw_mEgh mildYear; mw_mdbt := mw_mdbt mildYear; mw_mwind := mw_mwind mildYear |}.
Lemma C28_refuted_l : exists w, full_tables w /\ nth_error (mw_mhEgh w) 0 = Some (repeat (Fin 0) 24) /\ forall p, simulateMonthly p w = UB.
Proof.
  exists darkYear. split; [|split; [reflexivity|]].
  - unfold full_tables. cbn [darkYear mw_msolar mw_mhdbt mw_mhEgh mw_mEgh mw_mdbt mw_mwind]. cbn [mildYear mw_msolar mw_mhdbt mw_mhEgh mw_mEgh mw_mdbt mw_mwind repeat tl length app].
    repeat split; intros r I; repeat (destruct I as [<-|I]; [reflexivity|]); destruct I.
  - intros p. destruct (simulateMonthly_ub p darkYear) as [H|H]; [|exact H]. exfalso. apply C18_monthly_defined_l in H. destruct H as (_ & _ & H & _).
    destruct (H (repeat (Fin 0) 24) (or_introl eq_refl)) as (x & I & F). apply repeat_spec in I. subst x. apply eqb_zero in F. now apply F.
Qed.

(** *** Appliances and the end use that is always zero *)
Definition plugMonth (occ unocc share : R) : list R := map (fun h => h * (occ * share + unocc * (1 - share)) / 1000) hoursInMonth.
Lemma plug_fin occ unocc share : plugLoad (Fin occ) (Fin unocc) (Fin share) = map Fin (plugMonth occ unocc share).
Proof. unfold plugLoad. rewrite hours_fin, !zn_fin, !zn_R, !mul_fin, sub_fin, mul_fin, add_fin, scale_fin, divs_fin, divs_R, scale_R, map_map by lra. reflexivity. Qed.
