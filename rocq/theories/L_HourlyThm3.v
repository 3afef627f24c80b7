(** Schedules, distribution losses, finiteness and repeatability (C10, C14, C15, C16). *)
From Coq Require Import Reals Lra Psatz ZArith List Bool Lia.
From Verif Require Import Base Num Xr M_Params M_Hourly M_Map L_Xr L_HourlyR S_Physical L_HourlyFin L_HourlyFin2
  S_RC S_Network L_HourlySpec S_Year S_HourSpec S_Results S_Calendar L_Calendar L_HourlyShape L_HourlyOut L_HourlyRun L_HourlyThm L_HourlyThm2.
Import ListNotations.
Open Scope R_scope.

(** ** C10 *)
Lemma C10_cells_l {T} {N : Num T} (p : params_t T) hs he ds de :
  ntrunc (po_hoursStart (pa_population p)) = Some hs -> ntrunc (po_hoursEnd (pa_population p)) = Some he ->
  ntrunc (po_daysStart (pa_population p)) = Some ds -> ntrunc (po_daysEnd (pa_population p)) = Some de ->
  exists tbl, populateSchedules p = Ok tbl /\
  forall h d, (0 <= h < 24)%Z -> (0 <= d < 7)%Z -> exists c, sched_at tbl h d = Ok c /\ cell_spec p hs he ds de h d c.
Proof.
  intros E1 E2 E3 E4. unfold populateSchedules, cast_int. rewrite E1, E2, E3, E4. cbn [obind]. eexists. split; [reflexivity|].
  intros h d Hh Hd. rewrite sched_at_ok by assumption. eexists. split; [reflexivity|].
  unfold sched_cell.
  destruct (Z.leb_spec hs h), (Z.leb_spec h he), (Z.leb_spec ds d), (Z.leb_spec d de); cbn [andb]; constructor; cbn;
    intros; try (exfalso; lia); repeat split; reflexivity.
Qed.

(** ** Needs as real numbers *)
Lemma real_needs raw : Forall needs_ok raw ->
  exists needs, map hr_Qneed_ht raw = map (fun q => Fin (fst q)) needs /\ map hr_Qneed_cl raw = map (fun q => Fin (snd q)) needs /\
    Forall (fun q => 0 <= fst q /\ 0 <= snd q) needs.
Proof.
  induction 1 as [|h raw (qh & qc & A & B & C & D & _) _ (needs & E & F & G)].
  - exists []. cbn. auto.
  - exists ((qh, qc) :: needs). cbn. rewrite A, B, E, F. repeat split. constructor; auto.
Qed.

Section Dist.
Variable p : params_t R.
Hypothesis PO : plant_ok p.
Variables H C : R.
Hypothesis HC : 0 < C + H.
Lemma share_pos : 0 < heat_share H C.
Proof. unfold heat_share. pose proof (Rmax_r (H / (C + H)) 0.1). lra. Qed.
Lemma cshare_pos : 0 < cool_share H C.
Proof. unfold cool_share. pose proof (Rmax_r (1 - heat_share H C) 0.1). lra. Qed.
Lemma f_dem_ht_fin : f_dem_ht (Fin H) (Fin C) = Fin (heat_share H C).
Proof. unfold f_dem_ht. rewrite add_fin, div_fin by (num; lra). fin. rewrite nmax_R. unfold heat_share. num. reflexivity. Qed.
Lemma f_dem_cl_fin : f_dem_cl (Fin H) (Fin C) = Fin (cool_share H C).
Proof. unfold f_dem_cl. rewrite f_dem_ht_fin. fin. rewrite nmax_R. unfold cool_share. num. f_equal. f_equal; lra. Qed.
Lemma hden_pos : 0 < 1 + ht_hvacLossFactor (pa_heating p) + ht_hotcoldWasteFactor (pa_heating p) / heat_share H C.
Proof.
  destruct PO. pose proof share_pos. assert (0 <= ht_hotcoldWasteFactor (pa_heating p) / heat_share H C); [|lra].
  apply Rmult_le_pos; [assumption|]. left. apply Rinv_0_lt_compat. assumption.
Qed.
Lemma cden_pos : 0 < 1 + cl_hvacLossFactor (pa_cooling p) + ht_hotcoldWasteFactor (pa_heating p) / cool_share H C.
Proof.
  destruct PO. pose proof cshare_pos. assert (0 <= ht_hotcoldWasteFactor (pa_heating p) / cool_share H C); [|lra].
  apply Rmult_le_pos; [assumption|]. left. apply Rinv_0_lt_compat. assumption.
Qed.
Lemma eta_ht_fin : eta_dist_ht (map_params Fin p) (Fin H) (Fin C) =
  Fin (/ (1 + ht_hvacLossFactor (pa_heating p) + ht_hotcoldWasteFactor (pa_heating p) / heat_share H C)).
Proof.
  unfold eta_dist_ht. rewrite f_dem_ht_fin. cbn [map_params map_heating pa_heating ht_hvacLossFactor ht_hotcoldWasteFactor].
  rewrite div_fin by (pose proof share_pos; lra). fin. rewrite div_fin. 2:{ num. pose proof hden_pos. lra. }
  f_equal. num. replace (1/1) with 1 by lra. apply Rmult_1_l.
Qed.
Lemma eta_cl_fin : eta_dist_cl (map_params Fin p) (Fin H) (Fin C) =
  Fin (/ (1 + cl_hvacLossFactor (pa_cooling p) + ht_hotcoldWasteFactor (pa_heating p) / cool_share H C)).
Proof.
  unfold eta_dist_cl. rewrite f_dem_cl_fin.
  cbn [map_params map_heating map_cooling pa_heating pa_cooling ht_hotcoldWasteFactor cl_hvacLossFactor].
  rewrite div_fin by (pose proof cshare_pos; lra). fin. rewrite div_fin. 2:{ num. pose proof cden_pos. lra. }
  f_equal. num. replace (1/1) with 1 by lra. apply Rmult_1_l.
Qed.
Lemma charge_ht q : ndiv (ndiv (ndiv (Fin q) (eta_dist_ht (map_params Fin p) (Fin H) (Fin C))) (ht_efficiency (pa_heating (map_params Fin p)))) (zn 1000)
  = Fin (q * heat_factor p H C / 1000).
Proof.
  rewrite eta_ht_fin. cbn [map_params map_heating pa_heating ht_efficiency].
  pose proof hden_pos as D. pose proof (Rinv_0_lt_compat _ D). pose proof (pl_eff p PO).
  rewrite div_fin by lra. rewrite div_fin by lra. fin. rewrite div_fin by (num; lra). f_equal. num. unfold heat_factor.
  set (d := 1 + _ + _) in *. replace (1000/1) with 1000 by lra. field. lra.
Qed.
Lemma charge_cl q : ndiv (ndiv (ndiv (Fin q) (eta_dist_cl (map_params Fin p) (Fin H) (Fin C))) (cl_cop (pa_cooling (map_params Fin p)))) (zn 1000)
  = Fin (q * cool_factor p H C / 1000).
Proof.
  rewrite eta_cl_fin. cbn [map_params map_cooling pa_cooling cl_cop].
  pose proof cden_pos as D. pose proof (Rinv_0_lt_compat _ D). pose proof (pl_cop p PO).
  rewrite div_fin by lra. rewrite div_fin by lra. fin. rewrite div_fin by (num; lra). f_equal. num. unfold cool_factor.
  set (d := 1 + _ + _) in *. replace (1000/1) with 1000 by lra. field. lra.
Qed.
(** Losses only add. *)
Lemma heat_factor_ge : ht_efficiency (pa_heating p) <= 1 -> 1 <= heat_factor p H C.
Proof.
  intros E. pose proof (pl_eff p PO). destruct PO. unfold heat_factor. apply Rmult_le_reg_r with (ht_efficiency (pa_heating p)); [assumption|].
  unfold Rdiv at 1. rewrite Rmult_assoc, Rinv_l by lra. pose proof share_pos.
  assert (0 <= ht_hotcoldWasteFactor (pa_heating p) / heat_share H C); [|lra].
  apply Rmult_le_pos; [assumption|]. left. apply Rinv_0_lt_compat. assumption.
Qed.
Lemma cool_factor_ge : cl_cop (pa_cooling p) <= 1 -> 1 <= cool_factor p H C.
Proof.
  intros E. pose proof (pl_cop p PO). destruct PO. unfold cool_factor. apply Rmult_le_reg_r with (cl_cop (pa_cooling p)); [assumption|].
  unfold Rdiv at 1. rewrite Rmult_assoc, Rinv_l by lra. pose proof cshare_pos.
  assert (0 <= ht_hotcoldWasteFactor (pa_heating p) / cool_share H C); [|lra].
  apply Rmult_le_pos; [assumption|]. left. apply Rinv_0_lt_compat. assumption.
Qed.
End Dist.

Lemma totals_fin (raw : list (hourres xr)) needs : map hr_Qneed_ht raw = map (fun q : R * R => Fin (fst q)) needs ->
  map hr_Qneed_cl raw = map (fun q : R * R => Fin (snd q)) needs ->
  accumulate (map hr_Qneed_ht raw) = Fin (Rsum (map fst needs)) /\ accumulate (map hr_Qneed_cl raw) = Fin (Rsum (map snd needs)).
Proof.
  intros A B. rewrite A, B, <- (map_map fst Fin), <- (map_map snd Fin), !accumulate_fin, !accumulate_Rsum. auto.
Qed.

Lemma C14_l p ws r0 rows r : physical p -> plant_ok p ->
  simulate (map_params Fin p) (map (map_weather Fin) ws) (map_ratios Fin r0) false = Ok (rows, r) ->
  exists raw needs, simulateRaw (map_params Fin p) (map (map_weather Fin) ws) (map_ratios Fin r0) = Ok (raw, r) /\
    map hr_Qneed_ht raw = map (fun q => Fin (fst q)) needs /\ map hr_Qneed_cl raw = map (fun q => Fin (snd q)) needs /\
    Forall (fun q => 0 <= fst q /\ 0 <= snd q) needs /\
    let H := Rsum (map fst needs) in let C := Rsum (map snd needs) in
    0 < C + H ->
    is_series elec_cooling rows (map (fun q => Fin (snd q * cool_factor p H C / 1000)) needs) /\
    is_series (if Req_EM_T (ht_energyType (pa_heating p)) 1 then elec_heating else gas_heating) rows
      (map (fun q => Fin (fst q * heat_factor p H C / 1000)) needs).
Proof.
  intros HP PO H0. destruct (simulate_det _ _ _ _ _ _ H0) as (raw & Hr & _ & CS). exists raw.
  destruct (real_needs raw (C03_run_l _ _ _ _ _ HP Hr)) as (needs & A & B & D). exists needs.
  split; [exact Hr|]. split; [exact A|]. split; [exact B|]. split; [exact D|]. intros H C HC.
  destruct (totals_fin raw needs A B) as [TA TB]. fold H in TA. fold C in TB.
  split.
  - apply CS. unfold resultVectors. cbn [map nth_error elec_cooling]. rewrite TA, TB. f_equal. rewrite B, !map_map.
    apply map_ext. intros q. apply charge_cl; assumption.
  - assert (V : map (fun watts : xr => ndiv watts (zn 1000)) (map (fun need => ndiv (ndiv need (eta_dist_ht (map_params Fin p) (Fin H) (Fin C)))
        (ht_efficiency (pa_heating (map_params Fin p)))) (map hr_Qneed_ht raw)) = map (fun q => Fin (fst q * heat_factor p H C / 1000)) needs).
    { rewrite A, !map_map. apply map_ext. intros q. apply charge_ht; assumption. }
    assert (Q : neqb (ht_energyType (pa_heating (map_params Fin p))) (zn 1) = if Req_EM_T (ht_energyType (pa_heating p)) 1 then true else false).
    { cbn [map_params map_heating pa_heating ht_energyType]. rewrite zn_IZR. cbn [neqb xr_num xeqb]. unfold Reqb.
      destruct (Req_EM_T _ _); reflexivity. }
    destruct (Req_EM_T (ht_energyType (pa_heating p)) 1); apply CS; unfold resultVectors; cbn [map nth_error elec_heating gas_heating];
      rewrite TA, TB, Q; f_equal; exact V.
Qed.
