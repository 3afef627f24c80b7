(** Finiteness of whole result tables (C15) and repeatability of simulate (C16). *)
From Coq Require Import Reals Lra Psatz ZArith List Bool Lia.
From Verif Require Import Base Num Xr M_Params M_TimeFrame M_Hourly M_Map L_Xr L_HourlyR S_Physical L_HourlyFin L_HourlyFin2 E_SmallOffice S_Edit
  S_RC S_Network L_HourlySpec S_Year S_HourSpec S_Results S_Calendar L_Calendar L_HourlyShape L_HourlyOut L_HourlyRun
  L_HourlyThm L_HourlyThm2 L_HourlyThm3 L_Office L_Office2.
Import ListNotations.
Open Scope R_scope.

(** ** C15 *)
Lemma band_next p tt i k w th : physical p -> ordered_setpoints p -> init_ok i ->
  band_state p (th_ti (nextState p i (sched_of p tt k) w th)).
Proof.
  intros HP HO HI.
  pose proof (step_iso p i (sched_of p tt k) w th HP HI (flow_nonneg p tt k HP) (ordered_at p tt k HO)) as IS. cbv zeta in IS.
  destruct IS as ((f & _ & E) & _). rewrite E. pose proof (ordered_at p tt k HO) as L.
  assert (B : heat_at p tt k <= clamp (sc_heatSP (sched_of p tt k)) (sc_coolSP (sched_of p tt k)) f <= cool_at p tt k).
  { cbn [sched_of sc_heatSP sc_coolSP]. unfold clamp, Rmax, Rmin. repeat destruct (Rle_dec _ _); lra. }
  unfold band_state. unfold heat_at, cool_at in B. destruct (occupied tt k); auto.
Qed.
Lemma trace_finite p tt i : physical p -> ordered_setpoints p -> init_ok i -> (forall t, band_state p t -> fan_defined p t) ->
  forall k ws th raw, year_trace p tt i k ws th raw -> band_state p (th_ti th) -> Forall hour_finite raw.
Proof.
  intros HP HO HI HF k ws th raw TR. induction TR as [k ws th|k w ws th r rs HL E _ IH]; intros HB; constructor.
  - subst r. apply step_finite; auto. apply flow_nonneg, HP.
  - apply IH. apply band_next; assumption.
Qed.
Lemma finite_acc (l : list xr) : Forall finite l -> finite (accumulate l).
Proof.
  intros H. assert (E : exists v, l = map Fin v).
  { induction H as [|x l (a & ->) _ (v & ->)]; [exists []; reflexivity|exists (a :: v); reflexivity]. }
  destruct E as (v & ->). rewrite accumulate_fin. eexists; reflexivity.
Qed.
Lemma finite_div1000 (l : list xr) : Forall finite l -> Forall finite (map (fun watts => ndiv watts (zn 1000)) l).
Proof.
  intros H. apply Forall_forall. intros x Hx. apply in_map_iff in Hx as (y & <- & Hy). rewrite Forall_forall in H.
  destruct (H y Hy) as (a & ->). rewrite zn_IZR, div_fin by lra. eexists. reflexivity.
Qed.
Lemma Rsum_pos l x : (forall y, In y l -> 0 <= y) -> In x l -> x <= Rsum l.
Proof.
  induction l as [|y l IH]; intros H Hx; [destruct Hx|]. cbn [Rsum fold_right]. fold (Rsum l).
  assert (N : 0 <= Rsum l).
  { clear IH Hx. assert (G : forall z, In z l -> 0 <= z) by (intros; apply H; right; assumption). clear H.
    induction l as [|z l IH]; cbn [Rsum fold_right]; [lra|]. fold (Rsum l). pose proof (G z (or_introl eq_refl)).
    assert (0 <= Rsum l) by (apply IH; intros; apply G; right; assumption). lra. }
  destruct Hx as [->|Hx]; [lra|]. pose proof (H y (or_introl eq_refl)).
  assert (x <= Rsum l) by (apply IH; [intros; apply H; right; assumption|assumption]). lra.
Qed.

Lemma C15_l p ws r0 agg rows r : physical p -> ordered_setpoints p -> plant_ok p -> (forall t, band_state p t -> fan_defined p t) ->
  simulate (map_params Fin p) (map (map_weather Fin) ws) (map_ratios Fin r0) agg = Ok (rows, r) ->
  (exists raw h q, simulateRaw (map_params Fin p) (map (map_weather Fin) ws) (map_ratios Fin r0) = Ok (raw, r) /\
     In h raw /\ 0 < q /\ (hr_Qneed_ht h = Fin q \/ hr_Qneed_cl h = Fin q)) ->
  forall row x, In row rows -> In x row -> finite x.
Proof.
  intros HP HO PO HF H (raw & h & q & Hraw & Hh & Hq & Hneed).
  destruct (simulate_det _ _ _ _ _ _ H) as (raw' & Hr & [HL HS] & CS). rewrite Hraw in Hr. apply ok_inj in Hr.
  apply pair_equal_spec in Hr as [<- _].
  destruct (real_needs raw (C03_run_l _ _ _ _ _ HP Hraw)) as (needs & A & B & D).
  destruct (totals_fin raw needs A B) as [TA TB]. set (HH := Rsum (map fst needs)) in *. set (CC := Rsum (map snd needs)) in *.
  assert (N1 : forall y, In y (map fst needs) -> 0 <= y).
  { intros y Hy. apply in_map_iff in Hy as (n & <- & Hn). rewrite Forall_forall in D. apply (D n Hn). }
  assert (N2 : forall y, In y (map snd needs) -> 0 <= y).
  { intros y Hy. apply in_map_iff in Hy as (n & <- & Hn). rewrite Forall_forall in D. apply (D n Hn). }
  assert (Z1 : 0 <= HH). { unfold HH. destruct (map fst needs) as [|y l]; [cbn; lra|]. pose proof (Rsum_pos _ y N1 (or_introl eq_refl)). specialize (N1 y (or_introl eq_refl)). lra. }
  assert (Z2 : 0 <= CC). { unfold CC. destruct (map snd needs) as [|y l]; [cbn; lra|]. pose proof (Rsum_pos _ y N2 (or_introl eq_refl)). specialize (N2 y (or_introl eq_refl)). lra. }
  assert (POS : 0 < CC + HH).
  { destruct Hneed as [E|E].
    - assert (I1 : In (Fin q) (map hr_Qneed_ht raw)) by (rewrite <- E; apply in_map, Hh). rewrite A in I1.
      apply in_map_iff in I1 as (n & En & Hn). apply fin_inj in En. pose proof (Rsum_pos _ (fst n) N1 (in_map fst _ _ Hn)). unfold HH, CC in *. lra.
    - assert (I1 : In (Fin q) (map hr_Qneed_cl raw)) by (rewrite <- E; apply in_map, Hh). rewrite B in I1.
      apply in_map_iff in I1 as (n & En & Hn). apply fin_inj in En. pose proof (Rsum_pos _ (snd n) N2 (in_map snd _ _ Hn)). unfold HH, CC in *. lra. }
  destruct (run_timetable _ _ _ _ Hraw) as (tt & HT).
  destruct (run_trace p tt ws r0 raw r HP HT Hraw) as (i & _ & HI & TR).
  assert (HFin : Forall hour_finite raw).
  { refine (trace_finite p tt i HP HO HI HF _ _ _ _ TR _). left. reflexivity. }
  assert (FV : forall v, In v (resultVectors (map_params Fin p) raw) -> Forall finite v).
  { assert (G : forall f : hourres xr -> xr, (forall x, hour_finite x -> finite (f x)) -> Forall finite (map f raw)).
    { intros f Hf. apply Forall_forall. intros x Hx. apply in_map_iff in Hx as (y & <- & Hy). apply Hf. rewrite Forall_forall in HFin. exact (HFin y Hy). }
    assert (GZ : Forall finite (map (fun _ : hourres xr => zn 0 : xr) raw)).
    { apply G. intros. rewrite zn_IZR. eexists. reflexivity. }
    assert (VH : Forall finite (map (fun watts : xr => ndiv watts (zn 1000)) (map (fun need => ndiv (ndiv need (eta_dist_ht (map_params Fin p) (Fin HH) (Fin CC)))
        (ht_efficiency (pa_heating (map_params Fin p)))) (map hr_Qneed_ht raw)))).
    { rewrite A, !map_map. apply Forall_map_all. intros n. rewrite charge_ht by assumption. eexists. reflexivity. }
    assert (VC : Forall finite (map (fun watts : xr => ndiv watts (zn 1000)) (map (fun need => ndiv (ndiv need (eta_dist_cl (map_params Fin p) (Fin HH) (Fin CC)))
        (cl_cop (pa_cooling (map_params Fin p)))) (map hr_Qneed_cl raw)))).
    { rewrite B, !map_map. apply Forall_map_all. intros n. rewrite charge_cl by assumption. eexists. reflexivity. }
    intros v Hv. unfold resultVectors in Hv. rewrite TA, TB in Hv. cbn [map In] in Hv.
    assert (CASE : forall b : bool, Forall finite (map (fun watts : xr => ndiv watts (zn 1000)) (if b then map (fun _ : hourres xr => zn 0) raw else
       (map (fun need => ndiv (ndiv need (eta_dist_ht (map_params Fin p) (Fin HH) (Fin CC))) (ht_efficiency (pa_heating (map_params Fin p)))) (map hr_Qneed_ht raw))))).
    { intros []; [apply finite_div1000, GZ|exact VH]. }
    repeat (destruct Hv as [<-|Hv]; [first [exact VC
      | match goal with |- context [if ?b then _ else _] => destruct b end; first [exact VH | apply finite_div1000; exact GZ]
      | apply finite_div1000; first [exact GZ | apply G; intros ? (F1 & F2 & F3 & F4 & F5 & F6 & F7 & F8 & F9); assumption]]|]).
    contradiction. }
  intros row x Hrow Hx. apply In_nth_error in Hx as (k & Hk). apply In_nth_error in Hrow as (j & Hj).
  assert (K13 : (k < 13)%nat).
  { rewrite Forall_forall in HS. rewrite <- (HS row (nth_error_In _ _ Hj)). apply nth_error_Some. rewrite Hk. discriminate. }
  destruct (nth_error (resultVectors (map_params Fin p) raw) k) as [v|] eqn:Ev.
  2:{ apply nth_error_None in Ev. rewrite (proj1 (resultVectors_shape (map_params Fin p) raw)) in Ev. lia. }
  specialize (CS k v Ev). pose proof (FV v (nth_error_In _ _ Ev)) as Fv.
  assert (Fs : Forall finite (if agg then map (fun m => accumulate (month_part m v)) (zrange 1 12) else v)).
  { destruct agg; [|exact Fv]. apply Forall_map_all. intros m. apply finite_acc, month_part_Forall, Fv. }
  clear - CS Fs Hj Hk. revert j Hj. induction CS as [|rw y rws ys Hy _ IH]; intros j Hj; [destruct j; discriminate Hj|].
  apply Forall_cons_iff in Fs as [Fy Fs]. destruct j as [|j]; cbn in Hj.
  - injection Hj as ->. rewrite Hk in Hy. injection Hy as ->. exact Fy.
  - exact (IH Fs j Hj).
Qed.

(** A year at 20 degrees without any gain. *)
Definition still_office : params_t R := with_no_loads office 0 18 22.
Lemma still_physical : physical still_office.
Proof.
  constructor; try reflexivity; try nn.
  all: onum; try lra.
  apply Rmax_lub_lt; lra.
Qed.
Lemma still_ordered : ordered_setpoints still_office.
Proof. unfold ordered_setpoints. onum. lra. Qed.
Lemma still_plant : plant_ok still_office.
Proof. constructor; onum; lra. Qed.
Lemma still_fan t : band_state still_office t -> fan_defined still_office t.
Proof.
  intros B. assert (C : 18 <= t <= 22). { unfold band_state in B. revert B. onum. lra. }
  pose proof Rdblmin_pos. unfold fan_defined, fan_den_ht, fan_den_cl. onum.
  split; apply Rgt_not_eq; apply Rplus_le_lt_0_compat; try assumption; apply Rmult_le_pos; try lra; apply Rmult_le_pos; lra.
Qed.
Lemma still_timetable : timetable_of still_office office_hours.
Proof. exact office_timetable. Qed.
Lemma still_run : exists raw r, simulateRaw (map_params Fin still_office) (map (map_weather Fin) (constant_year 8760 20)) no_ratios = Ok (raw, r).
Proof.
  rewrite map_constant_year. apply simulateRaw_ok.
  - apply office_ints.
  - reflexivity.
  - rewrite constant_year_length; lia.
  - apply constant_year_nine.
Qed.
Lemma dark_zn t : Forall (eq 0) (we_sol {| we_wind := zn 2; we_temp := t; we_sol := repeat (zn 0 : R) 9 |}).
Proof. cbn [we_sol]. apply Forall_forall. intros x Hx. apply repeat_spec in Hx. subst x. num. lra. Qed.
Lemma still_step k : iso_step (rc_at still_office office_hours k {| we_wind := zn 2; we_temp := 20; we_sol := repeat (zn 0 : R) 9 |} 20)
    (heat_at still_office office_hours k) (cool_at still_office office_hours k) 20 20 20 0 0.
Proof.
  set (w := {| we_wind := zn 2; we_temp := 20; we_sol := repeat (zn 0 : R) 9 |}).
  set (sc := {| sc_vent := flow_at still_office office_hours k; sc_extEquip := 0; sc_intEquip := equip_at still_office office_hours k;
     sc_extLight := 0; sc_intLight := lights_at still_office office_hours k; sc_heatSP := 20; sc_coolSP := 20 |}).
  assert (Q : quiet still_office 20 20 sc w).
  { constructor; cbn [sc_vent sc_intEquip sc_intLight sc_heatSP sc_coolSP sc w we_temp]; try lra.
    - apply flow_nonneg, still_physical.
    - unfold equip_at. destruct (occupied _ _); reflexivity.
    - unfold lights_at. destruct (occupied _ _); reflexivity.
    - apply dark_zn.
    - assert (sp_supplied still_office 20 = 20) by (apply office_supplied; lra). lra. }
  pose proof (quiet_rc still_office 20 20 sc w 20 still_physical Q) as (G & O & S).
  cbn [sc sc_vent sc_intEquip sc_intLight] in G, O, S. unfold rc_at.
  set (x := hour_rc _ _ _ _ _ _ _ _) in *. destruct G as (G1 & G2 & G3).
  assert (O' : rc_out x = 20) by lra. assert (S' : rc_sup x = 20) by lra.
  assert (B : rc_balance x 0 20 20 20 20).
  { unfold rc_balance. rewrite G1, G2, G3, O', S'. repeat split; lra. }
  unfold iso_step. split; [|split; [|lra]].
  - exists 20. split; [do 2 eexists; exact B|].
    assert (E : heat_at still_office office_hours k = 18 /\ cool_at still_office office_hours k = 22).
    { unfold heat_at, cool_at. destruct (occupied _ _); split; reflexivity. }
    destruct E as [-> ->]. unfold clamp. rewrite Rmin_right, Rmax_right; lra.
  - exists 20. replace (0 - 0) with 0 by lra. exact B.
Qed.
Lemma still_hours n : forall k, iso_hours still_office office_hours k 20 20
  (repeat {| we_wind := zn 2; we_temp := 20; we_sol := repeat (zn 0 : R) 9 |} n) (repeat (0, 0) n).
Proof. induction n as [|n IH]; intros k; cbn [repeat]; [constructor|]. econstructor; [apply still_step|apply IH]. Qed.

Lemma still_needs raw r : simulateRaw (map_params Fin still_office) (map (map_weather Fin) (constant_year 8760 20)) no_ratios = Ok (raw, r) ->
  map (fun h => (hr_Qneed_ht h, hr_Qneed_cl h)) raw = repeat (Fin 0, Fin 0) (Z.to_nat 8760).
Proof.
  intros H. destruct (C04_year_l _ _ _ _ _ still_physical still_ordered still_timetable H) as (needs & IH & E).
  rewrite E. assert (L : length needs = Z.to_nat 8760).
  { pose proof (simulateRaw_length _ _ _ _ _ H). assert (E' := f_equal (@length _) E). rewrite !map_length in E'. lia. }
  rewrite (iso_hours_unique _ _ still_physical _ _ _ _ _ IH (repeat (0, 0) (Z.to_nat 8760)) (still_hours _ _)).
  - rewrite map_repeat. reflexivity.
  - rewrite repeat_length. exact L.
Qed.
Lemma nan_div (x : xr) : ndiv x NaN = NaN.
Proof. destruct x; reflexivity. Qed.
Lemma nan_add (x : xr) : nadd x NaN = NaN.
Proof. destruct x; reflexivity. Qed.
Lemma still_eta_cl raw : (exists n, map (fun h => (hr_Qneed_ht h, hr_Qneed_cl h)) raw = repeat (Fin 0, Fin 0) n) ->
  eta_dist_cl (map_params Fin still_office) (accumulate (map hr_Qneed_ht raw)) (accumulate (map hr_Qneed_cl raw)) = NaN.
Proof.
  intros (n & E).
  assert (Z : forall m, accumulate (repeat (Fin 0) m) = Fin 0).
  { intros m. apply acc_zero. apply Forall_forall. intros x Hx. symmetry. exact (repeat_spec _ _ _ Hx). }
  assert (A : map hr_Qneed_ht raw = repeat (Fin 0) n).
  { apply (f_equal (map fst)) in E. rewrite map_map, map_repeat in E. exact E. }
  assert (B : map hr_Qneed_cl raw = repeat (Fin 0) n).
  { apply (f_equal (map snd)) in E. rewrite map_map, map_repeat in E. exact E. }
  rewrite A, B, Z. unfold eta_dist_cl.
  assert (F : f_dem_ht (Fin 0) (Fin 0) = NaN).
  { unfold f_dem_ht. replace (ndiv (Fin 0) (nadd (Fin 0) (Fin 0))) with NaN; [reflexivity|].
    cbn [ndiv nadd xr_num xadd xdiv]. destruct (Req_EM_T _ _); [|lra]. unfold xscale. repeat (destruct (Rlt_dec _ _); [lra|]). reflexivity. }
  unfold f_dem_cl. rewrite F.
  replace (nsub (zn 1) NaN) with NaN by (rewrite zn_IZR; reflexivity).
  replace (nmax NaN (lit 1 10 : xr)) with NaN by (rewrite lit_fin; reflexivity).
  rewrite nan_div. reflexivity.
Qed.
Lemma is_series_head {T} k (row : list T) rows x v : is_series k (row :: rows) (x :: v) -> nth_error row k = Some x.
Proof. intros H. inversion H. assumption. Qed.
Lemma acc_nan l : accumulate (NaN :: l) = NaN.
Proof. change (NaN :: l) with ([NaN] ++ l). rewrite accumulate_app. unfold accumulate at 1. cbn [fold_left]. rewrite zn_IZR. destruct (accumulate l); reflexivity. Qed.
(** Every property precondition holds, the weather is finite, and yet the cooling energy of every hour and month is NaN. *)
Lemma C15_nan_l (agg : bool) : exists p ws rows r,
  physical p /\ ordered_setpoints p /\ plant_ok p /\ (forall t, band_state p t -> fan_defined p t) /\
  simulate (map_params Fin p) (map (map_weather Fin) ws) no_ratios agg = Ok (rows, r) /\
  exists row, In row rows /\ nth_error row elec_cooling = Some NaN.
Proof.
  destruct still_run as (raw & r & Hraw).
  destruct (simulate_series _ _ _ _ _ Hraw) as (hr & mr & E1 & E2 & [S1 _] & [S2 _] & CS).
  exists still_office, (constant_year 8760 20), (if agg then mr else hr), r.
  split; [exact still_physical|]. split; [exact still_ordered|]. split; [exact still_plant|]. split; [exact still_fan|].
  split; [destruct agg; assumption|].
  pose proof (still_needs raw r Hraw) as NZ.
  pose proof (still_eta_cl raw (ex_intro _ _ NZ)) as EN.
  pose proof (CS elec_cooling _ eq_refl) as [C1 C2]. unfold resultVectors in C1, C2. rewrite EN in C1, C2.
  assert (V : map (fun watts : xr => ndiv watts (zn 1000)) (map (fun need => ndiv (ndiv need NaN) (cl_cop (pa_cooling (map_params Fin still_office)))) (map hr_Qneed_cl raw))
     = repeat NaN (length raw)).
  { rewrite !map_map. clear. induction raw as [|h raw IH]; [reflexivity|]. cbn [map repeat length]. rewrite IH. f_equal. rewrite nan_div. rewrite zn_IZR. reflexivity. }
  rewrite V in C1, C2.
  assert (LR : length raw = S (Z.to_nat 8759)).
  { pose proof (simulateRaw_length _ _ _ _ _ Hraw). lia. }
  destruct agg.
  - destruct mr as [|row mr]; [discriminate S2|]. exists row. split; [left; reflexivity|].
    change (zrange 1 12) with (1%Z :: zrange 2 11) in C2. cbn [map] in C2.
    rewrite (is_series_head _ _ _ _ _ C2). f_equal. rewrite LR.
    rewrite month_part_interval by lia. replace (24 * days_before 1)%Z with 0%Z by reflexivity. cbn [skipn Z.to_nat].
    replace (Z.to_nat (24 * days_before (1 + 1) - 0)) with (S (Z.to_nat 743)) by reflexivity. cbn [repeat firstn].
    apply acc_nan.
  - rewrite LR in C1. destruct hr as [|row hr]; [inversion C1|]. exists row. split; [left; reflexivity|].
    exact (is_series_head _ _ _ _ _ C1).
Qed.
