(** Which parameters the end uses of the hourly engine depend on. *)
From Coq Require Import String List ZArith Lia Bool.
From Verif Require Import Base Num M_TimeFrame M_Params M_UserModel M_Hourly S_Calendar S_Loading S_Results S_Inputs
  L_Calendar L_HourlyShape L_HourlyOut.
Import ListNotations.
Open Scope list_scope.

Section Look.
Context {T : Type}.
Definition number_of (key : string) : option (building_model T -> T) :=
  option_map snd (find (fun e => String.eqb (fst e) key) (required_numbers ++ optional_numbers)).
Definition vector_of (key : string) : option (building_model T -> list T) :=
  option_map snd (find (fun e => String.eqb (fst e) key) required_vectors).
Definition flag_of (key : string) : option (building_model T -> bool) :=
  option_map snd (find (fun e => String.eqb (fst e) key) optional_flags).
Definition word_of (key : string) : option (building_model T -> T) :=
  option_map (fun e => snd (fst e)) (find (fun e => String.eqb (fst (fst e)) key) (@required_words T)).
Definition reads {A} (of : string -> option (building_model T -> A)) (keys : list string) (u : building_model T) : list (option A) :=
  map (fun key => option_map (fun p => p u) (of key)) keys.

Lemma find_key {A} (l : list (string * A)) key p : option_map snd (find (fun e => String.eqb (fst e) key) l) = Some p -> In (key, p) l.
Proof.
  destruct (find _ l) as [[k q]|] eqn:E; [|discriminate]. cbn. intros H. injection H as ->.
  apply find_some in E. destruct E as [I E]. cbn in E. apply String.eqb_eq in E. subst k. exact I.
Qed.
Lemma same_numbers keys (u u' : building_model T) : same_parameters keys u u' -> reads number_of keys u' = reads number_of keys u.
Proof.
  intros H. apply map_ext_in. intros key I. destruct (number_of key) as [p|] eqn:E; [|reflexivity].
  cbn. f_equal. apply (H key I), find_key, E.
Qed.
Lemma same_vectors keys (u u' : building_model T) : same_parameters keys u u' -> reads vector_of keys u' = reads vector_of keys u.
Proof.
  intros H. apply map_ext_in. intros key I. destruct (vector_of key) as [p|] eqn:E; [|reflexivity].
  cbn. f_equal. apply (H key I), find_key, E.
Qed.
Lemma same_flags keys (u u' : building_model T) : same_parameters keys u u' -> reads flag_of keys u' = reads flag_of keys u.
Proof.
  intros H. apply map_ext_in. intros key I. destruct (flag_of key) as [p|] eqn:E; [|reflexivity].
  cbn. f_equal. apply (H key I), find_key, E.
Qed.
Lemma same_words keys (u u' : building_model T) : same_parameters keys u u' -> reads word_of keys u' = reads word_of keys u.
Proof.
  intros H. apply map_ext_in. intros key I. destruct (word_of key) as [p|] eqn:E; [|reflexivity].
  cbn. f_equal. unfold word_of in E. destruct (find _ required_words) as [[[k q] words]|] eqn:F; [|discriminate E].
  cbn in E. injection E as ->. apply find_some in F. destruct F as [F1 F2]. cbn in F2. apply String.eqb_eq in F2. subst k.
  apply (proj1 (proj2 (proj2 (H key I))) p words F1).
Qed.
Lemma same_app keys keys' (u u' : building_model T) : same_parameters (keys ++ keys') u u' ->
  same_parameters keys u u' /\ same_parameters keys' u u'.
Proof. intros H. split; intros k I; apply H, in_or_app; auto. Qed.
End Look.

(** The records of two buildings, with the fields named by [keys] identified. *)
Ltac open_buildings u u' :=
  destruct u as [[[] [] [] [] [] [] [] [] [] ?] ?]; destruct u' as [[[] [] [] [] [] [] [] [] [] ?] ?].
Ltac identify H :=
  let A := fresh in let B := fresh in let C := fresh in let D := fresh in
  pose proof (same_numbers _ _ _ H) as A; pose proof (same_vectors _ _ _ H) as B;
  pose proof (same_flags _ _ _ H) as C; pose proof (same_words _ _ _ H) as D;
  vm_compute in A, B, C, D; clear H;
  try (injection A; intros; subst); clear A; try (injection B; intros; subst); clear B;
  try (injection C; intros; subst); clear C; try (injection D; intros; subst); clear D.

Section Frame.
Context {T : Type} {N : Num T}.
Implicit Types (u : building_model T).

Lemma sched_at_inv (f : Z -> Z -> sched T) h d sc :
  sched_at (map (fun h => map (fun d => f h d) (zrange 0 7)) (zrange 0 24)) h d = Ok sc -> sc = f h d.
Proof.
  unfold sched_at. intros S. destruct (Z.ltb_spec h 0); [discriminate S|]. destruct (Z.ltb_spec d 0); [discriminate S|].
  cbn [orb] in S. apply obind_ok in S as (row & S1 & S2). unfold vget in S1, S2.
  assert (Hh : (h < 24)%Z).
  { destruct (Z.ltb_spec h 24); [assumption|]. rewrite nth_error_map, (proj2 (nth_error_None (zrange 0 24) (Z.to_nat h))) in S1 by (rewrite zrange_length; lia).
    discriminate S1. }
  rewrite nth_error_map, nth_error_zrange in S1 by lia. cbn [option_map] in S1.
  match type of S1 with Ok ?x = _ => assert (E : row = x) by congruence end. subst row. clear S1.
  assert (Hd : (d < 7)%Z).
  { destruct (Z.ltb_spec d 7); [assumption|]. rewrite nth_error_map, (proj2 (nth_error_None (zrange 0 7) (Z.to_nat d))) in S2 by (rewrite zrange_length; lia).
    discriminate S2. }
  rewrite nth_error_map, nth_error_zrange in S2 by lia. cbn [option_map] in S2. injection S2 as <-.
  rewrite ?Z.add_0_l, !Z2Nat.id by lia. reflexivity.
Qed.

Lemma populate_cells p tbl : populateSchedules (T:=T) p = Ok tbl -> exists ds de hs he,
  ntrunc (po_daysStart (pa_population p)) = Some ds /\ ntrunc (po_daysEnd (pa_population p)) = Some de /\
  ntrunc (po_hoursStart (pa_population p)) = Some hs /\ ntrunc (po_hoursEnd (pa_population p)) = Some he /\
  forall h d sc, sched_at tbl h d = Ok sc -> sc = sched_cell p ds de hs he h d.
Proof.
  unfold populateSchedules, cast_int. intros H.
  destruct (ntrunc (po_daysStart _)) as [ds|] eqn:E1; [|discriminate H].
  destruct (ntrunc (po_daysEnd _)) as [de|] eqn:E2; [|discriminate H].
  destruct (ntrunc (po_hoursStart _)) as [hs|] eqn:E3; [|discriminate H].
  destruct (ntrunc (po_hoursEnd _)) as [he|] eqn:E4; [|discriminate H].
  cbn [obind] in H. exists ds, de, hs, he. do 4 (split; [reflexivity|]).
  match type of H with Ok ?x = _ => assert (E : tbl = x) by congruence end. subst tbl. clear H.
  intros h d sc S. exact (sched_at_inv _ _ _ _ S).
Qed.

(** A relation kept by every hour holds for the whole year. *)
Lemma yearLoop_rel (RT : thermal T -> thermal T -> Prop) (RH : hourres T -> hourres T -> Prop) p p' i i' tbl tbl' :
  (forall h d sc sc' w th th', sched_at tbl h d = Ok sc -> sched_at tbl' h d = Ok sc' -> RT th th' ->
     RH (fst (calculateHour p i sc w th)) (fst (calculateHour p' i' sc' w th')) /\
     RT (snd (calculateHour p i sc w th)) (snd (calculateHour p' i' sc' w th'))) ->
  forall frame ws th th' raw raw', RT th th' ->
  yearLoop p i tbl frame ws th = Ok raw -> yearLoop p' i' tbl' frame ws th' = Ok raw' -> Forall2 RH raw raw'.
Proof.
  intros S. induction frame as [|[c|] frame IH]; intros ws th th' raw raw' R H H'; cbn [yearLoop] in H, H'.
  - injection H as <-. injection H' as <-. constructor.
  - destruct ws as [|w ws]; [discriminate H|].
    destruct (nine (we_sol w)); cbn [negb] in H, H'; [|discriminate H].
    apply obind_ok in H as (sc & Hsc & H). apply obind_ok in H' as (sc' & Hsc' & H').
    destruct (S _ _ _ _ w _ _ Hsc Hsc' R) as [S1 S2].
    destruct (calculateHour p i sc w th) as [r1 th1]. destruct (calculateHour p' i' sc' w th') as [r1' th1'].
    apply obind_ok in H as (rs & Hrs & H). injection H as <-. apply obind_ok in H' as (rs' & Hrs' & H'). injection H' as <-.
    cbn in S1, S2. constructor; [exact S1|]. exact (IH _ _ _ _ _ S2 Hrs Hrs').
  - discriminate H.
Qed.

Definition initOf (p : params_t T) (r0 : ratios T) : hinit T :=
  let s := pa_structure p in
  let ss := pa_settings p in
  let ctl := lighting_control (pa_building p) (pa_lighting p) in
  let r := fold_left (push_ratios s) (seq 0 9) r0 in
  let Cm := Cm_of s in
  let Am := massArea Cm in
  let tapfa := st_totalAreaPerFloorArea s in
  let prs := ((tapfa - Am - hwin_of s / h_ms_of p) / tapfa)%num in
  let prm := (Am / tapfa)%num in
     {| hi_maxRatio := fst ctl;
        hi_elightNatural := snd ctl;
        hi_areaNatRatio := areaNatRatio p;
        hi_shadingUse := (st_shadingFactorAtMaxUse s / st_irradianceForMaxShadingUse s)%num;
        hi_q4Pa := q4Pa_of p;
        hi_H_tris := H_tris_of p;
        hi_Cm := Cm;
        hi_Am := Am;
        hi_hwin := hwin_of s;
        hi_prsInterior := ((zn 1 - ss_phiIntFraction ss) * prs)%num;
        hi_prsSolar := ((zn 1 - ss_phiSolFraction ss) * prs)%num;
        hi_prmInterior := ((zn 1 - ss_phiIntFraction ss) * prm)%num;
        hi_prmSolar := ((zn 1 - ss_phiSolFraction ss) * prm)%num;
        hi_H_ms := H_ms_of p;
        hi_hem := hem_of p;
        hi_windImpactHz := nmax (lit 1 10) (ve_hzone (pa_ventilation p));
        hi_windImpactSupplyRatio := nmax (lit 1 100000) (ve_fanControlFactor (pa_ventilation p));
        hi_ratios := r |}.
Lemma Ok_inj {A} (x y : A) : Ok x = Ok y -> x = y.
Proof. congruence. Qed.
Lemma initialize_is p r0 i : initialize p r0 = Ok i -> i = initOf p r0.
Proof. unfold initialize. destruct (negb _); [discriminate|]. intros H. symmetry. exact (Ok_inj _ _ H). Qed.

(** Two simulations, hour by hour. *)
Lemma raw_rel (RT : thermal T -> thermal T -> Prop) (RH : hourres T -> hourres T -> Prop) p p' ws r0 raw r raw' r' :
  simulateRaw p ws r0 = Ok (raw, r) -> simulateRaw p' ws r0 = Ok (raw', r') -> RT thermal0 thermal0 ->
  (forall ds de hs he ds' de' hs' he' h d w th th',
     ntrunc (po_daysStart (pa_population p)) = Some ds -> ntrunc (po_daysEnd (pa_population p)) = Some de ->
     ntrunc (po_hoursStart (pa_population p)) = Some hs -> ntrunc (po_hoursEnd (pa_population p)) = Some he ->
     ntrunc (po_daysStart (pa_population p')) = Some ds' -> ntrunc (po_daysEnd (pa_population p')) = Some de' ->
     ntrunc (po_hoursStart (pa_population p')) = Some hs' -> ntrunc (po_hoursEnd (pa_population p')) = Some he' ->
     RT th th' ->
     RH (fst (calculateHour p (initOf p r0) (sched_cell p ds de hs he h d) w th))
        (fst (calculateHour p' (initOf p' r0) (sched_cell p' ds' de' hs' he' h d) w th')) /\
     RT (snd (calculateHour p (initOf p r0) (sched_cell p ds de hs he h d) w th))
        (snd (calculateHour p' (initOf p' r0) (sched_cell p' ds' de' hs' he' h d) w th'))) ->
  Forall2 RH raw raw'.
Proof.
  unfold simulateRaw. intros H H' R0 S.
  apply obind_ok in H as (tbl & Ht & H). apply obind_ok in H' as (tbl' & Ht' & H').
  apply obind_ok in H as (i & Hi & H). apply obind_ok in H' as (i' & Hi' & H').
  apply obind_ok in H as (fr & Hf & H). rewrite Hf in H'. cbn [obind] in H'.
  apply obind_ok in H as (rw & Hr & H). apply obind_ok in H' as (rw' & Hr' & H').
  injection H as <- <-. injection H' as <- <-.
  apply initialize_is in Hi, Hi'. subst i i'.
  destruct (populate_cells _ _ Ht) as (ds & de & hs & he & A1 & A2 & A3 & A4 & A).
  destruct (populate_cells _ _ Ht') as (ds' & de' & hs' & he' & B1 & B2 & B3 & B4 & B).
  refine (yearLoop_rel RT RH _ _ _ _ _ _ _ _ _ _ _ _ _ R0 Hr Hr').
  intros h d sc sc' w th th' Hs Hs' R. rewrite (A _ _ _ Hs), (B _ _ _ Hs').
  apply (S ds de hs he ds' de' hs' he'); assumption.
Qed.
Definition anyT (a b : thermal T) : Prop := True.

Lemma Forall2_map_eq {A B} (f : A -> B) l l' : Forall2 (fun a b => f a = f b) l l' -> map f l = map f l'.
Proof. induction 1 as [|a b l l' E _ IH]; cbn; [reflexivity|]. rewrite E, IH. reflexivity. Qed.

Variables (u u' : building_model T) (ws : list (weather T)) (r0 r r' : ratios T) (raw raw' : list (hourres T)).
Hypothesis (H : simulateRaw (bm_params u) ws r0 = Ok (raw, r)).
Hypothesis (H' : simulateRaw (bm_params u') ws r0 = Ok (raw', r')).

Lemma ext_light_same : same_parameters ["exteriorlightingpower"; "floorarea"]%string u u' -> map hr_illum_ext raw' = map hr_illum_ext raw.
Proof.
  intros S. symmetry. apply Forall2_map_eq. refine (raw_rel anyT _ _ _ _ _ _ _ _ _ H H' I _).
  intros. split; [|exact I]. clear H H'. open_buildings u u'. identify S. reflexivity.
Qed.
Lemma ext_equip_same : same_parameters ["externalequipment"; "floorarea"]%string u u' -> map hr_extEquip raw' = map hr_extEquip raw.
Proof.
  intros S. symmetry. apply Forall2_map_eq. refine (raw_rel anyT _ _ _ _ _ _ _ _ _ H H' I _).
  intros. split; [|exact I]. clear H H'. open_buildings u u'. identify S. reflexivity.
Qed.

(** The occupied period as the two simulations see it. *)
Lemma occupancy_same : same_parameters occupancy_inputs u u' ->
  po_daysStart (pa_population (bm_params u')) = po_daysStart (pa_population (bm_params u)) /\
  po_daysEnd (pa_population (bm_params u')) = po_daysEnd (pa_population (bm_params u)) /\
  po_hoursStart (pa_population (bm_params u')) = po_hoursStart (pa_population (bm_params u)) /\
  po_hoursEnd (pa_population (bm_params u')) = po_hoursEnd (pa_population (bm_params u)).
Proof. clear H H'. intros S. open_buildings u u'. identify S. repeat split. Qed.
Lemma raw_rel_occ (RT : thermal T -> thermal T -> Prop) (RH : hourres T -> hourres T -> Prop) :
  same_parameters occupancy_inputs u u' -> RT thermal0 thermal0 ->
  (forall ds de hs he h d w th th', RT th th' ->
     RH (fst (calculateHour (bm_params u) (initOf (bm_params u) r0) (sched_cell (bm_params u) ds de hs he h d) w th))
        (fst (calculateHour (bm_params u') (initOf (bm_params u') r0) (sched_cell (bm_params u') ds de hs he h d) w th')) /\
     RT (snd (calculateHour (bm_params u) (initOf (bm_params u) r0) (sched_cell (bm_params u) ds de hs he h d) w th))
        (snd (calculateHour (bm_params u') (initOf (bm_params u') r0) (sched_cell (bm_params u') ds de hs he h d) w th'))) ->
  Forall2 RH raw raw'.
Proof.
  intros O R0 S. destruct (occupancy_same O) as (O1 & O2 & O3 & O4). refine (raw_rel RT RH _ _ _ _ _ _ _ _ H H' R0 _).
  intros ds de hs he ds' de' hs' he' h d w th th' A1 A2 A3 A4 B1 B2 B3 B4 R.
  rewrite O1, A1 in B1. rewrite O2, A2 in B2. rewrite O3, A3 in B3. rewrite O4, A4 in B4.
  injection B1 as <-. injection B2 as <-. injection B3 as <-. injection B4 as <-. apply S, R.
Qed.

Lemma plug_same : same_parameters hourly_plug_inputs u u' -> map hr_plug raw' = map hr_plug raw.
Proof.
  intros S. symmetry. apply Forall2_map_eq. refine (raw_rel_occ anyT _ (proj1 (same_app _ _ _ _ S)) I _).
  intros. split; [|exact I]. clear H H'. open_buildings u u'. identify S. reflexivity.
Qed.

(** The daylight parts of the ratio vectors. *)
Definition same_light (a b : ratios T) : Prop :=
  ra_nlaWMovableShading a = ra_nlaWMovableShading b /\ ra_naturalLightRatio a = ra_naturalLightRatio b /\
  ra_naturalLightShadeRatioReduction a = ra_naturalLightShadeRatioReduction b.
Lemma push_same_light s s' : st_windowArea s' = st_windowArea s -> st_windowSDF s' = st_windowSDF s -> st_floorArea s' = st_floorArea s ->
  forall l a b, same_light a b -> same_light (fold_left (push_ratios s) l a) (fold_left (push_ratios s') l b).
Proof.
  intros E1 E2 E3. induction l as [|k l IH]; intros a b S; [exact S|]. cbn [fold_left]. apply IH.
  destruct S as (S1 & S2 & S3). unfold same_light, push_ratios, surf_at, structureCalculations.
  cbn [ra_nlaWMovableShading ra_naturalLightRatio ra_naturalLightShadeRatioReduction su_nlams su_nla].
  rewrite E1, E2, E3, S1, S2, S3. repeat split.
Qed.
Lemma light_area_same : same_parameters hourly_light_inputs u u' -> forall sol,
  electricForTotalLightArea (pa_structure (bm_params u')) (initOf (bm_params u') r0) sol =
  electricForTotalLightArea (pa_structure (bm_params u)) (initOf (bm_params u) r0) sol.
Proof.
  clear H H'. intros S sol.
  assert (E : st_windowArea (pa_structure (bm_params u')) = st_windowArea (pa_structure (bm_params u)) /\
              st_windowSDF (pa_structure (bm_params u')) = st_windowSDF (pa_structure (bm_params u)) /\
              st_floorArea (pa_structure (bm_params u')) = st_floorArea (pa_structure (bm_params u)) /\
              st_irradianceForMaxShadingUse (pa_structure (bm_params u')) = st_irradianceForMaxShadingUse (pa_structure (bm_params u)) /\
              st_shadingFactorAtMaxUse (pa_structure (bm_params u')) = st_shadingFactorAtMaxUse (pa_structure (bm_params u)) /\
              lighting_control (pa_building (bm_params u')) (pa_lighting (bm_params u')) = lighting_control (pa_building (bm_params u)) (pa_lighting (bm_params u)) /\
              li_naturallyLightedArea (pa_lighting (bm_params u')) = li_naturallyLightedArea (pa_lighting (bm_params u))).
  { open_buildings u u'. identify S. repeat split. }
  destruct E as (E1 & E2 & E3 & E4 & E5 & E6 & E7).
  destruct (push_same_light _ _ E1 E2 E3 (seq 0 9) r0 r0) as (_ & L2 & L3); [repeat split|].
  unfold electricForTotalLightArea, lightingLevel, initOf, areaNatRatio.
  cbn [hi_maxRatio hi_elightNatural hi_areaNatRatio hi_shadingUse hi_ratios].
  rewrite E3, E4, E5, E6, E7, <- L2, <- L3. reflexivity.
Qed.
Lemma light_same : same_parameters hourly_light_inputs u u' -> map hr_illum raw' = map hr_illum raw.
Proof.
  intros S. symmetry. apply Forall2_map_eq. refine (raw_rel_occ anyT _ (proj1 (same_app _ _ _ _ S)) I _).
  intros. split; [|exact I]. unfold calculateHour. cbn [fst hr_illum].
  rewrite (light_area_same S). f_equal. clear H H'. open_buildings u u'. identify S. reflexivity.
Qed.

(** The thermal calculation of an hour. *)
Lemma need_parts : same_parameters hourly_need_inputs u u' -> forall ds de hs he h d w th,
  let i := initOf (bm_params u) r0 in let i' := initOf (bm_params u') r0 in
  let sc := sched_cell (bm_params u) ds de hs he h d in let sc' := sched_cell (bm_params u') ds de hs he h d in
  i' = i /\ ventFlow (bm_params u') sc' = ventFlow (bm_params u) sc /\
  sc_heatSP sc' = sc_heatSP sc /\ sc_coolSP sc' = sc_coolSP sc /\
  phiInt (bm_params u') i' sc' w = phiInt (bm_params u) i sc w /\
  phiAir (bm_params u') i' sc' w = phiAir (bm_params u) i sc w /\
  hourNet (bm_params u') i' sc' w th = hourNet (bm_params u) i sc w th.
Proof.
  clear H H'. intros S ds de hs he h d w th i i' sc sc'.
  assert (P : i' = i /\ ventFlow (bm_params u') sc' = ventFlow (bm_params u) sc /\
    sc_heatSP sc' = sc_heatSP sc /\ sc_coolSP sc' = sc_coolSP sc /\ sc_intEquip sc' = sc_intEquip sc /\ sc_intLight sc' = sc_intLight sc /\
    li_elecInternalGains (pa_lighting (bm_params u')) = li_elecInternalGains (pa_lighting (bm_params u)) /\
    st_irradianceForMaxShadingUse (pa_structure (bm_params u')) = st_irradianceForMaxShadingUse (pa_structure (bm_params u)) /\
    ss_phiSolFraction (pa_settings (bm_params u')) = ss_phiSolFraction (pa_settings (bm_params u)) /\
    ss_phiIntFraction (pa_settings (bm_params u')) = ss_phiIntFraction (pa_settings (bm_params u)) /\
    ve_heatRecoveryEfficiency (pa_ventilation (bm_params u')) = ve_heatRecoveryEfficiency (pa_ventilation (bm_params u)) /\
    ve_preheat (pa_ventilation (bm_params u')) = ve_preheat (pa_ventilation (bm_params u)) /\
    ve_dCp (pa_ventilation (bm_params u')) = ve_dCp (pa_ventilation (bm_params u))).
  { subst i i' sc sc'. open_buildings u u'. identify S. repeat split. }
  destruct P as (P1 & P2 & P3 & P4 & P5 & P6 & P7 & P8 & P9 & P10 & P11 & P12 & P13).
  assert (LA : forall sol, electricForTotalLightArea (pa_structure (bm_params u')) i' sol = electricForTotalLightArea (pa_structure (bm_params u)) i sol).
  { intros sol. rewrite P1. unfold electricForTotalLightArea, lightingLevel. rewrite P8. reflexivity. }
  assert (QS : forall sol, qSolarHeatGain (pa_structure (bm_params u')) i' sol = qSolarHeatGain (pa_structure (bm_params u)) i sol).
  { intros sol. rewrite P1. unfold qSolarHeatGain. rewrite P8. reflexivity. }
  assert (PI : phiInt (bm_params u') i' sc' w = phiInt (bm_params u) i sc w).
  { unfold phiInt. rewrite LA, P5, P6, P7. reflexivity. }
  do 4 (split; [assumption|]). split; [exact PI|]. split.
  - unfold phiAir. rewrite PI, QS, P9, P10. reflexivity.
  - unfold hourNet. rewrite PI, QS, P2, P1. f_equal. unfold airflow. rewrite P11, P12, P13. reflexivity.
Qed.

Definition same_need (a b : hourres T) : Prop := hr_Qneed_ht a = hr_Qneed_ht b /\ hr_Qneed_cl a = hr_Qneed_cl b.
Lemma need_same : same_parameters hourly_need_inputs u u' -> Forall2 same_need raw raw'.
Proof.
  intros S. refine (raw_rel_occ eq _ _ eq_refl _).
  { intros k Hk. apply S. unfold hourly_need_inputs, hourly_light_inputs. apply in_or_app. left. apply in_or_app. left. exact Hk. }
  intros ds de hs he h d w th th' <-.
  destruct (need_parts S ds de hs he h d w th) as (Q1 & Q2 & Q3 & Q4 & Q5 & Q6 & Q7).
  unfold calculateHour, same_need. cbn [fst snd hr_Qneed_ht hr_Qneed_cl]. rewrite Q3, Q4, Q6, Q7. repeat split.
Qed.
Lemma occ_of_need keys : same_parameters (hourly_need_inputs ++ keys) u u' -> same_parameters occupancy_inputs u u'.
Proof.
  intros S k Hk. apply S. unfold hourly_need_inputs, hourly_light_inputs. apply in_or_app. left. apply in_or_app. left. apply in_or_app. left. exact Hk.
Qed.
Lemma pump_same : same_parameters hourly_pump_inputs u u' -> map hr_pump raw' = map hr_pump raw.
Proof.
  intros S. symmetry. apply Forall2_map_eq. refine (raw_rel_occ eq _ (occ_of_need _ S) eq_refl _).
  intros ds de hs he h d w th th' <-. apply same_app in S. destruct S as [S S2].
  destruct (need_parts S ds de hs he h d w th) as (Q1 & Q2 & Q3 & Q4 & Q5 & Q6 & Q7).
  unfold calculateHour. cbn [fst snd hr_pump]. rewrite Q3, Q4, Q6, Q7. split; [|reflexivity].
  generalize (nmax (zn 0) (plantPower (hourNet (bm_params u) (initOf (bm_params u) r0) (sched_cell (bm_params u) ds de hs he h d) w th) (th_TMT1 th)
    (phiAir (bm_params u) (initOf (bm_params u) r0) (sched_cell (bm_params u) ds de hs he h d) w) (sc_heatSP (sched_cell (bm_params u) ds de hs he h d)) (sc_coolSP (sched_cell (bm_params u) ds de hs he h d)))).
  generalize (nmax (zn 0) (nopp (plantPower (hourNet (bm_params u) (initOf (bm_params u) r0) (sched_cell (bm_params u) ds de hs he h d) w th) (th_TMT1 th)
    (phiAir (bm_params u) (initOf (bm_params u) r0) (sched_cell (bm_params u) ds de hs he h d) w) (sc_heatSP (sched_cell (bm_params u) ds de hs he h d)) (sc_coolSP (sched_cell (bm_params u) ds de hs he h d))))).
  clear - S2. intros x y. open_buildings u u'. identify S2. reflexivity.
Qed.
Lemma fan_same : same_parameters hourly_fan_inputs u u' -> map hr_fan raw' = map hr_fan raw.
Proof.
  intros S. symmetry. apply Forall2_map_eq. refine (raw_rel_occ eq _ (occ_of_need _ S) eq_refl _).
  intros ds de hs he h d w th th' <-. pose proof S as S0. apply same_app in S. destruct S as [S _].
  destruct (need_parts S ds de hs he h d w th) as (Q1 & Q2 & Q3 & Q4 & Q5 & Q6 & Q7).
  unfold calculateHour. cbn [fst snd hr_fan]. rewrite Q2, Q3, Q4, Q6, Q7. split; [|reflexivity].
  generalize (nmax (zn 0) (plantPower (hourNet (bm_params u) (initOf (bm_params u) r0) (sched_cell (bm_params u) ds de hs he h d) w th) (th_TMT1 th)
    (phiAir (bm_params u) (initOf (bm_params u) r0) (sched_cell (bm_params u) ds de hs he h d) w) (sc_heatSP (sched_cell (bm_params u) ds de hs he h d)) (sc_coolSP (sched_cell (bm_params u) ds de hs he h d)))).
  generalize (nmax (zn 0) (nopp (plantPower (hourNet (bm_params u) (initOf (bm_params u) r0) (sched_cell (bm_params u) ds de hs he h d) w th) (th_TMT1 th)
    (phiAir (bm_params u) (initOf (bm_params u) r0) (sched_cell (bm_params u) ds de hs he h d) w) (sc_heatSP (sched_cell (bm_params u) ds de hs he h d)) (sc_coolSP (sched_cell (bm_params u) ds de hs he h d))))).
  generalize (ventFlow (bm_params u) (sched_cell (bm_params u) ds de hs he h d)).
  clear - S0. intros v x y. open_buildings u u'. identify S0. reflexivity.
Qed.

Lemma need_maps (l l' : list (hourres T)) : Forall2 same_need l l' -> map hr_Qneed_ht l' = map hr_Qneed_ht l /\ map hr_Qneed_cl l' = map hr_Qneed_cl l.
Proof.
  induction 1 as [|a b l l' [E1 E2] _ [IH1 IH2]]; [split; reflexivity|]. cbn. rewrite E1, E2, IH1, IH2. split; reflexivity.
Qed.
Lemma raw_lengths : length raw' = length raw.
Proof. pose proof (simulateRaw_length _ _ _ _ _ H). pose proof (simulateRaw_length _ _ _ _ _ H'). lia. Qed.
Lemma zeroes_same {A B} (x : B) (l l' : list A) : length l' = length l -> map (fun _ => x) l' = map (fun _ => x) l.
Proof. revert l. induction l' as [|a l' IH]; intros [|b l] E; try discriminate E; [reflexivity|]. cbn. f_equal. apply IH. injection E as E. exact E. Qed.

Lemma dhw_zero : map hr_dhw raw' = map hr_dhw raw.
Proof.
  apply eq_sym, Forall2_map_eq. refine (raw_rel anyT _ _ _ _ _ _ _ _ _ H H' I _). intros. split; [reflexivity|exact I].
Qed.

Lemma column_same k : same_parameters (hourly_inputs k) u u' ->
  nth_error (resultVectors (bm_params u') raw') k = nth_error (resultVectors (bm_params u) raw) k.
Proof.
  intros S. pose proof raw_lengths as L.
  assert (Z : map (fun _ : hourres T => zn (T:=T) 0) raw' = map (fun _ => zn 0) raw) by (apply zeroes_same, L).
  unfold resultVectors. rewrite Z.
  destruct k as [|[|[|[|[|[|[|[|[|[|[|[|[|k]]]]]]]]]]]]];
    unfold hourly_inputs in S; cbn [nth map nth_error] in S |- *; [f_equal; f_equal ..|destruct k; reflexivity].
  - assert (N0 : Forall2 same_need raw raw') by (apply need_same; intros key I; apply S, in_or_app; left; exact I).
    destruct (need_maps _ _ N0) as [-> ->]. apply same_app in S. destruct S as [_ S].
    unfold eta_dist_ht. clear - S. open_buildings u u'. identify S. reflexivity.
  - assert (N0 : Forall2 same_need raw raw') by (apply need_same; intros key I; apply S, in_or_app; left; exact I).
    destruct (need_maps _ _ N0) as [-> ->]. apply same_app in S. destruct S as [_ S].
    unfold eta_dist_cl. clear - S. open_buildings u u'. identify S. reflexivity.
  - apply light_same, S.
  - apply ext_light_same, S.
  - apply fan_same, S.
  - apply pump_same, S.
  - apply plug_same, S.
  - apply ext_equip_same, S.
  - apply dhw_zero.
  - assert (N0 : Forall2 same_need raw raw') by (apply need_same; intros key I; apply S, in_or_app; left; exact I).
    destruct (need_maps _ _ N0) as [-> ->]. apply same_app in S. destruct S as [_ S].
    unfold eta_dist_ht. clear - S. open_buildings u u'. identify S. reflexivity.
Qed.
End Frame.

Section Table.
Context {T : Type} {N : Num T}.
Lemma hourly_depends (u u' : building_model T) ws r0 agg rows r rows' r' k :
  same_parameters (hourly_inputs k) u u' ->
  simulate (bm_params u) ws r0 agg = Ok (rows, r) -> simulate (bm_params u') ws r0 agg = Ok (rows', r') ->
  map (fun row => nth_error row k) rows' = map (fun row => nth_error row k) rows.
Proof.
  intros S H H'.
  destruct (simulate_det _ _ _ _ _ _ H) as (raw & Hr & [Sl Sh] & C). destruct (simulate_det _ _ _ _ _ _ H') as (raw' & Hr' & [Sl' Sh'] & C').
  pose proof (column_same _ _ _ _ _ _ _ _ Hr Hr' k S) as E.
  destruct (nth_error (resultVectors (bm_params u) raw) k) as [v|] eqn:Ev.
  - pose proof (is_series_slot _ _ _ (C k v Ev)) as X. pose proof (is_series_slot _ _ _ (C' k v E)) as X'.
    unfold slot_series in X, X'. congruence.
  - apply nth_error_None in Ev. rewrite (proj1 (resultVectors_shape _ _)) in Ev.
    transitivity (map (fun _ : list T => @None T) rows).
    + rewrite <- (zeroes_same None rows rows') by lia. apply map_ext_in. intros row I.
      rewrite Forall_forall in Sh'. apply nth_error_None. rewrite (Sh' _ I). exact Ev.
    + apply map_ext_in. intros row I. rewrite Forall_forall in Sh. symmetry. apply nth_error_None. rewrite (Sh _ I). exact Ev.
Qed.

(** [u] with the unused parameters of [u']. *)
Definition hourly_patch (u u' : building_model T) : building_model T :=
  {| bm_params := {|
    pa_structure := {| st_floorArea := st_floorArea (pa_structure (bm_params u)); st_wallArea := st_wallArea (pa_structure (bm_params u)); st_windowArea := st_windowArea (pa_structure (bm_params u)); st_wallU := st_wallU (pa_structure (bm_params u)); st_windowU := st_windowU (pa_structure (bm_params u)); st_wallEmissivity := st_wallEmissivity (pa_structure (bm_params u')); st_wallAbsorption := st_wallAbsorption (pa_structure (bm_params u)); st_windowSDF := st_windowSDF (pa_structure (bm_params u)); st_windowSHGC := st_windowSHGC (pa_structure (bm_params u)); st_windowSCF := st_windowSCF (pa_structure (bm_params u)); st_interiorHeatCapacity := st_interiorHeatCapacity (pa_structure (bm_params u)); st_wallHeatCapacity := st_wallHeatCapacity (pa_structure (bm_params u)); st_buildingHeight := st_buildingHeight (pa_structure (bm_params u)); st_infiltrationRate := st_infiltrationRate (pa_structure (bm_params u')); st_R_se := st_R_se (pa_structure (bm_params u)); st_irradianceForMaxShadingUse := st_irradianceForMaxShadingUse (pa_structure (bm_params u)); st_shadingFactorAtMaxUse := st_shadingFactorAtMaxUse (pa_structure (bm_params u)); st_totalAreaPerFloorArea := st_totalAreaPerFloorArea (pa_structure (bm_params u)); st_win_ff := st_win_ff (pa_structure (bm_params u')); st_win_F_W := st_win_F_W (pa_structure (bm_params u')); st_R_sc_ext := st_R_sc_ext (pa_structure (bm_params u')) |};
    pa_heating := {| ht_tempOcc := ht_tempOcc (pa_heating (bm_params u)); ht_tempUnocc := ht_tempUnocc (pa_heating (bm_params u)); ht_hvacLossFactor := ht_hvacLossFactor (pa_heating (bm_params u)); ht_efficiency := ht_efficiency (pa_heating (bm_params u)); ht_energyType := ht_energyType (pa_heating (bm_params u)); ht_pumpControlReduction := ht_pumpControlReduction (pa_heating (bm_params u)); ht_hotWaterDemand := ht_hotWaterDemand (pa_heating (bm_params u')); ht_hotWaterDistributionEfficiency := ht_hotWaterDistributionEfficiency (pa_heating (bm_params u')); ht_hotWaterSystemEfficiency := ht_hotWaterSystemEfficiency (pa_heating (bm_params u')); ht_hotWaterEnergyType := ht_hotWaterEnergyType (pa_heating (bm_params u')); ht_hotcoldWasteFactor := ht_hotcoldWasteFactor (pa_heating (bm_params u)); ht_forcedAir := ht_forcedAir (pa_heating (bm_params u)); ht_dT_supp := ht_dT_supp (pa_heating (bm_params u)); ht_E_pumps := ht_E_pumps (pa_heating (bm_params u)); ht_T_ctrl_flag := ht_T_ctrl_flag (pa_heating (bm_params u')); ht_a_H0 := ht_a_H0 (pa_heating (bm_params u')); ht_tau_H0 := ht_tau_H0 (pa_heating (bm_params u')); ht_DH_YesNo := ht_DH_YesNo (pa_heating (bm_params u')); ht_eta_DH_network := ht_eta_DH_network (pa_heating (bm_params u')); ht_eta_DH_sys := ht_eta_DH_sys (pa_heating (bm_params u')); ht_frac_DH_free := ht_frac_DH_free (pa_heating (bm_params u')); ht_dhw_tset := ht_dhw_tset (pa_heating (bm_params u')); ht_dhw_tsupply := ht_dhw_tsupply (pa_heating (bm_params u')) |};
    pa_cooling := {| cl_tempOcc := cl_tempOcc (pa_cooling (bm_params u)); cl_tempUnocc := cl_tempUnocc (pa_cooling (bm_params u)); cl_cop := cl_cop (pa_cooling (bm_params u)); cl_partialLoadValue := cl_partialLoadValue (pa_cooling (bm_params u')); cl_hvacLossFactor := cl_hvacLossFactor (pa_cooling (bm_params u)); cl_pumpControlReduction := cl_pumpControlReduction (pa_cooling (bm_params u)); cl_forcedAir := cl_forcedAir (pa_cooling (bm_params u)); cl_T_ctrl_flag := cl_T_ctrl_flag (pa_cooling (bm_params u')); cl_dT_supp := cl_dT_supp (pa_cooling (bm_params u)); cl_DC_YesNo := cl_DC_YesNo (pa_cooling (bm_params u')); cl_eta_DC_network := cl_eta_DC_network (pa_cooling (bm_params u')); cl_eta_DC_COP := cl_eta_DC_COP (pa_cooling (bm_params u')); cl_eta_DC_frac_abs := cl_eta_DC_frac_abs (pa_cooling (bm_params u')); cl_eta_DC_COP_abs := cl_eta_DC_COP_abs (pa_cooling (bm_params u')); cl_frac_DC_free := cl_frac_DC_free (pa_cooling (bm_params u')); cl_E_pumps := cl_E_pumps (pa_cooling (bm_params u)) |};
    pa_ventilation := {| ve_supplyRate := ve_supplyRate (pa_ventilation (bm_params u)); ve_supplyDifference := ve_supplyDifference (pa_ventilation (bm_params u')); ve_heatRecoveryEfficiency := ve_heatRecoveryEfficiency (pa_ventilation (bm_params u)); ve_exhaustAirRecirculated := ve_exhaustAirRecirculated (pa_ventilation (bm_params u')); ve_type := ve_type (pa_ventilation (bm_params u')); ve_fanPower := ve_fanPower (pa_ventilation (bm_params u)); ve_fanControlFactor := ve_fanControlFactor (pa_ventilation (bm_params u)); ve_preheat := ve_preheat (pa_ventilation (bm_params u)); ve_n50 := ve_n50 (pa_ventilation (bm_params u)); ve_hzone := ve_hzone (pa_ventilation (bm_params u)); ve_p_exp := ve_p_exp (pa_ventilation (bm_params u')); ve_zone_frac := ve_zone_frac (pa_ventilation (bm_params u')); ve_stack_exp := ve_stack_exp (pa_ventilation (bm_params u')); ve_stack_coeff := ve_stack_coeff (pa_ventilation (bm_params u')); ve_wind_exp := ve_wind_exp (pa_ventilation (bm_params u')); ve_wind_coeff := ve_wind_coeff (pa_ventilation (bm_params u')); ve_dCp := ve_dCp (pa_ventilation (bm_params u)); ve_vent_rate_flag := ve_vent_rate_flag (pa_ventilation (bm_params u')); ve_H_ve := ve_H_ve (pa_ventilation (bm_params u')) |};
    pa_lighting := {| li_densityOcc := li_densityOcc (pa_lighting (bm_params u)); li_densityUnocc := li_densityUnocc (pa_lighting (bm_params u)); li_dimmingFraction := li_dimmingFraction (pa_lighting (bm_params u)); li_exteriorEnergy := li_exteriorEnergy (pa_lighting (bm_params u)); li_n_day_start := li_n_day_start (pa_lighting (bm_params u')); li_n_day_end := li_n_day_end (pa_lighting (bm_params u')); li_n_weeks := li_n_weeks (pa_lighting (bm_params u')); li_elecInternalGains := li_elecInternalGains (pa_lighting (bm_params u)); li_permLightPowerDensity := li_permLightPowerDensity (pa_lighting (bm_params u')); li_presenceSensorAd := li_presenceSensorAd (pa_lighting (bm_params u)); li_automaticAd := li_automaticAd (pa_lighting (bm_params u)); li_presenceAutoAd := li_presenceAutoAd (pa_lighting (bm_params u)); li_manualSwitchAd := li_manualSwitchAd (pa_lighting (bm_params u)); li_presenceSensorLux := li_presenceSensorLux (pa_lighting (bm_params u)); li_automaticLux := li_automaticLux (pa_lighting (bm_params u)); li_presenceAutoLux := li_presenceAutoLux (pa_lighting (bm_params u)); li_manualSwitchLux := li_manualSwitchLux (pa_lighting (bm_params u)); li_naturallyLightedArea := li_naturallyLightedArea (pa_lighting (bm_params u)) |};
    pa_building := {| bu_lightingOccupancySensor := bu_lightingOccupancySensor (pa_building (bm_params u)); bu_constantIllumination := bu_constantIllumination (pa_building (bm_params u')); bu_elecApplianceOcc := bu_elecApplianceOcc (pa_building (bm_params u)); bu_elecApplianceUnocc := bu_elecApplianceUnocc (pa_building (bm_params u)); bu_gasApplianceOcc := bu_gasApplianceOcc (pa_building (bm_params u')); bu_gasApplianceUnocc := bu_gasApplianceUnocc (pa_building (bm_params u')); bu_bem := bu_bem (pa_building (bm_params u')); bu_externalEquipment := bu_externalEquipment (pa_building (bm_params u)) |};
    pa_population := {| po_hoursEnd := po_hoursEnd (pa_population (bm_params u)); po_hoursStart := po_hoursStart (pa_population (bm_params u)); po_daysEnd := po_daysEnd (pa_population (bm_params u)); po_daysStart := po_daysStart (pa_population (bm_params u)); po_densityOcc := po_densityOcc (pa_population (bm_params u')); po_densityUnocc := po_densityUnocc (pa_population (bm_params u')); po_heatGainPerPerson := po_heatGainPerPerson (pa_population (bm_params u')) |};
    pa_settings := pa_settings (bm_params u);
    pa_phys := {| ph_rhoCpAir := ph_rhoCpAir (pa_phys (bm_params u)); ph_rhoCpWater := ph_rhoCpWater (pa_phys (bm_params u')) |};
    pa_terrain := pa_terrain (bm_params u') |};
     bm_weatherFilePath := bm_weatherFilePath u' |}.
Lemma obind_ext {A B} (a : outcome A) (f g : A -> outcome B) : (forall x, f x = g x) -> obind a f = obind a g.
Proof. intros E. destruct a; cbn; [apply E|reflexivity ..]. Qed.
Lemma yearLoop_ext p p' i tbl : (forall i sc w th, calculateHour (T:=T) p' i sc w th = calculateHour p i sc w th) ->
  forall frame ws th, yearLoop p' i tbl frame ws th = yearLoop p i tbl frame ws th.
Proof.
  intros E. induction frame as [|[c|] frame IH]; intros ws th; cbn [yearLoop]; try reflexivity.
  destruct ws as [|w ws]; [reflexivity|]. destruct (negb _); [reflexivity|].
  destruct (sched_at _ _ _) as [sc| |]; cbn [obind]; try reflexivity. rewrite E. destruct (calculateHour p i sc w th) as [x th'].
  rewrite IH. reflexivity.
Qed.
Lemma hourly_ignores (u u' : building_model T) ws r0 agg :
  (forall key, In key all_parameters -> ~ In key hourly_unused -> same_parameter key u u') ->
  simulate (bm_params u') ws r0 agg = simulate (bm_params u) ws r0 agg.
Proof.
  intros S0.
  assert (S : same_parameters (filter (fun key => negb (existsb (String.eqb key) hourly_unused)) all_parameters) u u').
  { intros key I. apply filter_In in I. destruct I as [I J]. apply S0; [exact I|]. intros K.
    apply negb_true_iff in J. assert (X : existsb (String.eqb key) hourly_unused = true) by (apply existsb_exists; exists key; split; [exact K|apply String.eqb_refl]).
    congruence. }
  clear S0.
  match type of S with same_parameters ?l _ _ => let v := eval vm_compute in l in change (same_parameters v u u') in S end.
  assert (E : u' = hourly_patch u u') by (open_buildings u u'; identify S; reflexivity).
  rewrite E. clear E S. generalize u'. clear u'. intros u'.
  assert (E1 : populateSchedules (bm_params (hourly_patch u u')) = populateSchedules (bm_params u)) by reflexivity.
  assert (E2 : initialize (bm_params (hourly_patch u u')) r0 = initialize (bm_params u) r0) by reflexivity.
  assert (E3 : forall raw, resultVectors (bm_params (hourly_patch u u')) raw = resultVectors (bm_params u) raw) by (intros raw; reflexivity).
  assert (E4 : forall i sc w th, calculateHour (bm_params (hourly_patch u u')) i sc w th = calculateHour (bm_params u) i sc w th).
  { intros i sc w th.     unfold calculateHour, hourNet, phiAir, phiInt, ventFlow, electricForTotalLightArea, lightingLevel, qSolarHeatGain, airflow, fanEnergy, pumpEnergy, exteriorLighting.
    reflexivity. }
  unfold simulate, simulateRaw. rewrite E1, E2.
  transitivity (obind (obind (populateSchedules (bm_params u)) (fun tbl => obind (initialize (bm_params u) r0) (fun i => obind timeFrame (fun frame =>
    obind (yearLoop (bm_params u) i tbl frame ws thermal0) (fun raw => Ok (raw, hi_ratios i))))))
    (fun x => let (raw, r) := x in obind (finish agg (resultVectors (bm_params u) raw)) (fun rows => Ok (rows, r)))); [|reflexivity].
  match goal with |- obind ?a ?f = obind ?b ?g => assert (Ea : a = b); [|rewrite Ea] end.
  - apply obind_ext. intros tbl. apply obind_ext. intros i. apply obind_ext. intros frame.
    rewrite (yearLoop_ext _ _ _ _ E4). reflexivity.
  - apply obind_ext. intros [raw r]. rewrite E3. reflexivity.
Qed.
End Table.
