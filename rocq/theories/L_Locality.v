(** Which hours and months of weather an end use depends on. *)
From Coq Require Import List ZArith Lia Bool.
From Verif Require Import Base Num M_Params M_TimeFrame M_Hourly M_Monthly S_Results S_Monthly S_Locality L_HourlyShape L_HourlyOut L_Monthly3 L_Inputs.
Import ListNotations.

Section Hourly.
Context {T : Type} {N : Num T}.
Lemma yearLoop_at p i tbl : forall frame ws ws' th th' raw raw',
  yearLoop (T:=T) p i tbl frame ws th = Ok raw -> yearLoop p i tbl frame ws' th' = Ok raw' ->
  forall n h h', nth_error raw n = Some h -> nth_error raw' n = Some h' ->
  exists sc w w' t t', nth_error ws n = Some w /\ nth_error ws' n = Some w' /\
    h = fst (calculateHour p i sc w t) /\ h' = fst (calculateHour p i sc w' t').
Proof.
  induction frame as [|[c|] frame IH]; intros ws ws' th th' raw raw' H H' n h h' E E'; cbn [yearLoop] in H, H'.
  - injection H as <-. destruct n; discriminate E.
  - destruct ws as [|w ws]; [discriminate H|]. destruct ws' as [|w' ws']; [discriminate H'|].
    destruct (negb (nine (we_sol w))); [discriminate H|]. destruct (negb (nine (we_sol w'))); [discriminate H'|].
    apply obind_ok in H as (sc & Hsc & H). apply obind_ok in H' as (sc' & Hsc' & H'). rewrite Hsc in Hsc'. injection Hsc' as <-.
    destruct (calculateHour p i sc w th) as [r1 th1] eqn:C. destruct (calculateHour p i sc w' th') as [r1' th1'] eqn:C'.
    apply obind_ok in H as (rs & Hrs & H). injection H as <-. apply obind_ok in H' as (rs' & Hrs' & H'). injection H' as <-.
    destruct n as [|n]; cbn [nth_error] in *.
    + injection E as <-. injection E' as <-. exists sc, w, w', th, th'. rewrite C, C'. repeat split.
    + exact (IH _ _ _ _ _ _ Hrs Hrs' n h h' E E').
  - discriminate H.
Qed.
Lemma raw_at p ws ws' r0 raw r raw' r' n h h' :
  simulateRaw (T:=T) p ws r0 = Ok (raw, r) -> simulateRaw p ws' r0 = Ok (raw', r') ->
  nth_error raw n = Some h -> nth_error raw' n = Some h' ->
  exists i sc w w' t t', nth_error ws n = Some w /\ nth_error ws' n = Some w' /\
    h = fst (calculateHour p i sc w t) /\ h' = fst (calculateHour p i sc w' t').
Proof.
  unfold simulateRaw. intros H H' E E'.
  apply obind_ok in H as (tbl & Ht & H). rewrite Ht in H'. cbn [obind] in H'.
  apply obind_ok in H as (i & Hi & H). rewrite Hi in H'. cbn [obind] in H'.
  apply obind_ok in H as (fr & Hf & H). rewrite Hf in H'. cbn [obind] in H'.
  apply obind_ok in H as (rw & Hr & H). apply obind_ok in H' as (rw' & Hr' & H').
  injection H as <- <-. injection H' as <- <-. exists i.
  destruct (yearLoop_at _ _ _ _ _ _ _ _ _ _ Hr Hr' n h h' E E') as (sc & w & w' & t & t' & X). exists sc, w, w', t, t'. exact X.
Qed.

Lemma series_cell k (rows : list (list T)) v n : is_series k rows v -> cell rows n k = nth_error v n.
Proof.
  intros S. revert n. induction S as [|row x rows v E S IH]; intros n; [destruct n; reflexivity|].
  destruct n as [|n]; [unfold cell; cbn; exact E|]. exact (IH n).
Qed.

Lemma nth_same (a b : list T) n d : nth_error a n = nth_error b n -> nth n a d = nth n b d.
Proof.
  intros E. destruct (nth_error b n) as [x|] eqn:B.
  - rewrite (nth_error_nth _ _ d B), (nth_error_nth _ _ d E). reflexivity.
  - apply nth_error_None in E, B. rewrite !nth_overflow by assumption. reflexivity.
Qed.
(** The columns that need no thermal calculation, one value at a time. *)
Definition at_hour (p : params_t T) (f : hourres T -> T) (k : nat) : Prop :=
  forall raw, nth_error (resultVectors p raw) k = Some (map (fun h => f h / zn 1000)%num raw).
Lemma hour_cells p ws ws' r0 rows rows' r r' n k f (P : weather T -> weather T -> Prop) :
  at_hour p f k ->
  (forall i sc w w' t t', P w w' -> f (fst (calculateHour p i sc w t)) = f (fst (calculateHour p i sc w' t'))) ->
  simulate p ws r0 false = Ok (rows, r) -> simulate p ws' r0 false = Ok (rows', r') ->
  (forall w w', nth_error ws n = Some w -> nth_error ws' n = Some w' -> P w w') ->
  cell rows' n k = cell rows n k.
Proof.
  intros F S H H' E. destruct (simulate_det _ _ _ _ _ _ H) as (raw & Hr & _ & C). destruct (simulate_det _ _ _ _ _ _ H') as (raw' & Hr' & _ & C').
  rewrite (series_cell _ _ _ n (C k _ (F raw))), (series_cell _ _ _ n (C' k _ (F raw'))), !nth_error_map.
  pose proof (simulateRaw_length _ _ _ _ _ Hr) as L. pose proof (simulateRaw_length _ _ _ _ _ Hr') as L'.
  destruct (nth_error raw n) as [h|] eqn:X; destruct (nth_error raw' n) as [h'|] eqn:X'.
  - cbn [option_map]. destruct (raw_at _ _ _ _ _ _ _ _ _ _ _ Hr Hr' X X') as (i & sc & w & w' & t & t' & W & W' & -> & ->).
    rewrite (S i sc w w' t t' (E w w' W W')). reflexivity.
  - apply nth_error_None in X'. assert (n < length raw)%nat by (apply nth_error_Some; congruence). lia.
  - apply nth_error_None in X. assert (n < length raw')%nat by (apply nth_error_Some; congruence). lia.
  - reflexivity.
Qed.
Lemma C84_hourly_l p ws ws' r0 rows rows' r r' n :
  simulate (T:=T) p ws r0 false = Ok (rows, r) -> simulate p ws' r0 false = Ok (rows', r') ->
  ((forall w w', nth_error ws n = Some w -> nth_error ws' n = Some w' -> we_sol w' = we_sol w) ->
     cell rows' n elec_int_lights = cell rows n elec_int_lights) /\
  ((forall w w', nth_error ws n = Some w -> nth_error ws' n = Some w' -> nth_error (we_sol w') 8 = nth_error (we_sol w) 8) ->
     cell rows' n elec_ext_lights = cell rows n elec_ext_lights) /\
  (forall k, In k [elec_int_equip; elec_ext_equip; elec_dhw; gas_cooling; gas_equip; gas_dhw] -> cell rows' n k = cell rows n k).
Proof.
  intros H H'. split; [|split].
  - intros E. apply (hour_cells p ws ws' r0 rows rows' r r' n _ hr_illum (fun w w' => we_sol w' = we_sol w)); try assumption.
    + intros raw. unfold resultVectors. cbn [elec_int_lights map nth_error]. rewrite map_map. reflexivity.
    + intros i sc w w' t t' X. cbn [calculateHour fst hr_illum]. rewrite X. reflexivity.
  - intros E. apply (hour_cells p ws ws' r0 rows rows' r r' n _ hr_illum_ext (fun w w' => nth_error (we_sol w') 8 = nth_error (we_sol w) 8)); try assumption.
    + intros raw. unfold resultVectors. cbn [elec_ext_lights map nth_error]. rewrite map_map. reflexivity.
    + intros i sc w w' t t' X. cbn [calculateHour fst hr_illum_ext]. unfold exteriorLighting.
      replace (at9 (we_sol w') 8) with (at9 (we_sol w) 8); [reflexivity|]. unfold at9.
      apply nth_same, eq_sym, X.
  - intros k I. assert (Z : forall f, (forall raw, nth_error (resultVectors p raw) k = Some (map (fun h => f h / zn 1000)%num raw)) ->
      (forall i sc w w' t t', f (fst (calculateHour p i sc w t)) = f (fst (calculateHour p i sc w' t'))) -> cell rows' n k = cell rows n k).
    { intros f F S. apply (hour_cells p ws ws' r0 rows rows' r r' n k f (fun _ _ => True)); auto. }
    cbn [In] in I. decompose [or] I; clear I; try contradiction; subst k; unfold resultVectors in Z.
    + apply (Z hr_plug); [intros; cbn [elec_int_equip map nth_error]; rewrite map_map; reflexivity|reflexivity].
    + apply (Z hr_extEquip); [intros; cbn [elec_ext_equip map nth_error]; rewrite map_map; reflexivity|reflexivity].
    + apply (Z hr_dhw); [intros; cbn [elec_dhw map nth_error]; rewrite map_map; reflexivity|reflexivity].
    + apply (Z (fun _ => zn 0)); [intros; cbn [gas_cooling map nth_error]; rewrite map_map; reflexivity|reflexivity].
    + apply (Z (fun _ => zn 0)); [intros; cbn [gas_equip map nth_error]; rewrite map_map; reflexivity|reflexivity].
    + apply (Z (fun _ => zn 0)); [intros; cbn [gas_dhw map nth_error]; rewrite map_map; reflexivity|reflexivity].
Qed.
End Hourly.

Section Monthly.
Context {T : Type} {N : Num T}.
Variable m : nat.
Definition agree {A} (v v' : list A) : Prop := nth_error v' m = nth_error v m.
Lemma agree_refl {A} (v : list A) : agree v v. Proof. reflexivity. Qed.
Lemma agree_map {A B} (f : A -> B) v v' : agree v v' -> agree (map f v) (map f v').
Proof. unfold agree. intros E. now rewrite !nth_error_map, E. Qed.
Lemma zipw_nth {A B C} (f : A -> B -> C) a : forall b n,
  nth_error (zipw f a b) n = match nth_error a n, nth_error b n with Some x, Some y => Some (f x y) | _, _ => None end.
Proof.
  induction a as [|x a IH]; intros [|y b] [|n]; cbn; try reflexivity.
  - now destruct (nth_error a n).
  - apply IH.
Qed.
Lemma agree_zipw {A B C} (f : A -> B -> C) a a' b b' : agree a a' -> agree b b' -> agree (zipw f a b) (zipw f a' b').
Proof. unfold agree. intros E F. now rewrite !zipw_nth, E, F. Qed.
Lemma agree_omap {A B} (f : A -> outcome B) v v' r r' : omap f v = Ok r -> omap f v' = Ok r' -> agree v v' -> agree r r'.
Proof.
  intros H H' E. destruct (omap_inv _ _ _ H) as [L I]. destruct (omap_inv _ _ _ H') as [L' I']. unfold agree in *.
  destruct (nth_error v m) as [a|] eqn:X.
  - destruct (I _ _ X) as (b & Hb & F). destruct (I' _ _ E) as (b' & Hb' & F'). rewrite Hb, Hb'. congruence.
  - apply nth_error_None in E, X. transitivity (@None B); [|symmetry]; apply nth_error_None; lia.
Qed.
Ltac local := unfold vadd, vsub, vmul, vdiv, vmax, scale, shift, divs, maskedMean in *;
  repeat first [assumption | apply agree_refl | apply agree_map | apply agree_zipw].

Variables (p : params_t T) (w w' : mweather T) (r r' : mresult T).
Hypothesis (R : run p w r) (R' : run p w' r') (same : same_month m w w').
Let S1 : agree (mw_msolar w) (mw_msolar w'). Proof. apply same. Qed.
Let S2 : agree (mw_mhdbt w) (mw_mhdbt w'). Proof. apply same. Qed.
Let S3 : agree (mw_mhEgh w) (mw_mhEgh w'). Proof. apply same. Qed.
Let S4 : agree (mw_mEgh w) (mw_mEgh w'). Proof. apply same. Qed.
Let S5 : agree (mw_mdbt w) (mw_mdbt w'). Proof. apply same. Qed.
Let S6 : agree (mw_mwind w) (mw_mwind w'). Proof. apply same. Qed.
Lemma occ_local : mr_occ r' = mr_occ r.
Proof. rewrite (rn_oc _ _ _ R), (rn_oc _ _ _ R'). reflexivity. Qed.
Record bd_agree (b b' : breakdown T) : Prop := mkBa {
  ba_down : agree (bd_hrsSunDown b) (bd_hrsSunDown b'); ba_wk_nt : agree (bd_wk_nt b) (bd_wk_nt b');
  ba_wke_day : agree (bd_wke_day b) (bd_wke_day b'); ba_wke_nt : agree (bd_wke_nt b) (bd_wke_nt b');
  ba_Tnt : agree (bd_Tnt b) (bd_Tnt b'); ba_Tday : agree (bd_Tday b) (bd_Tday b') }.
Lemma bd_local : bd_agree (mr_bd r) (mr_bd r').
Proof.
  pose proof (rn_bd _ _ _ R) as B. pose proof (rn_bd _ _ _ R') as B'. rewrite occ_local in B'. unfold solarRadiationBreakdown in B, B'. cbv zeta in B, B'.
  apply obind_ok in B as (d & D & B). apply obind_ok in B' as (d' & D' & B'). apply Ok_inj in B, B'. rewrite <- B, <- B'. clear B B'.
  pose proof (agree_omap _ _ _ _ _ D D' S3) as X. constructor; cbn [bd_hrsSunDown bd_wk_nt bd_wke_day bd_wke_nt bd_Tnt bd_Tday]; local.
Qed.
Lemma light_local : lu_month (mr_lu r') = lu_month (mr_lu r) /\ agree (lu_ext (mr_lu r)) (lu_ext (mr_lu r')) /\ mr_gains r' = mr_gains r.
Proof.
  rewrite (rn_gains _ _ _ R), (rn_gains _ _ _ R'), occ_local, (rn_lu _ _ _ R), (rn_lu _ _ _ R'). split; [reflexivity|]. split; [|reflexivity].
  unfold lightingEnergyUse. cbn [lu_ext]. local. apply ba_down, bd_local.
Qed.
Lemma sol_local : agree (mr_Esol r) (mr_Esol r').
Proof.
  destruct (rn_sol _ _ _ R) as (ws & W & ->). destruct (rn_sol _ _ _ R') as (ws' & W' & ->). rewrite W in W'. apply Ok_inj in W'. subst ws'.
  unfold solarHeatGain, irradiance. local.
Qed.
Lemma temps_local : agree (te_h (mr_temps r)) (te_h (mr_temps r')) /\ agree (te_c (mr_temps r)) (te_c (mr_temps r')) /\ te_tau (mr_temps r') = te_tau (mr_temps r).
Proof.
  pose proof (rn_temps _ _ _ R) as B. pose proof (rn_temps _ _ _ R') as B'. cbv zeta in B, B'. rewrite occ_local, (proj2 (proj2 light_local)) in B'.
  rewrite (rn_H _ _ _ R) in B. rewrite (rn_H _ _ _ R') in B'. unfold interiorTemp in B, B'.
  destruct (bemAdjust (bu_bem (pa_building p))) as [adj| |]; [cbn [obind] in B, B'|discriminate B|discriminate B]. cbv zeta in B, B'.
  apply Ok_inj in B, B'. rewrite <- B, <- B'. cbn [te_h te_c te_tau]. destruct bd_local. pose proof sol_local. unfold unoccupiedHeatGain.
  split; [|split; [|reflexivity]]; local.
Qed.
Lemma vent_local : agree (mr_Hve_ht r) (mr_Hve_ht r') /\ agree (mr_Hve_cl r) (mr_Hve_cl r').
Proof.
  destruct temps_local as (A & B & _). rewrite (rn_Hve_ht _ _ _ R), (rn_Hve_ht _ _ _ R'), (rn_Hve_cl _ _ _ R), (rn_Hve_cl _ _ _ R'), occ_local.
  unfold ventilationCalc. split; local.
Qed.
Lemma needs_local : agree (ne_ht (mr_needs r)) (ne_ht (mr_needs r')) /\ agree (ne_cl (mr_needs r)) (ne_cl (mr_needs r')) /\ agree (ne_fan (mr_needs r)) (ne_fan (mr_needs r')).
Proof.
  destruct temps_local as (A & B & C). destruct vent_local as [D E]. pose proof sol_local as F.
  rewrite (rn_needs _ _ _ R), (rn_needs _ _ _ R'), occ_local, (rn_H _ _ _ R), (rn_H _ _ _ R'), (proj2 (proj2 light_local)).
  unfold heatingAndCooling. cbv zeta. cbn [ne_ht ne_cl ne_fan]. rewrite C. unfold needHeating, needCooling, lossesHeating, lossesCooling, totalGain, fanEnergyMonthly. cbv zeta.
  split; [|split]; local.
Qed.
Definition local_uses : list nat := [elec_int_lights; elec_ext_lights; elec_fans; elec_int_equip; elec_ext_equip; elec_dhw; gas_equip; gas_dhw].
Lemma columns_local k : In k local_uses -> exists v v', nth_error (columns p r) k = Some v /\ nth_error (columns p r') k = Some v' /\ agree v v'.
Proof.
  destruct light_local as (A & B & _). destruct needs_local as (_ & _ & C). pose proof (rn_dhw _ _ _ R) as D. pose proof (rn_dhw _ _ _ R') as D'. rewrite <- D in D'.
  intros I. cbn [In local_uses] in I. decompose [or] I; clear I; try contradiction; subst k; eexists; eexists; (split; [reflexivity|split; [reflexivity|]]);
    rewrite ?occ_local, ?A, ?D'; local.
Qed.
End Monthly.

Lemma C84_monthly_l {T} {N : Num T} p (w w' : mweather T) rows rows' m k :
  same_month m w w' -> simulateMonthly p w = Ok rows -> simulateMonthly p w' = Ok rows' -> In k local_uses ->
  cell rows' m k = cell rows m k.
Proof.
  intros S H H' I. destruct (simulateMonthly_cases _ _ _ H) as (r & R & _ & C). destruct (simulateMonthly_cases _ _ _ H') as (r' & R' & _ & C').
  destruct (columns_local m p w w' r r' R R' S k I) as (v & v' & E & E' & X).
  rewrite (series_cell _ _ _ m (C k v E)), (series_cell _ _ _ m (C' k v' E')). exact X.
Qed.
Lemma C84_indifferent_l {T} {N : Num T} p (w w' : mweather T) rows rows' k :
  simulateMonthly p w = Ok rows -> simulateMonthly p w' = Ok rows' ->
  In k [elec_int_lights; elec_int_equip; elec_ext_equip; elec_dhw; gas_equip; gas_dhw] -> forall m, cell rows' m k = cell rows m k.
Proof.
  intros H H' I m. destruct (simulateMonthly_cases _ _ _ H) as (r & R & _ & C). destruct (simulateMonthly_cases _ _ _ H') as (r' & R' & _ & C').
  assert (O : mr_occ r' = mr_occ r) by (rewrite (rn_oc _ _ _ R), (rn_oc _ _ _ R'); reflexivity).
  assert (L : lu_month (mr_lu r') = lu_month (mr_lu r)) by (rewrite (rn_lu _ _ _ R), (rn_lu _ _ _ R'); reflexivity).
  assert (D : mr_dhw r' = mr_dhw r) by (rewrite (rn_dhw _ _ _ R), (rn_dhw _ _ _ R'); reflexivity).
  cbn [In] in I. decompose [or] I; clear I; try contradiction; subst k;
    match goal with |- cell _ _ ?k = _ => rewrite (series_cell _ _ _ m (C k _ eq_refl)), (series_cell _ _ _ m (C' k _ eq_refl)), ?O, ?L, ?D; reflexivity end.
Qed.
