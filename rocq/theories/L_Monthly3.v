(** The table returned by the monthly engine: shape and when it exists.  For every number type. *)
From Coq Require Import ZArith List Bool Lia.
From Verif Require Import Base Num M_Params M_Monthly L_HourlyShape S_Results S_Monthly L_Monthly.
Import ListNotations.
Open Scope nat_scope.

Lemma omap_ok {A B} (f : A -> outcome B) l : (exists r, omap f l = Ok r) <-> (forall a, In a l -> exists b, f a = Ok b).
Proof.
  induction l as [|a l IH]; cbn [omap]; split.
  - intros _ a [].
  - intros _. now exists [].
  - intros [r H]. destruct (f a) as [b| |] eqn:E; [cbn [obind] in H|discriminate H|discriminate H].
    intros x [<-|I]; [now exists b|]. apply IH; [|exact I]. destruct (omap f l) as [bs| |]; [now exists bs|discriminate H|discriminate H].
  - intros H. destruct (H a (or_introl eq_refl)) as [b ->]. cbn [obind]. destruct (proj2 IH) as [bs ->]; [intros x I; apply H; now right|].
    now exists (b :: bs).
Qed.
Lemma omap_never_throws {A B} (f : A -> outcome B) l : (forall a e, In a l -> f a <> Throw e) -> forall e, omap f l <> Throw e.
Proof.
  induction l as [|a l IH]; intros H e; cbn [omap]; [discriminate|].
  destruct (f a) as [b|x|] eqn:E; cbn [obind]; [|exfalso; exact (H a x (or_introl eq_refl) E)|discriminate].
  specialize (IH (fun y e I => H y e (or_intror I))). destruct (omap f l) as [bs|x|]; cbn [obind]; [discriminate| |discriminate]. intros _. exact (IH x eq_refl).
Qed.

Lemma outputRows_spec {T} n (cols : list (list T)) : (forall c, In c cols -> length c = n) ->
  forall start, exists rows, omap (fun i => omap (fun c => vget c i) cols) (seq start (n - start)) = Ok rows /\ length rows = n - start /\
  (forall row, In row rows -> length row = length cols) /\
  forall k c, nth_error cols k = Some c -> is_series k rows (skipn start c).
Proof.
  intros H start. remember (n - start) as j eqn:Ej. revert start Ej. induction j as [|j IH]; intros start Ej; cbn [seq omap].
  - exists []. split; [reflexivity|]. split; [reflexivity|]. split; [intros r []|]. intros k c E. rewrite skipn_all2; [constructor|].
    rewrite (H c (nth_error_In _ _ E)). lia.
  - assert (R : exists row, omap (fun c => vget c start) cols = Ok row).
    { apply omap_ok. intros c I. unfold vget. destruct (nth_error c start) eqn:E; [eauto|]. apply nth_error_None in E. rewrite (H c I) in E. lia. }
    destruct R as [row R]. rewrite R. cbn [obind]. destruct (IH (S start)) as (rows & -> & L & W & S'); [lia|]. cbn [obind].
    exists (row :: rows). destruct (omap_inv _ _ _ R) as [RL RN]. split; [reflexivity|]. split; [cbn; now rewrite L|]. split.
    + intros r [<-|I]; [exact RL|now apply W].
    + intros k c E. assert (Hc : length c = n) by (apply H; now apply (nth_error_In _ k)).
      destruct (nth_error c start) as [x|] eqn:Ex; [|apply nth_error_None in Ex; lia].
      assert (Es : skipn start c = x :: skipn (S start) c).
      { clear -Ex. revert start Ex. induction c as [|y c IHc]; intros [|s] Ex; try discriminate; cbn in *; [congruence|now apply IHc]. }
      rewrite Es. constructor; [|now apply S'].
      assert (B := RN k c E). destruct B as (b & Nb & Vb). unfold vget in Vb. rewrite Ex in Vb. congruence.
Qed.

Section Shape.
Context {T : Type} {N : Num T}.
Local Notation len v := (length v).

Lemma map_len {A B} (f : A -> B) l : length (map f l) = length l. Proof. apply map_length. Qed.
Ltac len := unfold vmul, vadd, vsub, vmax, vdiv, scale, shift, divs, all12; repeat progress rewrite ?zipw_length, ?map_length, ?repeat_length.

Lemma forallb_len (l : list (list T)) n : forallb (fun v => Nat.eqb (length v) n) l = true <-> forall v, In v l -> length v = n.
Proof. rewrite forallb_forall. split; intros H v I; apply Nat.eqb_eq, H, I. Qed.
Lemma sizes_iff (s : structure_t T) w : sizes_ok s w = true <-> nine_surfaces s /\ full_tables w.
Proof.
  unfold sizes_ok, nine_surfaces, full_tables. rewrite !andb_true_iff, !forallb_len, !Nat.eqb_eq. split.
  - intros ((((A & (B1 & B2)) & (C1 & C2)) & (D1 & D2)) & E). repeat split; auto; apply E; cbn; auto.
  - intros (A & (B1 & B2) & (C1 & C2) & (D1 & D2) & E1 & E2 & E3). repeat split; auto. intros v [<- | [<- | [<- | []]]]; assumption.
Qed.

Lemma lit_iff row : (exists i j, forall k, firstLit k row = Some (k + i) /\ lastLit k row = Some (k + j)) <-> exists x : T, In x row /\ neqb x (zn 0) = false.
Proof.
  induction row as [|x row IH]; split.
  - intros (i & j & H). destruct (H 0) as [E _]. discriminate E.
  - intros (x & [] & _).
  - intros (i & j & H). destruct (neqb x (zn 0)) eqn:E; [|exists x; split; [now left|exact E]].
    assert (exists y, In y row /\ neqb y (zn 0) = false) as (y & I & F); [|exists y; split; [now right|exact F]].
    specialize (H 0) as [H _]. cbn [firstLit] in H. rewrite E in H. cbn [negb] in H. clear - H. revert H. generalize 1, (0 + i).
    induction row as [|y row IHr]; intros n m H; [discriminate H|]. cbn [firstLit] in H. destruct (neqb y (zn 0)) eqn:E.
    + cbn [negb] in H. destruct (IHr _ _ H) as (z & I & F). exists z. split; [now right|exact F].
    + exists y. split; [now left|exact E].
  - intros (y & I & F). destruct (neqb x (zn 0)) eqn:E.
    + assert (exists y, In y row /\ neqb y (zn 0) = false) as R. { destruct I as [->|I]; [congruence|now exists y]. }
      apply IH in R. destruct R as (i & j & R). exists (S i), (S j). intros k. cbn [firstLit lastLit]. rewrite E. cbn [negb].
      destruct (R (S k)) as [-> ->]. split; f_equal; lia.
    + destruct (lastLit 0 row) as [j|] eqn:L.
      * assert (exists y, In y row /\ neqb y (zn 0) = false) as R.
        { clear -L. revert L. generalize 0 at 1. revert j. induction row as [|y row IHr]; intros j n L; [discriminate L|]. cbn [lastLit] in L.
          destruct (lastLit (S n) row) as [j'|] eqn:L'; [destruct (IHr _ _ L') as (z & Z1 & Z2); exists z; split; [now right|exact Z2]|].
          destruct (neqb y (zn 0)) eqn:F; [discriminate L|exists y; split; [now left|exact F]]. }
        apply IH in R. destruct R as (i' & j' & R). exists 0, (S j'). intros k. cbn [firstLit lastLit]. rewrite E. cbn [negb].
        destruct (R (S k)) as [_ ->]. split; f_equal; lia.
      * exists 0, 0. intros k. cbn [firstLit lastLit]. rewrite E. cbn [negb].
        assert (Z : lastLit (S k) row = None).
        { clear -L. revert k L. generalize 0. induction row as [|y row IHr]; intros n k L; [reflexivity|]. cbn [lastLit] in *.
          destruct (lastLit (S n) row) eqn:Q; [discriminate L|]. rewrite (IHr _ (S k) Q). destruct (neqb y (zn 0)); [reflexivity|discriminate L]. }
        rewrite Z. split; f_equal; lia.
Qed.
Lemma firstLit_some row : forall n i, firstLit n row = Some i -> exists x : T, In x row /\ neqb x (zn 0) = false.
Proof.
  induction row as [|y row IH]; intros n i H; [discriminate H|]. cbn [firstLit] in H. destruct (neqb y (zn 0)) eqn:E.
  - destruct (IH _ _ H) as (z & I & F). exists z. split; [now right|exact F].
  - exists y. split; [now left|exact E].
Qed.
Lemma fracSunDown_iff row : (exists f, fracSunDown row = Ok f) <-> exists x : T, In x row /\ neqb x (zn 0) = false.
Proof.
  unfold fracSunDown. split.
  - intros [f H]. destruct (firstLit 0 row) as [i|] eqn:E; [|discriminate H]. exact (firstLit_some _ _ _ E).
  - intros H. apply lit_iff in H. destruct H as (i & j & H). destruct (H 0) as [-> ->]. eauto.
Qed.
Lemma sdfFactor_iff (x : T) : (exists f, sdfFactor x = Ok f) <-> (ntrunc x = Some 1%Z \/ ntrunc x = Some 2%Z \/ ntrunc x = Some 3%Z).
Proof.
  unfold sdfFactor. split.
  - intros [f H]. destruct (ntrunc x) as [z|]; [|discriminate H]. destruct z as [|[[q|q|]|[q|q|]|]|]; try discriminate H; auto.
  - intros [-> | [-> | ->]]; eauto.
Qed.
Lemma bem_iff (x : T) : (exists f, bemAdjust x = Ok f) <-> exists z, ntrunc x = Some z.
Proof.
  unfold bemAdjust. destruct (ntrunc x) as [z|]; split; intros [f H]; try discriminate H; eauto.
  destruct z as [|[[q|q|]|[q|q|]|]|]; eauto.
Qed.

Local Strategy 1000 [obind].
Lemma breakdown_iff oc (w : mweather T) : (exists b, solarRadiationBreakdown oc w = Ok b) <-> sun_every_month w.
Proof.
  unfold solarRadiationBreakdown, sun_every_month. cbv zeta. split.
  - intros [b H] row I. apply fracSunDown_iff. destruct (omap fracSunDown (mw_mhEgh w)) as [d| |] eqn:E; [|discriminate H|discriminate H].
    exact (proj1 (omap_ok _ _) (ex_intro _ d E) row I).
  - intros H. destruct (proj2 (omap_ok fracSunDown (mw_mhEgh w))) as [d E]; [intros a I; apply fracSunDown_iff, H, I|]. rewrite E. cbn [obind]. eauto.
Qed.
Lemma windowSolar_iff (s : structure_t T) : (exists v, windowSolarArea s = Ok v) <-> shading_coded s.
Proof.
  unfold windowSolarArea, shading_coded. split.
  - intros [b H] x I. apply sdfFactor_iff. destruct (omap sdfFactor (st_windowSDF s)) as [d| |] eqn:E; [|discriminate H|discriminate H].
    exact (proj1 (omap_ok _ _) (ex_intro _ d E) x I).
  - intros H. destruct (proj2 (omap_ok sdfFactor (st_windowSDF s))) as [d E]; [intros a I; apply sdfFactor_iff, H, I|]. rewrite E. cbn [obind]. eauto.
Qed.
Lemma interior_iff p oc bd H_tr a b c : (exists t, interiorTemp p oc bd H_tr a b c = Ok t) <-> bem_castable p.
Proof.
  unfold interiorTemp, bem_castable. cbv zeta. rewrite <- bem_iff. destruct (bemAdjust (bu_bem (pa_building p))); cbn [obind]; split; intros [x H]; try discriminate H; eauto.
Qed.

(** Everything the run computes, in one place. *)
Record run (p : params_t T) (w : mweather T) (m : mresult T) : Prop := mkRun {
  rn_surf : nine_surfaces (pa_structure p);
  rn_tab : full_tables w;
  rn_oc : mr_occ m = scheduleAndOccupancy (pa_population p);
  rn_bd : solarRadiationBreakdown (mr_occ m) w = Ok (mr_bd m);
  rn_lu : mr_lu m = lightingEnergyUse p (bd_hrsSunDown (mr_bd m));
  rn_H : mr_H_tr m = envelopeUA (pa_structure p);
  rn_sol : exists ws, windowSolarArea (pa_structure p) = Ok ws /\ mr_Esol m = solarHeatGain (pa_structure p) ws w;
  rn_gains : mr_gains m = heatGainsAndLosses p (oc_wk_day (mr_occ m)) (mr_lu m);
  rn_temps : let P := fun ms fr => unoccupiedHeatGain (pa_structure p) (ga_unocc (mr_gains m)) ms fr (mr_Esol m) in
    interiorTemp p (mr_occ m) (mr_bd m) (mr_H_tr m) (P (oc_wkUnocc (mr_occ m)) (bd_wk_nt (mr_bd m)))
      (P (oc_weOcc (mr_occ m)) (bd_wke_day (mr_bd m))) (P (oc_weUnocc (mr_occ m)) (bd_wke_nt (mr_bd m))) = Ok (mr_temps m);
  rn_Hve_ht : mr_Hve_ht m = ventilationCalc p w (oc_wk_day (mr_occ m)) (te_h (mr_temps m));
  rn_Hve_cl : mr_Hve_cl m = ventilationCalc p w (oc_wk_day (mr_occ m)) (te_c (mr_temps m));
  rn_needs : mr_needs m = heatingAndCooling p w (oc_wk_day (mr_occ m)) (mr_H_tr m) (internalHeatGain (pa_structure p) (mr_gains m))
                            (mr_temps m) (mr_Esol m) (mr_Hve_ht m) (mr_Hve_cl m);
  rn_hvac : mr_hvac m = hvac p (ne_ht (mr_needs m)) (ne_cl (mr_needs m)) (ne_ht_yr (mr_needs m)) (ne_cl_yr (mr_needs m));
  rn_pump : mr_pump m = pump p (ne_ht (mr_needs m)) (ne_cl (mr_needs m)) (ne_ht_yr (mr_needs m)) (ne_cl_yr (mr_needs m));
  rn_dhw : mr_dhw m = heatedWater p }.
Lemma monthlyAll_run p w m : monthlyAll p w = Ok m -> run p w m.
Proof.
  unfold monthlyAll. cbv zeta. destruct (sizes_ok (pa_structure p) w) eqn:S; [|discriminate]. apply sizes_iff in S. destruct S as [S1 S2].
  destruct (solarRadiationBreakdown _ _) as [bd| |] eqn:B; [cbn [obind]|discriminate|discriminate].
  destruct (windowSolarArea _) as [ws| |] eqn:W; [cbn [obind]|discriminate|discriminate].
  destruct (interiorTemp _ _ _ _ _ _ _) as [te| |] eqn:E; [cbn [obind]|discriminate|discriminate].
  intros H. injection H as <-. constructor; cbn [mr_occ mr_bd mr_lu mr_H_tr mr_Esol mr_gains mr_temps mr_Hve_ht mr_Hve_cl mr_needs mr_hvac mr_pump mr_dhw]; eauto.
Qed.
Lemma monthlyAll_iff p w : (exists m, monthlyAll p w = Ok m) <->
  nine_surfaces (pa_structure p) /\ full_tables w /\ sun_every_month w /\ shading_coded (pa_structure p) /\ bem_castable p.
Proof.
  split.
  - intros [m H]. destruct (monthlyAll_run p w m H) as [A B C D E F (ws & G & _) I J]. repeat split; try assumption; try apply B.
    + apply (breakdown_iff (mr_occ m)). eauto.
    + apply windowSolar_iff. eauto.
    + cbv zeta in J. exact (proj1 (interior_iff p _ _ _ _ _ _) (ex_intro _ _ J)).
  - intros (A & B & C & D & E). unfold monthlyAll. cbv zeta. rewrite (proj2 (sizes_iff _ _) (conj A B)).
    destruct (proj2 (breakdown_iff (scheduleAndOccupancy (pa_population p)) w) C) as [bd ->]. cbn [obind].
    destruct (proj2 (windowSolar_iff _) D) as [ws ->]. cbn [obind].
    match goal with |- context[interiorTemp ?p ?o ?b ?h ?x ?y ?z] => destruct (proj2 (interior_iff p o b h x y z) E) as [te ->] end. cbn [obind]. eauto.
Qed.

(** *** Lengths *)
Lemma mega_length : len (@megasecondsInMonth T _) = 12. Proof. reflexivity. Qed.
Lemma omap_length {A B} (f : A -> outcome B) l r : omap f l = Ok r -> length r = length l.
Proof. intros H. exact (proj1 (omap_inv f l r H)). Qed.
Lemma sunDown_length oc (w : mweather T) bd : full_tables w -> solarRadiationBreakdown oc w = Ok bd -> len (bd_hrsSunDown bd) = 12.
Proof.
  intros F. unfold solarRadiationBreakdown. cbv zeta. destruct (omap fracSunDown (mw_mhEgh w)) as [d| |] eqn:E; [cbn [obind]|discriminate|discriminate].
  intros H. injection H as <-. cbn [bd_hrsSunDown]. len. rewrite (omap_length _ _ _ E). destruct F as (_ & _ & (-> & _) & _). reflexivity.
Qed.
Lemma interior_lengths p oc bd Htr a b c t : len (bd_Tnt bd) = 12 -> len (bd_Tday bd) = 12 -> len a = 12 -> len b = 12 -> len c = 12 ->
  interiorTemp p oc bd Htr a b c = Ok t -> len (te_h t) = 12 /\ len (te_c t) = 12.
Proof.
  intros H1 H2 H3 H4 H5. unfold interiorTemp. cbv zeta. destruct (bemAdjust _) as [x| |]; [cbn [obind]|discriminate|discriminate].
  intros H. injection H as <-. cbn [te_h te_c]. rewrite !map_length, !zipw_length, H1, H2, H3, H4, H5. split; reflexivity.
Qed.
Lemma bd_lengths12 po (w : mweather T) bd : full_tables w -> solarRadiationBreakdown (scheduleAndOccupancy po) w = Ok bd ->
  len (bd_Tnt bd) = 12 /\ len (bd_Tday bd) = 12 /\ len (bd_wk_nt bd) = 12 /\ len (bd_wke_day bd) = 12 /\ len (bd_wke_nt bd) = 12.
Proof.
  intros F. unfold solarRadiationBreakdown. cbv zeta. destruct (omap fracSunDown (mw_mhEgh w)) as [d| |] eqn:E; [cbn [obind]|discriminate|discriminate].
  intros H. injection H as <-. cbn [bd_Tnt bd_Tday bd_wk_nt bd_wke_day bd_wke_nt]. unfold maskedMean.
  cbn [scheduleAndOccupancy oc_wkOcc oc_wkUnocc oc_weOcc oc_weUnocc]. destruct F as (_ & (F1 & _) & (F2 & _) & _).
  repeat split; len; rewrite ?F1, ?F2; reflexivity.
Qed.
Lemma solar_length (s : structure_t T) ws (w : mweather T) : full_tables w -> len (solarHeatGain s ws w) = 12.
Proof.
  intros ((F1 & _) & _ & _ & F2 & _). unfold solarHeatGain, irradiance. len. rewrite F1, F2. reflexivity.
Qed.
Lemma run_lengths p w m : run p w m ->
  len (te_h (mr_temps m)) = 12 /\ len (te_c (mr_temps m)) = 12 /\ len (ne_ht (mr_needs m)) = 12 /\ len (ne_cl (mr_needs m)) = 12 /\ len (ne_fan (mr_needs m)) = 12.
Proof.
  intros R. pose proof (rn_tab _ _ _ R) as F. pose proof (rn_bd _ _ _ R) as B. rewrite (rn_oc _ _ _ R) in B.
  destruct (bd_lengths12 _ _ _ F B) as (B1 & B2 & B3 & B4 & B5). destruct (rn_sol _ _ _ R) as (ws & _ & ES).
  assert (LS : len (mr_Esol m) = 12) by (rewrite ES; now apply solar_length).
  pose proof (rn_temps _ _ _ R) as TT. cbv zeta in TT.
  assert (LT : len (te_h (mr_temps m)) = 12 /\ len (te_c (mr_temps m)) = 12).
  { apply interior_lengths in TT; auto; rewrite (rn_oc _ _ _ R); unfold unoccupiedHeatGain; cbn [scheduleAndOccupancy oc_wkUnocc oc_weOcc oc_weUnocc]; len; rewrite ?LS, ?B3, ?B4, ?B5; reflexivity. }
  destruct LT as [L1 L2]. split; [exact L1|]. split; [exact L2|].
  destruct F as (_ & _ & _ & F1 & F2 & F3).
  assert (V1 : len (mr_Hve_ht m) = 12). { rewrite (rn_Hve_ht _ _ _ R). unfold ventilationCalc. rewrite !zipw_length, F2, F3, L1. reflexivity. }
  assert (V2 : len (mr_Hve_cl m) = 12). { rewrite (rn_Hve_cl _ _ _ R). unfold ventilationCalc. rewrite !zipw_length, F2, F3, L2. reflexivity. }
  rewrite (rn_needs _ _ _ R). unfold heatingAndCooling. cbn [ne_ht ne_cl ne_fan].
  assert (N1 : forall a, len (needHeating a (lossesHeating p w (mr_H_tr m) (te_h (mr_temps m)) (mr_Hve_ht m)) (totalGain (internalHeatGain (pa_structure p) (mr_gains m)) (mr_Esol m))) = 12).
  { intros a. unfold needHeating, lossesHeating, totalGain. len. rewrite L1, V1, F2, LS. reflexivity. }
  assert (N2 : forall a, len (needCooling a (lossesCooling p w (mr_H_tr m) (te_c (mr_temps m)) (mr_Hve_cl m)) (totalGain (internalHeatGain (pa_structure p) (mr_gains m)) (mr_Esol m))) = 12).
  { intros a. unfold needCooling, lossesCooling, totalGain. len. rewrite L2, V2, F2, LS. reflexivity. }
  split; [apply N1|]. split; [apply N2|]. unfold fanEnergyMonthly. len. rewrite L1, L2, N1, N2. reflexivity.
Qed.

(** The thirteen columns of a run. *)
Definition columns (p : params_t T) (m : mresult T) : list (list T) :=
  outputColumns p (oc_wk_day (mr_occ m)) (mr_lu m) (mr_needs m) (mr_hvac m) (mr_pump m) (mr_dhw m).
Lemma columns_length p w m : run p w m -> forall c, In c (columns p m) -> len c = 12.
Proof.
  intros R. destruct (run_lengths p w m R) as (L1 & L2 & L3 & L4 & L5).
  assert (SD := sunDown_length _ _ _ (rn_tab _ _ _ R) (rn_bd _ _ _ R)).
  assert (LL : forall need y, len need = 12 -> len (distLoss need y) = 12) by (intros; unfold distLoss; len; assumption).
  assert (H1 : len (hv_elec_ht (mr_hvac m)) = 12 /\ len (hv_gas_ht (mr_hvac m)) = 12 /\ len (hv_elec_cl (mr_hvac m)) = 12 /\ len (hv_gas_cl (mr_hvac m)) = 12).
  { rewrite (rn_hvac _ _ _ R). unfold hvac. cbn [hv_elec_ht hv_gas_ht hv_elec_cl hv_gas_cl].
    destruct (ht_DH_YesNo (pa_heating p) =? zn 1)%num, (cl_DC_YesNo (pa_cooling p) =? zn 1)%num, (ht_energyType (pa_heating p) =? zn 1)%num;
    repeat split; len; rewrite ?LL by assumption; rewrite ?L3, ?L4; reflexivity. }
  destruct H1 as (H1 & H2 & H3 & H4).
  assert (P : len (mr_pump m) = 12).
  { rewrite (rn_pump _ _ _ R). unfold pump. destruct (_ || _)%bool; len; rewrite ?L3, ?L4; reflexivity. }
  assert (D : len (fst (mr_dhw m)) = 12 /\ len (snd (mr_dhw m)) = 12).
  { rewrite (rn_dhw _ _ _ R). unfold heatedWater, hotWaterNeed. destruct (_ =? _)%num; split; cbn [fst snd]; len; reflexivity. }
  destruct D as [D1 D2].
  assert (LU : len (lu_month (mr_lu m)) = 12 /\ len (lu_ext (mr_lu m)) = 12).
  { rewrite (rn_lu _ _ _ R). unfold lightingEnergyUse. cbn [lu_month lu_ext]. split; len; [reflexivity|exact SD]. }
  destruct LU as [U1 U2].
  unfold columns, outputColumns, perArea, plugLoad. intros c I.
  repeat (destruct I as [<-|I]; [len; first [assumption|reflexivity]|]). destruct I.
Qed.
Lemma simulateMonthly_run p w rows : simulateMonthly p w = Ok rows -> exists m, run p w m /\ outputRows (columns p m) = Ok rows.
Proof.
  unfold simulateMonthly. destruct (monthlyAll p w) as [m| |] eqn:E; [cbn [obind]|discriminate|discriminate]. intros H. exists m. split; [now apply monthlyAll_run|exact H].
Qed.
Lemma run_rows p w m : run p w m -> exists rows, outputRows (columns p m) = Ok rows /\ table_shape 12 rows /\
  forall k c, nth_error (columns p m) k = Some c -> is_series k rows c.
Proof.
  intros R. destruct (outputRows_spec 12 (columns p m) (columns_length p w m R) 0) as (rows & E & L & W & S').
  exists rows. split; [exact E|]. split; [|intros k c H; exact (S' k c H)]. split; [exact L|]. apply Forall_forall. intros r I. rewrite (W r I). reflexivity.
Qed.
(** What every theorem about the table starts from. *)
Lemma simulateMonthly_cases p w rows : simulateMonthly p w = Ok rows -> exists m, run p w m /\ table_shape 12 rows /\
  forall k c, nth_error (columns p m) k = Some c -> is_series k rows c.
Proof.
  intros H. destruct (simulateMonthly_run p w rows H) as (m & R & E). exists m. split; [exact R|].
  destruct (run_rows p w m R) as (rows' & E' & S' & C). rewrite E in E'. injection E' as ->. now split.
Qed.
Lemma C18_monthly_defined_l p w : (exists rows, simulateMonthly p w = Ok rows) <->
  nine_surfaces (pa_structure p) /\ full_tables w /\ sun_every_month w /\ shading_coded (pa_structure p) /\ bem_castable p.
Proof.
  rewrite <- monthlyAll_iff. split.
  - intros [rows H]. unfold simulateMonthly in H. destruct (monthlyAll p w) as [m| |]; [eauto|discriminate H|discriminate H].
  - intros [m H]. unfold simulateMonthly. rewrite H. cbn [obind]. destruct (run_rows p w m (monthlyAll_run p w m H)) as (rows & E & _). exists rows. exact E.
Qed.
Lemma fracSunDown_nothrow (row : list T) e : fracSunDown row <> Throw e.
Proof. unfold fracSunDown. destruct (firstLit 0 row), (lastLit 0 row); discriminate. Qed.
Lemma sdfFactor_nothrow (x : T) e : sdfFactor x <> Throw e.
Proof. unfold sdfFactor. destruct (ntrunc x) as [[|[[q|q|]|[q|q|]|]|]|]; discriminate. Qed.
Lemma bem_nothrow (x : T) e : bemAdjust x <> Throw e.
Proof. unfold bemAdjust. destruct (ntrunc x) as [[|[[q|q|]|[q|q|]|]|]|]; discriminate. Qed.
Lemma monthlyAll_nothrow p w e : monthlyAll p w <> Throw e.
Proof.
  unfold monthlyAll. cbv zeta. destruct (sizes_ok (pa_structure p) w); [|discriminate].
  destruct (solarRadiationBreakdown _ _) as [bd|x|] eqn:B; [cbn [obind]| |discriminate].
  2:{ exfalso. unfold solarRadiationBreakdown in B. cbv zeta in B. destruct (omap fracSunDown (mw_mhEgh w)) as [d|y|] eqn:E; [discriminate B| |discriminate B].
      exact (omap_never_throws fracSunDown (mw_mhEgh w) (fun a e _ => fracSunDown_nothrow a e) y E). }
  destruct (windowSolarArea _) as [ws|x|] eqn:W; [cbn [obind]| |discriminate].
  2:{ exfalso. unfold windowSolarArea in W. destruct (omap sdfFactor (st_windowSDF (pa_structure p))) as [d|y|] eqn:E; [discriminate W| |discriminate W].
      exact (omap_never_throws sdfFactor _ (fun a e _ => sdfFactor_nothrow a e) y E). }
  unfold interiorTemp at 1. cbv zeta. destruct (bemAdjust _) as [b|y|] eqn:E; [cbn [obind]; discriminate| |discriminate]. exfalso. exact (bem_nothrow _ _ E).
Qed.
Lemma simulateMonthly_ub p w : (exists rows, simulateMonthly p w = Ok rows) \/ simulateMonthly p w = UB.
Proof.
  unfold simulateMonthly. destruct (monthlyAll p w) as [m|e|] eqn:E; [|exfalso; exact (monthlyAll_nothrow _ _ _ E)|now right].
  left. cbn [obind]. destruct (run_rows p w m (monthlyAll_run p w m E)) as (rows & E' & _). exists rows. exact E'.
Qed.
End Shape.
