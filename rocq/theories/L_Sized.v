(** A building [c] times as large has the same results per floor area: the hourly engine. *)
From Coq Require Import List ZArith Lia Reals Lra Bool.
From Verif Require Import Base Num Xr M_Params M_TimeFrame M_Hourly M_Map S_Symmetry L_Xr L_HourlyFin L_Calendar L_HourlyAgain L_Inputs L_Turn.
Import ListNotations.
Open Scope R_scope.

Section Sized.
Variables (c : R) (p : params_t R).
Let s := pa_structure p.
Let A := st_floorArea s.
Let q := sized c p.
Let P := map_params Fin p.
Let Q := map_params Fin q.
Hypothesis pos : 0 < c.
Hypothesis floor : A <> 0.
Hypothesis daylit : 1 / 10000 <= li_naturallyLightedArea (pa_lighting p) /\ 1 / 10000 <= c * li_naturallyLightedArea (pa_lighting p).

Lemma cA : c * A <> 0.
Proof. apply Rmult_integral_contrapositive_currified; [lra|exact floor]. Qed.
Lemma ratio x : ndiv (Fin (c * x)) (Fin (c * A)) = ndiv (Fin x) (Fin A).
Proof. rewrite !div_fin by (exact cA || exact floor). f_equal. cbn [ndiv R_num]. field. split; [exact floor|lra]. Qed.
Lemma at9_scaled v k : at9 (map (fun x => c * x) v) k = c * at9 v k.
Proof.
  unfold at9. destruct (Nat.lt_ge_cases k (length v)) as [L|L].
  - rewrite (nth_indep _ (zn 0) (c * zn 0)) by (rewrite map_length; exact L). apply (map_nth (fun x => c * x)).
  - rewrite !nth_overflow by (rewrite ?map_length; exact L). unfold zn, lit, R_num, Rlit. lra.
Qed.
Definition enlarged (x : surf R) : surf R :=
  mkSurf (c * su_nlams x) (c * su_nla x) (c * su_sams x) (c * su_sa x) (c * su_htot x) (c * su_hWindow x).
Lemma sized_surf k : surf_at (pa_structure q) k = enlarged (surf_at s k).
Proof.
  unfold surf_at, structureCalculations, enlarged, q, sized.
  cbn [pa_structure st_R_se st_windowSDF st_wallArea st_windowArea st_wallU st_windowU st_wallAbsorption st_windowSCF st_windowSHGC].
  rewrite !at9_scaled. cbn [su_nlams su_nla su_sams su_sa su_htot su_hWindow]. fold s. cbn [nadd nmul ndiv R_num]. f_equal; ring.
Qed.
Definition map_surf (f : R -> xr) (x : surf R) : surf xr := mkSurf (f (su_nlams x)) (f (su_nla x)) (f (su_sams x)) (f (su_sa x)) (f (su_htot x)) (f (su_hWindow x)).
Lemma surf_Q k : surf_at (pa_structure Q) k = map_surf Fin (enlarged (surf_at s k)).
Proof. rewrite <- sized_surf. exact (surf_fin q k). Qed.
Lemma sized_push r k : push_ratios (pa_structure Q) r k = push_ratios (pa_structure P) r k.
Proof.
  unfold push_ratios. rewrite surf_Q. change (surf_at (pa_structure P) k) with (surf_at (pa_structure (map_params Fin p)) k). rewrite surf_fin. fold s.
  unfold map_surf, enlarged. cbn [su_nlams su_nla su_sams su_sa].
  change (st_floorArea (pa_structure Q)) with (Fin (c * A)). change (st_floorArea (pa_structure P)) with (Fin A). rewrite !ratio. reflexivity.
Qed.
Lemma sized_push_all l : forall r, fold_left (push_ratios (pa_structure Q)) l r = fold_left (push_ratios (pa_structure P)) l r.
Proof. induction l as [|k l IH]; intros r; [reflexivity|]. cbn [fold_left]. rewrite sized_push. apply IH. Qed.
Lemma sum_scaled l : forall a, fold_left nadd (map (fun x => c * x) l) (c * a) = c * fold_left nadd l a.
Proof. induction l as [|x l IH]; intros a; [reflexivity|]. cbn [map fold_left]. rewrite <- IH. f_equal. cbn [nadd R_num]. ring. Qed.
Lemma sized_Cm : Cm_of (pa_structure Q) = Cm_of (pa_structure P).
Proof.
  unfold Cm_of. change (st_wallArea (pa_structure Q)) with (map Fin (map (fun x => c * x) (st_wallArea s))).
  change (st_wallArea (pa_structure P)) with (map Fin (st_wallArea s)). rewrite !accumulate_fin. unfold accumulate.
  replace (zn 0 : R) with (c * zn 0) at 1 by (unfold zn, lit, R_num, Rlit; lra). rewrite sum_scaled.
  change (st_floorArea (pa_structure Q)) with (Fin (c * A)). change (st_floorArea (pa_structure P)) with (Fin A).
  change (st_wallHeatCapacity (pa_structure Q)) with (Fin (st_wallHeatCapacity s)). change (st_wallHeatCapacity (pa_structure P)) with (Fin (st_wallHeatCapacity s)).
  change (st_interiorHeatCapacity (pa_structure Q)) with (st_interiorHeatCapacity (pa_structure P)).
  rewrite !mul_fin. replace (nmul (st_wallHeatCapacity s) (c * fold_left nadd (st_wallArea s) (zn 0))) with (c * nmul (st_wallHeatCapacity s) (fold_left nadd (st_wallArea s) (zn 0)))
    by (cbn [nmul R_num]; ring). rewrite ratio. reflexivity.
Qed.
Lemma fold_scaled (f : nat -> R) l : forall a, fold_left (fun acc k => nadd acc (Fin (c * f k))) l (Fin (c * a)) = Fin (c * fold_left (fun acc k => acc + f k) l a).
Proof. induction l as [|k l IH]; intros a; [reflexivity|]. cbn [fold_left]. rewrite <- IH. f_equal. cbn [nadd xr_num xadd]. f_equal. ring. Qed.
Lemma fold_plain (f : nat -> R) l : forall a, fold_left (fun acc k => nadd acc (Fin (f k))) l (Fin a) = Fin (fold_left (fun acc k => acc + f k) l a).
Proof. induction l as [|k l IH]; intros a; [reflexivity|]. cbn [fold_left]. rewrite <- IH. reflexivity. Qed.
Lemma fold_ext (f g : nat -> xr) l : (forall k, f k = g k) -> forall a, fold_left (fun acc k => nadd acc (f k)) l a = fold_left (fun acc k => nadd acc (g k)) l a.
Proof. intros E. induction l as [|k l IH]; intros a; [reflexivity|]. cbn [fold_left]. rewrite E. apply IH. Qed.
Lemma zero_scaled : (zn 0 : xr) = Fin (c * 0).
Proof. cbn. unfold Rlit. f_equal. lra. Qed.
Lemma zero_plain : (zn 0 : xr) = Fin 0.
Proof. cbn. unfold Rlit. f_equal. lra. Qed.
Lemma sized_window : ndiv (hWind_of (pa_structure Q)) (st_floorArea (pa_structure Q)) = ndiv (hWind_of (pa_structure P)) (st_floorArea (pa_structure P)).
Proof.
  unfold hWind_of. rewrite (fold_ext _ (fun k => Fin (c * su_hWindow (surf_at s k)))) by (intros k; now rewrite surf_Q).
  rewrite (fold_ext (fun k => su_hWindow (surf_at (pa_structure P) k)) (fun k => Fin (su_hWindow (surf_at s k)))) by (intros k; unfold P; now rewrite surf_fin).
  rewrite zero_scaled at 1. rewrite fold_scaled, zero_plain, fold_plain. apply ratio.
Qed.
Lemma sized_wall : ndiv (hWall_of (pa_structure Q)) (st_floorArea (pa_structure Q)) = ndiv (hWall_of (pa_structure P)) (st_floorArea (pa_structure P)).
Proof.
  unfold hWall_of. rewrite (fold_ext _ (fun k => Fin (c * (su_htot (surf_at s k) - su_hWindow (surf_at s k))))).
  2:{ intros k. rewrite surf_Q. unfold map_surf, enlarged. cbn [su_htot su_hWindow]. rewrite sub_fin. f_equal. cbn [nsub R_num]. ring. }
  rewrite (fold_ext (fun k => nsub (su_htot (surf_at (pa_structure P) k)) (su_hWindow (surf_at (pa_structure P) k))) (fun k => Fin (su_htot (surf_at s k) - su_hWindow (surf_at s k))))
    by (intros k; unfold P; now rewrite surf_fin).
  rewrite zero_scaled at 1. rewrite fold_scaled, zero_plain, fold_plain. apply ratio.
Qed.
Lemma sized_lit : areaNatRatio Q = areaNatRatio P.
Proof.
  unfold areaNatRatio. change (li_naturallyLightedArea (pa_lighting Q)) with (Fin (c * li_naturallyLightedArea (pa_lighting p))).
  change (li_naturallyLightedArea (pa_lighting P)) with (Fin (li_naturallyLightedArea (pa_lighting p))).
  change (st_floorArea (pa_structure Q)) with (Fin (c * A)). change (st_floorArea (pa_structure P)) with (Fin A).
  rewrite lit_fin, !max_fin. assert (M : forall x, 1 / 10000 <= x -> nmax (lit 1 10000) x = x).
  { intros x H. unfold nmax. cbn [nlt lit R_num]. unfold Rlit. destruct (Rltb_spec (1 / 10000) x); lra. }
  rewrite !M by apply daylit. apply ratio.
Qed.
Lemma sized_leak : q4Pa_of Q = q4Pa_of P.
Proof.
  unfold q4Pa_of. change (st_floorArea (pa_structure Q)) with (Fin (c * A)). change (st_floorArea (pa_structure P)) with (Fin A).
  change (st_buildingHeight (pa_structure Q)) with (Fin (st_buildingHeight s)). change (st_buildingHeight (pa_structure P)) with (Fin (st_buildingHeight s)).
  change (ve_n50 (pa_ventilation Q)) with (Fin (ve_n50 (pa_ventilation p))). change (ve_n50 (pa_ventilation P)) with (Fin (ve_n50 (pa_ventilation p))).
  rewrite !lit_fin, !mul_fin. replace (nmul (lit 19 100) (nmul (ve_n50 (pa_ventilation p)) (nmul (c * A) (st_buildingHeight s))))
    with (c * nmul (lit 19 100) (nmul (ve_n50 (pa_ventilation p)) (nmul A (st_buildingHeight s)))) by (cbn [nmul R_num]; ring).
  rewrite ratio. reflexivity.
Qed.
Lemma sized_init r0 : initOf Q r0 = initOf P r0.
Proof.
  unfold initOf, hem_of, H_ms_of, hOpaque_of, hwin_of. rewrite sized_push_all, sized_Cm, sized_window, sized_wall, sized_lit, sized_leak. reflexivity.
Qed.
Definition larger (sc : sched xr) : sched xr :=
  mkSched (nmul (Fin c) (sc_vent sc)) (nmul (Fin c) (sc_extEquip sc)) (sc_intEquip sc) (sc_extLight sc) (sc_intLight sc) (sc_heatSP sc) (sc_coolSP sc).
Lemma sized_cell ds de hs he h d : let sc := sched_cell P ds de hs he h d in let sc' := sched_cell Q ds de hs he h d in
  ventFlow Q sc' = ventFlow P sc /\ ndiv (sc_extEquip sc') (st_floorArea (pa_structure Q)) = ndiv (sc_extEquip sc) (st_floorArea (pa_structure P)) /\
  sc_intEquip sc' = sc_intEquip sc /\ sc_extLight sc' = sc_extLight sc /\ sc_intLight sc' = sc_intLight sc /\ sc_heatSP sc' = sc_heatSP sc /\ sc_coolSP sc' = sc_coolSP sc.
Proof.
  intros sc sc'. split; [|split; [|repeat split]].
  - unfold ventFlow, sc, sc', sched_cell. cbn [sc_vent]. change (st_floorArea (pa_structure Q)) with (Fin (c * A)). change (st_floorArea (pa_structure P)) with (Fin A).
    destruct ((hs <=? h)%Z && (h <=? he)%Z)%bool.
    + change (ve_supplyRate (pa_ventilation Q)) with (Fin (c * ve_supplyRate (pa_ventilation p))). change (ve_supplyRate (pa_ventilation P)) with (Fin (ve_supplyRate (pa_ventilation p))).
      rewrite !lit_fin, !mul_fin. replace (nmul (c * ve_supplyRate (pa_ventilation p)) (lit 36 10)) with (c * nmul (ve_supplyRate (pa_ventilation p)) (lit 36 10)) by (cbn [nmul R_num]; ring).
      apply ratio.
    + rewrite !zn_fin, !lit_fin, !mul_fin. replace (nmul (zn 0) (lit 36 10) : R) with (c * 0) at 1 by (cbn [nmul lit zn R_num]; unfold zn, lit, R_num, Rlit; lra).
      replace (nmul (zn 0) (lit 36 10) : R) with 0 by (cbn [nmul lit zn R_num]; unfold zn, lit, R_num, Rlit; lra). apply ratio.
  - unfold sc, sc', sched_cell. cbn [sc_extEquip]. apply ratio.
Qed.
Lemma sized_outside x sol : exteriorLighting Q x sol = exteriorLighting P x sol \/ x <> zn 1.
Proof.
  destruct x as [x| | |]; try (right; discriminate). left. unfold exteriorLighting. destruct (nlt (zn 0) (at9 sol 8)); [reflexivity|].
  change (li_exteriorEnergy (pa_lighting Q)) with (Fin (c * li_exteriorEnergy (pa_lighting p))). change (li_exteriorEnergy (pa_lighting P)) with (Fin (li_exteriorEnergy (pa_lighting p))).
  rewrite !mul_fin. replace (nmul (c * li_exteriorEnergy (pa_lighting p)) x) with (c * nmul (li_exteriorEnergy (pa_lighting p)) x) by (cbn [nmul R_num]; ring). apply ratio.
Qed.
Lemma sized_hour r0 ds de hs he h d w th :
  calculateHour Q (initOf Q r0) (sched_cell Q ds de hs he h d) w th = calculateHour P (initOf P r0) (sched_cell P ds de hs he h d) w th.
Proof.
  rewrite sized_init. destruct (sized_cell ds de hs he h d) as (E1 & E2 & E3 & E4 & E5 & E6 & E7).
  set (sc := sched_cell P ds de hs he h d) in *. set (sc' := sched_cell Q ds de hs he h d) in *. set (i := initOf P r0).
  assert (F1 : phiInt Q i sc' w = phiInt P i sc w) by (unfold phiInt; rewrite E3, E5; reflexivity).
  assert (F2 : phiAir Q i sc' w = phiAir P i sc w) by (unfold phiAir; rewrite F1; reflexivity).
  assert (F3 : hourNet Q i sc' w th = hourNet P i sc w th) by (unfold hourNet; rewrite F1, E1; reflexivity).
  unfold calculateHour. rewrite F2, F3, E1, E2, E3, E4, E5, E6, E7.
  destruct (sized_outside (sc_extLight sc) (we_sol w)) as [O|O]; [|now destruct O]. rewrite O. reflexivity.
Qed.
Lemma sized_simulate ws r0 agg : simulate Q ws r0 agg = simulate P ws r0 agg.
Proof.
  unfold simulate, simulateRaw, populateSchedules. change (pa_population Q) with (pa_population P).
  destruct (cast_int (po_daysStart (pa_population P))) as [ds| |]; cbn [obind]; [|reflexivity|reflexivity].
  destruct (cast_int (po_daysEnd (pa_population P))) as [de| |]; cbn [obind]; [|reflexivity|reflexivity].
  destruct (cast_int (po_hoursStart (pa_population P))) as [hs| |]; cbn [obind]; [|reflexivity|reflexivity].
  destruct (cast_int (po_hoursEnd (pa_population P))) as [he| |]; cbn [obind]; [|reflexivity|reflexivity].
  rewrite !initialize_of. assert (N : structure_nine (pa_structure Q) = structure_nine (pa_structure P)).
  { unfold structure_nine, nine. change (st_wallArea (pa_structure Q)) with (map Fin (map (fun x => c * x) (st_wallArea s))).
    change (st_windowArea (pa_structure Q)) with (map Fin (map (fun x => c * x) (st_windowArea s))). rewrite !map_length. unfold P. cbn [map_params pa_structure map_structure st_wallArea st_windowArea].
    rewrite !map_length. reflexivity. }
  rewrite N. destruct (negb (structure_nine (pa_structure P))); cbn [obind]; [reflexivity|].
  destruct timeFrame as [fr| |]; cbn [obind]; [|reflexivity|reflexivity].
  assert (L : forall fr ws th, yearLoop Q (initOf Q r0) (map (fun h => map (fun d => sched_cell Q ds de hs he h d) (zrange 0 7)) (zrange 0 24)) fr ws th =
    yearLoop P (initOf P r0) (map (fun h => map (fun d => sched_cell P ds de hs he h d) (zrange 0 7)) (zrange 0 24)) fr ws th).
  { clear fr ws. induction fr as [|[x|] fr IH]; intros ws th; cbn [yearLoop]; [reflexivity| |reflexivity].
    destruct ws as [|w ws]; [reflexivity|]. destruct (nine (we_sol w)); cbn [negb]; [|reflexivity].
    assert (S : forall h d, (exists sc sc', sched_at (map (fun h => map (fun d => sched_cell P ds de hs he h d) (zrange 0 7)) (zrange 0 24)) h d = Ok sc /\
      sched_at (map (fun h => map (fun d => sched_cell Q ds de hs he h d) (zrange 0 7)) (zrange 0 24)) h d = Ok sc') \/
      (sched_at (map (fun h => map (fun d => sched_cell P ds de hs he h d) (zrange 0 7)) (zrange 0 24)) h d = UB /\
      sched_at (map (fun h => map (fun d => sched_cell Q ds de hs he h d) (zrange 0 7)) (zrange 0 24)) h d = UB)).
    { intros h d. unfold sched_at. destruct (Z.ltb h 0 || Z.ltb d 0)%bool; [right; split; reflexivity|]. unfold vget.
      rewrite !nth_error_map. destruct (nth_error (zrange 0 24) (Z.to_nat h)) as [h'|]; cbn [option_map obind]; [|right; split; reflexivity].
      rewrite !nth_error_map. destruct (nth_error (zrange 0 7) (Z.to_nat d)) as [d'|]; cbn [option_map obind]; [|right; split; reflexivity].
      left. eexists _, _. split; reflexivity. }
    destruct (S (tc_hour x) (tc_dow x)) as [(sc & sc' & S1 & S2)|[S1 S2]]; rewrite S1, S2; cbn [obind]; [|reflexivity].
    apply sched_at_inv in S1, S2. subst sc sc'. rewrite sized_hour. destruct (calculateHour P _ _ w th) as [res th']. rewrite IH. reflexivity. }
  rewrite L. rewrite sized_init. destruct (yearLoop _ _ _ _ _ _) as [raw| |]; cbn [obind]; [|reflexivity|reflexivity].
  reflexivity.
Qed.
End Sized.
