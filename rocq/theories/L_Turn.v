(** Turning the building: the results do not depend on the order in which the walls are listed. *)
From Coq Require Import List ZArith Permutation Lia Reals Lra Bool.
From Verif Require Import Base Num Xr M_Params M_TimeFrame M_Hourly M_Monthly S_HourSpec S_Monthly S_Symmetry L_Calendar L_HourlyShape L_HourlySpec L_HourlyOut L_HourlyAgain L_Inputs.
Import ListNotations.
Open Scope list_scope.

(** ** Sums in another order *)
Lemma xadd_comm a b : xadd a b = xadd b a.
Proof. destruct a, b; cbn; try reflexivity. f_equal. ring. Qed.
Lemma xadd_assoc a b c : xadd a (xadd b c) = xadd (xadd a b) c.
Proof. destruct a, b, c; cbn; try reflexivity. f_equal. ring. Qed.
Lemma fold_permuted {A} (f : A -> xr) l l' : Permutation l l' -> forall a,
  fold_left (fun acc k => xadd acc (f k)) l a = fold_left (fun acc k => xadd acc (f k)) l' a.
Proof.
  induction 1 as [|x l l' _ IH|x y l|l l' l'' _ IH1 _ IH2]; intros a; cbn [fold_left]; [reflexivity|apply IH| |now rewrite IH1].
  f_equal. rewrite <- !xadd_assoc. f_equal. apply xadd_comm.
Qed.
Lemma accumulate_permuted (l l' : list xr) : Permutation l l' -> accumulate l = accumulate l'.
Proof. intros P. exact (fold_permuted (fun x => x) l l' P (zn 0)). Qed.

Section Order.
Variable order : list nat.
Hypothesis walls : eight_walls order.
Let ord : list nat := order ++ [8%nat].
Lemma ord_perm : Permutation ord (seq 0 9).
Proof. unfold ord. change (seq 0 9) with (seq 0 8 ++ [8%nat]). apply Permutation_app_tail, walls. Qed.
Lemma ord_length : length ord = 9%nat.
Proof. rewrite (Permutation_length ord_perm). reflexivity. Qed.
Lemma order_length : length order = 8%nat.
Proof. rewrite (Permutation_length walls). reflexivity. Qed.
Lemma ord_bound k : (k < 9)%nat -> (nth k ord 0 < 9)%nat.
Proof.
  intros K. assert (I : In (nth k ord 0%nat) (seq 0 9)).
  { apply (Permutation_in _ ord_perm), nth_In. rewrite ord_length. exact K. }
  apply in_seq in I. lia.
Qed.
Lemma ord_last : nth 8 ord 0%nat = 8%nat.
Proof. unfold ord. rewrite app_nth2 by (rewrite order_length; lia). rewrite order_length. reflexivity. Qed.
Lemma turned_length {T} {N : Num T} (v : list T) : length (turned_vector order v) = 9%nat.
Proof. unfold turned_vector, rearranged. rewrite map_length. exact ord_length. Qed.
Lemma turned_nth {T} {N : Num T} (v : list T) k : (k < 9)%nat -> nth k (turned_vector order v) (zn 0) = nth (nth k ord 0%nat) v (zn 0).
Proof.
  intros K. unfold turned_vector, rearranged. fold ord.
  rewrite (nth_indep _ _ (nth 0 v (zn 0))) by (rewrite map_length, ord_length; exact K).
  exact (map_nth (fun k => nth k v (zn 0)) ord 0%nat k).
Qed.
(** Listing the places of [ord]. *)
Lemma ord_list : map (fun k => nth k ord 0%nat) (seq 0 9) = ord.
Proof.
  apply nth_ext with (d := 0%nat) (d' := 0%nat); rewrite map_length, seq_length; [now rewrite ord_length|].
  intros k K. rewrite (nth_indep _ 0%nat (nth 0 ord 0%nat)) by (rewrite map_length, seq_length; exact K).
  rewrite (map_nth (fun k => nth k ord 0%nat)), seq_nth by exact K. reflexivity.
Qed.
Lemma fold_turned (f g : nat -> xr) a : (forall k, (k < 9)%nat -> g k = f (nth k ord 0%nat)) ->
  fold_left (fun acc k => xadd acc (g k)) (seq 0 9) a = fold_left (fun acc k => xadd acc (f k)) (seq 0 9) a.
Proof.
  intros H. rewrite <- (fold_permuted f ord (seq 0 9) ord_perm a).
  assert (E : forall l a, (forall k, In k l -> (k < 9)%nat) ->
    fold_left (fun acc k => xadd acc (g k)) l a = fold_left (fun acc k => xadd acc (f k)) (map (fun k => nth k ord 0%nat) l) a).
  { induction l as [|k l IH]; intros b B; [reflexivity|]. cbn [fold_left map]. rewrite H by (apply B; now left). apply IH. intros j J. apply B. now right. }
  rewrite E; [now rewrite ord_list|]. intros k K. apply in_seq in K. lia.
Qed.
Lemma sum_turned (f g : nat -> xr) : (forall k, (k < 9)%nat -> g k = f (nth k ord 0%nat)) ->
  accumulate (map g (seq 0 9)) = accumulate (map f (seq 0 9)).
Proof.
  intros H. unfold accumulate.
  assert (E : forall (h : nat -> xr) l a, fold_left nadd (map h l) a = fold_left (fun acc k => xadd acc (h k)) l a).
  { intros h. induction l as [|k l IH]; intros a; [reflexivity|]. cbn [map fold_left]. apply IH. }
  rewrite !E. now apply fold_turned.
Qed.
Lemma nine_list {T} {N : Num T} (v : list T) : length v = 9%nat -> v = map (fun k => nth k v (zn 0)) (seq 0 9).
Proof. intros L. do 9 (destruct v as [|? v]; [discriminate L|]). destruct v; [reflexivity|discriminate L]. Qed.
Lemma turned_sum (v : list xr) : length v = 9%nat -> accumulate (turned_vector order v) = accumulate v.
Proof.
  intros L. rewrite (nine_list v L) at 2. rewrite (nine_list _ (turned_length v)). apply sum_turned. intros k K. now apply turned_nth.
Qed.

(** ** The hourly engine *)
Section Hourly.
Variable p : params_t xr.
Let s := pa_structure p.
Let s' := turned_structure order s.
Let p' := turned order p.
Hypothesis size : nine_surfaces s.
Lemma turned_surf k : (k < 9)%nat -> surf_at s' k = surf_at s (nth k ord 0%nat).
Proof.
  intros K. unfold surf_at, s', turned_structure.
  cbn [st_R_se st_windowSDF st_wallArea st_windowArea st_wallU st_windowU st_wallAbsorption st_windowSCF st_windowSHGC].
  unfold at9. rewrite !turned_nth by exact K. reflexivity.
Qed.
Lemma turned_Cm : Cm_of s' = Cm_of s.
Proof.
  unfold Cm_of, s', turned_structure. cbn [st_interiorHeatCapacity st_wallHeatCapacity st_wallArea st_floorArea].
  rewrite turned_sum; [reflexivity|]. apply size. now left.
Qed.
Lemma turned_hWind : hWind_of s' = hWind_of s.
Proof.
  unfold hWind_of. apply (fold_turned (fun k => su_hWindow (surf_at s k)) (fun k => su_hWindow (surf_at s' k))).
  intros k K. now rewrite turned_surf.
Qed.
Lemma turned_hWall : hWall_of s' = hWall_of s.
Proof.
  unfold hWall_of. apply (fold_turned (fun k => nsub (su_htot (surf_at s k)) (su_hWindow (surf_at s k)))
                                      (fun k => nsub (su_htot (surf_at s' k)) (su_hWindow (surf_at s' k)))).
  intros k K. now rewrite turned_surf.
Qed.
Lemma turned_nine : structure_nine s' = structure_nine s.
Proof.
  unfold structure_nine, nine, s', turned_structure.
  cbn [st_windowSDF st_wallArea st_windowArea st_wallU st_windowU st_wallAbsorption st_windowSCF st_windowSHGC].
  rewrite !turned_length. rewrite !size by (cbn [In]; tauto). reflexivity.
Qed.

Let i := initOf p no_ratios.
Let i' := initOf p' no_ratios.
Lemma turned_light sol : lightingLevel s' i' (turned_vector order sol) = lightingLevel s i sol.
Proof.
  unfold lightingLevel, i', i, initOf. cbn [hi_areaNatRatio hi_ratios hi_shadingUse].
  rewrite !push_fresh. unfold pushed. cbn [ra_naturalLightRatio ra_naturalLightShadeRatioReduction].
  change (pa_structure p') with s'. fold s.
  refine (sum_turned _ _ _). intros k K.
  assert (K' := ord_bound k K). rewrite !at9_map by assumption. rewrite turned_surf by exact K.
  unfold at9. rewrite turned_nth by exact K. reflexivity.
Qed.
Lemma turned_solar sol : qSolarHeatGain s' i' (turned_vector order sol) = qSolarHeatGain s i sol.
Proof.
  unfold qSolarHeatGain, i', i, initOf. cbn [hi_areaNatRatio hi_ratios hi_shadingUse].
  rewrite !push_fresh. unfold pushed. cbn [ra_solarRatio ra_solarShadeRatioReduction].
  change (pa_structure p') with s'. fold s.
  refine (sum_turned _ _ _). intros k K.
  assert (K' := ord_bound k K). rewrite !at9_map by assumption. rewrite turned_surf by exact K.
  unfold at9. rewrite turned_nth by exact K. reflexivity.
Qed.
Lemma turned_init : i' = with_ratios i (hi_ratios i').
Proof.
  unfold i', i, initOf, hem_of, H_ms_of, hOpaque_of, hwin_of. change (pa_structure p') with s'. fold s. cbn [with_ratios hi_ratios].
  rewrite turned_Cm, turned_hWind, turned_hWall. reflexivity.
Qed.
Lemma turned_electric sol : electricForTotalLightArea s' i' (turned_vector order sol) = electricForTotalLightArea s i sol.
Proof. unfold electricForTotalLightArea. rewrite turned_light. reflexivity. Qed.
Lemma turned_sun sol : at9 (turned_vector order sol) 8 = at9 sol 8.
Proof. unfold at9. rewrite turned_nth by lia. rewrite ord_last. reflexivity. Qed.
Lemma turned_step sc w th : calculateHour p' i' sc (turned_hour order w) th = calculateHour p i sc w th.
Proof.
  assert (E1 : phiInt p' i' sc (turned_hour order w) = phiInt p i sc w).
  { unfold phiInt, turned_hour. cbn [we_sol]. change (pa_structure p') with s'. rewrite turned_electric. reflexivity. }
  assert (E2 : phiAir p' i' sc (turned_hour order w) = phiAir p i sc w).
  { unfold phiAir. rewrite E1. unfold turned_hour. cbn [we_sol]. change (pa_structure p') with s'. rewrite turned_solar. reflexivity. }
  assert (E3 : hourNet p' i' sc (turned_hour order w) th = hourNet p i sc w th).
  { unfold hourNet. rewrite E1. unfold turned_hour. cbn [we_sol we_wind we_temp]. change (pa_structure p') with s'. rewrite turned_solar, turned_init. reflexivity. }
  unfold calculateHour. rewrite E2, E3. unfold turned_hour. cbn [we_sol]. change (pa_structure p') with s'. rewrite turned_electric.
  unfold exteriorLighting. rewrite turned_sun. reflexivity.
Qed.
Lemma turned_loop tbl frame : forall ws th, (forall w, In w ws -> length (we_sol w) = 9%nat) ->
  yearLoop p' i' tbl frame (map (turned_hour order) ws) th = yearLoop p i tbl frame ws th.
Proof.
  induction frame as [|[c|] frame IH]; intros ws th L; cbn [yearLoop]; [reflexivity| |reflexivity].
  destruct ws as [|w ws]; [reflexivity|]. cbn [map].
  assert (E : nine (we_sol (turned_hour order w)) = nine (we_sol w)).
  { unfold nine, turned_hour. cbn [we_sol]. rewrite turned_length, (L w (or_introl eq_refl)). reflexivity. }
  rewrite E. destruct (nine (we_sol w)); cbn [negb]; [|reflexivity].
  destruct (sched_at tbl (tc_hour c) (tc_dow c)) as [sc| |]; cbn [obind]; [|reflexivity|reflexivity].
  rewrite turned_step. destruct (calculateHour p i sc w th) as [h th']. rewrite IH; [reflexivity|]. intros v V. apply L. now right.
Qed.
Lemma initialize_of q r0 : initialize q r0 = if negb (structure_nine (pa_structure q)) then UB else Ok (initOf (N:=xr_num) q r0).
Proof. reflexivity. Qed.
Lemma turned_simulate ws agg : (forall w, In w ws -> length (we_sol w) = 9%nat) ->
  rows_of (simulate p' (map (turned_hour order) ws) no_ratios agg) = rows_of (simulate p ws no_ratios agg).
Proof.
  intros L. unfold simulate, simulateRaw. change (populateSchedules p') with (populateSchedules p).
  destruct (populateSchedules p) as [tbl| |]; cbn [obind]; [|reflexivity|reflexivity].
  rewrite !initialize_of. change (pa_structure p') with s'. rewrite turned_nine. fold s.
  destruct (negb (structure_nine s)); cbn [obind]; [reflexivity|].
  destruct timeFrame as [fr| |]; cbn [obind]; [|reflexivity|reflexivity].
  fold i' i. rewrite turned_loop by exact L.
  destruct (yearLoop _ _ _ _ _ _) as [raw| |]; cbn [obind]; [|reflexivity|reflexivity].
  change (resultVectors p' raw) with (resultVectors p raw).
  destruct (finish agg _) as [rows| |]; cbn [obind rows_of]; reflexivity.
Qed.
End Hourly.
End Order.
