(** Turning the building: the monthly engine. *)
From Coq Require Import List ZArith Permutation Lia Reals Lra Bool.
From Verif Require Import Base Num Xr M_Params M_Hourly M_Monthly S_Monthly S_Symmetry L_Calendar L_HourlyShape L_Monthly L_MonthlyBalance L_Turn.
Import ListNotations.
Open Scope list_scope.

Section Order.
Variable order : list nat.
Hypothesis walls : eight_walls order.
Let ord : list nat := order ++ [8%nat].
Notation tv := (turned_vector order).
Lemma in_ord k : In k ord -> (k < 9)%nat.
Proof. intros I. apply (Permutation_in _ (ord_perm order walls)) in I. apply in_seq in I. lia. Qed.
Lemma in_order k : In k order -> (k < 8)%nat.
Proof. intros I. apply (Permutation_in _ walls) in I. apply in_seq in I. lia. Qed.

Lemma zipw_maps {A B C D} (f : A -> B -> C) (g : D -> A) (h : D -> B) l : zipw f (map g l) (map h l) = map (fun k => f (g k) (h k)) l.
Proof. induction l as [|k l IH]; [reflexivity|]. cbn. rewrite IH. reflexivity. Qed.
Lemma turned_zip (f : xr -> xr -> xr) a b : length a = 9%nat -> length b = 9%nat -> zipw f (tv a) (tv b) = tv (zipw f a b).
Proof.
  intros A B. unfold turned_vector, rearranged. rewrite zipw_maps. apply map_ext_in. intros k K.
  rewrite (nth_zip f (zn 0) (zn 0)) by (apply in_ord in K; rewrite ?A, ?B; lia). reflexivity.
Qed.
Lemma turned_map (f : xr -> xr) a : length a = 9%nat -> map f (tv a) = tv (map f a).
Proof.
  intros A. unfold turned_vector, rearranged. rewrite map_map. apply map_ext_in. intros k K.
  rewrite (nth_indep (map f a) (zn 0) (f (zn 0))) by (rewrite map_length, A; now apply in_ord). now rewrite map_nth.
Qed.
Lemma turned_repeat (x : xr) : tv (repeat x 9) = repeat x 9.
Proof.
  unfold turned_vector, rearranged. fold ord.
  assert (E : forall l, (forall k, In k l -> (k < 9)%nat) -> map (fun k => nth k (repeat x 9) (zn 0)) l = repeat x (length l)).
  { induction l as [|k l IH]; intros H; [reflexivity|]. cbn [map length]. change (repeat x (S (length l))) with (x :: repeat x (length l)).
    rewrite IH by (intros j J; apply H; now right). f_equal.
    assert (K := H k (or_introl eq_refl)). rewrite (nth_indep _ _ x) by (rewrite repeat_length; exact K). apply nth_repeat. }
  rewrite (E ord in_ord). unfold ord. now rewrite ord_length.
Qed.
Lemma turned_join (row : list xr) e : length row = 8%nat -> rearranged order row ++ [e] = tv (row ++ [e]).
Proof.
  intros L. unfold turned_vector, rearranged. rewrite map_app. cbn [map]. rewrite app_nth2 by lia. rewrite L. cbn [Nat.sub nth]. f_equal.
  apply map_ext_in. intros k K. apply in_order in K. rewrite app_nth1 by lia. reflexivity.
Qed.
Lemma turned_factors : tv formFactors = formFactors (T:=xr).
Proof.
  unfold formFactors. rewrite <- turned_join by apply repeat_length. f_equal. unfold rearranged.
  assert (E : forall l, (forall k, In k l -> (k < 8)%nat) -> map (fun k => nth k (repeat (lit 5 10 : xr) 8) (zn 0)) l = repeat (lit 5 10) (length l)).
  { induction l as [|k l IH]; intros H; [reflexivity|]. cbn [map length]. change (repeat (lit 5 10 : xr) (S (length l))) with ((lit 5 10 : xr) :: repeat (lit 5 10 : xr) (length l)).
    rewrite IH by (intros j J; apply H; now right). f_equal.
    assert (K := H k (or_introl eq_refl)). rewrite (nth_indep _ _ (lit 5 10)) by (rewrite repeat_length; exact K). apply nth_repeat. }
  rewrite (E order in_order). now rewrite order_length.
Qed.
Ltac len9 := repeat (rewrite ?zipw_length, ?map_length, ?repeat_length, ?app_length; cbn [length Nat.min]);
  repeat match goal with H : length _ = _ |- _ => rewrite H end; reflexivity.

Variable p : params_t xr.
Let s := pa_structure p.
Let s' := turned_structure order s.
Let p' := turned order p.
Hypothesis size : nine_surfaces s.

Lemma sizes9 : length (st_wallArea s) = 9%nat /\ length (st_windowArea s) = 9%nat /\ length (st_wallU s) = 9%nat /\ length (st_windowU s) = 9%nat /\
  length (st_wallEmissivity s) = 9%nat /\ length (st_wallAbsorption s) = 9%nat /\ length (st_windowSDF s) = 9%nat /\
  length (st_windowSHGC s) = 9%nat /\ length (st_windowSCF s) = 9%nat.
Proof.
  repeat split; apply size; cbn [In]; tauto.
Qed.
Lemma turned_UA : envelopeUA s' = envelopeUA s.
Proof.
  destruct sizes9 as (A1 & A2 & A3 & A4 & _). unfold envelopeUA, vmul, vadd, vsum, s', turned_structure.
  cbn [st_wallArea st_wallU st_windowArea st_windowU]. rewrite !turned_zip by len9. rewrite turned_sum by (exact walls || len9). reflexivity.
Qed.
Definition shading (x : xr) : xr := match sdfFactor x with Ok y => y | _ => zn 0 end.
Definition is_ok {A} (o : outcome A) : bool := match o with Ok _ => true | _ => false end.
Lemma sdf_ok x : is_ok (sdfFactor x) = true -> sdfFactor x = Ok (shading x).
Proof. unfold shading. destruct (sdfFactor x); cbn; congruence. Qed.
Lemma sdf_not x : is_ok (sdfFactor x) = false -> sdfFactor x = UB.
Proof. unfold sdfFactor. destruct (ntrunc x) as [[|[[]|[]|]|]|]; cbn; congruence. Qed.
Lemma sdf_all v : omap sdfFactor v = if forallb (fun x => is_ok (sdfFactor x)) v then Ok (map shading v) else UB.
Proof.
  induction v as [|x v IH]; [reflexivity|]. cbn [omap forallb map].
  destruct (is_ok (sdfFactor x)) eqn:E; cbn [andb].
  - rewrite (sdf_ok x E). cbn [obind]. rewrite IH. destruct (forallb _ v); reflexivity.
  - rewrite (sdf_not x E). reflexivity.
Qed.
Lemma forallb_permuted {A} (f : A -> bool) l l' : Permutation l l' -> forallb f l = forallb f l'.
Proof.
  induction 1 as [|x l l' _ IH|x y l|l l' l'' _ IH1 _ IH2]; cbn; [reflexivity|now rewrite IH| |now rewrite IH1].
  destruct (f x), (f y); reflexivity.
Qed.
Lemma turned_perm (v : list xr) : length v = 9%nat -> Permutation (tv v) v.
Proof.
  intros L. rewrite (nine_list v L) at 2. unfold turned_vector, rearranged. apply Permutation_map, (ord_perm order walls).
Qed.
Lemma turned_winSol : windowSolarArea s' = obind (windowSolarArea s) (fun v => Ok (tv v)) /\
  (forall v, windowSolarArea s = Ok v -> length v = 9%nat).
Proof.
  destruct sizes9 as (A1 & A2 & A3 & A4 & A5 & A6 & A7 & A8 & A9). unfold windowSolarArea, s', turned_structure.
  cbn [st_windowSDF st_windowSHGC st_windowArea st_win_F_W st_win_ff]. rewrite !sdf_all.
  rewrite (forallb_permuted _ _ _ (turned_perm _ A7)). destruct (forallb _ _); cbn [obind]; [|split; [reflexivity|discriminate]]. split.
  - unfold scale, vmul. rewrite !turned_map by len9. rewrite <- (turned_repeat (zn 1)) at 1. rewrite <- (turned_repeat (nsub (zn 1) (st_win_ff s))) at 1.
    rewrite !turned_zip by len9. reflexivity.
  - intros v V. assert (E : v = vmul (vmul (vmul (vmul (map shading (st_windowSDF s)) (repeat (zn 1) 9)) (scale (st_windowSHGC s) (st_win_F_W s)))
      (repeat (nsub (zn 1) (st_win_ff s)) 9)) (st_windowArea s)) by congruence. subst v. unfold vmul, scale. len9.
Qed.
Lemma turned_wallSol : wallSolarArea s' = tv (wallSolarArea s) /\ length (wallSolarArea s) = 9%nat.
Proof.
  destruct sizes9 as (A1 & A2 & A3 & A4 & A5 & A6 & A7 & A8 & A9). split; [|unfold wallSolarArea, vmul; len9].
  unfold wallSolarArea, vmul, s', turned_structure. cbn [st_wallAbsorption st_R_sc_ext st_wallU st_wallArea].
  rewrite <- (turned_repeat (st_R_sc_ext s)) at 1. rewrite !turned_zip by len9. reflexivity.
Qed.
Lemma turned_sky : skyRadiation s' = tv (skyRadiation s) /\ length (skyRadiation s) = 9%nat.
Proof.
  destruct sizes9 as (A1 & A2 & A3 & A4 & A5 & A6 & A7 & A8 & A9). split; [|unfold skyRadiation, vmul, scale; len9].
  unfold skyRadiation, vmul, scale, s', turned_structure. cbn [st_wallEmissivity st_R_sc_ext st_wallU st_wallArea].
  rewrite !turned_map by len9. rewrite <- (turned_repeat (st_R_sc_ext s)) at 1. rewrite <- (turned_repeat (zn 11)) at 1. rewrite !turned_zip by len9. reflexivity.
Qed.
Lemma turned_gain v row e : length v = 9%nat -> length row = 8%nat ->
  nadd (windowGain s' (tv v) (rearranged order row ++ [e])) (wallGain s' (rearranged order row ++ [e])) =
  nadd (windowGain s v (row ++ [e])) (wallGain s (row ++ [e])).
Proof.
  destruct sizes9 as (A1 & A2 & A3 & A4 & A5 & A6 & A7 & A8 & A9). intros V L. rewrite turned_join by exact L.
  assert (L9 : length (row ++ [e]) = 9%nat) by (rewrite app_length, L; reflexivity).
  unfold windowGain, wallGain. destruct turned_wallSol as [-> W]. destruct turned_sky as [-> K].
  unfold vmul, vsub, vsum. rewrite <- turned_factors. unfold s', turned_structure. cbn [st_windowSCF].
  assert (F : length (formFactors (T:=xr)) = 9%nat) by reflexivity.
  rewrite <- (turned_repeat (zn 1)) at 1. rewrite !turned_zip by len9. rewrite !turned_sum by (exact walls || len9).
  rewrite turned_factors. reflexivity.
Qed.
Lemma turned_Esol v w : length v = 9%nat -> (forall row, In row (mw_msolar w) -> length row = 8%nat) ->
  solarHeatGain s' (tv v) (turned_months order w) = solarHeatGain s v w.
Proof.
  intros V L. unfold solarHeatGain, irradiance, turned_months. cbn [mw_msolar mw_mEgh]. f_equal. revert L. generalize (mw_mEgh w).
  induction (mw_msolar w) as [|row l IH]; intros es L; [reflexivity|]. destruct es as [|e es]; [reflexivity|].
  cbn [map zipw vadd]. unfold vadd in IH |- *. cbn [zipw]. rewrite (turned_gain v row e V) by (apply L; now left).
  rewrite IH by (intros r R; apply L; now right). reflexivity.
Qed.
Lemma turned_tau h : timeConstant p' h = timeConstant p h.
Proof.
  unfold timeConstant, p', turned, turned_structure, vsum. cbn [pa_structure st_interiorHeatCapacity st_floorArea st_wallHeatCapacity st_wallArea].
  rewrite turned_sum by (exact walls || apply sizes9). reflexivity.
Qed.
Lemma turned_temps oc bd h a b c : interiorTemp p' oc bd h a b c = interiorTemp p oc bd h a b c.
Proof. unfold interiorTemp. rewrite turned_tau. reflexivity. Qed.
Lemma turned_sizes w : (forall row, In row (mw_msolar w) -> length row = 8%nat) -> sizes_ok s' (turned_months order w) = sizes_ok s w.
Proof.
  destruct sizes9 as (A1 & A2 & A3 & A4 & A5 & A6 & A7 & A8 & A9). intros L. unfold sizes_ok, s', turned_structure, turned_months.
  cbn [st_wallArea st_windowArea st_wallU st_windowU st_wallEmissivity st_wallAbsorption st_windowSDF st_windowSHGC st_windowSCF
       mw_msolar mw_mhdbt mw_mhEgh mw_mEgh mw_mdbt mw_mwind forallb].
  rewrite !turned_length by exact walls. rewrite A1, A2, A3, A4, A5, A6, A7, A8, A9, map_length.
  assert (E : forallb (fun r : list xr => Nat.eqb (length r) 8) (map (rearranged order) (mw_msolar w)) = forallb (fun r : list xr => Nat.eqb (length r) 8) (mw_msolar w)).
  { revert L. induction (mw_msolar w) as [|row l IH]; intros L; [reflexivity|]. cbn [map forallb]. rewrite IH by (intros r R; apply L; now right).
    rewrite (L row (or_introl eq_refl)). unfold rearranged. rewrite map_length, order_length by exact walls. reflexivity. }
  rewrite E. reflexivity.
Qed.
Lemma turned_monthly w : (forall row, In row (mw_msolar w) -> length row = 8%nat) ->
  simulateMonthly p' (turned_months order w) = simulateMonthly p w.
Proof.
  intros L. unfold simulateMonthly.
  assert (E : monthlyAll p' (turned_months order w) = monthlyAll p w); [|rewrite E; reflexivity].
  unfold monthlyAll. change (pa_structure p') with s'. fold s. rewrite turned_sizes by exact L.
  destruct (sizes_ok s w); [|reflexivity]. change (pa_population p') with (pa_population p).
  change (solarRadiationBreakdown (scheduleAndOccupancy (pa_population p)) (turned_months order w)) with (solarRadiationBreakdown (scheduleAndOccupancy (pa_population p)) w).
  destruct (solarRadiationBreakdown _ w) as [bd| |]; cbn [obind]; [|reflexivity|reflexivity].
  change (lightingEnergyUse p') with (lightingEnergyUse p). rewrite turned_UA.
  destruct turned_winSol as [-> V]. destruct (windowSolarArea s) as [v| |]; cbn [obind]; [|reflexivity|reflexivity].
  rewrite (turned_Esol v w (V v eq_refl) L).
  change (heatGainsAndLosses p') with (heatGainsAndLosses p).
  change (internalHeatGain s') with (internalHeatGain s). change (unoccupiedHeatGain s') with (unoccupiedHeatGain s).
  rewrite turned_temps. destruct (interiorTemp p _ _ _ _ _ _) as [te| |]; cbn [obind]; [|reflexivity|reflexivity].
  reflexivity.
Qed.
End Order.
