(** Pump energy of the monthly engine. *)
From Coq Require Import Reals Lra Psatz String List ZArith Lia Bool.
From Verif Require Import Base Num Xr M_Params M_UserModel M_Hourly M_Monthly S_Monthly S_MonthlySound S_Physical S_Calendar S_Loading S_Results S_Inputs S_Scaling
  L_Xr L_Calendar L_HourlyShape L_HourlyOut L_Monthly L_Monthly3 L_Monthly4 L_MonthlyFin2 L_MonthlyPlant L_MonthlyNaN L_Inputs L_Inputs2 L_Scaling L_Scaling3 L_Scaling4 L_Scaling6.
Import ListNotations.
Open Scope R_scope.

(** ** The shares of the months do not add up to zero *)
Lemma finite_add a b s : xadd a b = Fin s -> exists x y, a = Fin x /\ b = Fin y /\ s = x + y.
Proof. destruct a, b; cbn; intros E; try discriminate. injection E as <-. eauto. Qed.
Lemma finite_sum l : forall a s, fold_left xadd l a = Fin s -> exists x v, a = Fin x /\ l = map Fin v.
Proof.
  induction l as [|y l IH]; intros a s E; cbn [fold_left] in E. { exists s, []. split; [exact E|reflexivity]. }
  destruct (IH _ _ E) as (z & v & E1 & ->). destruct (finite_add _ _ _ E1) as (p & q & -> & -> & _). exists p, (q :: v). split; reflexivity.
Qed.
Lemma vsum_finite l s : @vsum xr _ l = Fin s -> exists v, l = map Fin v.
Proof. intros E. destruct (finite_sum l _ _ E) as (_ & v & _ & ->). eauto. Qed.
Definition infinite (x : xr) : Prop := match x with Fin _ => False | _ => True end.
Lemma all_finite l : (exists v, l = map Fin v) \/ exists x, In x l /\ infinite x.
Proof.
  induction l as [|x l [[v ->]|(y & I & F)]]; [left; exists []; reflexivity| |right; exists y; split; [right; exact I|exact F]].
  destruct x as [a| | |]; [left; exists (a :: v); reflexivity| | |]; right; eexists; (split; [left; reflexivity|exact I]).
Qed.
Lemma zipw_in2 {A B C} (f : A -> B -> C) a b y : length a = length b -> In y b -> exists x, In (f x y) (zipw f a b).
Proof. revert b. induction a as [|x a IH]; intros [|z b] L I; cbn in *; try discriminate; [destruct I|]. destruct I as [->|I]; [eauto|]. destruct (IH b ltac:(lia) I) as [q Q]. eauto. Qed.
Lemma zipw_in1 {A B C} (f : A -> B -> C) a b x : length a = length b -> In x a -> exists y, In (f x y) (zipw f a b).
Proof. revert b. induction a as [|z a IH]; intros [|y b] L I; cbn in *; try discriminate; [destruct I|]. destruct I as [->|I]; [eauto|]. destruct (IH b ltac:(lia) I) as [q Q]. eauto. Qed.
Lemma infinite_add_l x y : infinite x -> infinite (xadd x y).  Proof. destruct x, y; cbn; tauto. Qed.
Lemma infinite_add_r x y : infinite y -> infinite (xadd x y).  Proof. destruct x, y; cbn; tauto. Qed.
Lemma infinite_div x y : infinite x -> infinite y -> xdiv x y = NaN.  Proof. destruct x, y; cbn; tauto. Qed.
Lemma infinite_sum l : (exists x, In x l /\ infinite x) -> infinite (@vsum xr _ l).
Proof.
  intros (x & I & F). destruct (@vsum xr _ l) as [s| | |] eqn:E; cbn; [|exact Logic.I..]. destruct (vsum_finite _ _ E) as [v ->].
  apply in_map_iff in I. destruct I as (a & <- & _). destruct F.
Qed.
Lemma infinite_nz x : infinite x -> neqb x (zn 0) = false.
Proof. rewrite zn0. destruct x; cbn; [tauto|reflexivity..]. Qed.
Lemma shares_nz ht cl : length ht = 12%nat -> length cl = 12%nat -> nz (@vsum xr _ (divs (vadd ht cl) (nadd (vsum ht) (vsum cl)))).
Proof.
  intros L1 L2.
  assert (A : (exists h c, ht = map Fin h /\ cl = map Fin c) \/ (exists x, In x (vadd ht cl) /\ infinite x) /\ infinite (nadd (vsum ht) (vsum cl))).
  { destruct (all_finite ht) as [[h Eh]|X]; [destruct (all_finite cl) as [[c Ec]|X]; [left; exists h, c; split; assumption|]|]; right.
    - split; [|apply infinite_add_r, infinite_sum, X]. destruct X as (y & I & F). destruct (zipw_in2 (@nadd xr _) ht cl y ltac:(lia) I) as [x Q]. exists (nadd x y). split; [exact Q|exact (infinite_add_r _ _ F)].
    - split; [|apply infinite_add_l, infinite_sum, X]. destruct X as (x & I & F). destruct (zipw_in1 (@nadd xr _) ht cl x ltac:(lia) I) as [y Q]. exists (nadd x y). split; [exact Q|exact (infinite_add_l _ _ F)]. }
  destruct A as [(h & c & -> & ->)|[(x & I & F) G]].
  - rewrite map_length in L1, L2. rewrite !vsum_fin. change (nadd (Fin (vsum h)) (Fin (vsum c))) with (Fin (vsum h + vsum c)).
    assert (V : vadd (map Fin h) (map Fin c) = map Fin (vadd h c)) by (apply zipw_fin; reflexivity).
    rewrite V, divs_fin, vsum_fin. apply nz_of. intros X. injection X as X. revert X. rewrite !vsum_R, <- sum_vadd by lia. set (v := vadd h c).
    assert (L : length v = 12%nat) by (unfold v, vadd; rewrite zipw_length; lia). unfold divs, sdiv.
    destruct (neqb (Rsum v) (zn 0)) eqn:Z.
    + clearbody v. clear - L. assert (E : map (fun _ : R => @ndblmax R _) v = repeat ndblmax 12) by (rewrite <- L; clear; induction v as [|y v IH]; [reflexivity|]; cbn [map length repeat]; rewrite IH; reflexivity). rewrite E.
      pose proof Rdblmax_big as P. change (@ndblmax R _) with Rdblmax. cbn [repeat]. unfold Rsum. cbn [fold_right]. lra.
    + change (map (fun x => ndiv x (Rsum v)) v) with (map (fun x => x / Rsum v) v). rewrite Rsum_div.
      assert (N : Rsum v <> 0). { intros E. rewrite E in Z. change (Reqb 0 (@zn R _ 0) = false) in Z. rewrite zn_R in Z. unfold Reqb in Z. destruct (Req_EM_T 0 0); [discriminate|contradiction]. }
      unfold Rdiv. rewrite Rinv_r by exact N. lra.
  - unfold nz. assert (E : @vsum xr _ (divs (vadd ht cl) (nadd (vsum ht) (vsum cl))) = NaN).
    { apply acc_nan. unfold divs, sdiv. rewrite (infinite_nz _ G). rewrite <- (infinite_div x _ F G). exact (in_map (fun x => ndiv x (nadd (vsum ht) (vsum cl))) _ _ I). }
    rewrite E. reflexivity.
Qed.

Section Pumps.
Variables (c : R) (u u' : building_model xr) (w : mweather xr) (m m' : mresult xr).
Hypothesis Hc : 0 < c.
Hypothesis (R1 : run (bm_params u) w m) (R' : run (bm_params u') w m').
Hypothesis NZ : forall key, In key (["floorarea"%string] ++ pump_powers ++ pump_controls) -> nonzero_parameter key u.
Notation mult keys := (forall key, In key keys -> multiplied c key u u').
Lemma yearly_nz (e : xr) : nz e -> nz (vsum (scale megasecondsInMonth e)).
Proof.
  intros N. destruct (all_finite [e]) as [[v E]|(x & [<-|[]] & F)].
  - destruct v as [|x [|y v]]; try discriminate. injection E as ->. rewrite mega_fin, scale_fin, vsum_fin. rewrite mega_sum. apply nz_of. intros X. injection X as X.
    unfold nz in N. rewrite zn0 in N. cbn in N. unfold Reqb in N. destruct (Req_EM_T x 0) as [Z|Z]; [discriminate|]. nra.
  - apply infinite_nz, infinite_sum. exists (xmul (Fin (26784 / 10000)) e). split.
    + left. unfold lit. cbn. unfold Rlit. reflexivity.
    + destruct e; try (destruct F); cbn; unfold xscale; repeat match goal with |- context [Rlt_dec ?a ?b] => destruct (Rlt_dec a b) | |- context [Req_EM_T ?a ?b] => destruct (Req_EM_T a b) end; cbn; try exact I; lra.
Qed.
Lemma product_nz a b : nz a -> nz b -> nz (nmul a b).
Proof.
  unfold nz. rewrite !zn0. destruct a, b; cbn; unfold xscale, Reqb; repeat match goal with |- context [Rlt_dec ?a ?b] => destruct (Rlt_dec a b) | |- context [Req_EM_T ?a ?b] => destruct (Req_EM_T a b) end; cbn;
  intros; try reflexivity; try discriminate. nra.
Qed.
Lemma pump_key key p : existsb (String.eqb key) (["floorarea"%string] ++ pump_powers ++ pump_controls) = true -> number_of key = Some p -> nz (p u).
Proof. intros E F. apply nz_of, (NZ key (key_in _ _ E)), key_number, F. Qed.
Lemma pumps_times keys : In keys [pump_powers; pump_controls] -> mult keys -> same_parameters (without keys monthly_pump_inputs) u u' ->
  perArea (st_floorArea (pa_structure (bm_params u'))) (mr_pump m') = map (tm c) (perArea (st_floorArea (pa_structure (bm_params u))) (mr_pump m)).
Proof.
  intros K M S0. assert (S : same_parameters monthly_need_inputs u u') by (destruct K as [<-|[<-|[]]]; exact (same_incl monthly_need_inputs _ _ _ S0 eq_refl)).
  destruct (needs_same _ _ _ _ _ S R1 R') as (E1 & E2 & E3 & E4 & _). destruct (run_lengths _ _ _ R1) as (_ & _ & L1 & L2 & _).
  assert (Y : ne_ht_yr (mr_needs m) = vsum (ne_ht (mr_needs m)) /\ ne_cl_yr (mr_needs m) = vsum (ne_cl (mr_needs m))) by (rewrite (rn_needs _ _ _ R1); split; reflexivity).
  destruct Y as [Y1 Y2].
  rewrite (rn_pump _ _ _ R'), (rn_pump _ _ _ R1), E1, E2, E3, E4, Y1, Y2. unfold pump. cbv zeta.
  pose proof (key_same _ "floorarea" u u' _ S eq_refl eq_refl) as A. cbn [snd] in A. rewrite A.
  pose proof (pump_key "floorarea" _ eq_refl eq_refl) as N0. pose proof (pump_key "e_pumps_ht" _ eq_refl eq_refl) as N1. pose proof (pump_key "e_pumps_cl" _ eq_refl eq_refl) as N2.
  pose proof (pump_key "heatingpumpcontrol" _ eq_refl eq_refl) as N3. pose proof (pump_key "coolingpumpcontrol" _ eq_refl eq_refl) as N4. cbn [snd] in *.
  set (Qh' := nmul (nmul (vsum (scale megasecondsInMonth (ht_E_pumps (pa_heating (bm_params u'))))) (ht_pumpControlReduction (pa_heating (bm_params u')))) (st_floorArea (pa_structure (bm_params u)))).
  set (Qc' := nmul (nmul (vsum (scale megasecondsInMonth (cl_E_pumps (pa_cooling (bm_params u'))))) (cl_pumpControlReduction (pa_cooling (bm_params u')))) (st_floorArea (pa_structure (bm_params u)))).
  set (Qh := nmul (nmul (vsum (scale megasecondsInMonth (ht_E_pumps (pa_heating (bm_params u))))) (ht_pumpControlReduction (pa_heating (bm_params u)))) (st_floorArea (pa_structure (bm_params u)))).
  set (Qc := nmul (nmul (vsum (scale megasecondsInMonth (cl_E_pumps (pa_cooling (bm_params u))))) (cl_pumpControlReduction (pa_cooling (bm_params u)))) (st_floorArea (pa_structure (bm_params u)))).
  assert (Q : Qh' = tm c Qh /\ Qc' = tm c Qc).
  { unfold Qh', Qc', Qh, Qc. destruct K as [<-|[<-|[]]].
    - pose proof (key_times c _ "e_pumps_ht" u u' _ M eq_refl eq_refl) as B1. pose proof (key_times c _ "e_pumps_cl" u u' _ M eq_refl eq_refl) as B2.
      pose proof (key_same _ "heatingpumpcontrol" u u' _ S0 eq_refl eq_refl) as B3. pose proof (key_same _ "coolingpumpcontrol" u u' _ S0 eq_refl eq_refl) as B4. cbn [snd] in *.
      rewrite B1, B2, B3, B4, !(v_scale c Hc). unfold vsum. rewrite !(tm_sum c). change (@nmul xr _) with xmul. rewrite !(tm_mul_l c Hc). split; reflexivity.
    - pose proof (key_same _ "e_pumps_ht" u u' _ S0 eq_refl eq_refl) as B1. pose proof (key_same _ "e_pumps_cl" u u' _ S0 eq_refl eq_refl) as B2.
      pose proof (key_times c _ "heatingpumpcontrol" u u' _ M eq_refl eq_refl) as B3. pose proof (key_times c _ "coolingpumpcontrol" u u' _ M eq_refl eq_refl) as B4. cbn [snd] in *.
      rewrite B1, B2, B3, B4. change (@nmul xr _) with xmul. rewrite !(tm_mul_r c Hc), !(tm_mul_l c Hc). split; reflexivity. }
  assert (Z1 : nz Qh) by (apply product_nz; [apply product_nz; [apply yearly_nz, N1|exact N3]|exact N0]).
  assert (Z2 : nz Qc) by (apply product_nz; [apply product_nz; [apply yearly_nz, N2|exact N4]|exact N0]).
  clearbody Qh Qc Qh' Qc'. destruct Q as [-> ->].
  assert (Z : forall x, nz x -> neqb (tm c x) (zn 0) = false) by (intros x Hx; unfold nz in Hx; rewrite zn0 in *; rewrite (tm_eq0 c Hc); exact Hx).
  rewrite (Z _ Z1), (Z _ Z2). unfold nz in Z1, Z2. rewrite Z1, Z2. cbn [orb]. change (nadd (tm c Qh) (tm c Qc)) with (xadd (tm c Qh) (tm c Qc)). rewrite (tm_add c), (v_scale c Hc).
  rewrite (v_divs c Hc _ _ (shares_nz _ _ L1 L2)), (perArea_tm c _ _ Hc N0). reflexivity.
Qed.
End Pumps.
