(** A case for C115, and two buildings that a sunnier year makes colder. *)
From Coq Require Import Reals Lra Psatz ZArith List Lia.
From Verif Require Import Base Num Xr M_Params M_Hourly M_Map S_RC S_Physical S_Network S_Year S_HourSpec S_Balance S_Compare S_YearCompare S_YearSun E_SmallOffice S_Edit
  L_Xr L_HourlyR L_HourlySpec L_HourlyFin L_HourlyFin2 L_HourlyShape L_HourlyRun L_HourlyThm L_HourlyThm2 L_HourlyThm3 L_HourlyThm4 L_Office L_Office2
  L_HourlyBalance L_HourlyBalance2 L_Compare L_Compare2 L_Compare3 L_MonthlyClimate L_YearCompare L_YearCompare2 L_YearCompare3 L_YearClimate L_YearClimate2 L_Insulation L_Insulation2 L_Recovery L_Preheat L_YearSun.
Import ListNotations.
Open Scope R_scope.

(** 14 m/s, 15 degrees and [g] W/m2 on every surface. *)
Definition lit_hour (g : R) : weather R := {| we_wind := 14; we_temp := 15; we_sol := repeat g 9 |}.
Definition lit_year (g : R) : list (weather R) := repeat (lit_hour g) (Z.to_nat 8760).
Lemma lit_sun g k : 0 <= g -> 0 <= nth k (repeat g 9) 0 <= g.
Proof. intros G. destruct (nth_in_or_default k (repeat g 9) 0) as [I| ->]; [apply repeat_spec in I; rewrite I; lra|lra]. Qed.
Lemma lit_zero k : nth k (repeat 0 9) 0 = 0.
Proof. pose proof (lit_sun 0 k (Rle_refl 0)). lra. Qed.
Lemma lit_sunnier g g' : 0 <= g <= g' -> sunnier_hour (lit_hour g) (lit_hour g').
Proof.
  intros G. split; [reflexivity|]. split; [reflexivity|]. intros k. cbn [lit_hour we_sol].
  split; [apply lit_sun; lra|]. do 9 (destruct k as [|k]; [cbn; lra|]). cbn. destruct k; lra.
Qed.
Lemma lit_steady g : steady_leak still_office 18 22 (lit_hour g).
Proof.
  intros flow t t' _ B B'. unfold sp_exfiltration. rewrite balanced, Rabs_R0, !Rmult_0_l, !Rminus_0_r. cbn [lit_hour we_wind we_temp].
  rewrite (Rmax_right _ _ (windy_leak t B)), (Rmax_right _ _ (windy_leak t' B')). reflexivity.
Qed.
Lemma lit_runs p g : pa_population p = pa_population still_office -> structure_nine (pa_structure (map_params Fin p)) = true ->
  exists raw r, simulateRaw (map_params Fin p) (map (map_weather Fin) (lit_year g)) no_ratios = Ok (raw, r).
Proof.
  intros PO N. unfold lit_year. rewrite map_repeat. apply simulateRaw_ok.
  - change (pa_population (map_params Fin p)) with (map_population Fin (pa_population p)). rewrite PO. apply office_ints.
  - exact N.
  - rewrite repeat_length. lia.
  - intros w Hw. apply repeat_spec in Hw. subst w. reflexivity.
Qed.
Lemma still_admits : shades_admit still_office.
Proof. right. intros k. do 9 (destruct k as [|k]; [onum; lra|]). onum. destruct k; lra. Qed.
Lemma C115_case_l : let p := still_office in
  physical p /\ ordered_setpoints p /\ mass_slow p /\ sources_ok p /\ shades_admit p /\ timetable_of p office_hours /\ encloses 18 22 p /\
  Forall2 (fun w w' => sunnier_hour w w' /\ steady_leak p 18 22 w /\ lamps_alike p w w') (lit_year 100) (lit_year 300) /\
  (exists raw r, simulateRaw (map_params Fin p) (map (map_weather Fin) (lit_year 100)) no_ratios = Ok (raw, r)) /\
  exists raw r, simulateRaw (map_params Fin p) (map (map_weather Fin) (lit_year 300)) no_ratios = Ok (raw, r).
Proof.
  cbv zeta. split; [exact still_physical|]. split; [exact still_ordered|]. split; [exact office_slow|]. split; [exact office_sources|]. split; [exact still_admits|].
  split; [exact still_timetable|]. split; [unfold encloses; onum; lra|].
  split. { apply Forall2_repeat. split; [apply lit_sunnier; lra|]. split; [apply lit_steady|]. left. split; reflexivity. }
  split; apply lit_runs; reflexivity.
Qed.

(** ** A shop whose lamps daylight turns off, or whose shades keep the sun out *)
(** The office held between 21 and 22 degrees, lit by day through windows: [glass] is the part of the sun that a bare
    window lets in, a shaded one lets in none; [lamps] W/m2 of lamps. *)
Definition shop (glass lamps : R) : params_t R :=
  match with_no_loads office 0 21 22 with
  | mkParams (mkStructure f1 f2 f3 f4 f5 f6 _ f8 _ _ f11 f12 f13 f14 f15 _ _ f18 f19 f20 f21) he co ve
      (mkLighting _ _ c3 d3 e3 f3' g3 h3 i3 j3 k3 l3 m3 n3 o3 q3 r3 _) bu po (mkSettings a5 _ c5 d5) ph te =>
    mkParams (mkStructure f1 f2 f3 f4 f5 f6 (repeat 0 9) f8 (repeat glass 9) (repeat 0 9) f11 f12 f13 f14 f15 500 1 f18 f19 f20 f21) he co ve
      (mkLighting lamps lamps c3 d3 e3 f3' g3 h3 i3 j3 k3 l3 m3 n3 o3 q3 r3 f1) bu po (mkSettings a5 (1 / 10) c5 d5) ph te end.
Lemma shop_physical g l : physical (shop g l).
Proof.
  constructor; try reflexivity; try exact (phy_wallArea _ still_physical); try exact (phy_wallU _ still_physical); try exact (phy_windowArea _ still_physical); try exact (phy_windowU _ still_physical);
    try exact (phy_coupling _ still_physical).
  all: onum; lra.
Qed.
Lemma shop_ordered g l : ordered_setpoints (shop g l).
Proof. unfold ordered_setpoints. onum. lra. Qed.
Lemma shop_encloses g l : encloses 18 22 (shop g l).
Proof. unfold encloses. onum. lra. Qed.
Lemma repeat_nonneg g n : 0 <= g -> all_nonneg (repeat g n).
Proof. intros G x Hx. apply repeat_spec in Hx. subst x. exact G. Qed.
Lemma shop_sources g l : 0 <= g -> 0 <= l -> sources_ok (shop g l).
Proof.
  intros G L. constructor; try exact (so_surface _ office_sources); try (apply repeat_nonneg; lra).
  all: onum; lra.
Qed.
Lemma shop_steady g l s : steady_leak (shop g l) 18 22 (lit_hour s).
Proof. exact (lit_steady s). Qed.
Lemma shop_pair g l s s' : 0 <= s <= s' -> Forall2 (fun w w' => sunnier_hour w w' /\ steady_leak (shop g l) 18 22 w) (lit_year s) (lit_year s').
Proof. intros H. apply Forall2_repeat. split; [apply lit_sunnier; exact H|apply shop_steady]. Qed.

Lemma first_step p tt k tm ta ws ns : iso_hours p tt k tm ta ws ns -> forall w q, nth_error ws 0 = Some w -> nth_error ns 0 = Some q ->
  exists m a, iso_step (rc_at p tt k w ta) (heat_at p tt k) (cool_at p tt k) tm m a (fst q) (snd q).
Proof.
  intros H w q W Q. destruct H as [k tm ta ws|k tm ta v ws m a qh qc ns S R]; [discriminate Q|].
  cbn in W, Q. injection W as ->. injection Q as <-. exists m, a. exact S.
Qed.
Lemma first_hour g l s : exists raw r h qh m a qc, simulateRaw (map_params Fin (shop g l)) (map (map_weather Fin) (lit_year s)) no_ratios = Ok (raw, r) /\
  nth_error raw 0 = Some h /\ hr_Qneed_ht h = Fin qh /\ iso_step (rc_at (shop g l) office_hours 0 (lit_hour s) 20) 21 22 20 m a qh qc.
Proof.
  destruct (lit_runs (shop g l) s eq_refl eq_refl) as (raw & r & H). exists raw, r.
  destruct (C04_year_l _ office_hours _ _ _ (shop_physical g l) (shop_ordered g l) office_timetable H) as (ns & N & E).
  pose proof (simulateRaw_length _ _ _ _ _ H) as L. destruct (nth_error raw 0) as [h|] eqn:Eh; [|apply nth_error_None in Eh; lia].
  pose proof (map_nth_error (fun h => (hr_Qneed_ht h, hr_Qneed_cl h)) _ _ Eh) as K. rewrite E, nth_error_map in K. destruct (nth_error ns 0) as [q|] eqn:Eq; [|discriminate K].
  cbn in K. injection K as K1 K2.
  assert (W : nth_error (lit_year s) 0 = Some (lit_hour s)) by (unfold lit_year; replace (Z.to_nat 8760) with (S (Z.to_nat 8759)) by lia; reflexivity).
  destruct (first_step _ _ _ _ _ _ _ N _ _ W Eq) as (m & a & S). exists h, (fst q), m, a, (snd q).
  split; [exact H|]. split; [reflexivity|]. split; [symmetry; exact K1|]. exact S.
Qed.

(** With less heat in the room a heated hour needs more heating. *)
Lemma less_gain x x' lo hi m0 m a qh qc m' a' qh' qc' : rc_positive x -> same_net x x' -> slow_net x -> lo <= hi ->
  rc_phi_ia x < rc_phi_ia x' -> rc_phi_st x <= rc_phi_st x' -> rc_phi_m x <= rc_phi_m x' ->
  iso_step x lo hi m0 m a qh qc -> iso_step x' lo hi m0 m' a' qh' qc' -> 0 < qh -> qh' < qh.
Proof.
  intros HX HN HC LH G1 G2 G3 S S' Q. destruct (Rle_lt_dec qh' 0) as [Z0|Q']; [lra|].
  assert (HX' : rc_positive x') by (destruct HN as [E1 E2 E3 E4 E5 E6 _ _]; unfold rc_positive; rewrite E1, E2, E3, E4, E5, E6; exact HX).
  assert (HC' : slow_net x') by (destruct HN as [E1 E2 E3 E4 E5 E6 _ _]; unfold slow_net; rewrite ?E1, ?E2, ?E3, ?E4, ?E5, ?E6; exact HC).
  destruct (heated_holds _ _ _ _ _ _ _ _ HX HC LH S Q) as (-> & -> & s & B). destruct (heated_holds _ _ _ _ _ _ _ _ HX' HC' LH S' Q') as (-> & -> & s' & B').
  destruct (masses_mono x x' HX HN HC _ _ _ _ _ _ _ _ _ _ B B' (Rle_refl lo) (Rle_refl m0) ltac:(lra) ltac:(lra)) as [S2 M2].
  destruct (balance_diff x x' HN _ _ _ _ _ _ _ _ _ _ B B') as (E1 & _). destruct HX as (X1 & X2 & _).
  assert (0 <= rc_is x * (s' - s)) by (apply Rmult_le_pos; lra). lra.
Qed.
(** No gains in the sunny hour, some in the other: the sunny hour needs more heating. *)
Lemma shop_colder g l s s' : 0 <= g -> 0 <= l -> 0 <= s <= s' ->
  sp_solar (shop g l) (repeat s' 9) = 0 -> sp_internal (shop g l) 0 l (repeat s' 9) = 0 ->
  0 <= sp_solar (shop g l) (repeat s 9) -> 0 <= sp_internal (shop g l) 0 l (repeat s 9) ->
  0 < sp_solar (shop g l) (repeat s 9) + sp_internal (shop g l) 0 l (repeat s 9) ->
  exists raw raw' r r' h h' q q',
  simulateRaw (map_params Fin (shop g l)) (map (map_weather Fin) (lit_year s)) no_ratios = Ok (raw, r) /\
  simulateRaw (map_params Fin (shop g l)) (map (map_weather Fin) (lit_year s')) no_ratios = Ok (raw', r') /\
  nth_error raw 0 = Some h /\ nth_error raw' 0 = Some h' /\ hr_Qneed_ht h = Fin q /\ hr_Qneed_ht h' = Fin q' /\ q < q'.
Proof.
  intros G L SS SO' SI' SO SI POS.
  destruct (first_hour g l s) as (raw & r & h & qh & m & a & qc & H & Hh & Q & S). destruct (first_hour g l s') as (raw' & r' & h' & qh' & m' & a' & qc' & H' & Hh' & Q' & S').
  exists raw, raw', r, r', h, h', qh, qh'. split; [exact H|]. split; [exact H'|]. split; [exact Hh|]. split; [exact Hh'|]. split; [exact Q|]. split; [exact Q'|].
  set (x := rc_at (shop g l) office_hours 0 (lit_hour s) 20) in *. set (x' := rc_at (shop g l) office_hours 0 (lit_hour s') 20) in *.
  pose proof (rc_at_positive _ office_hours 0 (lit_hour s') 20 (shop_physical g l)) as X. fold x' in X. assert (SL : slow_net x') by exact office_slow.
  assert (N : same_net x' x) by (constructor; reflexivity).
  assert (EQ : equip_at (shop g l) office_hours 0 = 0) by (unfold equip_at; destruct (occupied _ _); reflexivity).
  assert (LI : lights_at (shop g l) office_hours 0 = l) by (unfold lights_at; destruct (occupied _ _); reflexivity).
  pose proof (so_surface _ (shop_sources g l G L)) as SU. pose proof (phy_tapfa _ (shop_physical g l)) as PT.
  assert (MA : 2.5 <= sp_mass_area (sp_capacity (shop g l))) by (unfold sp_mass_area, clamp; pose proof (Rmax_l 0 (Rmin 1 ((sp_capacity (shop g l) - 165) / 95))); pose proof (Rmax_l 0 (Rmin 1 ((sp_capacity (shop g l) - 260) / 110))); lra).
  assert (FI : ss_phiIntFraction (pa_settings (shop g l)) = 1 / 2) by (onum; lra). assert (FS : ss_phiSolFraction (pa_settings (shop g l)) = 1 / 10) by reflexivity.
  assert (NG : no_gains x').
  { unfold no_gains, x', rc_at, hour_rc. cbn [rc_phi_ia rc_phi_st rc_phi_m lit_hour we_sol]. rewrite EQ, LI, SO', SI'. repeat split; ring. }
  assert (TI : 0 < / st_totalAreaPerFloorArea (pa_structure (shop g l))) by (apply Rinv_0_lt_compat; lra).
  assert (GA : rc_phi_ia x' < rc_phi_ia x /\ rc_phi_st x' <= rc_phi_st x /\ rc_phi_m x' <= rc_phi_m x).
  { destruct NG as (-> & -> & ->). unfold x, rc_at, hour_rc. cbn [rc_phi_ia rc_phi_st rc_phi_m lit_hour we_sol]. rewrite EQ, LI, FI, FS.
    clear - SU PT MA TI SO SI POS. revert SU PT MA TI SO SI POS.
    generalize (st_totalAreaPerFloorArea (pa_structure (shop g l))) (sp_mass_area (sp_capacity (shop g l))) (sp_windows (shop g l) / sp_h_ms (shop g l)) (sp_solar (shop g l) (repeat s 9)) (sp_internal (shop g l) 0 l (repeat s 9)).
    intros T am wh so si SU PT MA TI A B C. split; [lra|]. split; (apply Rmult_le_pos; [apply Rmult_le_pos; lra|lra]). }
  destruct GA as (G1 & G2 & G3).
  assert (SUP : sp_supplied (shop g l) 15 = 15) by (apply office_supplied; lra).
  assert (MX : 15 <= rc_sup x' <= 15).
  { apply (mixed_between (shop g l) (flow_at (shop g l) office_hours 0) 14 15 20 15 15 (shop_physical g l)); [apply flow_nonneg, shop_physical|lra|rewrite SUP; lra]. }
  assert (PQ : 0 < qh').
  { refine (surely_heated x' 20 21 22 20 m' a' qh' qc' X SL NG _ _ _ _ _ S'); try lra. change (15 <= 20). lra. }
  exact (less_gain x' x 21 22 20 m' a' qh' qc' m a qh qc X N SL ltac:(lra) G1 G2 G3 S' S PQ).
Qed.
Lemma shop_lit g l : sp_lit_ratio (shop g l) = 1.
Proof. unfold sp_lit_ratio. onum. rewrite Rmax_right by lra. field. Qed.
Lemma shop_control g l : sp_control (shop g l) = (1, 500).
Proof. unfold sp_control. onum. repeat (destruct (Rlt_dec _ _); [exfalso; lra|]). f_equal; lra. Qed.
Lemma lamps_bright : sp_lights_on (shop 0 10) (repeat 500 9) = 0.
Proof.
  unfold sp_lights_on. rewrite shop_control, shop_lit. rewrite Rmax_left; [ring|].
  assert (500 <= sp_daylight (shop 0 10) (repeat 500 9)); [|lra].
  unfold sp_daylight. rewrite shop_lit. onum. lra.
Qed.
Lemma lamps_dark : sp_lights_on (shop 0 10) (repeat 0 9) = 1.
Proof.
  unfold sp_lights_on. rewrite shop_control, shop_lit.
  assert (E : sp_daylight (shop 0 10) (repeat 0 9) = 0) by (unfold sp_daylight; rewrite shop_lit; onum; lra). rewrite E, Rmax_right; lra.
Qed.
Lemma shop_blind s : sp_solar (shop 0 10) (repeat s 9) = 0.
Proof.
  unfold sp_solar. apply Rsum_zero. intros k _.
  assert (A : sp_aperture (shop 0 10) (repeat 0 9) k = 0).
  { unfold sp_aperture. replace (nth k (st_wallAbsorption (pa_structure (shop 0 10))) 0) with 0 by (symmetry; apply (lit_zero k)).
    replace (nth k (repeat 0 9) 0) with 0 by (symmetry; apply (lit_zero k)). unfold Rdiv. ring. }
  change (st_windowSHGC (pa_structure (shop 0 10))) with (repeat 0 9). change (st_windowSCF (pa_structure (shop 0 10))) with (repeat 0 9). rewrite A. ring.
Qed.
Lemma shop_none s : sp_internal (shop 1 0) 0 0 s = 0.
Proof. unfold sp_internal. ring. Qed.
Lemma shop_shaded : sp_solar (shop 1 0) (repeat 500 9) = 0.
Proof.
  unfold sp_solar. apply Rsum_zero. intros k _.
  destruct (nth_in_or_default k (repeat 500 9) 0) as [I| ->]; [|ring]. apply repeat_spec in I. rewrite I.
  assert (E : sp_shade (shop 1 0) 500 = 1). { unfold sp_shade. change (1 / 500 * Rmin 500 500 = 1). rewrite Rmin_left by lra. lra. }
  assert (A : sp_aperture (shop 1 0) (st_windowSCF (pa_structure (shop 1 0))) k = 0).
  { unfold sp_aperture. replace (nth k (st_wallAbsorption (pa_structure (shop 1 0))) 0) with 0 by (symmetry; apply (lit_zero k)).
    change (st_windowSCF (pa_structure (shop 1 0))) with (repeat 0 9). replace (nth k (repeat 0 9) 0) with 0 by (symmetry; apply (lit_zero k)). unfold Rdiv. ring. }
  rewrite E, A. ring.
Qed.
Lemma shop_half : 0 < sp_solar (shop 1 0) (repeat 250 9).
Proof.
  assert (E : sp_shade (shop 1 0) 250 = 1 / 2). { unfold sp_shade. change (1 / 500 * Rmin 250 500 = 1 / 2). rewrite Rmin_left by lra. lra. }
  unfold sp_solar. cbn [seq map repeat nth]. rewrite E. unfold sp_aperture. onum. lra.
Qed.
Lemma C115_lamps_l : exists p lo hi tt ws ws' raw raw' r r' k h h' q q',
  physical p /\ ordered_setpoints p /\ mass_slow p /\ sources_ok p /\ shades_admit p /\ timetable_of p tt /\ encloses lo hi p /\
  Forall2 (fun w w' => sunnier_hour w w' /\ steady_leak p lo hi w) ws ws' /\
  simulateRaw (map_params Fin p) (map (map_weather Fin) ws) no_ratios = Ok (raw, r) /\
  simulateRaw (map_params Fin p) (map (map_weather Fin) ws') no_ratios = Ok (raw', r') /\
  nth_error raw k = Some h /\ nth_error raw' k = Some h' /\ hr_Qneed_ht h = Fin q /\ hr_Qneed_ht h' = Fin q' /\ q < q'.
Proof.
  assert (I0 : sp_internal (shop 0 10) 0 10 (repeat 500 9) = 0) by (unfold sp_internal; rewrite lamps_bright; ring).
  assert (I1 : sp_internal (shop 0 10) 0 10 (repeat 0 9) = 10) by (unfold sp_internal; rewrite lamps_dark; onum; lra).
  destruct (shop_colder 0 10 0 500) as (raw & raw' & r & r' & h & h' & q & q' & A); try lra; try apply shop_blind; rewrite ?shop_blind, ?I1; try lra.
  exists (shop 0 10), 18, 22, office_hours, (lit_year 0), (lit_year 500), raw, raw', r, r', 0%nat, h, h', q, q'.
  split; [apply shop_physical|]. split; [apply shop_ordered|]. split; [exact office_slow|]. split; [apply shop_sources; lra|]. split; [right; intros k; apply Rle_refl|].
  split; [exact office_timetable|]. split; [apply shop_encloses|]. split; [apply shop_pair; lra|]. exact A.
Qed.
Lemma C115_shades_l : exists p lo hi tt ws ws' raw raw' r r' k h h' q q',
  physical p /\ ordered_setpoints p /\ mass_slow p /\ sources_ok p /\ timetable_of p tt /\ encloses lo hi p /\
  Forall2 (fun w w' => sunnier_hour w w' /\ steady_leak p lo hi w /\ lamps_alike p w w') ws ws' /\
  simulateRaw (map_params Fin p) (map (map_weather Fin) ws) no_ratios = Ok (raw, r) /\
  simulateRaw (map_params Fin p) (map (map_weather Fin) ws') no_ratios = Ok (raw', r') /\
  nth_error raw k = Some h /\ nth_error raw' k = Some h' /\ hr_Qneed_ht h = Fin q /\ hr_Qneed_ht h' = Fin q' /\ q < q'.
Proof.
  pose proof shop_half as SH.
  destruct (shop_colder 1 0 250 500) as (raw & raw' & r & r' & h & h' & q & q' & A); try lra; try apply shop_shaded; rewrite ?shop_none; try lra.
  exists (shop 1 0), 18, 22, office_hours, (lit_year 250), (lit_year 500), raw, raw', r, r', 0%nat, h, h', q, q'.
  split; [apply shop_physical|]. split; [apply shop_ordered|]. split; [exact office_slow|]. split; [apply shop_sources; lra|].
  split; [exact office_timetable|]. split; [apply shop_encloses|].
  split. { apply Forall2_repeat. split; [apply lit_sunnier; lra|]. split; [apply shop_steady|]. left. split; reflexivity. }
  exact A.
Qed.
