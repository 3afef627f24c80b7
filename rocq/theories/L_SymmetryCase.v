(** The small office turned by one eighth and doubled in size. *)
From Coq Require Import List ZArith Lia Reals Lra Bool Permutation.
From Verif Require Import Base Num Xr M_Params M_Hourly M_Monthly M_Map S_HourSpec S_Results S_Monthly S_Symmetry L_Xr L_HourlyShape L_HourlyRun L_Office L_Office2 L_Monthly3 L_Monthly4 E_SmallOffice E_Monthly.
From Verif Require Import L_HourlyAgain.
Import ListNotations.
Open Scope R_scope.

Definition eighth : list nat := [1;2;3;4;5;6;7;0]%nat.
Lemma eighth_ok : eight_walls eighth.
Proof. unfold eight_walls, eighth. cbn [seq]. apply Permutation_sym. exact (Permutation_cons_append [1;2;3;4;5;6;7]%nat 0%nat). Qed.
(** An hour with the sun in the south (entry 4) and a year of it. *)
Definition noon : weather xr := mkWeather (zn 3) (zn 15) [zn 40; zn 40; zn 90; zn 300; zn 600; zn 400; zn 100; zn 50; zn 700].
Definition noons : list (weather xr) := repeat noon (Z.to_nat 8760).
(** Months whose walls receive different radiation. *)
Definition southSun {T} {N : Num T} : mweather T :=
  mkMw (repeat [zn 20; zn 30; zn 60; zn 90; zn 120; zn 80; zn 50; zn 30] 12) (mw_mhdbt mildYear) (mw_mhEgh mildYear) (mw_mEgh mildYear) (mw_mdbt mildYear) (mw_mwind mildYear).
Lemma office_nine : nine_surfaces (pa_structure (@smallOffice xr _)).
Proof. intros v I. cbn in I. repeat (destruct I as [<-|I]; [reflexivity|]). destruct I. Qed.
Lemma C82_case_l : eight_walls eighth /\ nine_surfaces (pa_structure (@smallOffice xr _)) /\
  turned eighth smallOffice <> @smallOffice xr _ /\ turned_hour eighth noon <> noon /\
  (forall w, In w noons -> length (we_sol w) = 9%nat) /\
  forall agg, exists rows r, simulate (@smallOffice xr _) noons no_ratios agg = Ok (rows, r).
Proof.
  split; [exact eighth_ok|]. split; [exact office_nine|]. split.
  { intros E. apply (f_equal (fun q => nth 0 (st_wallArea (pa_structure q)) (Fin 0))) in E.
    change (@zn xr _ 0 = lit 8445 100) in E. rewrite zn_fin, zn_R in E. cbn [lit xr_num] in E. injection E as E. unfold Rlit in E. lra. }
  split.
  { intros E. apply (f_equal (fun q => nth 1 (we_sol q) (Fin 0))) in E. change (@zn xr _ 90 = zn 40) in E.
    rewrite !zn_fin, !zn_R in E. injection E as E. lra. }
  assert (L : forall w, In w noons -> length (we_sol w) = 9%nat) by (intros w I; apply repeat_spec in I; subst w; reflexivity).
  split; [exact L|]. intros agg.
  destruct (simulateRaw_ok (@smallOffice xr _) noons no_ratios) as (raw & r & E).
  - exact office_ints.
  - reflexivity.
  - unfold noons. rewrite repeat_length. lia.
  - intros w I. unfold nine. rewrite (L w I). reflexivity.
  - destruct (simulate_both _ _ _ _ _ E) as (h & m & E1 & E2 & _). destruct agg; eexists; eexists; eassumption.
Qed.
Lemma C82_months_l : eight_walls eighth /\ nine_surfaces (pa_structure (map_params Fin (@monthlyOffice R _))) /\ (forall row, In row (mw_msolar (@southSun xr _)) -> length row = 8%nat) /\ turned_months eighth southSun <> @southSun xr _ /\ exists rows, simulateMonthly (map_params Fin (@monthlyOffice R _)) southSun = Ok rows.
Proof.
  destruct (office_defined monthlyOffice eq_refl) as [rows H]; [apply zn_R|].
  pose proof (proj1 (C18_monthly_defined_l _ _) (ex_intro _ _ H)) as (A & B & C & D & E).
  split; [exact eighth_ok|]. split; [exact A|].
  assert (L : forall row, In row (mw_msolar (@southSun xr _)) -> length row = 8%nat).
  { intros row I. apply repeat_spec in I. subst row. reflexivity. }
  split; [exact L|]. split.
  { intros X. apply (f_equal (fun q => nth 0 (nth 0 (mw_msolar q) []) (Fin 0))) in X. change (@zn xr _ 30 = zn 20) in X.
    rewrite !zn_fin, !zn_R in X. injection X as X. lra. }
  apply C18_monthly_defined_l. repeat split; try assumption; try apply B; try reflexivity; exact L.
Qed.
(** The office with daylight on 100 square metres. *)
Definition daylitOffice : params_t R :=
  let l := pa_lighting (@smallOffice R _) in
  with_lighting smallOffice (mkLighting (li_densityOcc l) (li_densityUnocc l) (li_dimmingFraction l) (li_exteriorEnergy l) (li_n_day_start l) (li_n_day_end l) (li_n_weeks l)
    (li_elecInternalGains l) (li_permLightPowerDensity l) (li_presenceSensorAd l) (li_automaticAd l) (li_presenceAutoAd l) (li_manualSwitchAd l)
    (li_presenceSensorLux l) (li_automaticLux l) (li_presenceAutoLux l) (li_manualSwitchLux l) 100).
Lemma C83_case_l : 0 < 2 /\ st_floorArea (pa_structure daylitOffice) <> 0 /\
  1 / 10000 <= li_naturallyLightedArea (pa_lighting daylitOffice) /\ 1 / 10000 <= 2 * li_naturallyLightedArea (pa_lighting daylitOffice) /\
  sized 2 daylitOffice <> daylitOffice /\
  forall agg, exists rows r, simulate (map_params Fin daylitOffice) noons no_ratios agg = Ok (rows, r).
Proof.
  assert (A : st_floorArea (pa_structure daylitOffice) = 51116 / 100) by reflexivity.
  assert (B : li_naturallyLightedArea (pa_lighting daylitOffice) = 100) by reflexivity.
  split; [lra|]. split; [rewrite A; lra|]. rewrite B. split; [lra|]. split; [lra|]. split.
  { intros E. apply (f_equal (fun q => st_floorArea (pa_structure q))) in E. change (2 * st_floorArea (pa_structure daylitOffice) = st_floorArea (pa_structure daylitOffice)) in E. rewrite A in E. lra. }
  intros agg. destruct (simulateRaw_ok (map_params Fin daylitOffice) noons no_ratios) as (raw & r & E).
  - exact office_ints.
  - reflexivity.
  - unfold noons. rewrite repeat_length. lia.
  - intros w I. apply repeat_spec in I. subst w. reflexivity.
  - destruct (simulate_both _ _ _ _ _ E) as (h & m & E1 & E2 & _). destruct agg; eexists; eexists; eassumption.
Qed.
Lemma C83_months_l : 0 < 2 /\ 0 < st_floorArea (pa_structure (@monthlyOffice R _)) /\ 0 < ht_hotWaterDistributionEfficiency (pa_heating (@monthlyOffice R _)) /\ 0 < ht_hotWaterSystemEfficiency (pa_heating (@monthlyOffice R _)) /\ exists rows, simulateMonthly (map_params Fin (@monthlyOffice R _)) southSun = Ok rows.
Proof.
  split; [lra|].
  split; [cbn [monthlyOffice with_structure pa_structure shaded st_floorArea]; onum; lra|].
  split; [cbn [monthlyOffice with_structure pa_heating]; onum; lra|].
  split; [cbn [monthlyOffice with_structure pa_heating]; onum; lra|].
  exact (proj2 (proj2 (proj2 (proj2 C82_months_l)))).
Qed.
