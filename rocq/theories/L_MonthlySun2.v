(** A house with white and with black walls. *)
From Coq Require Import Reals Lra Psatz ZArith List Bool Lia.
From Verif Require Import Base Num Xr M_Params M_Monthly M_Map L_Xr L_HourlyShape L_HourlyFin2 L_Office S_Calendar S_Schedule S_Results S_Monthly S_Physical S_MonthlySound S_MonthlyHeat S_MonthlyPlant S_MonthlyCompare S_MonthlyBalance S_MonthlySun
  L_Monthly L_Monthly2 L_Monthly3 L_Monthly4 L_Monthly5 L_MonthlyFin L_MonthlyFin2 L_MonthlyNaN L_MonthlyGain L_MonthlyNeed L_MonthlyTemp L_MonthlyVent L_MonthlyBalance L_MonthlyCase L_MonthlyPlant L_MonthlyPlant2
  E_SmallOffice E_Monthly E_House L_MonthlyHouse L_MonthlyHouse2 L_MonthlyCompare L_MonthlyCompare2 L_MonthlyClimate L_MonthlySun.
Import ListNotations.
Open Scope R_scope.

(** The house with walls absorbing all radiation. *)
Definition black_house (x e : R) : params_t R := with_surfaces (house x e 0 0) (repeat 1 9) (repeat 0 9) (repeat 1 9).
Lemma black_sound x e : sound (black_house x e).
Proof.
  pose proof (house_sound x e 0 0) as S. pose proof (so_surf _ S) as F. destruct S. constructor; try assumption.
  intros v I. cbn in I. repeat (destruct I as [<-|I]; [reflexivity|]). destruct I.
Qed.
Lemma black_run x e w m : monthlyAll (map_params Fin (house x e 0 0)) (fin_weather w) = Ok m -> exists m', monthlyAll (map_params Fin (black_house x e)) (fin_weather w) = Ok m'.
Proof.
  intros M. apply monthlyAll_iff. destruct (proj1 (monthlyAll_iff _ _) (ex_intro _ _ M)) as (A & B & C & D & E). split; [|repeat split; try assumption; apply B].
  intros v I. cbn in I. repeat (destruct I as [<-|I]; [reflexivity|]). destruct I.
Qed.
Lemma sun_run p w r m : monthlyAll (map_params Fin p) (fin_weather w) = Ok m -> exists m', monthlyAll (map_params Fin p) (fin_weather (with_sun w r)) = Ok m'.
Proof.
  intros M. apply monthlyAll_iff. destruct (proj1 (monthlyAll_iff _ _) (ex_intro _ _ M)) as (A & B & C & D & E). split; [exact A|]. split; [|repeat split; assumption].
  destruct B as (_ & B2 & B3 & _ & B5). split; [|split; [exact B2|split; [exact B3|split; [reflexivity|exact B5]]]].
  split; [reflexivity|]. intros y I. cbn in I. repeat (destruct I as [<-|I]; [reflexivity|]). destruct I.
Qed.
Lemma nth_all (d r : R) n k : (k < n)%nat -> nth k (repeat r n) d = r.
Proof. revert k. induction n as [|n IH]; intros [|k] K; try lia; [reflexivity|]. cbn [repeat nth]. apply IH. lia. Qed.
Lemma nth_rows (row : list R) n i : (i < n)%nat -> nth i (repeat row n) [] = row.
Proof. revert i. induction n as [|n IH]; intros [|i] K; try lia; [reflexivity|]. cbn [repeat nth]. apply IH. lia. Qed.
Lemma rad_with w r i k : (i < 12)%nat -> (k < 9)%nat -> radiation (with_sun w r) i k = r.
Proof.
  intros I K. unfold radiation. cbn [with_sun mw_msolar mw_mEgh]. destruct (k <? 8)%nat eqn:E.
  - apply Nat.ltb_lt in E. rewrite nth_rows by exact I. now apply nth_all.
  - now apply nth_all.
Qed.
Lemma rad_steady te i k : (i < 12)%nat -> (k < 9)%nat -> radiation (steadyYear te) i k = if (k <? 8)%nat then 100 else 90.
Proof.
  intros I K. unfold radiation. change (mw_msolar (steadyYear te)) with (repeat (repeat (@zn R _ 100) 8) 12). change (mw_mEgh (steadyYear te)) with (repeat (@zn R _ 90) 12). destruct (k <? 8)%nat eqn:E.
  - apply Nat.ltb_lt in E. rewrite nth_rows by exact I. rewrite nth_all by exact E. apply zn_R.
  - rewrite nth_all by exact I. apply zn_R.
Qed.
Lemma black_sun x e w i : (i < 12)%nat -> solar_gain (pa_structure (black_house x e)) w i =
  month_megaseconds i * (4 / 10 * (radiation w i 0 + radiation w i 1 + radiation w i 2 + radiation w i 3 + radiation w i 4 + radiation w i 5 + radiation w i 6 + radiation w i 7 + radiation w i 8) - 110 * e).
Proof.
  intros I. unfold solar_gain. f_equal. cbn [map seq]. generalize (radiation w i). intros r. unfold window_sun, wall_sun.
  change (st_windowArea (pa_structure (black_house x e))) with (repeat (@zn R _ 0) 9). change (st_wallU (pa_structure (black_house x e))) with (repeat (@zn R _ 1) 9). change (st_wallArea (pa_structure (black_house x e))) with (repeat (@zn R _ 10) 9).
  change (st_wallAbsorption (pa_structure (black_house x e))) with (repeat 1 9). change (st_wallEmissivity (pa_structure (black_house x e))) with (repeat e 9). change (st_R_sc_ext (pa_structure (black_house x e))) with (@lit R _ 4 100).
  cbn [repeat nth]. rewrite !zn_R. unfold sky_view. cbn [Nat.ltb Nat.leb]. cbn [lit R_num]. unfold Rlit, Rsum. cbn [fold_right]. field.
Qed.
Lemma white_takes x e : takes_sun (pa_structure (house x e 0 0)).
Proof.
  assert (A : forall (z : Z) v, (0 <= z)%Z -> In v (repeat (@zn R _ z) 9) -> 0 <= v) by (intros z v Z I; apply repeat_spec in I; subst v; rewrite zn_R; apply IZR_le; exact Z).
  constructor; try (intros v I); try (change (In v (repeat (@zn R _ 0) 9)) in I; exact (A 0%Z v ltac:(lia) I)); try (change (In v (repeat (@zn R _ 1) 9)) in I; exact (A 1%Z v ltac:(lia) I)); try (change (In v (repeat (@zn R _ 10) 9)) in I; exact (A 10%Z v ltac:(lia) I)).
  - change (@lit R _ 25 100 <= 1). cbn [lit R_num]. unfold Rlit. lra.
  - change (0 <= @lit R _ 9 10). cbn [lit R_num]. unfold Rlit. lra.
  - change (0 <= @lit R _ 4 100). cbn [lit R_num]. unfold Rlit. lra.
Qed.
Lemma white_less x e : takes_more (house x e 0 0) (repeat 1 9) (repeat 0 9) (repeat 1 9).
Proof.
  assert (A : forall a b n, a <= b -> Forall2 Rle (repeat a n) (repeat b n)) by (intros a b n L; induction n; constructor; assumption).
  split; [|split].
  - change (Forall2 Rle (repeat (@zn R _ 0) 9) (repeat 1 9)). rewrite zn_R. apply A. lra.
  - change (Forall2 Rle (repeat (@zn R _ 0) 9) (repeat 0 9)). rewrite zn_R. apply A. lra.
  - change (Forall2 Rle (repeat (@zn R _ 1) 9) (repeat 1 9)). rewrite zn_R. apply A. lra.
Qed.

Lemma C114_case_l : let p := house 2 0 0 0 in let q := black_house 2 0 in let w := steadyYear 14 in let w' := with_sun w 150 in
  sound p /\ sound q /\ ntrunc (bu_bem (pa_building p)) = Some 1%Z /\ no_heat_setback p 1 /\ no_cool_setback p 1 /\ 0 < utilisation_exponent p /\ same_air w w' /\
  takes_sun (pa_structure p) /\ takes_more p (repeat 1 9) (repeat 0 9) (repeat 1 9) /\
  exists m m', monthlyAll (map_params Fin p) (fin_weather w) = Ok m /\ monthlyAll (map_params Fin q) (fin_weather w') = Ok m' /\
  forall i, (i < 12)%nat -> lit_month w i /\ no_darker w w' i /\
  (forall t tc te hve hvc sol phi, month_data p w m i t tc te hve hvc sol phi -> 0 < month_loss (envelope_UA (pa_structure p)) (st_floorArea (pa_structure p)) hve t te i /\ 0 < month_gain phi sol i) /\
  exists a b ac bc, nth_error (ne_ht (mr_needs m)) i = Some (Fin a) /\ nth_error (ne_ht (mr_needs m')) i = Some (Fin b) /\
    nth_error (ne_cl (mr_needs m)) i = Some (Fin ac) /\ nth_error (ne_cl (mr_needs m')) i = Some (Fin bc).
Proof.
  cbv zeta. set (p := house 2 0 0 0). set (q := black_house 2 0). set (w := steadyYear 14). set (w' := with_sun w 150).
  assert (UA : envelope_UA (pa_structure p) = 90) by (change (pa_structure p) with (houseStructure (0 : R)); apply house_UA).
  assert (AR : st_floorArea (pa_structure p) = 100) by (change (st_floorArea (pa_structure p)) with (@zn R _ 100); now rewrite zn_R).
  assert (SP : sound p) by apply house_sound. assert (SQ : sound q) by apply black_sound. assert (BM : ntrunc (bu_bem (pa_building p)) = Some 1%Z) by apply house_bem. assert (EP : 0 < utilisation_exponent p) by apply house_exponent.
  assert (SA : same_air w w') by (split; reflexivity). destruct (house_no_setback 2 0) as [NH NC]. fold p in NH, NC.
  split; [exact SP|]. split; [exact SQ|]. split; [exact BM|]. split; [exact NH|]. split; [exact NC|]. split; [exact EP|]. split; [exact SA|]. split; [apply white_takes|]. split; [apply white_less|].
  destruct (house_run 2 0 0 0 14) as (m & rows & M & _). fold p w in M. destruct (black_run 2 0 w m M) as (m1 & M1). fold q in M1. destruct (sun_run q w 150 m1 M1) as (m' & M'). fold w' in M'. exists m, m'. split; [exact M|]. split; [exact M'|]. clear m1 M1 rows.
  intros i I. pose proof (house_months 2 0 0 0 14 m i ltac:(apply Rabs_le; lra) ltac:(apply Rabs_le; lra) M I) as (D & N1 & N2). cbv zeta in *. fold p w in D, N1, N2.
  pose proof (ms_bounds i I) as B. pose proof (house_air_bound 0 0 0 0 14 24 ltac:(apply Rabs_le; lra)) as A1. pose proof (house_air_bound 0 0 0 0 14 28 ltac:(apply Rabs_le; lra)) as A2.
  pose proof dblmin_small as DS. pose proof Rdblmin_pos as DP.
  split. { intros k K. unfold w. rewrite rad_steady by assumption. destruct (k <? 8)%nat; lra. }
  split. { intros k K. unfold w'. rewrite rad_with by assumption. unfold w. rewrite rad_steady by assumption. destruct (k <? 8)%nat; lra. }
  assert (HL : month_loss 90 100 (airFlow 14 24) 24 14 i = hLoss 14 24 * month_megaseconds i) by reflexivity. assert (HK : month_loss 90 100 (airFlow 14 28) 28 14 i = hLoss 14 28 * month_megaseconds i) by reflexivity.
  assert (BL : 900 * month_megaseconds i <= hLoss 14 24 * month_megaseconds i) by (unfold hLoss; apply Rmult_le_compat_r; lra).
  assert (BK : 900 * month_megaseconds i <= hLoss 14 28 * month_megaseconds i) by (unfold hLoss; apply Rmult_le_compat_r; lra).
  split. { intros t tc te hve hvc sol phi H. destruct (data_unique _ _ _ _ _ _ _ _ _ _ _ _ _ _ _ _ _ _ D H) as (-> & -> & -> & -> & ->). rewrite UA, AR, HL. split; [lra|unfold month_gain; lra]. }
  destruct (month_balance q w' m' i SQ M' I) as (t' & tc' & te' & hve' & hvc' & sol' & phi' & D' & N1' & N2'). cbv zeta in N1', N2'.
  destruct (same_but_sun p (repeat 1 9) (repeat 0 9) (repeat 1 9) w w' m m' i 1 SP SQ BM I SA M M' _ _ _ _ _ _ _ _ _ _ _ _ _ _ D D') as (-> & -> & _ & -> & HT & HC). destruct (HT NH) as [-> ->]. destruct (HC NC) as [-> ->]. clear HT HC.
  change (with_surfaces p (repeat 1 9) (repeat 0 9) (repeat 1 9)) with q in N1', N2'.
  change (envelope_UA (pa_structure q)) with (envelope_UA (pa_structure p)) in N1', N2'. change (st_floorArea (pa_structure q)) with (st_floorArea (pa_structure p)) in N1', N2'. change (utilisation_exponent q) with (utilisation_exponent p) in N1', N2'. rewrite UA, AR, HL in N1'. rewrite UA, AR, HK in N2'.
  assert (HG : hGain 2 0 * month_megaseconds i = 200 * month_megaseconds i) by (unfold hGain; lra).
  assert (HG' : month_gain (100 * 2) (solar_gain (pa_structure q) w' i) i = 740 * month_megaseconds i) by (unfold month_gain, q; rewrite black_sun by exact I; unfold w'; rewrite !rad_with by lia; lra).
  rewrite HG in N1, N2. rewrite HG' in N1', N2'. clear D D' M M' HG HG' HL HK.
  set (L := hLoss 14 24 * _) in *. set (K := hLoss 14 28 * _) in *. set (s := month_megaseconds i) in *. set (e := utilisation_exponent p) in *. clearbody L K s e.
  rewrite (proj1 (need_at_pos e L (200 * s) EP ltac:(lra) ltac:(lra) ltac:(lra))) in N1.
  rewrite (proj1 (need_at_pos e L (740 * s) EP ltac:(lra) ltac:(lra) ltac:(lra))) in N1'.
  rewrite (proj2 (need_at_pos e (200 * s) K EP ltac:(lra) ltac:(lra) ltac:(lra))) in N2.
  rewrite (proj2 (need_at_pos e (740 * s) K EP ltac:(lra) ltac:(lra) ltac:(lra))) in N2'.
  do 4 eexists. split; [exact N1|]. split; [exact N1'|]. split; [exact N2|exact N2'].
Qed.

(** White walls that radiate to the sky need no heating at all, black ones do. *)
Lemma C114_refuted_l : exists p ab sh sc w m m', let q := with_surfaces p ab sh sc in
  sound p /\ sound q /\ ntrunc (bu_bem (pa_building p)) = Some 1%Z /\ no_heat_setback p 1 /\ 0 < utilisation_exponent p /\ takes_sun (pa_structure p) /\ takes_more p ab sh sc /\
  monthlyAll (map_params Fin p) (fin_weather w) = Ok m /\ monthlyAll (map_params Fin q) (fin_weather w) = Ok m' /\
  forall i, (i < 12)%nat -> lit_month w i /\
  exists a b, nth_error (ne_ht (mr_needs m)) i = Some (Fin a) /\ nth_error (ne_ht (mr_needs m')) i = Some (Fin b) /\ a < 0 /\ 1000 < b.
Proof.
  set (e := 1 / 2). set (p := house 0 e 0 0). exists p, (repeat 1 9), (repeat 0 9), (repeat 1 9), (steadyYear 14).
  change (with_surfaces p (repeat 1 9) (repeat 0 9) (repeat 1 9)) with (black_house 0 e). set (q := black_house 0 e). set (w := steadyYear 14).
  assert (UA : envelope_UA (pa_structure p) = 90) by (change (pa_structure p) with (houseStructure e); apply house_UA).
  assert (AR : st_floorArea (pa_structure p) = 100) by (change (st_floorArea (pa_structure p)) with (@zn R _ 100); now rewrite zn_R).
  assert (SP : sound p) by apply house_sound. assert (SQ : sound q) by apply black_sound. assert (BM : ntrunc (bu_bem (pa_building p)) = Some 1%Z) by apply house_bem. assert (EP : 0 < utilisation_exponent p) by apply house_exponent.
  destruct (house_no_setback 0 e) as [NH _]. fold p in NH. assert (SA : same_air w w) by (split; reflexivity).
  destruct (house_run 0 e 0 0 14) as (m & rows & M & _). fold p w in M. destruct (black_run 0 e w m M) as (m' & M'). fold q in M'. exists m, m'. cbv zeta.
  split; [exact SP|]. split; [exact SQ|]. split; [exact BM|]. split; [exact NH|]. split; [exact EP|]. split; [apply white_takes|]. split; [apply white_less|]. split; [exact M|]. split; [exact M'|].
  intros i I. pose proof (house_months 0 e 0 0 14 m i ltac:(apply Rabs_le; lra) ltac:(apply Rabs_le; lra) M I) as (D & N1 & _). cbv zeta in *. fold p w in D, N1.
  pose proof (ms_bounds i I) as B. pose proof (house_air_bound 0 0 0 0 14 24 ltac:(apply Rabs_le; lra)) as A1. pose proof dblmin_small as DS. pose proof Rdblmin_pos as DP.
  split. { intros k K. unfold w. rewrite rad_steady by assumption. destruct (k <? 8)%nat; lra. }
  destruct (month_balance q w m' i SQ M' I) as (t' & tc' & te' & hve' & hvc' & sol' & phi' & D' & N1' & _). cbv zeta in N1'.
  destruct (same_but_sun p (repeat 1 9) (repeat 0 9) (repeat 1 9) w w m m' i 1 SP SQ BM I SA M M' _ _ _ _ _ _ _ _ _ _ _ _ _ _ D D') as (-> & -> & _ & -> & HT & _). destruct (HT NH) as [-> ->]. clear HT.
  change (with_surfaces p (repeat 1 9) (repeat 0 9) (repeat 1 9)) with q in N1'.
  change (envelope_UA (pa_structure q)) with (envelope_UA (pa_structure p)) in N1'. change (st_floorArea (pa_structure q)) with (st_floorArea (pa_structure p)) in N1'. change (utilisation_exponent q) with (utilisation_exponent p) in N1'. rewrite UA, AR in N1'.
  assert (HL : month_loss 90 100 (airFlow 14 24) 24 14 i = hLoss 14 24 * month_megaseconds i) by reflexivity. rewrite HL in N1'.
  assert (BL : 900 * month_megaseconds i <= hLoss 14 24 * month_megaseconds i <= 1900 * month_megaseconds i) by (unfold hLoss; split; apply Rmult_le_compat_r; lra).
  assert (HG : hGain 0 e * month_megaseconds i = - (55) * month_megaseconds i) by (unfold hGain, e; lra).
  assert (HG' : month_gain (100 * 0) (solar_gain (pa_structure q) w i) i = 301 * month_megaseconds i).
  { unfold month_gain, q. rewrite black_sun by exact I. unfold w. rewrite !rad_steady by lia. cbn [Nat.ltb Nat.leb]. unfold e. lra. }
  rewrite HG in N1. rewrite HG' in N1'. clear D D' M M' HG HG' HL.
  set (L := hLoss 14 24 * _) in *. set (s := month_megaseconds i) in *. set (u := utilisation_exponent p) in *. clearbody L s u.
  destruct (balance_pos u L (301 * s) EP ltac:(lra) ltac:(lra) ltac:(lra)) as (_ & LOW & _). cbv zeta in LOW.
  rewrite (proj1 (need_at_pos u L (301 * s) EP ltac:(lra) ltac:(lra) ltac:(lra))) in N1'.
  assert (Rdblmin * (L + Rdblmin) <= 1 / 1000000 * 5701) by (apply Rmult_le_compat; lra).
  destruct (need_neg u L (- (55) * s) ltac:(lra) ltac:(lra) ltac:(lra)) as (r & E & R0). rewrite E in N1.
  do 2 eexists. split; [exact N1|]. split; [exact N1'|]. split; [exact R0|]. pose proof (Rmax_r 0 (L - 301 * s)). lra.
Qed.
