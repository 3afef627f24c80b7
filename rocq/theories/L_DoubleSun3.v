(** The monthly means of the irradiance in doubles. *)
From Coq Require Import Reals Lra Lia ZArith Bool List.
From Flocq Require Import Core.Core IEEE754.BinarySingleNaN.
From Verif Require Import Base Num Xr Dbl L_Dbl M_TimeFrame M_Epw M_Solar S_Calendar S_Solar S_Epw L_Epw L_Solar2 L_Solar3 L_Solar5 S_DoubleMonthly L_Double8 S_DoubleSun E_Sun L_DoubleSun L_DoubleSun2.
Import ListNotations.
Open Scope R_scope.

Lemma nan_stays : forall l : list double, fold_left (Bplus mode_NE) l B754_nan = B754_nan.
Proof. induction l as [|x l IH]; [reflexivity|exact IH]. Qed.
Lemma nan_sum : forall (l : list double) x, In B754_nan l -> fold_left (Bplus mode_NE) l x = B754_nan.
Proof.
  induction l as [|y l IH]; intros x H; [destruct H|]. cbn [fold_left]. destruct H as [-> | H]; [|apply IH; exact H].
  replace (Bplus mode_NE x B754_nan) with (@B754_nan 53 1024) by (destruct x; reflexivity). apply nan_stays.
Qed.
Section Year.
Context {L : libm}.
#[local] Existing Instance dbl_num.
Variables (frame : list (option tcell)) (e : epw double) (tilt : double) (s0 s s' : solar double) (datas : list (list (list double))).
Variables (dbt dpt rh egh eb ed wind : list double).
Hypothesis TF : timeFrame = Ok frame.
Hypothesis NEW : newSolar (N := dbl_num L) e tilt = Ok s0.
Hypothesis DS : Forall year_table datas.
Hypothesis HIST : ofold (fun s d => calculate (N := dbl_num L) frame d s) datas s0 = Ok s.
Hypothesis TAB : year_table [dbt; dpt; rh; egh; eb; ed; wind].
Hypothesis CALC : calculate (N := dbl_num L) frame [dbt; dpt; rh; egh; eb; ed; wind] s = Ok s'.
Lemma rows_length : length (so_eglobe s') = slices.
Proof.
  pose proof (timeFrame_good frame TF) as GF. destruct (history_ok (N := dbl_num L) frame GF datas s0 s DS (newSolar_shape _ _ _ NEW) HIST) as [SH CO].
  destruct (columns _ TAB) as (c1&c2&c3&c4&c5&c6&c7&EQ&FC). injection EQ as <- <- <- <- <- <- <-.
  pose proof CALC as C. rewrite (calculate_ok (N := dbl_num L) frame s) in C by assumption.
  assert (J : forall A (a b : A), Ok a = Ok b -> a = b) by (intros; congruence). apply J in C. rewrite <- C. unfold calculated. cbn [so_eglobe]. rewrite map_length, seq_length. reflexivity.
Qed.
Lemma month_cell : forall k j, (k < 12)%nat -> (j < 8)%nat ->
  cell (av_msol (so_avg s')) k j = nth_error (monthly_means (N := dbl_num L) (surface_series (N := dbl_num L) j (so_eglobe s'))) k.
Proof.
  intros k j K J. destruct (C39_calculated_l (N := dbl_num L) frame e tilt s0 datas s dbt dpt rh egh eb ed wind TF NEW DS HIST TAB) as (t&T1&_&_&_&_&_&_&_&_&T2).
  assert (E : t = s') by (rewrite CALC in T1; congruence). subst t. apply T2; assumption.
Qed.
Lemma series_length : forall j, length (surface_series (N := dbl_num L) j (so_eglobe s')) = slices.
Proof. intros j. unfold surface_series. rewrite map_length. exact rows_length. Qed.
(** One hour that is no number leaves no mean for its month. *)
Lemma january_nan : nth_error (so_eglobe s') 12 = Some (repeat B754_nan 8) -> forall j, (j < 8)%nat -> cell (av_msol (so_avg s')) 0 j = Some B754_nan.
Proof.
  intros H j J. rewrite month_cell by lia. rewrite (monthly_means_eq (N := dbl_num L)). cbn [seq map nth_error]. f_equal.
  rewrite (month_part_seq _ _ 0 (z2d 0)) by (try lia; apply series_length). unfold accumulate. cbn [nadd ndiv dbl_num].
  rewrite nan_sum; [reflexivity|]. apply in_map_iff. exists 12%nat. split.
  - unfold surface_series. apply nth_error_nth. rewrite nth_error_map, H. cbn [option_map]. f_equal. do 8 (destruct j as [|j]; [reflexivity|]). lia.
  - unfold hours_of. apply in_seq. assert (first_hour 0 = 0%nat) by reflexivity. assert (Z.of_nat (month_hours 0) = 744%Z) by reflexivity. lia.
Qed.
Lemma months_finite : (forall i, (i < 365 * 24)%nat -> exists row, nth_error (so_eglobe s') i = Some row /\ length row = 8%nat /\ Forall (bounded 10000000) row) ->
  forall k j, (k < 12)%nat -> (j < 8)%nat -> exists x, cell (av_msol (so_avg s')) k j = Some x /\ close_mean x (month_part (Z.of_nat k + 1) (surface_series (N := dbl_num L) j (so_eglobe s'))).
Proof.
  intros H k j K J. rewrite month_cell by assumption.
  assert (O : Forall ordinary (surface_series (N := dbl_num L) j (so_eglobe s'))).
  { unfold surface_series. apply Forall_map. apply Forall_forall. intros row IN. apply In_nth_error in IN as [i IN].
    assert (HI : (i < 365 * 24)%nat). { assert (i < length (so_eglobe s'))%nat by (apply nth_error_Some; congruence). rewrite rows_length in *. pose proof slices_Z. lia. }
    destruct (H i HI) as (r&R1&R2&R3). rewrite IN in R1. injection R1 as <-. rewrite Forall_forall in R3. destruct (R3 (nth j row (z2d 0)) ltac:(apply nth_In; lia)) as [F B].
    split; [exact F|]. eapply Rle_trans; [exact B|]. apply IZR_le. vm_compute. discriminate. }
  destruct (proj1 (C39_rounded_l (surface_series (N := dbl_num L) j (so_eglobe s')) (series_length j) O) k K) as (x&X1&X2). exists x. split; assumption.
Qed.
End Year.

Lemma C121_month_nan_l : forall L, exact_libm L -> forall frame (e : epw double) tilt s0 datas s s' dbt dpt rh egh eb ed wind,
  timeFrame = Ok frame -> ep_site e = Some (latitude_deg, longitude_deg, 0%Z) -> newSolar (N := dbl_num L) e tilt = Ok s0 ->
  Forall year_table datas -> ofold (fun s d => calculate (N := dbl_num L) frame d s) datas s0 = Ok s ->
  year_table [dbt; dpt; rh; egh; eb; ed; wind] -> calculate (N := dbl_num L) frame [dbt; dpt; rh; egh; eb; ed; wind] s = Ok s' ->
  forall j, (j < 8)%nat -> cell (av_msol (so_avg s')) 0 j = Some B754_nan.
Proof.
  intros L EL frame e tilt s0 datas s s' dbt dpt rh egh eb ed wind TF SITE NEW DS HIST TAB CALC.
  eapply (@january_nan L); try eassumption. eapply C121_zenith_l; eassumption.
Qed.
Lemma C121_months_l : forall L, good_libm L -> forall frame (e : epw double) lat lon tz s0 datas s s' dbt dpt rh egh eb ed wind,
  timeFrame = Ok frame -> ep_site e = Some (lat, lon, tz) -> is_finite lat = true -> 30 <= Rabs (B2R lat) <= 90 -> bounded 180 lon -> (-24 <= tz <= 24)%Z ->
  newSolar (N := dbl_num L) e (@PI_ double (dbl_num L)) = Ok s0 ->
  Forall year_table datas -> ofold (fun s d => calculate (N := dbl_num L) frame d s) datas s0 = Ok s ->
  year_table [dbt; dpt; rh; egh; eb; ed; wind] -> Forall (bounded 1000000) eb -> Forall (bounded 1000000) ed ->
  calculate (N := dbl_num L) frame [dbt; dpt; rh; egh; eb; ed; wind] s = Ok s' ->
  forall k j, (k < 12)%nat -> (j < 8)%nat -> exists x, cell (av_msol (so_avg s')) k j = Some x /\
    close_mean x (month_part (Z.of_nat k + 1) (surface_series (N := dbl_num L) j (so_eglobe s'))).
Proof.
  intros L GL frame e lat lon tz s0 datas s s' dbt dpt rh egh eb ed wind TF SITE FL RL LON TZ NEW DS HIST TAB BB BD CALC.
  eapply (@months_finite L); try eassumption. eapply C121_far_l; eassumption.
Qed.
