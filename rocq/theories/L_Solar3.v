(** Lemmas about SolarRadiation: the whole calculation. *)
From Coq Require Import ZArith Lia Reals Lra.
From Verif Require Import Base Num Xr M_TimeFrame M_Epw M_Solar S_Calendar S_Solar S_Epw L_Xr L_Calendar L_HourlyShape L_Properties L_Epw L_Solar L_Solar2.
Open Scope nat_scope.
Open Scope list_scope.

Section Calc.
Context {T : Type} {N : Num T}.
Local Open Scope num_scope.
Notation z0 := (zn 0 : T).

(** The irradiance of the eight surfaces in hour [i], from the sun of that hour. *)
Definition hour_cell (i : nat) (c : tcell) : Prop := tc_hour c = Z.of_nat (i mod 24) /\ tc_ytd c = Z.of_nat (i / 24).
Definition irradiance_row (s : solar T) (c : tcell) (b d : T) : list T :=
  let '(alt, az) := sunPosition s c in
  map (fun a => surfaceIrradiance s alt az (groundReflected b d (so_rho s) alt (so_tilt s)) b d a) SurfaceAzimuths.

(** Only the clock hour and the day of the year matter. *)
Definition clock (i : nat) : tcell := {| tc_hour := Z.of_nat (i mod 24); tc_dom := 0; tc_dow := 0; tc_month := 0; tc_ytd := Z.of_nat (i / 24) |}.
Lemma sunPosition_clock : forall (s : solar T) i c, hour_cell i c -> sunPosition s c = sunPosition s (clock i).
Proof. intros s i c (H1&H2). unfold sunPosition, clock. cbn [tc_ytd tc_hour]. rewrite H1, H2. reflexivity. Qed.
Lemma irradiance_clock : forall (s : solar T) i c b d, hour_cell i c -> irradiance_row s c b d = irradiance_row s (clock i) b d.
Proof. intros s i c b d H. unfold irradiance_row. rewrite (sunPosition_clock s i c H). reflexivity. Qed.

Lemma slot : forall i, i < slices -> exists k, k < 12 /\ first_hour k <= i < first_hour k + month_hours k.
Proof.
  intros i H. assert (I : In i (concat (map hours_of (seq 0 12)))) by (rewrite <- year_seq; apply in_seq; lia).
  apply in_concat in I. destruct I as (l&I1&I2). apply in_map_iff in I1. destruct I1 as (k&<-&I1).
  apply in_seq in I1. unfold hours_of in I2. apply in_seq in I2. exists k. split; lia.
Qed.

Lemma seven_azimuths : length (SurfaceAzimuths : list T) = 8.
Proof. reflexivity. Qed.

Lemma row_fill : forall A (f : nat -> A) n (row : list A), length row = n ->
  ofold (fun row k => vset row k (f k)) (seq 0 n) row = Ok (map f (seq 0 n)).
Proof.
  intros A f n row HL. rewrite <- (upd_all A f row n HL).
  assert (G : forall l row, (forall k, In k l -> k < length row) -> ofold (fun row k => vset row k (f k)) l row = Ok (fold_left (fun v k => upd v k (f k)) l row)).
  { induction l as [|k l IH]; intros r H; [reflexivity|]. cbn [ofold fold_left]. rewrite vset_ok by (apply H; left; reflexivity).
    cbn [obind]. apply IH. intros j HJ. rewrite upd_length. apply H. right. exact HJ. }
  apply G. intros k HK. apply in_seq in HK. lia.
Qed.

Lemma surface_loop : forall s frame eb ed (g : list (list T)), good_frame frame -> length eb = slices -> length ed = slices ->
  length g = slices -> Forall (fun r => length r = 8) g ->
  ofold (surfaceHour s frame eb ed) (seq 0 slices) g =
  Ok (map (fun i => irradiance_row s (clock i) (nth i eb z0) (nth i ed z0)) (seq 0 slices)).
Proof.
  intros s frame eb ed g GF LB LD LG FG.
  rewrite <- (upd_all (list T) (fun i => irradiance_row s (clock i) (nth i eb z0) (nth i ed z0)) g slices LG).
  assert (G : forall l g, length g = slices -> Forall (fun r => length r = 8) g -> (forall k, In k l -> k < slices) ->
    ofold (surfaceHour s frame eb ed) l g = Ok (fold_left (fun v k => upd v k (irradiance_row s (clock k) (nth k eb z0) (nth k ed z0))) l g)).
  { clear g LG FG. induction l as [|i l IH]; intros g LG FG H; [reflexivity|]. cbn [ofold fold_left].
    assert (HI : i < slices) by (apply H; left; reflexivity).
    destruct (slot i HI) as (k&HK&HR). destruct (GF k i HK HR) as (c&C1&_&C3&C4).
    unfold surfaceHour at 1. rewrite C1. cbn [obind].
    rewrite <- (irradiance_clock s i c) by (split; assumption). unfold irradiance_row.
    destruct (sunPosition s c) as [alt az]. rewrite (vget_nth T eb i z0), (vget_nth T ed i z0) by lia. cbn [obind].
    rewrite (vget_nth (list T) g i []) by lia. cbn [obind].
    assert (LR : length (nth i g []) = 8) by (apply row_length; [exact FG|lia]).
    set (F := fun a => surfaceIrradiance s alt az (groundReflected (nth i eb z0) (nth i ed z0) (so_rho s) alt (so_tilt s)) (nth i eb z0) (nth i ed z0) a).
    unfold NUM_SURFACES.
    assert (E : ofold (fun row k => do a <- vget SurfaceAzimuths k; vset row k (F a)) (seq 0 8) (nth i g []) = Ok (map F SurfaceAzimuths)).
    { rewrite <- (map_nth_seq T T F SurfaceAzimuths z0). rewrite seven_azimuths.
      rewrite <- (row_fill T (fun j => F (nth j SurfaceAzimuths z0)) 8 (nth i g []) LR).
      reflexivity. }
    unfold F in E. cbv zeta. rewrite E. fold F. cbn [obind]. rewrite vset_ok by lia. cbn [obind]. rewrite <- IH.
    - reflexivity.
    - rewrite upd_length. exact LG.
    - apply Forall_upd; [exact FG|]. rewrite map_length. apply seven_azimuths.
    - intros j HJ. apply H. right. exact HJ. }
  apply G; [exact LG|exact FG|]. intros k HK. apply in_seq in HK. lia.
Qed.

(** The shape of the object, as the constructor makes it. *)
Definition solar_shape (s : solar T) : Prop :=
  length (so_eglobe s) = slices /\ Forall (fun r => length r = 8) (so_eglobe s) /\ shaped (so_avg s).
Lemma newSolar_shape : forall e tilt (s : solar T), newSolar e tilt = Ok s -> solar_shape s.
Proof.
  intros e tilt s E. unfold newSolar in E. destruct (ep_site e) as [[[lat lon] tz]|]; [|discriminate].
  assert (X : forall (a b : solar T), Ok a = Ok b -> a = b) by congruence. apply X in E. subst s. unfold solar_shape, shaped.
  cbn [so_eglobe so_avg av_mdbt av_mdpt av_mrh av_mwind av_megh av_msol av_hdbt av_hdpt av_hegh].
  unfold MONTHS, HOURS, NUM_SURFACES. rewrite !repeat_length.
  assert (F : forall n m, Forall (fun r : list T => length r = n) (repeat (repeat z0 n) m)).
  { intros n m. apply Forall_forall. intros r I. apply repeat_spec in I. subst r. apply repeat_length. }
  repeat split; apply F.
Qed.

(** The object after Calculate. *)
Definition calculated (s : solar T) (dbt dpt rh egh eb ed wspd : list T) : solar T :=
  let g := map (fun i => irradiance_row s (clock i) (nth i eb z0) (nth i ed z0)) (seq 0 slices) in
  mkSolar (so_tilt s) (so_meridian s) (so_lon s) (so_lat s) (so_rho s) g
    (mkAverages (monthly_means dbt) (monthly_means dpt) (monthly_means rh) (monthly_means wspd) (monthly_means egh)
       (map (fun k => map (fun j => nth k (monthly_means (surface_series j g)) z0) (seq 0 8)) (seq 0 12))
       (hourly_means dbt) (hourly_means dpt) (hourly_means egh)).

Lemma irradiance_row_length : forall (s : solar T) c b d, length (irradiance_row s c b d) = 8.
Proof. intros s c b d. unfold irradiance_row. destruct (sunPosition s c). rewrite map_length. apply seven_azimuths. Qed.

Lemma calculate_ok : forall frame (s : solar T) dbt dpt rh egh eb ed wspd, good_frame frame -> solar_shape s ->
  Forall (fun v => length v = slices) [dbt; dpt; rh; egh; eb; ed; wspd] ->
  calculate frame [dbt; dpt; rh; egh; eb; ed; wspd] s = Ok (calculated s dbt dpt rh egh eb ed wspd).
Proof.
  intros frame s dbt dpt rh egh eb ed wspd GF (LG&FG&SH) F.
  repeat match goal with H : Forall _ (_ :: _) |- _ => inversion_clear H end.
  unfold calculate, calculateSurfaceSolarRadiation, vget. cbn [nth_error EB ED obind].
  rewrite surface_loop by assumption. cbn [obind].
  set (g := map _ (seq 0 slices)).
  assert (HG : length g = slices /\ Forall (fun r => length r = 8) g).
  { split; [unfold g; rewrite map_length, seq_length; reflexivity|]. apply Forall_forall. intros r I.
    unfold g in I. apply in_map_iff in I. destruct I as (i&<-&_). apply irradiance_row_length. }
  unfold calculateAverages, vget. cbn [nth_error DBT DPT RH EGH WSPD obind so_eglobe so_avg].
  pose proof (year_loop dbt dpt rh egh wspd g frame) as Y.
  specialize (Y ltac:(assumption) ltac:(assumption) ltac:(assumption) ltac:(assumption) ltac:(assumption) HG GF (so_avg s) SH).
  destruct (ofold (averageHour frame dbt dpt rh egh wspd g) (seq 0 slices) (mkAvgstate (so_avg s) 0 (-1) 0)) as [st|e|]; try discriminate.
  cbn [obind] in Y |- *. rewrite Y. cbn [obind so_tilt so_meridian so_lon so_lat so_rho]. unfold calculated. fold g.
  f_equal. f_equal. destruct SH as (S1&S2&S3&S4&S5&(S6&_)&(S7&_)&(S8&_)&(S9&_)).
  set (a := filled dbt dpt rh egh wspd g 12 (so_avg s)).
  assert (E : a = mkAverages (av_mdbt a) (av_mdpt a) (av_mrh a) (av_mwind a) (av_megh a) (av_msol a) (av_hdbt a) (av_hdpt a) (av_hegh a)) by (destruct a; reflexivity).
  rewrite E. unfold a. 
  rewrite (filled_field dbt dpt rh egh wspd g T av_mdbt b_dbt) by (try assumption; reflexivity).
  rewrite (filled_field dbt dpt rh egh wspd g T av_mdpt b_dpt) by (try assumption; reflexivity).
  rewrite (filled_field dbt dpt rh egh wspd g T av_mrh b_rh) by (try assumption; reflexivity).
  rewrite (filled_field dbt dpt rh egh wspd g T av_mwind b_wind) by (try assumption; reflexivity).
  rewrite (filled_field dbt dpt rh egh wspd g T av_megh b_egh) by (try assumption; reflexivity).
  rewrite (filled_field dbt dpt rh egh wspd g _ av_msol b_sol) by (try assumption; reflexivity).
  rewrite (filled_field dbt dpt rh egh wspd g _ av_hdbt b_hdbt) by (try assumption; reflexivity).
  rewrite (filled_field dbt dpt rh egh wspd g _ av_hdpt b_hdpt) by (try assumption; reflexivity).
  rewrite (filled_field dbt dpt rh egh wspd g _ av_hegh b_hegh) by (try assumption; reflexivity).
  rewrite (monthly_field dbt dpt rh egh wspd g b_dbt dbt) by (try assumption; reflexivity).
  rewrite (monthly_field dbt dpt rh egh wspd g b_dpt dpt) by (try assumption; reflexivity).
  rewrite (monthly_field dbt dpt rh egh wspd g b_rh rh) by (try assumption; reflexivity).
  rewrite (monthly_field dbt dpt rh egh wspd g b_wind wspd) by (try assumption; reflexivity).
  rewrite (monthly_field dbt dpt rh egh wspd g b_egh egh) by (try assumption; reflexivity).
  rewrite (hourly_field dbt dpt rh egh wspd g b_hdbt dbt) by (try assumption; try reflexivity; intros b (B1&B2&B3&B4); assumption).
  rewrite (hourly_field dbt dpt rh egh wspd g b_hdpt dpt) by (try assumption; try reflexivity; intros b (B1&B2&B3&B4); assumption).
  rewrite (hourly_field dbt dpt rh egh wspd g b_hegh egh) by (try assumption; try reflexivity; intros b (B1&B2&B3&B4); assumption).
  erewrite solar_field by eassumption. reflexivity.
Qed.
End Calc.
