(** Totals of doubles by the hour and by the month. *)
From Coq Require Import Reals Lra Psatz ZArith Bool List Lia.
From Flocq Require Import Core.Core IEEE754.BinarySingleNaN.
From Verif Require Import Base Num Xr Dbl L_Dbl M_Params M_Hourly M_Monthly M_Report S_Calendar S_Results S_Double S_DoubleMonthly S_DoubleSum
  L_Calendar L_Double L_Double2 L_Double3 L_Double6 L_Double7 L_Double9 L_HourlyOut L_Monthly6 L_Report L_DoubleSum E_SmallOffice L_Office L_Office2.
Import ListNotations.
Open Scope R_scope.

Lemma rs_add {A} (a b : A -> R) l : rs (map (fun x => a x + b x) l) = rs (map a l) + rs (map b l).
Proof. unfold rs. induction l as [|x l IH]; cbn; lra. Qed.
Lemma rs_le {A} (a b : A -> R) l : (forall x, In x l -> a x <= b x) -> rs (map a l) <= rs (map b l).
Proof. unfold rs. induction l as [|x l IH]; intros H; cbn; [lra|]. pose proof (H x (or_introl eq_refl)). assert (forall y, In y l -> a y <= b y) by (intros y Y; apply H; right; exact Y). specialize (IH H1). lra. Qed.
Lemma rs_scale {A} (a : A -> R) c l : rs (map (fun x => c * a x) l) = c * rs (map a l).
Proof. unfold rs. induction l as [|x l IH]; cbn; lra. Qed.
Lemma rs_diff {A} (a b c : A -> R) d l : (forall x, In x l -> Rabs (a x - b x) <= d * c x) -> Rabs (rs (map a l) - rs (map b l)) <= d * rs (map c l).
Proof.
  unfold rs. induction l as [|x l IH]; intros H; cbn; [rewrite Rminus_0_r, Rabs_R0; lra|]. pose proof (H x (or_introl eq_refl)) as H0. assert (H1 : forall y, In y l -> Rabs (a y - b y) <= d * c y) by (intros y Y; apply H; right; exact Y). specialize (IH H1).
  match goal with |- Rabs (a x + ?u - (b x + ?v)) <= _ => replace (a x + u - (b x + v)) with ((a x - b x) + (u - v)) by ring end. eapply Rle_trans; [apply Rabs_triang|]. lra.
Qed.
Lemma rs_nonneg {A} (a : A -> R) l : (forall x, 0 <= a x) -> 0 <= rs (map a l).
Proof. intros H. unfold rs. induction l as [|x l IH]; cbn; [lra|]. pose proof (H x). lra. Qed.
Lemma rs_in {A} (a : A -> R) l x : (forall x, 0 <= a x) -> In x l -> a x <= rs (map a l).
Proof.
  intros H. induction l as [|y l IH]; intros I; [destruct I|]. pose proof (rs_nonneg a l H). pose proof (H y). cbn [map]. unfold rs in *. cbn [fold_right]. destruct I as [<-|I]; [lra|]. specialize (IH I). lra.
Qed.

Lemma columns_sum (f : double -> R) d n rows : Forall (fun row => length row = n) rows ->
  rs (map f (concat rows)) = rs (map (fun k => rs (map f (map (fun row => nth k row d) rows))) (seq 0 n)).
Proof.
  induction 1 as [|row rows HL H IH].
  - cbn. symmetry. apply rs_zero. intros k _. reflexivity.
  - cbn [concat]. rewrite map_app, rs_app, IH. cbn [map].
    transitivity (rs (map (fun k => f (nth k row d) + rs (map f (map (fun row => nth k row d) rows))) (seq 0 n))); [|reflexivity]. rewrite rs_add. f_equal.
    rewrite <- (map_nth_seq d row) at 1. rewrite map_map, HL. reflexivity.
Qed.
Lemma series_column k (rows : list (list double)) v d : is_series k rows v -> map (fun row => nth k row d) rows = v.
Proof. induction 1 as [|row x rows v E S IH]; [reflexivity|]. cbn [map]. rewrite IH, (nth_error_nth _ _ d E). reflexivity. Qed.

Definition slack : R := / 10000000000.
Lemma slack_small : 0 < slack <= / 1000.
Proof. unfold slack. lra. Qed.
Section D.
Context {L : libm}.
Notation fin := (fun x : double => is_finite x = true).
Lemma part_sum (l : list double) : (length l <= 800)%nat -> Forall fin l -> size_sum l <= IZR (10 ^ 300) ->
  is_finite (accumulate l) = true /\ Rabs (B2R (accumulate l) - exact_sum l) <= slack * size_sum l.
Proof.
  intros HL F Z. assert (C : (Z.of_nat (count l) <= 200000)%Z).
  { assert (K : forall l, (count l <= length l)%nat) by (induction l0 as [|x l0 IHl]; cbn [count length]; [lia|destruct (Req_EM_T (B2R x) 0); lia]). specialize (K l). lia. }
  destruct (sum_sparse l C F Z) as [F1 E]. split; [exact F1|]. eapply Rle_trans; [exact E|]. pose proof (power_two _ C) as [_ P]. pose proof (size_pos l). unfold slack. apply Rmult_le_compat_r; lra.
Qed.
Definition months (v : list double) : list double := map (fun m => accumulate (month_part m v)) (zrange 1 12).
Lemma months_sum (v : list double) : concat (map (fun m => month_part m v) (zrange 1 12)) = v -> Forall fin v -> size_sum v <= IZR (10 ^ 300) ->
  Forall fin (months v) /\ Rabs (exact_sum (months v) - exact_sum v) <= slack * size_sum v /\ size_sum (months v) <= (1 + slack) * size_sum v.
Proof.
  intros C F Z.
  assert (EX : forall f : double -> R, rs (map f v) = rs (map (fun m => rs (map f (month_part m v))) (zrange 1 12))).
  { intros f. rewrite <- C at 1. rewrite rs_concat, map_map. reflexivity. }
  assert (P : forall m, In m (zrange 1 12) -> is_finite (accumulate (month_part m v)) = true /\
     Rabs (B2R (accumulate (month_part m v)) - exact_sum (month_part m v)) <= slack * size_sum (month_part m v)).
  { intros m M. apply part_sum.
    - apply month_short. unfold zrange in M. apply in_map_iff in M as (j & <- & J). apply in_seq in J. lia.
    - apply month_part_Forall. exact F.
    - eapply Rle_trans; [|exact Z]. change (size_sum v) with (rs (map (fun x => Rabs (B2R x)) v)). rewrite EX.
      exact (rs_in (fun m => size_sum (month_part m v)) (zrange 1 12) m (fun m => size_pos _) M). }
  split; [|split].
  - apply Forall_forall. intros x X. apply in_map_iff in X as (m & <- & M). exact (proj1 (P m M)).
  - change (exact_sum v) with (rs (map B2R v)). change (size_sum v) with (rs (map (fun x => Rabs (B2R x)) v)). rewrite !EX. change (exact_sum (months v)) with (rs (map B2R (months v))). unfold months. rewrite map_map.
    apply (rs_diff (fun m => B2R (accumulate (month_part m v))) (fun m => exact_sum (month_part m v)) (fun m => size_sum (month_part m v))). intros m M. exact (proj2 (P m M)).
  - change (size_sum v) with (rs (map (fun x => Rabs (B2R x)) v)). rewrite EX, <- rs_scale. change (size_sum (months v)) with (rs (map (fun x => Rabs (B2R x)) (months v))). unfold months. rewrite map_map.
    apply (rs_le (fun m => Rabs (B2R (accumulate (month_part m v)))) (fun m => (1 + slack) * size_sum (month_part m v))). intros m M. destruct (P m M) as [_ E]. pose proof (sum_size (month_part m v)).
    replace (B2R (accumulate (month_part m v))) with ((B2R (accumulate (month_part m v)) - exact_sum (month_part m v)) + exact_sum (month_part m v)) by ring. eapply Rle_trans; [apply Rabs_triang|]. lra.
Qed.
Lemma tables (hrows mrows : list (list double)) : Forall (fun row => length row = 13%nat) hrows -> Forall (fun row => length row = 13%nat) mrows ->
  (forall k, (k < 13)%nat -> exists v, is_series k hrows v /\ concat (map (fun m => month_part m v) (zrange 1 12)) = v /\ is_series k mrows (months v)) ->
  Forall fin (concat hrows) -> table_size hrows <= IZR (10 ^ 300) ->
  Forall fin (concat mrows) /\ Rabs (table_sum mrows - table_sum hrows) <= slack * table_size hrows /\ table_size mrows <= (1 + slack) * table_size hrows.
Proof.
  intros LH LM C F Z. set (d := z2d 0). set (h := fun k => map (fun row => nth k row d) hrows). set (g := fun k => map (fun row => nth k row d) mrows).
  assert (EH : forall f : double -> R, rs (map f (concat hrows)) = rs (map (fun k => rs (map f (h k))) (seq 0 13))) by (intros f; exact (columns_sum f d 13 hrows LH)).
  assert (EM : forall f : double -> R, rs (map f (concat mrows)) = rs (map (fun k => rs (map f (g k))) (seq 0 13))) by (intros f; exact (columns_sum f d 13 mrows LM)).
  assert (P : forall k, In k (seq 0 13) -> Forall fin (g k) /\ Rabs (exact_sum (g k) - exact_sum (h k)) <= slack * size_sum (h k) /\ size_sum (g k) <= (1 + slack) * size_sum (h k)).
  { intros k K. pose proof K as K0. apply in_seq in K0. destruct (C k ltac:(lia)) as (v & S1 & S2 & S3). unfold g, h. rewrite (series_column _ _ _ d S1), (series_column _ _ _ d S3). apply months_sum; [exact S2| |].
    - rewrite <- (series_column _ _ _ d S1). apply Forall_forall. intros x X. apply in_map_iff in X as (row & <- & R). apply (proj1 (Forall_forall _ _) F). apply in_concat. exists row. split; [exact R|]. apply nth_In.
      rewrite (proj1 (Forall_forall _ _) LH row R). lia.
    - eapply Rle_trans; [|exact Z]. change (table_size hrows) with (rs (map (fun x => Rabs (B2R x)) (concat hrows))). rewrite EH. rewrite <- (series_column _ _ _ d S1). fold (h k).
      exact (rs_in (fun k => size_sum (h k)) (seq 0 13) k (fun k => size_pos _) K). }
  split; [|split].
  - apply Forall_forall. intros x X. apply in_concat in X as (row & R & X). apply (In_nth _ _ d) in X as (k & K & <-). pose proof (proj1 (Forall_forall _ _) LM row R) as LR. cbv beta in LR. rewrite LR in K.
    destruct (P k ltac:(apply in_seq; lia)) as (FG & _). apply (proj1 (Forall_forall _ _) FG). unfold g. apply in_map_iff. exists row. split; [reflexivity|exact R].
  - change (table_sum mrows) with (rs (map B2R (concat mrows))). change (table_sum hrows) with (rs (map B2R (concat hrows))). change (table_size hrows) with (rs (map (fun x => Rabs (B2R x)) (concat hrows))). rewrite !EH, EM.
    apply (rs_diff (fun k => exact_sum (g k)) (fun k => exact_sum (h k)) (fun k => size_sum (h k))). intros k K. exact (proj1 (proj2 (P k K))).
  - change (table_size mrows) with (rs (map (fun x => Rabs (B2R x)) (concat mrows))). change (table_size hrows) with (rs (map (fun x => Rabs (B2R x)) (concat hrows))). rewrite EH, EM, <- rs_scale.
    apply (rs_le (fun k => size_sum (g k)) (fun k => (1 + slack) * size_sum (h k))). intros k K. exact (proj2 (proj2 (P k K))).
Qed.

Variables (fuels : list fuel) (cats : list category).
Hypothesis (NF : NoDup fuels) (NC : NoDup cats) (AL : forall f c, In (f, c) os_slots -> In f fuels /\ In c cats).
Lemma C117_same_l (p : params_t double) ws r0 mres r hrows r' : os_simulate p ws r0 true = Ok (mres, r) -> simulate p ws r0 false = Ok (hrows, r') ->
  Forall fin (concat hrows) -> 2 * table_size hrows <= IZR (10 ^ 300) ->
  is_finite (totalEnergyUse fuels cats mres) = true /\
  Rabs (B2R (totalEnergyUse fuels cats mres) - B2R (totalEnergyUse fuels cats (map os_row hrows))) <= table_size hrows / 1000000000.
Proof.
  intros H H' F Z. unfold os_simulate in H. destruct (simulate p ws r0 true) as [[mrows rm]| |] eqn:E; try discriminate H. cbn [obind] in H. injection H as <- <-.
  destruct (monthly_from_hourly _ _ _ _ _ E) as (hrows' & E' & C). rewrite E' in H'. injection H' as -> ->.
  destruct (simulate_det _ _ _ _ _ _ E) as (_ & _ & [N1 S1] & _). destruct (simulate_det _ _ _ _ _ _ E') as (_ & _ & [N2 S2] & _). cbv iota in N1, N2.
  pose proof slack_small as SL. assert (ZP : 0 <= table_size hrows) by (exact (rs_nonneg (fun x => Rabs (B2R x)) (concat hrows) (fun x => Rabs_pos _))).
  destruct (tables hrows mrows S2 S1) as (FM & DM & SM); [|exact F|lra|].
  { intros k K. destruct (C k K) as (v & V1 & _ & V2 & V3). exists v. split; [exact V1|]. split; [exact V2|exact V3]. }
  assert (SS : (1 + slack) * table_size hrows <= 2 * table_size hrows) by (apply Rmult_le_compat_r; lra).
  assert (UM : summable mrows) by (constructor; [rewrite N1; lia|exact S1|exact FM|lra]). assert (UH : summable hrows) by (constructor; [rewrite N2; lia|exact S2|exact F|lra]).
  destruct (C117_l fuels cats NF NC AL mrows UM) as [G1 G2]. destruct (C117_l fuels cats NF NC AL hrows UH) as [G3 G4]. split; [exact G1|].
  set (tm := totalEnergyUse fuels cats (map os_row mrows)) in *. set (th := totalEnergyUse fuels cats (map os_row hrows)) in *. clearbody tm th.
  replace (B2R tm - B2R th) with ((B2R tm - table_sum mrows) + (table_sum mrows - table_sum hrows) + - (B2R th - table_sum hrows)) by ring.
  eapply Rle_trans; [apply Rabs_triang|]. rewrite Rabs_Ropp. eapply Rle_trans; [apply Rplus_le_compat_r, Rabs_triang|]. unfold slack in *. lra.
Qed.
Lemma C117_hourly_l (p : params_t double) ws r0 agg res r : os_simulate p ws r0 agg = Ok (res, r) ->
  exists rows, simulate p ws r0 agg = Ok (rows, r) /\ (Forall fin (concat rows) -> table_size rows <= IZR (10 ^ 300) -> right_to_10 (totalEnergyUse fuels cats res) rows).
Proof.
  intros H. unfold os_simulate in H. destruct (simulate p ws r0 agg) as [[rows r']| |] eqn:E; try discriminate H. cbn [obind] in H. injection H as <- <-.
  exists rows. split; [reflexivity|]. intros F Z. destruct (simulate_det _ _ _ _ _ _ E) as (_ & _ & [N1 S1] & _). apply C117_l; try assumption. constructor; try assumption. rewrite N1. destruct agg; lia.
Qed.
Lemma C117_monthly_l (p : params_t double) w res : os_monthly p w = Ok res ->
  exists rows, simulateMonthly p w = Ok rows /\ (Forall fin (concat rows) -> table_size rows <= IZR (10 ^ 300) -> right_to_10 (totalEnergyUse fuels cats res) rows).
Proof.
  intros H. unfold os_monthly in H. destruct (simulateMonthly p w) as [rows| |] eqn:E; try discriminate H. cbn [obind] in H. injection H as <-.
  exists rows. split; [reflexivity|]. intros F Z. destruct (monthly_shape _ _ _ E) as [N1 S1]. apply C117_l; try assumption. constructor; try assumption. rewrite N1. lia.
Qed.
End D.

(** ** The table of a year in which the end uses are 1 to 13 in every hour *)
Definition one_to_13 : list (list double) := repeat (map z2d (zrange 1 13)) (Z.to_nat 8760).
Lemma rs_repeat {A} (f : A -> R) x n : rs (map f (repeat x n)) = INR n * f x.
Proof. induction n as [|n IH]; [unfold rs; cbn; lra|]. rewrite S_INR. cbn [repeat map]. unfold rs in *. cbn [fold_right]. rewrite IH. lra. Qed.
Lemma one_to_13_sum (f : double -> R) : (forall z, (1 <= z <= 13)%Z -> f (z2d z) = IZR z) -> rs (map f (concat one_to_13)) = 8760 * 91.
Proof.
  intros H. rewrite rs_concat. unfold one_to_13. rewrite rs_repeat, INR_IZR_INZ, Z2Nat.id by lia. f_equal. rewrite map_map. rewrite (map_ext_in _ IZR).
  - change (zrange 1 13) with [1; 2; 3; 4; 5; 6; 7; 8; 9; 10; 11; 12; 13]%Z. unfold rs. cbn [map fold_right]. lra.
  - intros z I. unfold zrange in I. apply in_map_iff in I as (j & <- & J). apply in_seq in J. apply H. lia.
Qed.
Lemma C117_case_l : summable one_to_13 /\ table_sum one_to_13 = 797160.
Proof.
  assert (V : forall z, (1 <= z <= 13)%Z -> is_finite (z2d z) = true /\ B2R (z2d z) = IZR z) by (intros z B; apply z2d_val; lia).
  split; [constructor|].
  - unfold one_to_13. rewrite repeat_length. lia.
  - apply Forall_forall. intros row R. apply repeat_spec in R. subst row. reflexivity.
  - apply Forall_forall. intros x X. apply in_concat in X as (row & R & X). apply repeat_spec in R. subst row. apply in_map_iff in X as (z & <- & I). apply V. unfold zrange in I. apply in_map_iff in I as (j & <- & J). apply in_seq in J. lia.
  - unfold table_size. fold (rs (map (fun x : double => Rabs (B2R x)) (concat one_to_13))). rewrite one_to_13_sum; [|intros z B; rewrite (proj2 (V z B)), Rabs_pos_eq; [reflexivity|apply (IZR_le 0); lia]].
    rewrite <- mult_IZR. apply IZR_le. vm_compute. discriminate.
  - unfold table_sum. fold (rs (map (fun x : double => B2R x) (concat one_to_13))). change (rs (map B2R (concat one_to_13)) = 797160). rewrite one_to_13_sum; [lra|]. intros z B. exact (proj2 (V z B)).
Qed.
Lemma C117_case2_l : NoDup some_fuels /\ NoDup some_categories /\ (forall f c, In (f, c) os_slots -> In f some_fuels /\ In c some_categories) /\
  summable one_to_13 /\ table_sum one_to_13 = 797160 /\
  forall (L : libm) t, exists mres r hrows r', os_simulate (@smallOffice double (dbl_num L)) (constant_year 8760 t) no_ratios true = Ok (mres, r) /\
    simulate (@smallOffice double (dbl_num L)) (constant_year 8760 t) no_ratios false = Ok (hrows, r').
Proof.
  destruct C110_case_l as (A & B & C & _). split; [exact A|]. split; [exact B|]. split; [exact C|]. destruct C117_case_l as [D E]. split; [exact D|]. split; [exact E|].
  intros L t. destruct (office_months t) as (_ & rows & r & H). destruct (monthly_from_hourly _ _ _ _ _ H) as (hrows & H' & _).
  exists (map os_row rows), r, hrows, r. unfold os_simulate. rewrite H. split; [reflexivity|exact H'].
Qed.
