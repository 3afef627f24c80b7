(** The months of the hourly engine after an unreadable hour. *)
From Coq Require Import Reals Lra Lia ZArith Bool List.
From Flocq Require Import Core.Core IEEE754.BinarySingleNaN.
From Verif Require Import Base Num Dbl M_TimeFrame M_Params M_Hourly S_Calendar S_Results L_HourlyShape L_HourlyOut S_Broken E_Broken L_Broken L_Broken2.
Import ListNotations.

Lemma none_forms : forall x : double, no_energy x -> x = B754_nan \/ exists s, x = B754_zero s.
Proof.
  intros [s|s| |s m e hh] [H | (F&H)]; try discriminate; eauto.
  exfalso. revert H. unfold B2R. destruct s; apply F2R_neq_0; discriminate.
Qed.
Lemma none_add : forall x y : double, no_energy x -> no_energy y -> no_energy (Bplus mode_NE x y).
Proof.
  intros x y X Y. destruct (none_forms x X) as [-> | (s&->)]; [left; reflexivity|]. destruct (none_forms y Y) as [-> | (t&->)]; [left; reflexivity|].
  right. destruct s, t; split; reflexivity.
Qed.
Lemma none_sum : forall (l : list double) x, no_energy x -> (forall y, In y l -> no_energy y) -> no_energy (fold_left (Bplus mode_NE) l x).
Proof.
  induction l as [|y l IH]; intros x X A; cbn [fold_left]; [exact X|]. apply IH; [|intros z I; apply A; right; exact I].
  apply none_add; [exact X|apply A; left; reflexivity].
Qed.
Lemma combine_at : forall {A} (v : list A) a i x, In (i, x) (combine (seq a (length v)) v) -> (a <= i)%nat /\ nth_error v (i - a) = Some x.
Proof.
  intros A v. induction v as [|y v IH]; intros a i x I; cbn [length seq combine In] in I; [contradiction|]. destruct I as [E | I].
  - injection E as -> ->. rewrite Nat.sub_diag. split; [lia|reflexivity].
  - destruct (IH (S a) i x I) as (B&C). split; [lia|]. replace (i - a)%nat with (S (i - S a)) by lia. exact C.
Qed.
Lemma part_at : forall {A} m (v : list A) x, In x (month_part m v) -> exists i, hour_in_month m (Z.of_nat i) = true /\ nth_error v i = Some x.
Proof.
  intros A m v x I. unfold month_part in I. apply in_map_iff in I as ((i&y)&E&I). cbn in E. subst y. apply filter_In in I as (I&H). cbn in H.
  apply combine_at in I as (_&I). rewrite Nat.sub_0_r in I. exists i. split; assumption.
Qed.
Lemma series_at : forall {A} k (rows : list (list A)) v i, is_series k rows v -> forall x, nth_error v i = Some x -> exists row, nth_error rows i = Some row /\ nth_error row k = Some x.
Proof.
  intros A k rows v i S. revert i. induction S as [|r y rs ys E _ IH]; intros i x H; [destruct i; discriminate|].
  destruct i as [|i]; cbn [nth_error] in *; [exists r; split; [reflexivity|congruence]|apply IH; exact H].
Qed.
Lemma series_row : forall {A} k (rows : list (list A)) v i, is_series k rows v -> forall row, nth_error rows i = Some row -> exists x, nth_error v i = Some x /\ nth_error row k = Some x.
Proof.
  intros A k rows v i S. revert i. induction S as [|r y rs ys E _ IH]; intros i row H; [destruct i; discriminate|].
  destruct i as [|i]; cbn [nth_error] in *; [exists y; split; [reflexivity|congruence]|apply IH; exact H].
Qed.
Lemma months_at : forall {A} (f : Z -> A) i x, nth_error (map f (zrange 1 12)) i = Some x -> x = f (Z.of_nat i + 1)%Z.
Proof.
  intros A f i x H. change (zrange 1 12) with [1;2;3;4;5;6;7;8;9;10;11;12]%Z in H. cbn [map] in H.
  do 12 (destruct i as [|i]; [cbn in H; injection H as <-; reflexivity|]). destruct i; discriminate.
Qed.
Lemma C122_months_l : forall (L : libm) p ws r0 rows r k w, simulate (N := dbl_num L) p ws r0 true = Ok (rows, r) -> nth_error ws k = Some w -> broken w ->
  forall m row u, (1 <= m <= 12)%Z -> (Z.of_nat k <= 24 * days_before m)%Z -> nth_error rows (Z.to_nat (m - 1)) = Some row -> In u plant_uses ->
  exists x, nth_error row u = Some x /\ no_energy x.
Proof.
  intros L p ws r0 rows r k w H K B m row u M KM HR U.
  destruct (monthly_from_hourly _ _ _ _ _ H) as (hrows&HH&C).
  assert (U13 : (u < 13)%nat) by (cbn [plant_uses In] in U; destruct U as [<- | [<- | [<- | [<- | []]]]]; vm_compute; lia).
  destruct (C u U13) as (v&SV&_&_&SM). destruct (series_row _ _ _ _ SM _ HR) as (x&X&RX). exists x. split; [exact RX|].
  apply months_at in X. rewrite Z2Nat.id in X by lia. replace (m - 1 + 1)%Z with m in X by lia. subst x.
  unfold accumulate. apply none_sum; [apply none_zero|]. intros y I. apply part_at in I as (i&HI&Y).
  destruct (series_at _ _ _ _ SV _ Y) as (hrow&HI2&HY). unfold hour_in_month in HI. apply andb_true_iff in HI as (HI&_). apply Z.leb_le in HI.
  destruct (C122_table_l p ws r0 hrows r k w HH K B i hrow u ltac:(lia) HI2 U) as (z&Z1&Z2). congruence.
Qed.
Lemma C122_months_case_l : broken unread /\ nth_error unread_year 0 = Some unread /\ (Z.of_nat 0 <= 24 * days_before 1)%Z /\
  exists rows r, @simulate double (dbl_num any_libm) office unread_year no_ratios true = Ok (rows, r) /\ length rows = 12%nat.
Proof.
  split; [left; reflexivity|]. split; [reflexivity|]. split; [vm_compute; discriminate|]. destruct (year_runs unread_year) as (raw'&r'&E').
  { unfold unread_year. cbn [length]. rewrite repeat_length. lia. }
  { intros w [<- | I]; [reflexivity|]. apply repeat_spec in I. subst. reflexivity. }
  destruct (simulate_both _ _ _ _ _ E') as (h & m & _ & E1 & _ & LM & _). exists m. eexists. split; [exact E1|exact LM].
Qed.
