(** The fans of the monthly table of the hourly engine after an unreadable hour. *)
From Coq Require Import Reals Lra Lia ZArith Bool List.
From Flocq Require Import Core.Core IEEE754.BinarySingleNaN.
From Verif Require Import Base Num Dbl M_TimeFrame M_Params M_Hourly S_Calendar S_Results L_HourlyShape L_HourlyOut S_Broken E_Broken L_Broken L_Broken2 L_Broken4 L_Broken5.
Import ListNotations.

Lemma combine_in : forall {A} (v : list A) a i x, nth_error v i = Some x -> In ((a + i)%nat, x) (combine (seq a (length v)) v).
Proof.
  intros A v. induction v as [|y v IH]; intros a i x H; [destruct i; discriminate|]. cbn [length seq combine]. destruct i as [|i]; cbn [nth_error] in H.
  - left. rewrite Nat.add_0_r. congruence.
  - right. replace (a + S i)%nat with (S a + i)%nat by lia. apply IH. exact H.
Qed.
Lemma part_in : forall {A} m (v : list A) i x, hour_in_month m (Z.of_nat i) = true -> nth_error v i = Some x -> In x (month_part m v).
Proof.
  intros A m v i x H E. unfold month_part. apply in_map_iff. exists (i, x). split; [reflexivity|]. apply filter_In. split; [|exact H].
  exact (combine_in v 0 i x E).
Qed.
Lemma month_last : forall m, (1 <= m <= 12)%Z -> (24 * days_before m < 24 * days_before (m + 1) <= 8760 /\ 0 <= days_before m)%Z.
Proof.
  intros m M. assert (C : (m = 1 \/ m = 2 \/ m = 3 \/ m = 4 \/ m = 5 \/ m = 6 \/ m = 7 \/ m = 8 \/ m = 9 \/ m = 10 \/ m = 11 \/ m = 12)%Z) by lia.
  repeat (destruct C as [-> | C]; [vm_compute; repeat split; discriminate|]). subst m. vm_compute. repeat split; discriminate.
Qed.
Lemma C122_fan_months_l : forall (L : libm) p ws r0 rows r k w, simulate (N := dbl_num L) p ws r0 true = Ok (rows, r) -> nth_error ws k = Some w -> broken w ->
  ht_forcedAir (pa_heating p) = true \/ cl_forcedAir (pa_cooling p) = true ->
  forall m row, (1 <= m <= 12)%Z -> (Z.of_nat k + 1 < 24 * days_before (m + 1))%Z -> nth_error rows (Z.to_nat (m - 1)) = Some row ->
  nth_error row elec_fans = Some B754_nan.
Proof.
  intros L p ws r0 rows r k w H K B F m row M KM HR.
  destruct (monthly_from_hourly _ _ _ _ _ H) as (hrows&HH&C).
  destruct (C elec_fans ltac:(vm_compute; lia)) as (v&SV&LV&_&SM). destruct (series_row _ _ _ _ SM _ HR) as (x&X&RX). rewrite RX. f_equal.
  apply months_at in X. rewrite Z2Nat.id in X by lia. replace (m - 1 + 1)%Z with m in X by lia. subst x.
  unfold accumulate. cbn [nadd dbl_num]. apply sum_n. left. destruct (month_last m M) as ((A1&A2)&A3).
  remember (days_before m) as d eqn:D. remember (days_before (m + 1)) as d' eqn:D'. set (i := Z.to_nat (24 * d' - 1)).
  assert (I : Z.of_nat i = (24 * d' - 1)%Z) by (unfold i; rewrite Z2Nat.id; lia).
  assert (LV' : Z.of_nat (length v) = 8760%Z) by (rewrite LV; apply Z2Nat.id; lia).
  destruct (nth_error v i) as [y|] eqn:Y; [|apply nth_error_None in Y; clear LV; lia].
  apply (part_in m v i); [unfold hour_in_month; rewrite <- D, <- D', I; apply andb_true_iff; split; [apply Z.leb_le|apply Z.ltb_lt]; clear LV; lia|].
  destruct (series_at _ _ _ _ SV _ Y) as (hrow&HI2&HY). assert (KI : (k < i)%nat) by (clear LV; lia).
  pose proof (C122_fans_l p ws r0 hrows r k w HH K B F i hrow KI HI2). congruence.
Qed.
Lemma C122_fan_months_case_l : broken unread /\ nth_error unread_year 0 = Some unread /\ ht_forcedAir (pa_heating office) = true /\ (Z.of_nat 0 + 1 < 24 * days_before (1 + 1))%Z /\
  exists rows r, @simulate double (dbl_num any_libm) office unread_year no_ratios true = Ok (rows, r) /\ length rows = 12%nat.
Proof. destruct C122_months_case_l as (A&B&_&C). split; [exact A|]. split; [exact B|]. split; [reflexivity|]. split; [reflexivity|exact C]. Qed.
