(** Averages of a year of doubles, and cases. *)
From Coq Require Import Reals Lra ZArith Bool List Lia.
From Flocq Require Import Core.Core IEEE754.BinarySingleNaN.
From Verif Require Import Base Num Xr Dbl L_Dbl M_Params M_TimeFrame M_Epw M_Monthly S_Results S_Calendar S_Solar S_Epw S_Monthly S_Double S_DoubleMonthly E_SmallOffice E_Monthly.
From Verif Require Import L_Calendar L_Solar2 L_Solar5 L_Solar6 L_Monthly3 L_Double L_Double2 L_Double6 L_Double7.
Import ListNotations.
Open Scope R_scope.

Lemma part_ordinary : forall (f : nat * double -> bool) l, Forall ordinary l -> Forall ordinary (map snd (filter f (combine (seq 0 (length l)) l))).
Proof.
  intros f l F. apply Forall_forall. intros x I. apply in_map_iff in I as ([a b]&<-&I). apply filter_In in I as [I _]. apply in_combine_r in I.
  exact (proj1 (Forall_forall _ _) F b I).
Qed.
Section D.
Context {L : libm}.
Lemma C39_rounded_l : forall xs : list double, length xs = slices -> Forall ordinary xs ->
  (forall k, (k < 12)%nat -> exists x, nth_error (monthly_means xs) k = Some x /\ close_mean x (month_part (Z.of_nat k + 1) xs)) /\
  (forall k h, (k < 12)%nat -> (h < 24)%nat -> exists x, cell (hourly_means xs) k h = Some x /\ close_mean x (hour_part (Z.of_nat k + 1) (Z.of_nat h) xs)).
Proof.
  intros xs LX O. split.
  - intros k K. exists (ndiv (accumulate (month_part (Z.of_nat k + 1) xs)) (zn (24 * days_of (Z.of_nat k + 1)))). split.
    + unfold monthly_means. do 12 (destruct k as [|k]; [reflexivity|]). lia.
    + pose proof (days_range k K). apply mean_close; [lia|exact (month_hours_length _ xs k K LX)|lia|apply part_ordinary; exact O].
  - intros k h K H. exists (ndiv (accumulate (hour_part (Z.of_nat k + 1) (Z.of_nat h) xs)) (zn (days_of (Z.of_nat k + 1)))). split.
    + unfold hourly_means, cell. rewrite nth_error_map. assert (E : nth_error (zrange 1 12) k = Some (Z.of_nat k + 1)%Z) by (do 12 (destruct k as [|k]; [reflexivity|]); lia).
      rewrite E. cbn [option_map]. rewrite nth_error_map. assert (E2 : nth_error (zrange 0 24) h = Some (Z.of_nat h)) by (do 24 (destruct h as [|h]; [reflexivity|]); lia).
      rewrite E2. reflexivity.
    + pose proof (days_range k K). apply mean_close; [lia|exact (hour_part_length _ xs k h K H LX)|lia|apply part_ordinary; exact O].
Qed.

Notation office_m := (@monthlyOffice double (dbl_num L)).
Lemma office_monthly : unsigned_monthly office_m.
Proof.
  assert (Z : forall z lo hi, (- 9000 <= z <= 9000)%Z -> (lo <= z <= hi)%Z -> within lo hi (z2d z)).
  { intros z lo hi A [B1 B2]. destruct (z2d_val z A) as [F V]. split; [exact F|]. rewrite V. split; apply IZR_le; assumption. }
  constructor; [split; apply Z; lia|split; apply Z; lia|..]; unfold plain; repeat match goal with |- _ /\ _ => split end; vm_compute; reflexivity.
Qed.
Lemma office_monthly_runs : exists rows, simulateMonthly office_m mildYear = Ok rows.
Proof.
  apply C18_monthly_defined_l. split; [|split; [|split; [|split]]].
  - intros v I. repeat (destruct I as [<-|I]; [reflexivity|]). destruct I.
  - unfold full_tables. assert (R : forall A (x r : A) n, In r (repeat x n) -> r = x) by (intros A x r n I; exact (repeat_spec n x r I)).
    repeat split; try reflexivity; intros r I; apply R in I; subst r; reflexivity.
  - intros row I. apply repeat_spec in I. subst row. exists (zn 200). split; [|reflexivity]. apply in_or_app. right. apply in_or_app. left. left. reflexivity.
  - intros x I. apply repeat_spec in I. subst x. left. vm_compute. reflexivity.
  - eexists. vm_compute. reflexivity.
Qed.
(** A year at -5 degrees. *)
Lemma cold_ordinary : Forall ordinary (repeat (z2d (-5)) slices) /\ length (repeat (z2d (-5)) slices) = slices.
Proof.
  split; [|apply repeat_length]. apply Forall_forall. intros x I. apply repeat_spec in I. subst x. destruct (z2d_val (-5) ltac:(lia)) as [F V]. split; [exact F|].
  rewrite V, <- abs_IZR. apply IZR_le. vm_compute. discriminate.
Qed.
End D.
