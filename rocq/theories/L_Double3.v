From Coq Require Import Reals Lra Psatz ZArith Bool List Lia.
From Flocq Require Import Core.Core IEEE754.BinarySingleNaN.
From Verif Require Import Base Num Xr Dbl L_Dbl M_Params M_TimeFrame M_Hourly S_Results S_Calendar S_Double L_Calendar L_HourlyShape L_HourlyOut L_Double L_Double2.
Import ListNotations.
Open Scope R_scope.

Section Sums.
Context {L : libm}.
Lemma month_short : forall (v : list double) m, (1 <= m <= 12)%Z -> (length (month_part m v) <= 800)%nat.
Proof.
  intros v m M. rewrite month_part_interval by exact M. rewrite firstn_length.
  assert (B : (days_before (m + 1) - days_before m <= 31)%Z).
  { assert (C : forallb (fun m => (days_before (m + 1) - days_before m <=? 31)%Z) (zrange 1 12) = true) by (vm_compute; reflexivity).
    rewrite forallb_forall in C. specialize (C m). apply Z.leb_le, C. unfold zrange. apply in_map_iff. exists (Z.to_nat (m - 1)). split; [lia|].
    apply in_seq. change (Z.to_nat 12) with 12%nat. lia. }
  lia.
Qed.
Lemma months_sum : forall (v : list double) (u : list double) ms, Forall not_negative v ->
  (forall m, In m ms -> 1 <= m <= 12)%Z -> u = map (fun m => accumulate (month_part m v)) ms -> Forall (fun x => is_finite x = true) u ->
  Rabs (exact_sum u - exact_sum (concat (map (fun m => month_part m v) ms))) <= / 10000000000000 * exact_sum (concat (map (fun m => month_part m v) ms)).
Proof.
  intros v u ms V. revert u. induction ms as [|m ms IH]; intros u M -> F; cbn [map concat] in *.
  - unfold exact_sum. cbn. rewrite Rminus_diag_eq, Rabs_R0 by reflexivity. lra.
  - inversion F as [|? ? F1 F2]; subst. specialize (IH _ (fun x I => M x (or_intror I)) eq_refl F2).
    destruct (accumulate_error (month_part m v) (/ 10000000000000)) as [_ E].
    + apply month_part_Forall. exact V.
    + exact F1.
    + apply month_hours_bound, month_short, M. left. reflexivity.
    + rewrite exact_sum_app. change (exact_sum (accumulate (month_part m v) :: map (fun m => accumulate (month_part m v)) ms)) with
        (B2R (accumulate (month_part m v)) + exact_sum (map (fun m => accumulate (month_part m v)) ms)).
      apply Rabs_le_inv' in E, IH. apply Rabs_le. lra.
Qed.

Lemma C02_rounded_l : forall p ws r0 hrows mrows r r', unsigned_building p ->
  simulate p ws r0 false = Ok (hrows, r) -> simulate p ws r0 true = Ok (mrows, r') ->
  forall k, (k < 13)%nat -> exists v u, is_series k hrows v /\ is_series k mrows u /\
    (forall m x, (1 <= m <= 12)%Z -> nth_error u (Z.to_nat (m - 1)) = Some x -> is_finite x = true ->
       Rabs (B2R x - exact_sum (month_part m v)) <= / 10000000000000 * exact_sum (month_part m v)) /\
    (is_finite (accumulate v) = true -> Rabs (B2R (accumulate v) - exact_sum v) <= / 1000000000000 * exact_sum v) /\
    (is_finite (accumulate u) = true -> Rabs (B2R (accumulate u) - exact_sum v) <= / 1000000000000 * exact_sum v).
Proof.
  intros p ws r0 hrows mrows r r' UB HF HT k K. destruct (monthly_from_hourly p ws r0 mrows r' HT) as (h&HF'&C).
  assert (h = hrows) by congruence. subst h. destruct (C k K) as (v&S1&LV&CC&S2). exists v. eexists. split; [exact S1|]. split; [exact S2|].
  pose proof (table_sign_l p UB _ _ _ _ _ _ _ HF K S1) as V. pose proof (table_sign_l p UB _ _ _ _ _ _ _ HT K S2) as U.
  split; [|split].
  - intros m x M X FX. rewrite nth_error_map, nth_error_zrange in X by lia. cbn [option_map] in X.
    replace (1 + Z.of_nat (Z.to_nat (m - 1)))%Z with m in X by lia. injection X as <-.
    apply accumulate_error; [apply month_part_Forall; exact V|exact FX|apply month_hours_bound, month_short, M].
  - intros F. apply accumulate_error; [exact V|exact F|apply year_hours_bound; lia].
  - intros F. set (u := map (fun m => accumulate (month_part m v)) (zrange 1 12)) in *.
    destruct (accumulate_error u (/ 10000000000000) U F) as [FU E].
    + apply month_hours_bound. unfold u. rewrite map_length, zrange_length. lia.
    + pose proof (months_sum v u (zrange 1 12) V) as Q. rewrite CC in Q.
      assert (Q' : Rabs (exact_sum u - exact_sum v) <= / 10000000000000 * exact_sum v).
      { apply Q; [|reflexivity|exact FU]. intros m I. unfold zrange in I. apply in_map_iff in I as (j&<-&J). apply in_seq in J. lia. }
      apply Rabs_le_inv' in E, Q'. pose proof (exact_sum_pos v V). apply Rabs_le. lra.
Qed.
End Sums.

(** ** Monotone operations *)
Lemma dle_number : forall x y, dle x y -> is_nan x = false /\ is_nan y = false.
Proof. intros x y H. unfold dle in H. destruct x as [[]|[]| |[] ? ? ?], y as [[]|[]| |[] ? ? ?]; cbn in *; try discriminate; auto. Qed.
Lemma sign_mono : forall x y : double, dle x y -> Bsign x = false -> Bsign y = false \/ (B2R x = 0 /\ B2R y = 0 /\ is_finite x = true /\ is_finite y = true).
Proof.
  intros x y H S. unfold dle in H. destruct x as [[]|[]| |[] ? ? ?], y as [[]|[]| |[] ? ? ?]; cbn in *; try discriminate; auto.
Qed.
Lemma mult_mono : forall x y c : double, dle x y -> unsigned c -> is_nan (Bmult mode_NE x c) = false -> is_nan (Bmult mode_NE y c) = false ->
  dle (Bmult mode_NE x c) (Bmult mode_NE y c).
Proof.
  intros x y c H U NX NY. destruct (is_finite x && is_finite y && is_finite c)%bool eqn:F.
  - apply andb_prop in F as [F FC]. apply andb_prop in F as [FX FY]. apply (is_rnd_mono (B2R x * B2R c) (B2R y * B2R c)); [apply mult_rnd; assumption..|].
    apply dle_fin in H; [|assumption..]. apply Rmult_le_compat_r; [|exact H]. apply sign_R; [exact FC|]. apply U. destruct c; try discriminate; reflexivity.
  - destruct (proj1 (andb_false_iff _ _) F) as [F'|FC].
    + assert (C : is_nan c = false) by (apply mult_nan in NX; apply NX). specialize (U C). unfold dle in *.
      destruct c as [[]|[]| |[] ? ? ?]; try discriminate; destruct x as [[]|[]| |[] ? ? ?], y as [[]|[]| |[] ? ? ?]; try discriminate; try reflexivity;
      match goal with |- Bleb ?a ?b = true => let A := fresh in assert (A : is_nan a = false /\ is_nan b = false) by (split; assumption) end;
      match goal with
      | |- Bleb _ ?b = true => destruct b as [[]|[]| |[] ? ? ?] eqn:?; try discriminate; reflexivity
      | |- Bleb ?a _ = true => destruct a as [[]|[]| |[] ? ? ?] eqn:?; try discriminate; reflexivity
      end.
    + assert (C : is_nan c = false) by (apply mult_nan in NX; apply NX). specialize (U C).
      destruct c as [[]|[]| |[] ? ? ?]; try discriminate. unfold dle in *.
      destruct x as [[]|[]| |[] ? ? ?], y as [[]|[]| |[] ? ? ?]; cbn in *; try discriminate; try reflexivity.
Qed.
Lemma div_mono : forall x y c : double, dle x y -> unsigned c -> is_nan (Bdiv mode_NE x c) = false -> is_nan (Bdiv mode_NE y c) = false ->
  dle (Bdiv mode_NE x c) (Bdiv mode_NE y c).
Proof.
  intros x y c H U NX NY. assert (C : is_nan c = false) by (apply div_nan in NX; apply NX). specialize (U C).
  destruct c as [[]|[]| |[] m e h]; try discriminate.
  - unfold dle in *. destruct x as [[]|[]| |[] ? ? ?], y as [[]|[]| |[] ? ? ?]; cbn in *; try discriminate; reflexivity.
  - unfold dle in *. destruct x as [[]|[]| |[] ? ? ?], y as [[]|[]| |[] ? ? ?]; cbn in *; try discriminate; reflexivity.
  - set (c := B754_finite false m e h) in *. assert (FC : is_finite c = true) by reflexivity. assert (PC : 0 < B2R c) by (apply F2R_gt_0; reflexivity).
    destruct (is_finite x && is_finite y)%bool eqn:F.
    + apply andb_prop in F as [FX FY]. apply (is_rnd_mono (B2R x / B2R c) (B2R y / B2R c)); [apply div_rnd; try assumption; lra..|].
      apply dle_fin in H; [|assumption..]. apply Rmult_le_compat_r; [|exact H]. left. apply Rinv_0_lt_compat. exact PC.
    + assert (Q : x = B754_infinity true \/ y = B754_infinity false).
      { unfold dle in H. destruct x as [[]|[]| |[] ? ? ?], y as [[]|[]| |[] ? ? ?]; cbn in *; try discriminate; auto. }
      unfold dle in *. destruct Q as [->| ->].
      * destruct (Bdiv mode_NE y c) as [[]|[]| |[] ? ? ?]; try discriminate; reflexivity.
      * destruct (Bdiv mode_NE x c) as [[]|[]| |[] ? ? ?]; try discriminate; reflexivity.
Qed.
Lemma plus_mono_r : forall a x y : double, is_finite a = true -> dle x y -> dle (Bplus mode_NE a x) (Bplus mode_NE a y).
Proof.
  intros a x y FA H. destruct (is_finite x && is_finite y)%bool eqn:F.
  - apply andb_prop in F as [FX FY]. apply (is_rnd_mono (B2R a + B2R x) (B2R a + B2R y)); [apply plus_rnd; assumption..|]. apply dle_fin in H; [|assumption..]. lra.
  - assert (Q : x = B754_infinity true \/ y = B754_infinity false).
    { unfold dle in H. destruct x as [[]|[]| |[] ? ? ?], y as [[]|[]| |[] ? ? ?]; cbn in *; try discriminate; auto. }
    destruct Q as [->| ->].
    + assert (N : is_nan (Bplus mode_NE a y) = false).
      { destruct (is_finite y) eqn:FY; [exact (is_rnd_notnan _ _ (plus_rnd a y FA FY))|]. apply dle_number in H as [_ H]. destruct a as [[]|[]| |[] ? ? ?], y as [[]|[]| |[] ? ? ?]; try discriminate; reflexivity. }
      unfold dle. destruct (Bplus mode_NE a y) as [[]|[]| |[] ? ? ?]; try discriminate; destruct a; try discriminate; reflexivity.
    + assert (N : is_nan (Bplus mode_NE a x) = false).
      { destruct (is_finite x) eqn:FX; [exact (is_rnd_notnan _ _ (plus_rnd a x FA FX))|]. apply dle_number in H as [H _]. destruct a as [[]|[]| |[] ? ? ?], x as [[]|[]| |[] ? ? ?]; try discriminate; reflexivity. }
      unfold dle. destruct (Bplus mode_NE a x) as [[]|[]| |[] ? ? ?]; try discriminate; destruct a; try discriminate; reflexivity.
Qed.
