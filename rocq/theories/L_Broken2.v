(** The office in a year of frost, with and without its first reading. *)
From Coq Require Import Reals Lra Lia ZArith Bool List.
From Flocq Require Import Core.Core IEEE754.BinarySingleNaN.
From Verif Require Import Base Num Xr Dbl L_Dbl M_TimeFrame M_Params M_Hourly S_Calendar S_Results S_Double E_SmallOffice L_Calendar L_HourlyShape L_HourlyOut L_Double L_Double5 S_Broken E_Broken L_Broken.
Import ListNotations.

Definition office : params_t double := @smallOffice double (dbl_num any_libm).
Definition ini : outcome (hinit double) := @initialize double (dbl_num any_libm) office no_ratios.
Definition tab : outcome (list (list (sched double))) := @populateSchedules double (dbl_num any_libm) office.
(** Two hours of frost, on any two days. *)
Definition second_need (d0 d1 : Z) : bool :=
  match ini, tab with
  | Ok i, Ok t => match @sched_at double t 0 d0, @sched_at double t 1 d1 with
    | Ok s0, Ok s1 => let th := snd (@calculateHour double (dbl_num any_libm) office i s0 frost (@thermal0 double (dbl_num any_libm))) in
        Bltb (z2d 0) (hr_Qneed_ht (fst (@calculateHour double (dbl_num any_libm) office i s1 frost th)))
    | _, _ => false end
  | _, _ => false
  end.
Lemma second_positive : second_need 0 0 = true.
Proof. vm_compute. reflexivity. Qed.
Lemma two_hours : forall {T} {N : Num T} (p : params_t T) i tbl c0 c1 fr w0 w1 ws th raw, yearLoop p i tbl (Some c0 :: Some c1 :: fr) (w0 :: w1 :: ws) th = Ok raw ->
  exists s0 s1, sched_at tbl (tc_hour c0) (tc_dow c0) = Ok s0 /\ sched_at tbl (tc_hour c1) (tc_dow c1) = Ok s1 /\
    nth_error raw 1 = Some (fst (calculateHour p i s1 w1 (snd (calculateHour p i s0 w0 th)))).
Proof.
  intros T N p i tbl c0 c1 fr w0 w1 ws th raw H. cbn [yearLoop] in H. destruct (nine (we_sol w0)); cbn [negb] in H; [|discriminate H].
  apply obind_ok in H as (s0&S0&H). destruct (calculateHour p i s0 w0 th) as [r0 t0] eqn:E0. apply obind_ok in H as (rs&H&E).
  destruct (nine (we_sol w1)); cbn [negb] in H; [|discriminate H]. apply obind_ok in H as (s1&S1&H). destruct (calculateHour p i s1 w1 t0) as [r1 t1] eqn:E1.
  apply obind_ok in H as (rs'&_&H). exists s0, s1. split; [exact S0|]. split; [exact S1|]. cbn [snd]. rewrite E0. cbn [snd]. rewrite E1.
  assert (raw = r0 :: r1 :: rs') by congruence. subst raw. reflexivity.
Qed.
Lemma frame_two : forall fr, timeFrame = Ok fr -> exists c0 c1 fr', fr = Some c0 :: Some c1 :: fr' /\ tc_hour c0 = 0%Z /\ tc_dow c0 = 0%Z /\ tc_hour c1 = 1%Z /\ tc_dow c1 = 0%Z.
Proof.
  intros fr TF. destruct timeFrame_spec as (a&TA&LA&TS). assert (fr = a) by congruence. subst a.
  clear LA TF TA. pose proof (TS 0%Z (conj (Z.le_refl 0) eq_refl)) as B0. assert (U : (0 <= 1 < 8760)%Z) by (clear; lia). pose proof (TS 1%Z U) as B1. clear TS U.
  destruct B0 as (c0&C0&H0&_&D0&_). destruct B1 as (c1&C1&H1&_&D1&_). change (Z.to_nat 0) with 0%nat in C0. change (Z.to_nat 1) with 1%nat in C1.
  destruct fr as [|x [|y fr']]; [discriminate C0|discriminate C1|]. cbn [nth_error] in C0, C1. exists c0, c1, fr'.
  rewrite H0, H1, D0, D1. injection C0 as ->. injection C1 as ->. repeat split.
Qed.
Lemma frost_raw : forall raw r, @simulateRaw double (dbl_num any_libm) office frost_year no_ratios = Ok (raw, r) ->
  exists h, nth_error raw 1 = Some h /\ Bltb (z2d 0) (hr_Qneed_ht h) = true.
Proof.
  intros raw r H. unfold simulateRaw in H. apply obind_ok in H as (tbl&HT&H). apply obind_ok in H as (i&HI&H). apply obind_ok in H as (fr&Hf&H). apply obind_ok in H as (rw&Hr&H).
  assert (rw = raw) by congruence. subst rw. clear H. destruct (frame_two fr Hf) as (c0&c1&fr'&->&A0&A1&A2&A3).
  assert (FY : frost_year = frost :: frost :: repeat frost (Z.to_nat 8758)).
  { unfold frost_year. replace (Z.to_nat 8760) with (S (S (Z.to_nat 8758))) by lia. reflexivity. }
  rewrite FY in Hr. destruct (two_hours _ _ _ _ _ _ _ _ _ _ _ Hr) as (s0&s1&S0&S1&E). rewrite A0, A1 in S0. rewrite A2, A3 in S1.
  pose proof second_positive as P. unfold second_need in P. change ini with (@initialize double (dbl_num any_libm) office no_ratios) in P.
  change tab with (@populateSchedules double (dbl_num any_libm) office) in P. rewrite HI, HT, S0, S1 in P. cbv zeta in P. eexists. split; [exact E|exact P].
Qed.
Lemma year_runs : forall ws, length ws = Z.to_nat 8760 -> (forall w, In w ws -> nine (we_sol w) = true) ->
  exists raw r, @simulateRaw double (dbl_num any_libm) office ws no_ratios = Ok (raw, r).
Proof. intros ws H N. apply simulateRaw_ok; [exact (@office_ints_d any_libm)|reflexivity|rewrite H; lia|exact N]. Qed.
Lemma C122_refuted_l : exists (L : libm) p ws ws' raw raw' r r', (forall k, k <> 0%nat -> nth_error ws' k = nth_error ws k) /\
  simulateRaw (N := dbl_num L) p ws no_ratios = Ok (raw, r) /\ simulateRaw (N := dbl_num L) p ws' no_ratios = Ok (raw', r') /\
  (exists h, nth_error raw 1 = Some h /\ Bltb (z2d 0) (hr_Qneed_ht h) = true) /\
  (forall h, In h raw' -> hr_Qneed_ht h = z2d 0 /\ hr_Qneed_cl h = z2d 0).
Proof.
  destruct (year_runs frost_year) as (raw&r&E); [apply repeat_length|intros w I; apply repeat_spec in I; subst; reflexivity|].
  destruct (year_runs unread_year) as (raw'&r'&E').
  { unfold unread_year. cbn [length]. rewrite repeat_length. lia. }
  { intros w [<- | I]; [reflexivity|]. apply repeat_spec in I. subst. reflexivity. }
  exists any_libm, office, frost_year, unread_year, raw, raw', r, r'. split; [|split; [exact E|split; [exact E'|split; [exact (frost_raw raw r E)|]]]].
  - intros [|k] K; [congruence|]. unfold unread_year, frost_year. replace (Z.to_nat 8760) with (S (Z.to_nat 8759)) by lia. reflexivity.
  - intros h I. apply In_nth_error in I as [j J]. destruct (C122_needs_l office unread_year no_ratios raw' r' 0 unread E' eq_refl (or_introl eq_refl) j h ltac:(lia) J) as (A&B&_). split; assumption.
Qed.
Lemma C122_case_l : broken unread /\ nth_error unread_year 0 = Some unread /\ exists rows r, @simulate double (dbl_num any_libm) office unread_year no_ratios false = Ok (rows, r).
Proof.
  split; [left; reflexivity|]. split; [reflexivity|]. destruct (year_runs unread_year) as (raw'&r'&E').
  { unfold unread_year. cbn [length]. rewrite repeat_length. lia. }
  { intros w [<- | I]; [reflexivity|]. apply repeat_spec in I. subst. reflexivity. }
  destruct (simulate_both _ _ _ _ _ E') as (h & m & E1 & _). exists h. eexists. exact E1.
Qed.
