(** The fans after an unreadable hour. *)
From Coq Require Import Reals Lra Lia ZArith Bool List.
From Flocq Require Import Core.Core IEEE754.BinarySingleNaN.
From Verif Require Import Base Num Dbl M_TimeFrame M_Params M_Hourly S_Calendar S_Results L_HourlyShape L_HourlyOut S_Broken E_Broken L_Broken L_Broken2 L_Broken4.
Import ListNotations.

Section Fans.
Context {L : libm}.
Lemma div_nr : forall x : double, Bdiv mode_NE x B754_nan = B754_nan. Proof. destruct x; reflexivity. Qed.
Lemma sub_nl : forall x : double, Bminus mode_NE B754_nan x = B754_nan. Proof. reflexivity. Qed.
Lemma fan_nan : forall p v a b, ht_forcedAir (pa_heating p) = true \/ cl_forcedAir (pa_cooling p) = true -> fanEnergy (N := dbl_num L) p v B754_nan a b = B754_nan.
Proof.
  intros p v a b F. unfold fanEnergy. cbv zeta. cbn [nadd nsub nmul ndiv dbl_num]. rewrite sub_nr, sub_nl, !mul_nl, !add_nl, !div_nr.
  assert (E : nmax (H := dbl_num L) B754_nan v = B754_nan) by reflexivity.
  destruct F as [-> | ->]; [rewrite add_nl|rewrite add_nr]; rewrite E, !mul_nl, div_nl; reflexivity.
Qed.
Lemma ti_lost : forall p i sc w th, lost (hourNet (N := dbl_num L) p i sc w th) (th_TMT1 th) ->
  th_ti (snd (calculateHour (N := dbl_num L) p i sc w th)) = B754_nan.
Proof. intros p i sc w th H. unfold calculateHour. cbv zeta. cbn [fst snd th_ti]. apply air_lost. exact H. Qed.
Lemma fan_of : forall p i sc w th, ht_forcedAir (pa_heating p) = true \/ cl_forcedAir (pa_cooling p) = true -> th_ti th = B754_nan ->
  hr_fan (fst (calculateHour (N := dbl_num L) p i sc w th)) = B754_nan.
Proof. intros p i sc w th F H. unfold calculateHour. cbv zeta. cbn [fst snd hr_fan]. rewrite H. apply fan_nan. exact F. Qed.
Lemma fans_lost : forall p i tbl, ht_forcedAir (pa_heating p) = true \/ cl_forcedAir (pa_cooling p) = true -> forall frame ws th raw,
  yearLoop (N := dbl_num L) p i tbl frame ws th = Ok raw -> th_TMT1 th = B754_nan -> th_ti th = B754_nan -> Forall (fun h => hr_fan h = B754_nan) raw.
Proof.
  intros p i tbl F frame. induction frame as [|[c|] frame IH]; intros ws th raw H N M; cbn [yearLoop] in H.
  - assert (raw = []) by congruence. subst. apply Forall_nil.
  - destruct ws as [|w ws]; [discriminate H|]. destruct (nine (we_sol w)); cbn [negb] in H; [|discriminate H].
    apply obind_ok in H as (sc&_&H). pose proof (hour_lost p i sc w th (or_introl N)) as (_&_&_&HL). pose proof (ti_lost p i sc w th (or_introl N)) as HT.
    pose proof (fan_of p i sc w th F M) as HF. destruct (calculateHour p i sc w th) as [r1 th'].
    apply obind_ok in H as (rs&HR&H). assert (raw = r1 :: rs) by congruence. subst raw. cbn [fst snd] in *.
    apply Forall_cons; [exact HF|]. eapply IH; eassumption.
  - discriminate H.
Qed.
Lemma fans_broken : forall p i tbl, ht_forcedAir (pa_heating p) = true \/ cl_forcedAir (pa_cooling p) = true -> forall frame ws th raw k w,
  yearLoop (N := dbl_num L) p i tbl frame ws th = Ok raw -> nth_error ws k = Some w -> broken w ->
  forall j h, (k < j)%nat -> nth_error raw j = Some h -> hr_fan h = B754_nan.
Proof.
  intros p i tbl F frame. induction frame as [|[c|] frame IH]; intros ws th raw k w H K B j h J HJ; cbn [yearLoop] in H.
  - assert (raw = []) by congruence. subst. destruct j; discriminate HJ.
  - destruct ws as [|w0 ws]; [discriminate H|]. destruct (nine (we_sol w0)); cbn [negb] in H; [|discriminate H].
    apply obind_ok in H as (sc&_&H). pose proof (fun b => hour_lost p i sc w0 th (broken_lost p i sc w0 th b)) as HL.
    pose proof (fun b => ti_lost p i sc w0 th (broken_lost p i sc w0 th b)) as HT. destruct (calculateHour p i sc w0 th) as [r1 th'].
    apply obind_ok in H as (rs&HR&H). assert (raw = r1 :: rs) by congruence. subst raw. cbn [fst snd] in HL, HT.
    destruct j as [|j]; [lia|]. cbn [nth_error] in HJ. destruct k as [|k]; cbn [nth_error] in K.
    + assert (w0 = w) by congruence. subst w0. destruct (HL B) as (_&_&_&A4). pose proof (fans_lost p i tbl F _ _ _ _ HR A4 (HT B)) as G.
      rewrite Forall_forall in G. apply G. eapply nth_error_In. exact HJ.
    + eapply (IH _ _ _ k w HR K B j h); [lia|exact HJ].
  - discriminate H.
Qed.
Lemma C122_fans_l : forall p ws r0 rows r k w, simulate (N := dbl_num L) p ws r0 false = Ok (rows, r) -> nth_error ws k = Some w -> broken w ->
  ht_forcedAir (pa_heating p) = true \/ cl_forcedAir (pa_cooling p) = true ->
  forall j row, (k < j)%nat -> nth_error rows j = Some row -> nth_error row elec_fans = Some B754_nan.
Proof.
  intros p ws r0 rows r k w H K B F j row J HJ. destruct (simulate_det _ _ _ _ _ _ H) as (raw&HR&_&C). cbn iota in C.
  assert (FE : forall h, nth_error raw j = Some h -> hr_fan h = B754_nan).
  { intros h E. unfold simulateRaw in HR. apply obind_ok in HR as (tbl&_&HR). apply obind_ok in HR as (i&_&HR).
    apply obind_ok in HR as (fr&_&HR). apply obind_ok in HR as (rw&Hr&HR). assert (rw = raw) by congruence. subst rw. eapply fans_broken; eassumption. }
  pose proof (C elec_fans) as S. unfold resultVectors in S. cbv zeta in S. cbn [map] in S. unfold elec_fans in S at 1. cbn [nth_error] in S. specialize (S _ eq_refl).
  destruct (series_row _ _ _ _ S _ HJ) as (x&X&RX). rewrite RX. f_equal. rewrite ?map_map, nth_error_map in X. destruct (nth_error raw j) as [h|] eqn:E; [|discriminate X].
  cbn in X. rewrite (FE h eq_refl) in X. cbn in X. congruence.
Qed.
End Fans.
Lemma C122_fans_case_l : broken unread /\ nth_error unread_year 0 = Some unread /\ ht_forcedAir (pa_heating office) = true /\
  exists rows r, @simulate double (dbl_num any_libm) office unread_year no_ratios false = Ok (rows, r).
Proof. destruct C122_case_l as (A&B&C). split; [exact A|]. split; [exact B|]. split; [reflexivity|exact C]. Qed.
