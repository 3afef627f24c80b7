(** C93 for the simulated year, and a windy year as a case. *)
From Coq Require Import Reals Lra Psatz ZArith List Lia.
From Verif Require Import Base Num Xr M_Params M_Hourly M_Map S_RC S_Physical S_Network S_Year S_HourSpec S_Balance S_Compare S_YearCompare
  L_Xr L_HourlyR L_HourlySpec L_HourlyFin L_HourlyFin2 L_HourlyShape L_HourlyRun L_HourlyThm L_HourlyThm2 L_Compare L_Compare2 L_YearCompare.
Import ListNotations.
Open Scope R_scope.

Lemma added_sum p x y tt : forall es es' k, length es = length es' ->
  (forall j e, nth_error es j = Some e -> e = equip_at p tt (k + Z.of_nat j)) ->
  (forall j e, nth_error es' j = Some e -> e = equip_at (set_appliances p x y) tt (k + Z.of_nat j)) ->
  added p x y tt k (length es) = Rsum es' - Rsum es.
Proof.
  induction es as [|e es IH]; intros [|e' es'] k L A A'; try discriminate L.
  - cbn. lra.
  - cbn [length added]. rewrite !Rsum_step. rewrite (IH es' (k + 1)%Z).
    + pose proof (A O e eq_refl) as Q. pose proof (A' O e' eq_refl) as Q'. cbn [Z.of_nat] in Q, Q'. rewrite Z.add_0_r in Q, Q'. rewrite <- Q, <- Q'. lra.
    + cbn in L. lia.
    + intros j v V. replace (k + 1 + Z.of_nat j)%Z with (k + Z.of_nat (S j))%Z by lia. exact (A (S j) v V).
    + intros j v V. replace (k + 1 + Z.of_nat j)%Z with (k + Z.of_nat (S j))%Z by lia. exact (A' (S j) v V).
Qed.
Lemma map_Fin_inj l l' : map Fin l = map Fin l' -> l = l'.
Proof. revert l'. induction l as [|a l IH]; intros [|b l'] E; try discriminate E; [reflexivity|]. cbn in E. injection E as -> E. f_equal. exact (IH l' E). Qed.

Section Thm.
Variables (p : params_t R) (x y lo hi : R) (tt : timetable) (ws : list (weather R)) (raw raw' : list (hourres xr)) (r r' : ratios xr).
Hypothesis (HP : physical p) (HO : ordered_setpoints p) (HM : mass_slow p) (SO : sources_ok p) (HT : timetable_of p tt).
Hypothesis (OX : bu_elecApplianceOcc (pa_building p) <= x) (OY : bu_elecApplianceUnocc (pa_building p) <= y) (HE : encloses lo hi p).
Hypothesis (HW : forall w, In w ws -> steady_leak p lo hi w).
Hypothesis (H : simulateRaw (map_params Fin p) (map (map_weather Fin) ws) no_ratios = Ok (raw, r)).
Hypothesis (H' : simulateRaw (map_params Fin (set_appliances p x y)) (map (map_weather Fin) ws) no_ratios = Ok (raw', r')).

Lemma two_years : exists ns ns',
  map (fun h => (hr_Qneed_ht h, hr_Qneed_cl h)) raw = map (fun q => (Fin (fst q), Fin (snd q))) ns /\
  map (fun h => (hr_Qneed_ht h, hr_Qneed_cl h)) raw' = map (fun q => (Fin (fst q), Fin (snd q))) ns' /\
  Forall2 (fun a b => fst b <= fst a /\ snd a <= snd b) ns ns' /\
  Rsum (map fst ns) - Rsum (map fst ns') + (Rsum (map snd ns') - Rsum (map snd ns)) <= added p x y tt 0 (length ns).
Proof.
  destruct (C04_year_l p tt ws raw r HP HO HT H) as (ns & N & E).
  destruct (C04_year_l (set_appliances p x y) tt ws raw' r' (physical_appliances p x y HP) HO HT H') as (ns' & N' & E').
  exists ns, ns'. split; [exact E|]. split; [exact E'|].
  assert (L : length ns = length ns').
  { pose proof (simulateRaw_length _ _ _ _ _ H). pose proof (simulateRaw_length _ _ _ _ _ H').
    apply (f_equal (@length _)) in E. apply (f_equal (@length _)) in E'. rewrite !map_length in E, E'. lia. }
  destruct HE as (B & _).
  destruct (hours_compare p x y lo hi tt HP HO HM SO OX OY HE 0%Z 20 20 ws ns N 20 20 ns' N' L HW B B (Rle_refl 20)) as [F S].
  split; [exact F|]. replace (20 - 20) with 0 in S by ring. rewrite Rmult_0_r, Rplus_0_r in S. exact S.
Qed.

Lemma C93_hours_l k h h' : nth_error raw k = Some h -> nth_error raw' k = Some h' ->
  exists qh qc qh' qc', hr_Qneed_ht h = Fin qh /\ hr_Qneed_cl h = Fin qc /\ hr_Qneed_ht h' = Fin qh' /\ hr_Qneed_cl h' = Fin qc' /\
    qh' <= qh /\ qc <= qc'.
Proof.
  intros K K'. destruct two_years as (ns & ns' & E & E' & F & _).
  apply (map_nth_error (fun h => (hr_Qneed_ht h, hr_Qneed_cl h))) in K, K'. rewrite E in K. rewrite E' in K'.
  rewrite nth_error_map in K, K'. destruct (nth_error ns k) as [a|] eqn:Ea; [|discriminate K]. destruct (nth_error ns' k) as [b|] eqn:Eb; [|discriminate K'].
  cbn in K, K'. injection K as K1 K2. injection K' as K3 K4. exists (fst a), (snd a), (fst b), (snd b).
  split; [auto|]. split; [auto|]. split; [auto|]. split; [auto|].
  clear - F Ea Eb. revert k Ea Eb. induction F as [|u v us vs Q F IH]; intros [|k] Ea Eb; try discriminate Ea.
  - cbn in Ea, Eb. injection Ea as ->. injection Eb as ->. exact Q.
  - exact (IH k Ea Eb).
Qed.

Lemma C93_year_l qh qc e qh' qc' e' :
  map hr_Qneed_ht raw = map Fin qh -> map hr_Qneed_cl raw = map Fin qc -> map hr_plug raw = map Fin e ->
  map hr_Qneed_ht raw' = map Fin qh' -> map hr_Qneed_cl raw' = map Fin qc' -> map hr_plug raw' = map Fin e' ->
  (Rsum qh - Rsum qh') + (Rsum qc' - Rsum qc) <= Rsum e' - Rsum e.
Proof.
  intros A1 A2 A3 B1 B2 B3. destruct two_years as (ns & ns' & E & E' & _ & S).
  assert (X1 : qh = map fst ns). { apply map_Fin_inj. rewrite <- A1, map_map. apply (f_equal (map fst)) in E. rewrite !map_map in E. exact E. }
  assert (X2 : qc = map snd ns). { apply map_Fin_inj. rewrite <- A2, map_map. apply (f_equal (map snd)) in E. rewrite !map_map in E. exact E. }
  assert (X3 : qh' = map fst ns'). { apply map_Fin_inj. rewrite <- B1, map_map. apply (f_equal (map fst)) in E'. rewrite !map_map in E'. exact E'. }
  assert (X4 : qc' = map snd ns'). { apply map_Fin_inj. rewrite <- B2, map_map. apply (f_equal (map snd)) in E'. rewrite !map_map in E'. exact E'. }
  assert (LE : length raw = length e) by (apply (f_equal (@length _)) in A3; rewrite !map_length in A3; exact A3).
  assert (LE' : length raw' = length e') by (apply (f_equal (@length _)) in B3; rewrite !map_length in B3; exact B3).
  assert (LN : length ns = length e) by (apply (f_equal (@length _)) in E; rewrite !map_length in E; lia).
  assert (LL : length e = length e') by (pose proof (simulateRaw_length _ _ _ _ _ H); pose proof (simulateRaw_length _ _ _ _ _ H'); lia).
  rewrite LN, (added_sum p x y tt e e' 0 LL) in S.
  - rewrite X1, X2, X3, X4. exact S.
  - intros j v V. apply (map_nth_error Fin) in V. rewrite <- A3, nth_error_map in V. destruct (nth_error raw j) as [h|] eqn:Eh; [|discriminate V].
    cbn in V. injection V as V. destruct (C08_run_l p tt ws no_ratios raw r HP HT) with (k := j) (h := h) as (w & _ & AX); [exact H|exact Eh|].
    pose proof (aux_equip _ _ _ _ _ AX) as Q. rewrite V in Q. rewrite Z.add_0_l. congruence.
  - intros j v V. apply (map_nth_error Fin) in V. rewrite <- B3, nth_error_map in V. destruct (nth_error raw' j) as [h|] eqn:Eh; [|discriminate V].
    cbn in V. injection V as V. destruct (C08_run_l (set_appliances p x y) tt ws no_ratios raw' r' (physical_appliances p x y HP) HT) with (k := j) (h := h) as (w & _ & AX); [exact H'|exact Eh|].
    pose proof (aux_equip _ _ _ _ _ AX) as Q. rewrite V in Q. rewrite Z.add_0_l. congruence.
Qed.
End Thm.
