(** Monthly needs of a building that catches more sun. *)
From Coq Require Import Reals Lra Psatz ZArith List Bool Lia.
From Verif Require Import Base Num Xr M_Params M_Monthly M_Map L_Xr L_HourlyShape L_HourlyFin2 S_Calendar S_Schedule S_Results S_Monthly S_Physical S_MonthlySound S_MonthlyHeat S_MonthlyCompare S_MonthlyBalance S_MonthlySun
  L_Monthly L_Monthly2 L_Monthly3 L_Monthly4 L_Monthly5 L_MonthlyFin L_MonthlyFin2 L_MonthlyNaN L_MonthlyGain L_MonthlyNeed L_MonthlyTemp L_MonthlyVent L_MonthlyBalance L_Utilise L_MonthlyCompare L_MonthlyClimate.
Import ListNotations.
Open Scope R_scope.

(** *** Sun caught *)
Lemma nth_nonneg (l : list R) k : all_nonneg l -> 0 <= nth k l 0.
Proof. intros A. destruct (nth_in_or_default k l 0) as [I|E]; [now apply A|rewrite E; lra]. Qed.
Lemma nth_le (l l' : list R) k : Forall2 Rle l l' -> nth k l 0 <= nth k l' 0.
Proof. intros F. revert k. induction F; intros [|k]; cbn [nth]; try lra. apply IHF. Qed.
Lemma share_nonneg c : 0 <= shading_share c.
Proof. unfold shading_share. destruct (Rlt_dec c 2); [lra|]. destruct (Rlt_dec c 3); lra. Qed.
Lemma sum_le (f g : nat -> R) l : (forall k, In k l -> f k <= g k) -> Rsum (map f l) <= Rsum (map g l).
Proof.
  induction l as [|k l IH]; intros H; [apply Rle_refl|]. cbn [map]. unfold Rsum in *. cbn [fold_right]. apply Rplus_le_compat; [apply H; now left|apply IH; intros j J; apply H; now right].
Qed.
Lemma C114_more_l (p : params_t R) ab sh sc w w' i : takes_sun (pa_structure p) -> takes_more p ab sh sc -> (i < 12)%nat -> lit_month w i -> no_darker w w' i ->
  solar_gain (pa_structure p) w i <= solar_gain (pa_structure (with_surfaces p ab sh sc)) w' i.
Proof.
  intros T (M1 & M2 & M3) I LM ND. unfold solar_gain. apply Rmult_le_compat_l; [apply Rlt_le, mega_pos; exact I|]. apply sum_le. intros k K. apply in_seq in K.
  assert (K9 : (k < 9)%nat) by lia. pose proof (LM k K9) as R0. pose proof (ND k K9) as R1. set (r := radiation w i k) in *. set (r' := radiation w' i k) in *. clearbody r r'.
  unfold window_sun, wall_sun. cbn [with_surfaces pa_structure st_windowArea st_win_ff st_windowSHGC st_win_F_W st_windowSDF st_windowSCF st_R_sc_ext st_wallU st_wallArea st_wallAbsorption st_wallEmissivity].
  pose proof (nth_nonneg _ k (ts_win _ T)) as P1. pose proof (nth_nonneg _ k (ts_wall _ T)) as P2. pose proof (nth_nonneg _ k (ts_wallU _ T)) as P3. pose proof (nth_nonneg _ k (ts_abs _ T)) as P4.
  pose proof (nth_nonneg _ k (ts_shgc _ T)) as P5. pose proof (nth_nonneg _ k (ts_scf _ T)) as P6. pose proof (ts_ff _ T) as P7. pose proof (ts_fw _ T) as P8. pose proof (ts_rsc _ T) as P9.
  pose proof (nth_le _ _ k M1) as Q1. pose proof (nth_le _ _ k M2) as Q2. pose proof (nth_le _ _ k M3) as Q3. pose proof (share_nonneg (nth k (st_windowSDF (pa_structure p)) 0)) as P10.
  revert P1 P2 P3 P4 P5 P6 P7 P8 P9 P10 Q1 Q2 Q3. generalize (nth k (st_windowArea (pa_structure p)) 0) (nth k (st_wallArea (pa_structure p)) 0) (nth k (st_wallU (pa_structure p)) 0) (nth k (st_wallAbsorption (pa_structure p)) 0)
    (nth k (st_windowSHGC (pa_structure p)) 0) (nth k (st_windowSCF (pa_structure p)) 0) (st_win_ff (pa_structure p)) (st_win_F_W (pa_structure p)) (st_R_sc_ext (pa_structure p)) (shading_share (nth k (st_windowSDF (pa_structure p)) 0))
    (nth k ab 0) (nth k sh 0) (nth k sc 0) (sky_view k * (5 * nth k (st_wallEmissivity (pa_structure p)) 0) * 11).
  intros a1 a2 a3 a4 a5 a6 a7 a8 a9 a10 b1 b2 b3 y P1 P2 P3 P4 P5 P6 P7 P8 P9 P10 Q1 Q2 Q3. apply Rplus_le_compat.
  - apply Rmult_le_compat; [repeat apply Rmult_le_pos; lra|lra| |lra]. apply Rmult_le_compat; [repeat apply Rmult_le_pos; lra|lra| |lra]. apply Rmult_le_compat_r; [lra|]. apply Rmult_le_compat_r; [lra|].
    apply Rmult_le_compat_l; [apply Rmult_le_pos; lra|lra].
  - apply Rmult_le_compat_l; [repeat apply Rmult_le_pos; lra|]. assert (a4 * r <= b1 * r') by (apply Rmult_le_compat; lra). lra.
Qed.

(** *** Two runs *)
Section Two.
Variables (p : params_t R) (ab sh sc : list R) (w w' : mweather R) (m m' : mresult xr) (i : nat) (z : Z).
Let q : params_t R := with_surfaces p ab sh sc.
Hypothesis (SP : sound p) (SQ : sound q) (BM : ntrunc (bu_bem (pa_building p)) = Some z) (I : (i < 12)%nat) (SA : same_air w w').
Hypothesis (M : monthlyAll (map_params Fin p) (fin_weather w) = Ok m) (M' : monthlyAll (map_params Fin q) (fin_weather w') = Ok m').
Lemma same_but_sun t tc te hve hvc sol phi t' tc' te' hve' hvc' sol' phi' : month_data p w m i t tc te hve hvc sol phi -> month_data q w' m' i t' tc' te' hve' hvc' sol' phi' ->
  te' = te /\ phi' = phi /\ sol = solar_gain (pa_structure p) w i /\ sol' = solar_gain (pa_structure q) w' i /\
  (no_heat_setback p z -> t' = t /\ hve' = hve) /\ (no_cool_setback p z -> tc' = tc /\ hvc' = hvc).
Proof.
  intros D D'. destruct SA as [A1 A2].
  destruct (data_run w i I p m _ _ _ _ _ _ _ SP M D) as (r & v & E & V & H1 & H2 & S1 & P1). destruct (data_run w' i I q m' _ _ _ _ _ _ _ SQ M' D') as (r' & v' & E' & V' & H1' & H2' & S1' & P1').
  rewrite A2, V in V'. injection V' as <-.
  assert (TE : te' = te). { pose proof (md_te _ _ _ _ _ _ _ _ _ _ _ D) as A. pose proof (md_te _ _ _ _ _ _ _ _ _ _ _ D') as A'. rewrite A1, A in A'. injection A' as ->. reflexivity. }
  split; [exact TE|].
  split. { rewrite P1, P1'. rewrite (internal_run p w r _ SP E eq_refl), (internal_run q w' r' _ SQ E' eq_refl). reflexivity. }
  split. { pose proof (md_sol _ _ _ _ _ _ _ _ _ _ _ D) as A. rewrite (C62_l p w m i SP M I) in A. injection A as <-. reflexivity. }
  split. { pose proof (md_sol _ _ _ _ _ _ _ _ _ _ _ D') as A. rewrite (C62_l q w' m' i SQ M' I) in A. injection A as <-. reflexivity. }
  split; intros NS.
  - pose proof (heat_temp w i z p m t SP BM M NS (md_t _ _ _ _ _ _ _ _ _ _ _ D)) as T1. pose proof (heat_temp w' i z q m' t' SQ BM M' NS (md_t _ _ _ _ _ _ _ _ _ _ _ D')) as T2.
    change (ht_tempOcc (pa_heating q)) with (ht_tempOcc (pa_heating p)) in T2. assert (TT : t' = t) by (rewrite T1, T2; reflexivity). split; [exact TT|]. rewrite H1, H1', TT, TE. reflexivity.
  - pose proof (cool_temp w i z p m tc SP BM M NS (md_tc _ _ _ _ _ _ _ _ _ _ _ D)) as T1. pose proof (cool_temp w' i z q m' tc' SQ BM M' NS (md_tc _ _ _ _ _ _ _ _ _ _ _ D')) as T2.
    change (cl_tempOcc (pa_cooling q)) with (cl_tempOcc (pa_cooling p)) in T2. assert (TT : tc' = tc) by (rewrite T1, T2; reflexivity). split; [exact TT|]. rewrite H2, H2', TT, TE. reflexivity.
Qed.
End Two.

Lemma C114_heating_l (p : params_t R) ab sh sc w w' m m' i z a b : let q := with_surfaces p ab sh sc in
  sound p -> sound q -> ntrunc (bu_bem (pa_building p)) = Some z -> no_heat_setback p z -> 0 < utilisation_exponent p -> same_air w w' ->
  monthlyAll (map_params Fin p) (fin_weather w) = Ok m -> monthlyAll (map_params Fin q) (fin_weather w') = Ok m' -> (i < 12)%nat ->
  solar_gain (pa_structure p) w i <= solar_gain (pa_structure q) w' i ->
  (forall t tc te hve hvc sol phi, month_data p w m i t tc te hve hvc sol phi -> 0 < month_loss (envelope_UA (pa_structure p)) (st_floorArea (pa_structure p)) hve t te i /\ 0 <= month_gain phi sol i) ->
  nth_error (ne_ht (mr_needs m)) i = Some (Fin a) -> nth_error (ne_ht (mr_needs m')) i = Some (Fin b) -> b <= a.
Proof.
  intros q SP SQ BM NS EP SA M M' I SU LG NA NB.
  destruct (month_balance p w m i SP M I) as (t & tc & te & hve & hvc & sol & phi & D & N & _). cbv zeta in N.
  destruct (month_balance q w' m' i SQ M' I) as (t' & tc' & te' & hve' & hvc' & sol' & phi' & D' & N' & _). cbv zeta in N'.
  destruct (same_but_sun p ab sh sc w w' m m' i z SP SQ BM I SA M M' _ _ _ _ _ _ _ _ _ _ _ _ _ _ D D') as (EE & EF & ES & ES' & HT & _). destruct (HT NS) as [ET EH]. clear HT.
  destruct (LG _ _ _ _ _ _ _ D) as [LP GP]. rewrite EF, ET, EE, EH in N'. fold q in ES'.
  assert (GG : month_gain phi sol i <= month_gain phi sol' i) by (unfold month_gain; rewrite ES, ES'; apply Rplus_le_compat_l; exact SU).
  change (envelope_UA (pa_structure q)) with (envelope_UA (pa_structure p)) in N'. change (st_floorArea (pa_structure q)) with (st_floorArea (pa_structure p)) in N'. change (utilisation_exponent q) with (utilisation_exponent p) in N'.
  clear ES ES' SU. set (L := month_loss _ _ _ _ _ _) in *. set (G := month_gain phi sol i) in *. set (G' := month_gain phi sol' i) in *.
  rewrite NA in N. injection N as N. rewrite NB in N'. injection N' as N'.
  destruct (heat_needed (utilisation_exponent p) L G a EP LP GP (eq_sym N)) as [-> N1].
  destruct (heat_needed (utilisation_exponent p) L G' b EP LP ltac:(lra) (eq_sym N')) as [-> N2].
  apply needed_mono; try assumption; apply Rle_refl.
Qed.
Lemma C114_cooling_l (p : params_t R) ab sh sc w w' m m' i z a b : let q := with_surfaces p ab sh sc in
  sound p -> sound q -> ntrunc (bu_bem (pa_building p)) = Some z -> no_cool_setback p z -> 0 < utilisation_exponent p -> same_air w w' ->
  monthlyAll (map_params Fin p) (fin_weather w) = Ok m -> monthlyAll (map_params Fin q) (fin_weather w') = Ok m' -> (i < 12)%nat ->
  solar_gain (pa_structure p) w i <= solar_gain (pa_structure q) w' i ->
  (forall t tc te hve hvc sol phi, month_data p w m i t tc te hve hvc sol phi -> 0 < month_gain phi sol i) ->
  nth_error (ne_cl (mr_needs m)) i = Some (Fin a) -> nth_error (ne_cl (mr_needs m')) i = Some (Fin b) -> a <= b.
Proof.
  intros q SP SQ BM NS EP SA M M' I SU LG NA NB.
  destruct (month_balance p w m i SP M I) as (t & tc & te & hve & hvc & sol & phi & D & _ & N). cbv zeta in N.
  destruct (month_balance q w' m' i SQ M' I) as (t' & tc' & te' & hve' & hvc' & sol' & phi' & D' & _ & N'). cbv zeta in N'.
  destruct (same_but_sun p ab sh sc w w' m m' i z SP SQ BM I SA M M' _ _ _ _ _ _ _ _ _ _ _ _ _ _ D D') as (EE & EF & ES & ES' & _ & HT). destruct (HT NS) as [ET EH]. clear HT.
  pose proof (LG _ _ _ _ _ _ _ D) as GP. rewrite EF, ET, EE, EH in N'. fold q in ES'.
  assert (GG : month_gain phi sol i <= month_gain phi sol' i) by (unfold month_gain; rewrite ES, ES'; apply Rplus_le_compat_l; exact SU).
  change (envelope_UA (pa_structure q)) with (envelope_UA (pa_structure p)) in N'. change (st_floorArea (pa_structure q)) with (st_floorArea (pa_structure p)) in N'. change (utilisation_exponent q) with (utilisation_exponent p) in N'.
  clear ES ES' SU. set (K := month_loss _ _ _ _ _ _) in *. set (G := month_gain phi sol i) in *. set (G' := month_gain phi sol' i) in *. set (e := utilisation_exponent p) in *.
  rewrite NA in N. injection N as N. rewrite NB in N'. injection N' as N'.
  destruct (Rle_lt_dec K 0) as [KN|KP].
  - assert (E1 : Fin a = Fin (G - K)) by (rewrite <- (need_cl_in e K G KN GP); exact N). assert (E2 : Fin b = Fin (G' - K)) by (rewrite <- (need_cl_in e K G' KN ltac:(lra)); exact N'). injection E1 as ->. injection E2 as ->. lra.
  - destruct (cool_needed e K G a EP KP GP (eq_sym N)) as [-> N1]. destruct (cool_needed e K G' b EP KP ltac:(lra) (eq_sym N')) as [-> N2].
    apply needed_mono; try assumption; lra.
Qed.
