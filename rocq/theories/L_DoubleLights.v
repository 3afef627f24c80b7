(** Interior lights of the monthly engine in doubles. *)
From Coq Require Import Reals Lra Psatz ZArith Bool List Lia.
From Flocq Require Import Core.Core IEEE754.BinarySingleNaN.
From Verif Require Import Base Num Xr Dbl L_Dbl M_Params M_Monthly S_Calendar S_Results S_Year S_Monthly S_Double S_DoubleMonthly S_DoubleTotals S_DoubleAppliances S_DoubleWater S_DoubleLights
  L_Double L_Double2 L_Double6 L_Double7 L_Double8 L_Double9 L_DoubleAppliances L_DoubleWater L_Monthly L_Monthly3 L_Office L_Office2 E_SmallOffice E_Monthly.
Import ListNotations.
Open Scope R_scope.

(** ** Sums *)
Lemma factor_weak a b e : (a <= b)%nat -> factor a e -> factor b e.
Proof. intros H (E1 & E2 & E3). pose proof g1_range. split; [exact E1|]. split; (eapply Rle_trans; [eassumption|]; apply Rle_pow; [lra|exact H]). Qed.
Lemma near_weak a b m n x v : (a <= b)%nat -> (m <= n)%Z -> near a m x v -> near b n x v.
Proof.
  intros H M (F & [Y|[[V1 V2] (e & E & X)]]); (split; [exact F|]); [left; exact Y|right]. split.
  - split; [eapply Rle_trans; [|exact V1]; apply bpow_le; lia|eapply Rle_trans; [exact V2|]; apply bpow_le; lia].
  - exists e. split; [exact (factor_weak a b e H E)|exact X].
Qed.
Lemma weak' b n {a m x v} : near a m x v -> (a <= b)%nat -> (m <= n)%Z -> near b n x v.
Proof. intros X H M. exact (near_weak a b m n x v H M X). Qed.
Lemma factor_mean k e f v w : factor k e -> factor k f -> 0 < v -> 0 < w -> exists h, factor k h /\ v * e + w * f = (v + w) * h.
Proof.
  intros (E1 & E2 & E3) (F1 & F2 & F3) V W. exists ((v * e + w * f) / (v + w)). split; [|field; lra].
  assert (G : 0 < g1 ^ k) by (apply pow_lt; pose proof g1_range; lra).
  assert (P : 0 < v * e + w * f) by (apply Rplus_lt_0_compat; apply Rmult_lt_0_compat; assumption).
  split; [apply Rdiv_lt_0_compat; lra|]. split.
  - apply Rmult_le_reg_r with (v + w); [lra|]. unfold Rdiv. rewrite Rmult_assoc, Rinv_l, Rmult_1_r by lra. assert (v * e <= v * g1 ^ k) by (apply Rmult_le_compat_l; lra). assert (w * f <= w * g1 ^ k) by (apply Rmult_le_compat_l; lra). lra.
  - rewrite Rinv_div. apply Rmult_le_reg_r with (v * e + w * f); [exact P|]. unfold Rdiv. rewrite Rmult_assoc, Rinv_l, Rmult_1_r by lra.
    assert (A1 : 1 <= g1 ^ k * e) by (apply Rmult_le_reg_l with (/ e); [apply Rinv_0_lt_compat; exact E1|]; replace (/ e * (g1 ^ k * e)) with (g1 ^ k) by (field; lra); lra).
    assert (A2 : 1 <= g1 ^ k * f) by (apply Rmult_le_reg_l with (/ f); [apply Rinv_0_lt_compat; exact F1|]; replace (/ f * (g1 ^ k * f)) with (g1 ^ k) by (field; lra); lra).
    assert (v * 1 <= v * (g1 ^ k * e)) by (apply Rmult_le_compat_l; lra). assert (w * 1 <= w * (g1 ^ k * f)) by (apply Rmult_le_compat_l; lra). lra.
Qed.
Lemma near_plus k m x y v w : (k < 60)%nat -> (0 <= m <= 899)%Z -> near k m x v -> near k m y w -> near (S k) (m + 1) (Bplus mode_NE x y) (v + w).
Proof.
  intros K M (FX & X) (FY & Y). apply (near_rnd _ _ (B2R x + B2R y)); [exact K|lia|apply plus_rnd; assumption|].
  assert (B1 : bpow radix2 (- (m + 1)) <= bpow radix2 (- m)) by (apply bpow_le; lia). assert (B2 : bpow radix2 (m + 1) = 2 * bpow radix2 m) by (rewrite bpow_plus; change (bpow radix2 1) with 2; ring).
  pose proof (bpow_gt_0 radix2 (- m)) as P1. pose proof (bpow_gt_0 radix2 m) as P2.
  destruct X as [[-> ->]|[[V1 V2] (e & E & ->)]]; destruct Y as [[-> ->]|[[W1 W2] (f & F & ->)]].
  - left. split; ring.
  - right. split; [lra|]. exists f. split; [exact F|ring].
  - right. split; [lra|]. exists e. split; [exact E|ring].
  - right. split; [lra|]. apply factor_mean; try assumption; lra.
Qed.
Lemma near_whole x z : whole x z -> (0 <= z <= 9000)%Z -> near 0 14 x (IZR z).
Proof.
  intros [F V] B. rewrite <- V. apply near_start; [exact F|]. rewrite V. destruct (Z.eq_dec z 0) as [->|N]; [left; reflexivity|right].
  pose proof (IZR_le 1 z ltac:(lia)). pose proof (IZR_le z 9000 ltac:(lia)). change (bpow radix2 (Z.opp 14)) with (/ 16384). change (bpow radix2 14) with 16384. lra.
Qed.
Lemma near_some x : some_or_none x -> near 0 30 x (B2R x).
Proof. intros [F [E|E]]; apply near_start; auto. right. apply moderate_size. exact E. Qed.

Lemma div' {a b m n x y v w} : near a m x v -> near b n y w -> (a + b < 60)%nat -> (0 <= m)%Z -> (0 <= n)%Z -> (m + n <= 900)%Z -> w <> 0 -> near (S (a + b)) (m + n) (Bdiv mode_NE x y) (v / w).
Proof. intros. now apply near_div. Qed.

(** ** Whole hours *)
Lemma whole_sub x y a b : whole x a -> whole y b -> (-9000 <= a - b <= 9000)%Z -> whole (Bminus mode_NE x y) (a - b).
Proof. intros [F V] [G W] B. apply (whole_rnd _ (B2R x - B2R y)); [exact B|apply minus_rnd; assumption|rewrite V, W, minus_IZR; reflexivity]. Qed.
Lemma whole_add x y a b : whole x a -> whole y b -> (-9000 <= a + b <= 9000)%Z -> whole (Bplus mode_NE x y) (a + b).
Proof. intros [F V] [G W] B. apply (whole_rnd _ (B2R x + B2R y)); [exact B|apply plus_rnd; assumption|rewrite V, W, plus_IZR; reflexivity]. Qed.
Lemma whole_mul x y a b : whole x a -> whole y b -> (-9000 <= a * b <= 9000)%Z -> whole (Bmult mode_NE x y) (a * b).
Proof. intros [F V] [G W] B. apply (whole_rnd _ (B2R x * B2R y)); [exact B|apply mult_rnd; assumption|rewrite V, W, mult_IZR; reflexivity]. Qed.
Lemma whole_ltb x y a b : whole x a -> whole y b -> Bltb x y = Z.ltb a b.
Proof.
  intros [F V] [G W]. rewrite Bltb_correct by assumption. rewrite V, W. destruct (Z.ltb_spec a b) as [H|H]; [apply Rlt_bool_true, IZR_lt, H|apply Rlt_bool_false, IZR_le, H].
Qed.
Lemma whole_z z : (-9000 <= z <= 9000)%Z -> whole (z2d z) z.
Proof. intros B. exact (z2d_val z B). Qed.
Section D.
Context {L : libm}.
Lemma whole_min x y a b : whole x a -> whole y b -> whole (nmin x y) (Z.min a b).
Proof. intros X Y. unfold nmin. change (nlt y x) with (Bltb y x). rewrite (whole_ltb _ _ _ _ Y X). destruct (Z.ltb_spec b a); [rewrite Z.min_r by lia; exact Y|rewrite Z.min_l by lia; exact X]. Qed.
Lemma whole_max x y a b : whole x a -> whole y b -> whole (nmax x y) (Z.max a b).
Proof. intros X Y. unfold nmax. change (nlt x y) with (Bltb x y). rewrite (whole_ltb _ _ _ _ X Y). destruct (Z.ltb_spec a b); [rewrite Z.max_r by lia; exact Y|rewrite Z.max_l by lia; exact X]. Qed.
Variables (p : params_t double) (tt : timetable) (a b n : Z).
Hypothesis (H : lamp_hours p tt a b n) (P : lamp_powers p).
Notation li := (pa_lighting p).
Notation po := (pa_population p).
Notation bu := (pa_building p).
Notation br := (bright_hours tt a b).
Notation dk := (dark_hours tt a b).
Notation dn := (year_days tt n).
Lemma hours_range : (0 <= br <= 24 /\ 0 <= dk <= 24 /\ br + dk = tt_lastHour tt - tt_firstHour tt /\ br + dk <= 24 /\ 0 <= open_days tt <= 7)%Z.
Proof.
  destruct H as [HW HI HD _ HS HM _]. pose proof (days_whole p tt HW HI) as [_ D]. unfold dark_hours, bright_hours. destruct HI as (I1 & I2 & _). lia.
Qed.
Lemma year_range : (0 <= dn <= 364 /\ 0 <= br * dn <= 8736 /\ 0 <= dk * dn <= 8736 /\ (br + dk) * dn <= 8736)%Z.
Proof.
  pose proof hours_range as (B & D & _ & S & O). pose proof (lh_weeks _ _ _ _ _ H) as W. unfold year_days.
  assert (Y : (0 <= open_days tt * n <= 364)%Z) by (split; [apply Z.mul_nonneg_nonneg; lia|change 364%Z with (7 * 52)%Z; apply Z.mul_le_mono_nonneg; lia]).
  assert (M : forall z, (0 <= z <= 24)%Z -> (0 <= z * (open_days tt * n) <= 8736)%Z) by (intros z Hz; split; [apply Z.mul_nonneg_nonneg; lia|change 8736%Z with (24 * 364)%Z; apply Z.mul_le_mono_nonneg; lia]).
  pose proof (M _ B). pose proof (M _ D). assert ((br + dk) * (open_days tt * n) <= 8736)%Z by (apply M; lia). auto.
Qed.
Lemma weeks_times x z : whole x z -> (0 <= z <= 24)%Z -> whole (Bmult mode_NE (Bmult mode_NE x (daysPerWeek po)) (li_n_weeks li)) (z * dn).
Proof.
  intros X B. destruct H as [HW HI _ (_ & _ & WN) _ _ HN]. pose proof (days_whole p tt HW HI) as [D DR]. unfold year_days. rewrite Z.mul_assoc.
  assert (R1 : (0 <= z * open_days tt <= 168)%Z) by (split; [apply Z.mul_nonneg_nonneg; lia|change 168%Z with (24 * 7)%Z; apply Z.mul_le_mono_nonneg; lia]).
  assert (R2 : (0 <= z * open_days tt * n <= 8736)%Z) by (split; [apply Z.mul_nonneg_nonneg; lia|change 8736%Z with (168 * 52)%Z; apply Z.mul_le_mono_nonneg; lia]).
  apply whole_mul; [apply whole_mul; [exact X|exact D|lia]|exact WN|lia].
Qed.
Lemma bright_whole : whole (lightDayHours li po) (br * dn).
Proof.
  pose proof hours_range as (B & _). destruct H as [(W1 & W2 & _) (I1 & I2 & _) HD (WA & WB & _) HS HM HN]. unfold lightDayHours. cbv zeta.
  assert (W : whole (Bminus mode_NE (nmin (li_n_day_end li) (po_hoursEnd po)) (nmax (po_hoursStart po) (li_n_day_start li))) br).
  { unfold bright_hours. rewrite (Z.min_comm (tt_lastHour tt)). apply whole_sub; [apply whole_min; assumption|apply whole_max; assumption|lia]. }
  change (nmin (li_n_day_end li) (po_hoursEnd po) - nmax (po_hoursStart po) (li_n_day_start li))%num with (Bminus mode_NE (nmin (li_n_day_end li) (po_hoursEnd po)) (nmax (po_hoursStart po) (li_n_day_start li))).
  set (x := Bminus mode_NE (nmin _ _) _) in *. change (x <? zn 0)%num with (Bltb x (z2d 0)). rewrite (whole_lt _ _ W). replace (Z.ltb br 0) with false by (symmetry; apply Z.ltb_ge; lia).
  exact (weeks_times x _ W B).
Qed.
Lemma dark_whole : whole (lightNightHours li po) (dk * dn).
Proof.
  pose proof hours_range as (_ & B & _). destruct H as [(W1 & W2 & _) (I1 & I2 & _) HD (WA & WB & _) HS HM HN]. unfold lightNightHours.
  change ((nmax (li_n_day_start li - po_hoursStart po) (zn 0) + nmax (po_hoursEnd po - li_n_day_end li) (zn 0)) * daysPerWeek po * li_n_weeks li)%num
    with (Bmult mode_NE (Bmult mode_NE (Bplus mode_NE (nmax (Bminus mode_NE (li_n_day_start li) (po_hoursStart po)) (z2d 0)) (nmax (Bminus mode_NE (po_hoursEnd po) (li_n_day_end li)) (z2d 0))) (daysPerWeek po)) (li_n_weeks li)).
  apply weeks_times; [|exact B].
  replace dk with (Z.max (a - tt_firstHour tt) 0 + Z.max (tt_lastHour tt - b) 0)%Z by (unfold dark_hours, bright_hours; lia).
  apply whole_add; [apply whole_max; [apply whole_sub; [assumption|assumption|lia]|apply whole_z; lia]|apply whole_max; [apply whole_sub; [assumption|assumption|lia]|apply whole_z; lia]|lia].
Qed.
Lemma rest_whole : whole (Bminus mode_NE (Bminus mode_NE (z2d 8760) (lightDayHours li po)) (lightNightHours li po)) (8760 - (tt_lastHour tt - tt_firstHour tt) * dn) /\ (0 <= 8760 - (tt_lastHour tt - tt_firstHour tt) * dn <= 8760)%Z.
Proof.
  pose proof year_range as (_ & Y1 & Y2 & Y3). pose proof hours_range as (_ & _ & E & _). rewrite <- E. replace (8760 - (br + dk) * dn)%Z with (8760 - br * dn - dk * dn)%Z by ring.
  split; [|lia]. apply whole_sub; [apply whole_sub; [apply whole_z; lia|exact bright_whole|lia]|exact dark_whole|lia].
Qed.

(** ** Energies *)
Definition year_exact : R :=
  (B2R (li_densityOcc li) * B2R (bu_constantIllumination bu) * B2R (bu_lightingOccupancySensor bu) * (IZR (br * dn) * B2R (li_dimmingFraction li) + IZR (dk * dn))
   + B2R (li_densityUnocc li) * IZR (8760 - (tt_lastHour tt - tt_firstHour tt) * dn)) / 1000.
Notation A := (st_floorArea (pa_structure p)).
Lemma year_near hrs : near 12 300 (lu_tot (lightingEnergyUse p hrs)) (B2R A * year_exact).
Proof.
  unfold lightingEnergyUse. cbv zeta. cbn [lu_tot].
  pose proof year_range as (_ & Y1 & Y2 & _). pose proof rest_whole as (WR & RR). pose proof (near_whole _ _ WR ltac:(lia)) as NR. pose proof (near_whole _ _ bright_whole ltac:(lia)) as NB. pose proof (near_whole _ _ dark_whole ltac:(lia)) as ND.
  destruct (lp_area p P) as [FA MA]. destruct (near_moderate _ FA MA) as [NA ZA].
  pose proof (near_some _ (lp_occ p P)) as N1. pose proof (near_some _ (lp_unocc p P)) as N2. pose proof (near_some _ (lp_dim p P)) as N3. pose proof (near_some _ (lp_const p P)) as N4. pose proof (near_some _ (lp_sensor p P)) as N5.
  assert (X1 : near 2 45 (Bplus mode_NE (Bmult mode_NE (lightDayHours li po) (li_dimmingFraction li)) (lightNightHours li po)) (IZR (br * dn) * B2R (li_dimmingFraction li) + IZR (dk * dn))).
  { apply (near_plus 1 44); [lia|lia|exact (mult' NB N3 ltac:(lia) ltac:(lia) ltac:(lia) ltac:(lia))|apply (near_weak 0 1 14 44); [lia|lia|exact ND]]. }
  set (x1 := Bplus mode_NE _ _) in X1.
  pose proof (mult' (mult' (mult' (mult' NA N1 ltac:(lia) ltac:(lia) ltac:(lia) ltac:(lia)) N4 ltac:(lia) ltac:(lia) ltac:(lia) ltac:(lia)) N5 ltac:(lia) ltac:(lia) ltac:(lia) ltac:(lia)) X1 ltac:(lia) ltac:(lia) ltac:(lia) ltac:(lia)) as X2.
  pose proof (div' X2 (near_z 1000 ltac:(lia)) ltac:(lia) ltac:(lia) ltac:(lia) ltac:(lia) ltac:(apply not_0_IZR; discriminate)) as X3.
  pose proof (mult' (mult' NA N2 ltac:(lia) ltac:(lia) ltac:(lia) ltac:(lia)) NR ltac:(lia) ltac:(lia) ltac:(lia) ltac:(lia)) as X4.
  pose proof (div' X4 (near_z 1000 ltac:(lia)) ltac:(lia) ltac:(lia) ltac:(lia) ltac:(lia) ltac:(apply not_0_IZR; discriminate)) as X5.
  apply (weak' 11 299) in X3; [|lia|lia]. apply (weak' 11 299) in X5; [|lia|lia].
  pose proof (near_plus 11 299 _ _ _ _ ltac:(lia) ltac:(lia) X3 X5) as X6.
  match type of X6 with near _ _ _ ?v => replace (B2R A * year_exact) with v by (unfold year_exact; field) end. exact X6.
Qed.
(** The share of a month in the year. *)
Lemma share_near (x : double) d m e : B2SF x = SpecFloat.S754_finite false m e -> (1 <= d <= 31)%Z ->
  (let r := IZR (Z.pos m) * bpow radix2 e in / 32 <= r <= 1 /\ r <= IZR d / 365 * (1 + 4 * uro) /\ IZR d / 365 <= r * (1 + 4 * uro)) -> near 2 9 x (IZR d / 365).
Proof.
  intros S D (R0 & R1 & R2). destruct (sf_value x _ _ _ S) as [F V]. unfold F2R in V. cbn [Fnum Fexp cond_Zopp] in V. set (r := IZR (Z.pos m) * bpow radix2 e) in *.
  pose proof (IZR_le 1 d ltac:(lia)). pose proof (IZR_le d 31 ltac:(lia)). split; [exact F|]. right.
  split; [change (bpow radix2 (Z.opp 9)) with (/ 512); change (bpow radix2 9) with 512; lra|].
  exists (r / (IZR d / 365)). assert (G : 1 + 4 * uro <= g1 ^ 2) by (unfold g1; pose proof uro_small; cbn [pow]; nra). set (v := IZR d / 365) in *. assert (VP : 0 < v) by (unfold v; lra).
  split; [|rewrite V; field; lra]. split; [apply Rdiv_lt_0_compat; lra|]. split.
  - apply Rmult_le_reg_r with v; [exact VP|]. unfold Rdiv. rewrite Rmult_assoc, Rinv_l, Rmult_1_r by lra. apply Rle_trans with (1 := R1). rewrite Rmult_comm. apply Rmult_le_compat_r; lra.
  - rewrite Rinv_div. apply Rmult_le_reg_r with r; [lra|]. unfold Rdiv. rewrite Rmult_assoc, Rinv_l, Rmult_1_r by lra. apply Rle_trans with (1 := R2). rewrite Rmult_comm. apply Rmult_le_compat_r; lra.
Qed.
Lemma month_near hrs i f m e : (i < 12)%nat -> nth_error (@monthFractionOfYear double _) i = Some f -> B2SF f = SpecFloat.S754_finite false m e ->
  (let d := nth i days_in_month 0%Z in let r := IZR (Z.pos m) * bpow radix2 e in / 32 <= r <= 1 /\ r <= IZR d / 365 * (1 + 4 * uro) /\ IZR d / 365 <= r * (1 + 4 * uro)) ->
  is_finite (sdiv (Bmult mode_NE f (lu_tot (lightingEnergyUse p hrs))) A) = true /\
  Rabs (B2R (sdiv (Bmult mode_NE f (lu_tot (lightingEnergyUse p hrs))) A) - lights_exact p tt a b n i) <= lights_exact p tt a b n i / 10000000000000.
Proof.
  intros I _ S C. cbv zeta in C. destruct (lp_area p P) as [FA MA]. destruct (near_moderate _ FA MA) as [NA ZA].
  assert (D : (1 <= nth i days_in_month 0 <= 31)%Z) by (do 12 (destruct i as [|i]; [cbn; lia|]); lia).
  pose proof (sdiv' (mult' (share_near f _ m e S D C) (year_near hrs) ltac:(lia) ltac:(lia) ltac:(lia) ltac:(lia)) NA ltac:(lia) ltac:(lia) ltac:(lia) ltac:(lia) ZA) as N.
  apply near_close in N; [|lia].
  match type of N with _ /\ Rabs (_ - ?v) <= _ => replace (lights_exact p tt a b n i) with v; [exact N|] end.
  change (lights_exact p tt a b n i) with (year_exact * (IZR (nth i days_in_month 0%Z) / 365)). field. exact ZA.
Qed.
Ltac share := cbv zeta; cbn [nth days_in_month]; rewrite uro_val; cbn; lra.
Lemma lights_column hrs : Forall2 (fun x r => is_finite x = true /\ Rabs (B2R x - r) <= r / 10000000000000) (divs (lu_month (lightingEnergyUse p hrs)) A) (map (lights_exact p tt a b n) (seq 0 12)).
Proof.
  change (lu_month (lightingEnergyUse p hrs)) with (scale monthFractionOfYear (lu_tot (lightingEnergyUse p hrs))).
  pose proof (month_near hrs) as M. set (t := lu_tot (lightingEnergyUse p hrs)) in *. clearbody t. unfold divs, scale, monthFractionOfYear in *. cbn [map seq].
  repeat (constructor; [match goal with |- _ /\ Rabs (_ - lights_exact _ _ _ _ _ ?i) <= _ =>
    first [refine (M i _ 6119960041577443%positive (-56)%Z ltac:(lia) eq_refl _ _); [vm_compute; reflexivity|share]
          |refine (M i _ 5527705844005432%positive (-56)%Z ltac:(lia) eq_refl _ _); [vm_compute; reflexivity|share]
          |refine (M i _ 5922541975720104%positive (-56)%Z ltac:(lia) eq_refl _ _); [vm_compute; reflexivity|share]] end|]). constructor.
Qed.
Lemma C119_l w rows : simulateMonthly p w = Ok rows -> column_exact_13 elec_int_lights rows (map (lights_exact p tt a b n) (seq 0 12)).
Proof.
  intros E. destruct (simulateMonthly_cases p w rows E) as (m & R & TS & C). pose proof (rn_lu _ _ _ R) as LU.
  unfold columns, outputColumns in C. cbv zeta in C. rewrite LU in C. pose proof (C elec_int_lights _ eq_refl) as S1. exact (series_13 _ _ _ _ S1 (lights_column _)).
Qed.
End D.

(** ** The office *)
Lemma office_lamp_hours {L : libm} : lamp_hours (@monthlyOffice double (dbl_num L)) office_hours 7 18 50.
Proof.
  constructor; [exact office_m_whole|exact office_in_week|cbn; lia| |lia|cbn; lia|lia].
  split; [|split]; [exact (z2d_val 7 ltac:(lia))|exact (z2d_val 18 ltac:(lia))|exact (z2d_val 50 ltac:(lia))].
Qed.
Lemma office_lamps {L : libm} : lamp_powers (@monthlyOffice double (dbl_num L)).
Proof. constructor; (split; [vm_compute; reflexivity|]); try right; moderately. Qed.
