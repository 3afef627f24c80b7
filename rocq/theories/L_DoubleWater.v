(** Products and quotients of doubles, and hot water. *)
From Coq Require Import Reals Lra Psatz ZArith Bool List Lia.
From Flocq Require Import Core.Core IEEE754.BinarySingleNaN Relative.
From Verif Require Import Base Num Xr Dbl L_Dbl M_Params M_Monthly S_Calendar S_Results S_Monthly S_Double S_DoubleMonthly S_DoubleTotals S_DoubleWater
  L_Double L_Double2 L_Double6 L_Double7 L_Double8 L_Double9 L_Monthly L_Monthly3 E_SmallOffice E_Monthly E_Water.
Import ListNotations.
Open Scope R_scope.

(** ** Relative errors *)
Definition g1 : R := 1 + 2 * uro.
Lemma g1_range : 1 < g1 <= 1 + / 1000000000000000.
Proof. unfold g1. rewrite uro_val. lra. Qed.
Lemma g1_pow k : (k <= 60)%nat -> 1 <= g1 ^ k <= 1 + / 10000000000000.
Proof.
  intros K. pose proof g1_range as G. split; [apply pow_R1_Rle; lra|].
  apply Rle_trans with (g1 ^ 60); [apply Rle_pow; [lra|exact K]|].
  assert (B : forall n, (n <= 60)%nat -> g1 ^ n <= 1 + INR n * (/ 1000000000000000 * (11 / 10))).
  { induction n as [|n IH]; intros H; [cbn; lra|]. rewrite S_INR. cbn [pow]. specialize (IH ltac:(lia)). assert (N : 0 <= INR n <= 60) by (split; [apply pos_INR|]; replace 60 with (INR 60) by (cbn; lra); apply le_INR; lia).
    assert (P : 0 <= g1 ^ n) by (apply pow_le; lra). assert (g1 * g1 ^ n <= (1 + / 1000000000000000) * (1 + INR n * (/ 1000000000000000 * (11 / 10)))) by (apply Rmult_le_compat; lra). nra. }
  specialize (B 60%nat ltac:(lia)). replace (INR 60) with 60 in B by (cbn; lra). lra.
Qed.
(** [e] is a factor of at most [k] roundings. *)
Definition factor (k : nat) (e : R) : Prop := 0 < e /\ e <= g1 ^ k /\ / e <= g1 ^ k.
Lemma factor_mul a b e f : factor a e -> factor b f -> factor (a + b) (e * f).
Proof.
  intros (E1 & E2 & E3) (F1 & F2 & F3). pose proof (Rinv_0_lt_compat _ E1). pose proof (Rinv_0_lt_compat _ F1). unfold factor. rewrite pow_add, Rinv_mult.
  split; [apply Rmult_lt_0_compat; assumption|]. split; apply Rmult_le_compat; lra.
Qed.
Lemma factor_inv a e : factor a e -> factor a (/ e).
Proof. intros (E1 & E2 & E3). pose proof (Rinv_0_lt_compat _ E1). unfold factor. rewrite Rinv_inv. auto. Qed.
Lemma factor_one d : Rabs d <= uro -> factor 1 (1 + d).
Proof.
  intros D. apply abs_between in D. pose proof uro_small as U. unfold factor, g1. rewrite pow_1. split; [lra|]. split; [lra|].
  apply Rmult_le_reg_r with (1 + d); [lra|]. rewrite Rinv_l by lra. nra.
Qed.
Lemma factor_two k e : (k <= 60)%nat -> factor k e -> / 2 <= e <= 2.
Proof.
  intros K (E1 & E2 & E3). pose proof (g1_pow k K) as G. split; [|lra]. rewrite <- (Rinv_inv e). apply Rinv_le_contravar; [apply Rinv_0_lt_compat; exact E1|lra].
Qed.
Lemma factor_close k e v : (k <= 60)%nat -> factor k e -> 0 <= v -> Rabs (v * e - v) <= v / 10000000000000.
Proof.
  intros K F V. pose proof F as (E1 & E2 & E3). pose proof (g1_pow k K) as G. replace (v * e - v) with (v * (e - 1)) by ring. rewrite Rabs_mult, (Rabs_pos_eq v) by exact V.
  unfold Rdiv. apply Rmult_le_compat_l; [exact V|]. set (d := / 10000000000000) in *. assert (0 < d) by (unfold d; lra). apply Rabs_le. split; [|lra].
  assert (1 <= e * (1 + d)) by (apply Rmult_le_reg_l with (/ e); [apply Rinv_0_lt_compat; exact E1|]; rewrite <- Rmult_assoc, Rinv_l by lra; lra).
  destruct (Rle_lt_dec 1 e); [lra|]. assert (e * d <= 1 * d) by (apply Rmult_le_compat_r; lra). lra.
Qed.

(** ** Doubles near a real *)
Definition near (k : nat) (m : Z) (x : double) (v : R) : Prop := is_finite x = true /\
  ((v = 0 /\ B2R x = 0) \/ (bpow radix2 (- m) <= v <= bpow radix2 m /\ exists e, factor k e /\ B2R x = v * e)).
Lemma near_pos k m x v : near k m x v -> 0 <= v.
Proof. intros (_ & [[-> _]|[[V _] _]]); [lra|]. pose proof (bpow_gt_0 radix2 (- m)). lra. Qed.
Lemma near_sign k m x v : near k m x v -> 0 <= B2R x.
Proof. intros (_ & [[_ ->]|[[V _] (e & (E & _) & ->)]]); [lra|]. pose proof (bpow_gt_0 radix2 (- m)). apply Rmult_le_pos; lra. Qed.
Lemma near_close k m x v : (k <= 60)%nat -> near k m x v -> is_finite x = true /\ Rabs (B2R x - v) <= v / 10000000000000.
Proof.
  intros K N. pose proof (near_pos _ _ _ _ N) as P. destruct N as (F & [[-> ->]|[_ (e & E & ->)]]); (split; [exact F|]); [rewrite Rminus_0_r, Rabs_R0; lra|]. exact (factor_close k e v K E P).
Qed.
(** One more rounding. *)
Lemma near_rnd k m r x v : (k < 60)%nat -> (0 <= m <= 900)%Z -> is_rnd r x ->
  ((v = 0 /\ r = 0) \/ (bpow radix2 (- m) <= v <= bpow radix2 m /\ exists e, factor k e /\ r = v * e)) -> near (S k) m x v.
Proof.
  intros K M I [[-> ->]|[[V1 V2] (e & E & ->)]].
  - destruct (is_rnd_below 1 0 x ltac:(lia) I) as (F & B & _); [rewrite Rabs_R0; pose proof top_pos; lra|]. split; [exact F|]. left. split; [reflexivity|]. rewrite B. apply round_0, valid_rnd_N.
  - pose proof (factor_two k e ltac:(lia) E) as E2. pose proof (bpow_gt_0 radix2 (- m)) as B0.
    assert (P : bpow radix2 (- m - 1) <= v * e <= bpow radix2 (m + 1)).
    { replace (- m - 1)%Z with (- m + - 1)%Z by lia. rewrite !bpow_plus. change (bpow radix2 (- 1)) with (/ 2). change (bpow radix2 1) with 2.
      split; apply Rmult_le_compat; lra. }
    assert (P0 : 0 <= v * e) by (apply Rmult_le_pos; lra).
    destruct (is_rnd_below 1 (v * e) x ltac:(lia) I) as (F & B & _).
    { rewrite Rabs_pos_eq by exact P0. rewrite Rmult_1_l. eapply Rle_trans; [apply P|]. unfold top. apply bpow_le. lia. }
    split; [exact F|]. right. split; [split; assumption|].
    destruct (relative_error_N_FLT_ex radix2 (3 - 1024 - 53) 53 eq_refl (fun z => negb (Z.even z)) (v * e)) as (d & D1 & D2).
    { rewrite Rabs_pos_eq by exact P0. eapply Rle_trans; [|apply P]. apply bpow_le. lia. }
    exists (e * (1 + d)). split; [replace (S k) with (k + 1)%nat by lia; apply factor_mul; [exact E|apply factor_one; exact D1]|]. rewrite B. unfold rnd. etransitivity; [exact D2|ring].
Qed.
Lemma near_mult a b m n x y v w : (a + b < 60)%nat -> (0 <= m)%Z -> (0 <= n)%Z -> (m + n <= 900)%Z -> near a m x v -> near b n y w -> near (S (a + b)) (m + n) (Bmult mode_NE x y) (v * w).
Proof.
  intros K M N MN (FX & X) (FY & Y). apply (near_rnd _ _ (B2R x * B2R y)); [exact K|lia|apply mult_rnd; assumption|].
  destruct X as [[-> ->]|[[V1 V2] (e & E & ->)]]; [left; split; ring|]. destruct Y as [[-> ->]|[[W1 W2] (f & F & ->)]]; [left; split; ring|]. right.
  pose proof (bpow_gt_0 radix2 (- m)). pose proof (bpow_gt_0 radix2 (- n)).
  split; [replace (- (m + n))%Z with (- m + - n)%Z by lia; rewrite !bpow_plus; split; apply Rmult_le_compat; lra|]. exists (e * f). split; [apply factor_mul; assumption|ring].
Qed.
Lemma near_div a b m n x y v w : (a + b < 60)%nat -> (0 <= m)%Z -> (0 <= n)%Z -> (m + n <= 900)%Z -> w <> 0 -> near a m x v -> near b n y w -> near (S (a + b)) (m + n) (Bdiv mode_NE x y) (v / w).
Proof.
  intros K M N MN NZ (FX & X) (FY & Y). destruct Y as [[C _]|[[W1 W2] (f & F & EY)]]; [contradiction|].
  pose proof (bpow_gt_0 radix2 (- m)) as B1. pose proof (bpow_gt_0 radix2 (- n)) as B2. pose proof F as (F1 & _).
  assert (YP : 0 < B2R y) by (rewrite EY; apply Rmult_lt_0_compat; lra).
  apply (near_rnd _ _ (B2R x / B2R y)); [exact K|lia|apply div_rnd; [assumption|assumption|lra]|].
  destruct X as [[-> ->]|[[V1 V2] (e & E & ->)]]; [left; split; unfold Rdiv; ring|]. right.
  assert (I1 : bpow radix2 (- n) <= / w) by (rewrite bpow_opp; apply Rinv_le_contravar; lra).
  assert (I2 : / w <= bpow radix2 n) by (replace n with (- - n)%Z by lia; rewrite bpow_opp; apply Rinv_le_contravar; lra).
  split; [replace (- (m + n))%Z with (- m + - n)%Z by lia; rewrite !bpow_plus; unfold Rdiv; split; apply Rmult_le_compat; lra|].
  exists (e * / f). split; [apply factor_mul; [assumption|apply factor_inv; assumption]|]. rewrite EY. field. split; lra.
Qed.
Lemma near_start m x : is_finite x = true -> B2R x = 0 \/ bpow radix2 (- m) <= B2R x <= bpow radix2 m -> near 0 m x (B2R x).
Proof.
  intros F [E|E]; split; try exact F; [left; split; exact E|right]. split; [exact E|]. exists 1. split; [|ring]. unfold factor. rewrite Rinv_1. cbn. lra.
Qed.
Lemma moderate_size x : moderate x -> bpow radix2 (- 30) <= x <= bpow radix2 30.
Proof. unfold moderate. change (bpow radix2 (-30)) with (/ 1073741824). change (bpow radix2 30) with 1073741824. lra. Qed.
Lemma near_moderate x : is_finite x = true -> moderate (B2R x) -> near 0 30 x (B2R x) /\ B2R x <> 0.
Proof. intros F M. split; [apply near_start; [exact F|right; apply moderate_size; exact M]|]. unfold moderate in M. lra. Qed.
Lemma near_z z : (1 <= z <= 9000)%Z -> near 0 14 (z2d z) (IZR z).
Proof.
  intros B. destruct (z2d_val z ltac:(lia)) as [F V]. rewrite <- V. apply near_start; [exact F|right]. rewrite V. pose proof (IZR_le 1 z ltac:(lia)). pose proof (IZR_le z 9000 ltac:(lia)).
  change (bpow radix2 (Z.opp 14)) with (/ 16384). change (bpow radix2 14) with 16384. lra.
Qed.
Lemma near_kWh {L : libm} : near 0 2 kWh2MJ MJ_per_kWh.
Proof.
  assert (E : B2R (@kWh2MJ double (dbl_num L)) = MJ_per_kWh).
  { assert (S : B2SF (@kWh2MJ double (dbl_num L)) = SpecFloat.S754_finite false 8106479114518528 (-51)) by (vm_compute; reflexivity).
    rewrite <- SF2R_B2SF, S. unfold MJ_per_kWh, SF2R, F2R. cbn. lra. }
  split; [vm_compute; reflexivity|]. right. split; [unfold MJ_per_kWh; change (bpow radix2 (Z.opp 2)) with (/ 4); change (bpow radix2 2) with 4; lra|].
  exists 1. split; [|rewrite E; ring]. unfold factor. rewrite Rinv_1. cbn. lra.
Qed.

(** ** Hot water *)
Section D.
Context {L : libm}.
Variable p : params_t double.
Hypothesis W : water_moderate p.
Notation he := (pa_heating p).
Lemma sdiv_near a b m n x y v w : (a + b < 60)%nat -> (0 <= m)%Z -> (0 <= n)%Z -> (m + n <= 900)%Z -> w <> 0 -> near a m x v -> near b n y w -> near (S (a + b)) (m + n) (sdiv x y) (v / w).
Proof.
  intros K M N MN NZ X Y. assert (E : sdiv x y = Bdiv mode_NE x y).
  { unfold sdiv. change (y =? zn 0)%num with (Beqb y (z2d 0)). destruct Y as (FY & [[C _]|[[W1 W2] (f & (F & _) & EY)]]); [contradiction|].
    rewrite Beqb_correct by (try exact FY; reflexivity). change (B2R (z2d 0)) with 0. rewrite Req_bool_false; [reflexivity|]. rewrite EY. pose proof (bpow_gt_0 radix2 (- n)).
    apply Rgt_not_eq, Rmult_lt_0_compat; lra. }
  rewrite E. now apply near_div.
Qed.
Definition rise : R := B2R (ht_dhw_tset he) - B2R (ht_dhw_tsupply he).
Lemma rise_near : near 1 30 (Bminus mode_NE (ht_dhw_tset he) (ht_dhw_tsupply he)) rise.
Proof.
  destruct (wm_finite p W) as (_ & F2 & F3 & _). apply (near_rnd 0 30 rise); [lia|lia|apply minus_rnd; assumption|]. destruct (wm_rise p W) as [E|E]; [left; split; exact E|right].
  split; [apply moderate_size; exact E|]. exists 1. split; [|ring]. unfold factor. rewrite Rinv_1. cbn. lra.
Qed.
Lemma mult' {a b m n x y v w} : near a m x v -> near b n y w -> (a + b < 60)%nat -> (0 <= m)%Z -> (0 <= n)%Z -> (m + n <= 900)%Z -> near (S (a + b)) (m + n) (Bmult mode_NE x y) (v * w).
Proof. intros. now apply near_mult. Qed.
Lemma sdiv' {a b m n x y v w} : near a m x v -> near b n y w -> (a + b < 60)%nat -> (0 <= m)%Z -> (0 <= n)%Z -> (m + n <= 900)%Z -> w <> 0 -> near (S (a + b)) (m + n) (sdiv x y) (v / w).
Proof. intros. now apply sdiv_near. Qed.
Lemma month_water i d : (1 <= d <= 31)%Z -> nth i days_in_month 0%Z = d ->
  near 20 300 (sdiv (nmax (sdiv (nsub (sdiv (sdiv (sdiv (nmul (zn d) (hotWaterYear p)) daysInYear) (ht_hotWaterDistributionEfficiency he)) kWh2MJ) (zn 0)) (ht_hotWaterSystemEfficiency he)) (zn 0)) (st_floorArea (pa_structure p))) (water_exact p i).
Proof.
  intros D ED. destruct (wm_finite p W) as (F1 & _ & _ & F4 & F5 & F6 & F7 & _).
  destruct (near_moderate _ F4 (wm_rho p W)) as [N4 _]. destruct (near_moderate _ F5 (wm_dist p W)) as [N5 Z5]. destruct (near_moderate _ F6 (wm_sys p W)) as [N6 Z6]. destruct (near_moderate _ F7 (wm_area p W)) as [N7 Z7].
  assert (N1 : near 0 30 (ht_hotWaterDemand he) (B2R (ht_hotWaterDemand he))) by (apply near_start; [exact F1|destruct (wm_demand p W) as [E|E]; [left; exact E|right; apply moderate_size; exact E]]).
  pose proof (mult' N1 rise_near ltac:(lia) ltac:(lia) ltac:(lia) ltac:(lia)) as Y1.
  pose proof (mult' Y1 N4 ltac:(lia) ltac:(lia) ltac:(lia) ltac:(lia)) as Y2.
  pose proof (mult' (near_z d ltac:(lia)) Y2 ltac:(lia) ltac:(lia) ltac:(lia) ltac:(lia)) as Y3.
  pose proof (sdiv' Y3 (near_z 365 ltac:(lia)) ltac:(lia) ltac:(lia) ltac:(lia) ltac:(lia) ltac:(apply not_0_IZR; discriminate)) as Y4.
  pose proof (sdiv' Y4 N5 ltac:(lia) ltac:(lia) ltac:(lia) ltac:(lia) Z5) as Y5.
  pose proof (sdiv' Y5 near_kWh ltac:(lia) ltac:(lia) ltac:(lia) ltac:(lia) ltac:(unfold MJ_per_kWh; lra)) as Y6.
  change (zn d * hotWaterYear p)%num with (Bmult mode_NE (z2d d) (Bmult mode_NE (Bmult mode_NE (ht_hotWaterDemand he) (Bminus mode_NE (ht_dhw_tset he) (ht_dhw_tsupply he))) (ph_rhoCpWater (pa_phys p)))).
  change (@daysInYear double (dbl_num L)) with (z2d 365). set (x6 := sdiv (sdiv (sdiv _ (z2d 365)) _) kWh2MJ) in *.
  change (x6 - zn 0)%num with (Bminus mode_NE x6 (z2d 0)).
  assert (Y7 : exists k m, (k <= 8)%nat /\ (0 <= m <= 200)%Z /\ near k m (Bminus mode_NE x6 (z2d 0)) (IZR d * (B2R (ht_hotWaterDemand he) * rise * B2R (ph_rhoCpWater (pa_phys p))) / IZR 365 / B2R (ht_hotWaterDistributionEfficiency he) / MJ_per_kWh)).
  { exists 8%nat, 150%Z. split; [lia|]. split; [lia|]. apply (near_rnd 7 150 (B2R x6)); [lia|lia| |exact (proj2 Y6)].
    pose proof (minus_rnd x6 (z2d 0) (proj1 Y6) eq_refl) as M. change (B2R (z2d 0)) with 0 in M. rewrite Rminus_0_r in M. exact M. }
  clear Y1 Y2 Y3 Y4 Y5 Y6. destruct Y7 as (k & m & K & M & Y7). set (x7 := Bminus mode_NE x6 (z2d 0)) in *. clearbody x7. clear x6.
  pose proof (sdiv' Y7 N6 ltac:(lia) ltac:(lia) ltac:(lia) ltac:(lia) Z6) as Y8. set (x8 := sdiv x7 _) in *. clearbody x8.
  assert (E9 : nmax x8 (zn 0) = x8).
  { unfold nmax. change (nlt x8 (zn 0)) with (Bltb x8 (z2d 0)). rewrite Bltb_correct by (try exact (proj1 Y8); reflexivity). change (B2R (z2d 0)) with 0. rewrite Rlt_bool_false; [reflexivity|exact (near_sign _ _ _ _ Y8)]. }
  rewrite E9. pose proof (sdiv' Y8 N7 ltac:(lia) ltac:(lia) ltac:(lia) ltac:(lia) Z7) as Y9. set (x9 := sdiv x8 _) in *. clearbody x9.
  assert (EV : water_exact p i = IZR d * (B2R (ht_hotWaterDemand he) * rise * B2R (ph_rhoCpWater (pa_phys p))) / IZR 365 / B2R (ht_hotWaterDistributionEfficiency he) / MJ_per_kWh / B2R (ht_hotWaterSystemEfficiency he) / B2R (st_floorArea (pa_structure p))).
  { unfold water_exact. cbv zeta. rewrite ED. fold rise. field. repeat split; try assumption; unfold MJ_per_kWh; lra. }
  rewrite EV. revert Y9. match goal with |- near ?a ?b _ _ -> _ => assert (A1 : (a <= 20)%nat) by lia; assert (A2 : (b <= 300)%Z) by lia end.
  intros (F & [Y|[[V1 V2] (e & (X1 & X2 & X3) & X4)]]); (split; [exact F|]); [left; exact Y|right]. split.
  - split; [eapply Rle_trans; [|exact V1]; apply bpow_le; lia|eapply Rle_trans; [exact V2|]; apply bpow_le; lia].
  - exists e. split; [|exact X4]. pose proof g1_range. split; [exact X1|]. split; (eapply Rle_trans; [eassumption|]; apply Rle_pow; [lra|exact A1]).
Qed.
Lemma water_column : Forall2 (fun x r => is_finite x = true /\ Rabs (B2R x - r) <= r / 10000000000000) (divs (hotWaterNeed p) (st_floorArea (pa_structure p))) (map (water_exact p) (seq 0 12)).
Proof.
  unfold hotWaterNeed, divs, vsub, scale, daysInMonth, all12. cbn [map seq repeat zipw].
  repeat (constructor; [match goal with |- _ /\ Rabs (_ - water_exact p ?i) <= _ => let d := eval cbv in (nth i days_in_month 0%Z) in exact (near_close 20 300 _ _ ltac:(lia) (month_water i d ltac:(lia) eq_refl)) end|]). constructor.
Qed.
Lemma zero_column : Forall (fun x => is_finite x = true /\ B2R x = 0) (divs (all12 (zn 0)) (st_floorArea (pa_structure p))).
Proof.
  destruct (wm_finite p W) as (_ & _ & _ & _ & _ & _ & F7 & _). destruct (near_moderate _ F7 (wm_area p W)) as [N7 Z7].
  assert (N0 : near 0 0 (z2d 0) 0) by (split; [reflexivity|left; split; reflexivity]). pose proof (sdiv' N0 N7 ltac:(lia) ltac:(lia) ltac:(lia) ltac:(lia) Z7) as Y.
  assert (E : is_finite (sdiv (z2d 0) (st_floorArea (pa_structure p))) = true /\ B2R (sdiv (z2d 0) (st_floorArea (pa_structure p))) = 0).
  { destruct Y as (F & [[_ Y]|[[V _] _]]); [split; assumption|]. pose proof (bpow_gt_0 radix2 (- (0 + 30))). unfold Rdiv in V. lra. }
  unfold divs, all12. cbn [map repeat]. repeat (constructor; [exact E|]). constructor.
Qed.
Lemma series_13 k rows v rs : is_series k rows v -> Forall2 (fun x r => is_finite x = true /\ Rabs (B2R x - r) <= r / 10000000000000) v rs -> column_exact_13 k rows rs.
Proof. intros S. revert rs. induction S as [|row x rows v E S IH]; intros rs F; inversion F as [|? ? ? ? [A B]]; subst; constructor; [exists x; auto|apply IH; assumption]. Qed.
Lemma series_none k rows v : is_series k rows v -> Forall (fun x => is_finite x = true /\ B2R x = 0) v -> column_none k rows.
Proof. intros S. induction S as [|row x rows v E S IH]; intros F; inversion F as [|? ? [A B]]; subst; constructor; [exists x; auto|apply IH; assumption]. Qed.
Lemma C118_l w rows : simulateMonthly p w = Ok rows ->
  (B2R (ht_hotWaterEnergyType he) = 1 -> column_exact_13 elec_dhw rows (map (water_exact p) (seq 0 12)) /\ column_none gas_dhw rows) /\
  (B2R (ht_hotWaterEnergyType he) <> 1 -> column_exact_13 gas_dhw rows (map (water_exact p) (seq 0 12)) /\ column_none elec_dhw rows).
Proof.
  intros H. destruct (simulateMonthly_cases p w rows H) as (m & R & TS & C). pose proof (rn_dhw _ _ _ R) as DH. destruct (wm_finite p W) as (_ & _ & _ & _ & _ & _ & _ & F8).
  unfold columns, outputColumns in C. cbv zeta in C. rewrite DH in C. pose proof (C elec_dhw _ eq_refl) as S1. pose proof (C gas_dhw _ eq_refl) as S2. clear C DH.
  unfold heatedWater in S1, S2. cbv zeta in S1, S2. change (ht_hotWaterEnergyType he =? zn 1)%num with (Beqb (ht_hotWaterEnergyType he) (z2d 1)) in S1, S2.
  rewrite Beqb_correct in S1, S2 by (try exact F8; reflexivity). replace (B2R (z2d 1)) with 1 in S1, S2 by (symmetry; exact (proj2 (z2d_val 1 ltac:(lia)))).
  split; intros E; [rewrite Req_bool_true in S1, S2 by exact E|rewrite Req_bool_false in S1, S2 by exact E]; cbn [fst snd] in S1, S2.
  - split; [exact (series_13 _ _ _ _ S1 water_column)|exact (series_none _ _ _ S2 zero_column)].
  - split; [exact (series_13 _ _ _ _ S2 water_column)|exact (series_none _ _ _ S1 zero_column)].
Qed.
End D.

(** ** The office with taps *)
Lemma sf_value (x : double) s m e : B2SF x = SpecFloat.S754_finite s m e -> is_finite x = true /\ B2R x = F2R (Float radix2 (cond_Zopp s (Z.pos m)) e).
Proof. intros E. split; [destruct x; cbn in E; try discriminate; reflexivity|]. rewrite <- SF2R_B2SF, E. reflexivity. Qed.
Ltac moderately := match goal with |- moderate (B2R ?x) => let y := eval vm_compute in (B2SF x) in match y with SpecFloat.S754_finite ?s ?m ?e =>
  let H := fresh in assert (H : B2SF x = SpecFloat.S754_finite s m e) by (vm_compute; reflexivity); apply sf_value, proj2 in H; rewrite H; clear H; unfold moderate, F2R; cbn; lra end end.
Lemma wet_moderate {L : libm} : water_moderate (@wetOffice double (dbl_num L)).
Proof.
  constructor; [repeat split; vm_compute; reflexivity|right|right|..]; try moderately.
  change (ht_dhw_tset (pa_heating wetOffice)) with (z2d 60). change (ht_dhw_tsupply (pa_heating wetOffice)) with (z2d 20).
  rewrite (proj2 (z2d_val 60 ltac:(lia))), (proj2 (z2d_val 20 ltac:(lia))). unfold moderate. lra.
Qed.
Lemma wet_runs {L : libm} : exists rows, simulateMonthly (@wetOffice double (dbl_num L)) mildYear = Ok rows.
Proof.
  destruct (@office_monthly_runs L) as [rows X]. assert (X' : exists rows, simulateMonthly (@monthlyOffice double (dbl_num L)) mildYear = Ok rows) by (exists rows; exact X).
  apply C18_monthly_defined_l in X'. apply C18_monthly_defined_l. exact X'.
Qed.
Lemma wet_demand {L : libm} : moderate (B2R (ht_hotWaterDemand (pa_heating (@wetOffice double (dbl_num L))))).
Proof. moderately. Qed.
