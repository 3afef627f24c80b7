(** The network damps differences. *)
From Coq Require Import Reals Lra Psatz ZArith List Lia.
From Verif Require Import Base Num Xr M_Params M_Hourly M_Map S_RC S_Physical S_Network S_Year S_HourSpec S_Balance S_Compare S_YearCompare S_YearClimate S_YearStable
  L_Xr L_HourlyR L_HourlySpec L_HourlyFin L_HourlyFin2 L_HourlyShape L_HourlyRun L_HourlyThm L_HourlyThm2 L_Compare L_Compare2 L_YearCompare L_YearCompare2 L_YearClimate.
Import ListNotations.
Open Scope R_scope.

Lemma clamp_lip lo hi f f' : f <= f' -> 0 <= clamp lo hi f' - clamp lo hi f <= f' - f.
Proof. intros H. unfold clamp, Rmax, Rmin. repeat (destruct (Rle_dec _ _)); lra. Qed.
Lemma clamp_close lo hi f f' d : - d <= f' - f <= d -> - d <= clamp lo hi f' - clamp lo hi f <= d.
Proof. intros H. destruct (Rle_lt_dec f f') as [L|L]; [pose proof (clamp_lip lo hi f f' L)|pose proof (clamp_lip lo hi f' f ltac:(lra))]; lra. Qed.
(** A difference of net power bounds the differences of heating and of cooling. *)
Lemma parts_close qh qc qh' qc' b : 0 <= qh -> 0 <= qc -> 0 <= qh' -> 0 <= qc' -> (qh = 0 \/ qc = 0) -> (qh' = 0 \/ qc' = 0) ->
  - b <= (qh' - qc') - (qh - qc) <= b -> - b <= qh' - qh <= b /\ - b <= qc' - qc <= b.
Proof. intros ? ? ? ? [-> | ->] [-> | ->] ?; lra. Qed.

(** ** Small differences stay small *)
Section Small.
Variables (x x' : rc) (d : R).
Hypothesis (HX : rc_positive x) (HC : slow_net x) (HN : same_conductances x x').
Hypothesis (G1 : rc_phi_ia x' = rc_phi_ia x) (G2 : rc_phi_st x' = rc_phi_st x) (G3 : rc_phi_m x' = rc_phi_m x).
Hypothesis (HO : - d <= rc_out x' - rc_out x <= d) (HS : - d <= rc_sup x' - rc_sup x <= d).
Lemma diff_eqs q q' m0 m0' m m' s s' a a' : rc_balance x q m0 m s a -> rc_balance x' q' m0' m' s' a' ->
  - (rc_ve x * (a' - a)) + rc_is x * ((s' - s) - (a' - a)) + (rc_ve x * (rc_sup x' - rc_sup x) + (q' - q)) = 0 /\
  rc_is x * ((a' - a) - (s' - s)) - rc_w x * (s' - s) + rc_ms x * (((m0' - m0) + (m' - m)) / 2 - (s' - s)) + rc_w x * (rc_out x' - rc_out x) = 0 /\
  rc_C x / 3.6 * ((m' - m) - (m0' - m0)) = rc_ms x * ((s' - s) - ((m0' - m0) + (m' - m)) / 2) - rc_em x * (((m0' - m0) + (m' - m)) / 2) + rc_em x * (rc_out x' - rc_out x).
Proof.
  intros (A1 & A2 & A3) (B1 & B2 & B3). destruct HN as (E1 & E2 & E3 & E4 & E5 & E6). rewrite E1, E2, G1 in B1. rewrite E2, E3, E4, G2 in B2. rewrite E4, E5, E6, G3 in B3.
  cbv zeta in *. repeat split; lra.
Qed.
Lemma small_free m0 m0' m m' s s' f f' : rc_balance x 0 m0 m s f -> rc_balance x' 0 m0' m' s' f' -> - d <= m0' - m0 <= d -> - d <= f' - f <= d.
Proof.
  intros A B D. destruct (diff_eqs _ _ _ _ _ _ _ _ _ _ A B) as (E1 & E2 & E3). destruct HX as (X1 & X2 & X3 & X4 & X5 & X6).
  assert (V1 : 0 <= rc_ve x * (d + (rc_sup x' - rc_sup x))) by (apply Rmult_le_pos; lra). assert (V2 : 0 <= rc_ve x * (d - (rc_sup x' - rc_sup x))) by (apply Rmult_le_pos; lra).
  assert (W1 : 0 <= rc_w x * (d + (rc_out x' - rc_out x))) by (apply Rmult_le_pos; lra). assert (W2 : 0 <= rc_w x * (d - (rc_out x' - rc_out x))) by (apply Rmult_le_pos; lra).
  assert (M1 : 0 <= rc_em x * (d + (rc_out x' - rc_out x))) by (apply Rmult_le_pos; lra). assert (M2 : 0 <= rc_em x * (d - (rc_out x' - rc_out x))) by (apply Rmult_le_pos; lra).
  assert (L : 0 <= d + (f' - f)).
  { apply (warm_free _ _ _ _ _ _ (d + (f' - f)) (d + (s' - s)) (d + (m0' - m0)) (d + (m' - m)) _ _ _ X1 X2 X3 X4 X5 HC) with (5 := V1) (6 := W1) (7 := M1); lra. }
  assert (U : 0 <= d - (f' - f)).
  { apply (warm_free _ _ _ _ _ _ (d - (f' - f)) (d - (s' - s)) (d - (m0' - m0)) (d - (m' - m)) _ _ _ X1 X2 X3 X4 X5 HC) with (5 := V2) (6 := W2) (7 := M2); lra. }
  lra.
Qed.
Lemma small_mass q q' m0 m0' m m' s s' a a' : rc_balance x q m0 m s a -> rc_balance x' q' m0' m' s' a' -> - d <= a' - a <= d -> - d <= m0' - m0 <= d ->
  - d <= s' - s <= d /\ - d <= m' - m <= d.
Proof.
  intros A B DA D. destruct (diff_eqs _ _ _ _ _ _ _ _ _ _ A B) as (E1 & E2 & E3). destruct HX as (X1 & X2 & X3 & X4 & X5 & X6).
  assert (W1 : 0 <= rc_w x * (d + (rc_out x' - rc_out x))) by (apply Rmult_le_pos; lra). assert (W2 : 0 <= rc_w x * (d - (rc_out x' - rc_out x))) by (apply Rmult_le_pos; lra).
  assert (M1 : 0 <= rc_em x * (d + (rc_out x' - rc_out x))) by (apply Rmult_le_pos; lra). assert (M2 : 0 <= rc_em x * (d - (rc_out x' - rc_out x))) by (apply Rmult_le_pos; lra).
  assert (L : 0 <= d + (s' - s) /\ 0 <= d + (m' - m)).
  { apply (warm_mass _ _ _ _ _ X2 X3 X4 X5 HC (d + (a' - a)) (d + (s' - s)) (d + (m0' - m0)) (d + (m' - m)) (rc_w x * (d + (rc_out x' - rc_out x))) (rc_em x * (d + (rc_out x' - rc_out x)))); lra. }
  assert (U : 0 <= d - (s' - s) /\ 0 <= d - (m' - m)).
  { apply (warm_mass _ _ _ _ _ X2 X3 X4 X5 HC (d - (a' - a)) (d - (s' - s)) (d - (m0' - m0)) (d - (m' - m)) (rc_w x * (d - (rc_out x' - rc_out x))) (rc_em x * (d - (rc_out x' - rc_out x)))); lra. }
  lra.
Qed.
Lemma small_step lo hi m0 m0' m m' a a' qh qc qh' qc' : - d <= m0' - m0 <= d ->
  iso_step x lo hi m0 m a qh qc -> iso_step x' lo hi m0' m' a' qh' qc' ->
  - d <= m' - m <= d /\ - (2 * (rc_ve x + rc_is x) * d) <= qh' - qh <= 2 * (rc_ve x + rc_is x) * d /\ - (2 * (rc_ve x + rc_is x) * d) <= qc' - qc <= 2 * (rc_ve x + rc_is x) * d.
Proof.
  intros D ((f & (u & v & F) & T) & (s & B) & P1 & P2 & P3) ((f' & (u' & v' & F') & T') & (s' & B') & P1' & P2' & P3').
  pose proof (small_free _ _ _ _ _ _ _ _ F F' D) as K. assert (A : - d <= a' - a <= d) by (rewrite T, T'; apply clamp_close; exact K).
  destruct (small_mass _ _ _ _ _ _ _ _ _ _ B B' A D) as [S M]. split; [exact M|]. apply parts_close; auto.
  destruct (diff_eqs _ _ _ _ _ _ _ _ _ _ B B') as (E1 & _). destruct HX as (X1 & X2 & _).
  assert (0 <= rc_ve x * (d + (rc_sup x' - rc_sup x))) by (apply Rmult_le_pos; lra). assert (0 <= rc_ve x * (d - (rc_sup x' - rc_sup x))) by (apply Rmult_le_pos; lra).
  assert (0 <= rc_ve x * (d + (a' - a))) by (apply Rmult_le_pos; lra). assert (0 <= rc_ve x * (d - (a' - a))) by (apply Rmult_le_pos; lra).
  assert (0 <= rc_is x * (d + (a' - a))) by (apply Rmult_le_pos; lra). assert (0 <= rc_is x * (d - (a' - a))) by (apply Rmult_le_pos; lra).
  assert (0 <= rc_is x * (d + (s' - s))) by (apply Rmult_le_pos; lra). assert (0 <= rc_is x * (d - (s' - s))) by (apply Rmult_le_pos; lra). lra.
Qed.
End Small.

(** ** Under equal conditions differences fade *)
Lemma fade_up x x' lo hi m0 m0' m m' a a' qh qc qh' qc' : rc_positive x -> slow_net x -> same_net x x' -> lo <= hi ->
  rc_phi_ia x' = rc_phi_ia x -> rc_phi_st x' = rc_phi_st x -> rc_phi_m x' = rc_phi_m x -> m0 <= m0' ->
  iso_step x lo hi m0 m a qh qc -> iso_step x' lo hi m0' m' a' qh' qc' ->
  0 <= m' - m /\ (rc_C x / 3.6 + rc_em x / 2) * (m' - m) <= (rc_C x / 3.6 - rc_em x / 2) * (m0' - m0) /\
  - (rc_is x * (m0' - m0)) <= (qh' - qc') - (qh - qc) <= 0.
Proof.
  intros HX HC HN LH G1 G2 G3 D S S'.
  assert (H1 : rc_phi_ia x <= rc_phi_ia x') by lra. assert (H2 : rc_phi_st x <= rc_phi_st x') by lra. assert (H3 : rc_phi_m x <= rc_phi_m x') by lra.
  destruct (steps_warmer x x' _ _ _ _ _ _ _ _ _ _ _ _ _ _ HX HN HC H1 H2 H3 D (Rle_refl lo) (Rle_refl hi) S S') as [KA KM].
  destruct (steps_less x x' _ _ _ _ _ _ _ _ _ _ _ _ HX HN HC LH H1 H2 H3 D S S') as [Q1 Q2].
  destruct S as ((f & (u & v & F) & T) & (s & B) & _). destruct S' as ((f' & (u' & v' & F') & T') & (s' & B') & _).
  pose proof (free_mono x x' HX HN HC _ _ _ _ _ _ _ _ F F' D ltac:(lra) ltac:(lra) ltac:(lra)) as KF.
  assert (KL : a' - a <= f' - f) by (rewrite T, T'; apply clamp_lip; exact KF).
  destruct (balance_diff x x' HN _ _ _ _ _ _ _ _ _ _ F F') as (F1 & F2 & F3). destruct (balance_diff x x' HN _ _ _ _ _ _ _ _ _ _ B B') as (E1 & E2 & E3).
  rewrite G1, G2, G3 in *. pose proof HX as (X1 & X2 & X3 & X4 & X5 & X6).
  assert (R1 : 0 <= rc_ve x * (f' - f)) by (apply Rmult_le_pos; lra).
  assert (R2 : f' - f <= v' - v) by (apply Rmult_le_reg_l with (rc_is x); lra).
  assert (R3 : (v' - v) - (s' - s) <= (f' - f) - (a' - a)).
  { apply (surface_follows _ _ _ _ _ X2 X3 X4 X5 HC ((f' - f) - (a' - a)) ((v' - v) - (s' - s)) 0 ((u' - u) - (m' - m)) 0 0); lra. }
  assert (R4 : a' - a <= s' - s) by lra.
  assert (R5 : 0 <= rc_is x * ((s' - s) - (a' - a))) by (apply Rmult_le_pos; lra). assert (R6 : 0 <= rc_w x * (s' - s)) by (apply Rmult_le_pos; lra).
  assert (R7 : s' - s <= ((m0' - m0) + (m' - m)) / 2) by (apply Rmult_le_reg_l with (rc_ms x); lra).
  assert (R8 : 0 <= rc_ms x * (((m0' - m0) + (m' - m)) / 2 - (s' - s))) by (apply Rmult_le_pos; lra).
  assert (K1 : (rc_C x / 3.6 + rc_em x / 2) * (m' - m) <= (rc_C x / 3.6 - rc_em x / 2) * (m0' - m0)) by lra.
  split; [lra|]. split; [exact K1|]. split; [|lra].
  assert (K2 : m' - m <= m0' - m0).
  { assert (0 <= rc_em x * (m' - m)) by (apply Rmult_le_pos; lra). assert (0 <= rc_em x * (m0' - m0)) by (apply Rmult_le_pos; lra).
    assert (0 < rc_C x / 3.6) by (unfold slow_net in HC; lra). apply Rmult_le_reg_l with (rc_C x / 3.6); lra. }
  assert (0 <= (rc_ve x + rc_is x) * (a' - a)) by (apply Rmult_le_pos; lra).
  assert (rc_is x * (s' - s) <= rc_is x * (m0' - m0)) by (apply Rmult_le_compat_l; lra). lra.
Qed.
Lemma same_net_sym x x' : same_net x x' -> same_net x' x.
Proof. intros [E1 E2 E3 E4 E5 E6 E7 E8]. constructor; congruence. Qed.
Lemma fade_step x x' lo hi m0 m0' m m' a a' qh qc qh' qc' D : rc_positive x -> slow_net x -> same_net x x' -> lo <= hi ->
  rc_phi_ia x' = rc_phi_ia x -> rc_phi_st x' = rc_phi_st x -> rc_phi_m x' = rc_phi_m x -> - D <= m0' - m0 <= D ->
  iso_step x lo hi m0 m a qh qc -> iso_step x' lo hi m0' m' a' qh' qc' ->
  let rho := (rc_C x / 3.6 - rc_em x / 2) / (rc_C x / 3.6 + rc_em x / 2) in
  - (rho * D) <= m' - m <= rho * D /\ - (rc_is x * D) <= qh' - qh <= rc_is x * D /\ - (rc_is x * D) <= qc' - qc <= rc_is x * D.
Proof.
  intros HX HC HN LH G1 G2 G3 DD S S' rho. pose proof HX as (X1 & X2 & X3 & X4 & X5 & X6). unfold slow_net in HC.
  assert (PC : 0 < rc_C x / 3.6 + rc_em x / 2) by lra. assert (NC : 0 <= rc_C x / 3.6 - rc_em x / 2) by lra.
  assert (RR : (rc_C x / 3.6 + rc_em x / 2) * (rho * D) = (rc_C x / 3.6 - rc_em x / 2) * D) by (unfold rho; field; lra).
  clearbody rho.
  destruct (Rle_lt_dec m0 m0') as [L|L].
  - destruct (fade_up x x' _ _ _ _ _ _ _ _ _ _ _ _ HX HC HN LH G1 G2 G3 L S S') as (A1 & A2 & A3).
    assert ((rc_C x / 3.6 - rc_em x / 2) * (m0' - m0) <= (rc_C x / 3.6 - rc_em x / 2) * D) by (apply Rmult_le_compat_l; lra).
    assert (U : m' - m <= rho * D) by (apply Rmult_le_reg_l with (rc_C x / 3.6 + rc_em x / 2); lra).
    assert (rc_is x * (m0' - m0) <= rc_is x * D) by (apply Rmult_le_compat_l; lra). assert (0 <= rc_is x * (m0' - m0)) by (apply Rmult_le_pos; lra).
    split; [lra|]. destruct S as (_ & _ & P1 & P2 & P3). destruct S' as (_ & _ & P1' & P2' & P3'). apply parts_close; auto. lra.
  - assert (HX' : rc_positive x'). { destruct HN as [E1 E2 E3 E4 E5 E6 _ _]. unfold rc_positive. rewrite E1, E2, E3, E4, E5, E6. exact HX. }
    assert (HC' : slow_net x'). { destruct HN as [E1 E2 E3 E4 E5 E6 _ _]. unfold slow_net. rewrite E4, E5, E6. exact HC. }
    destruct (fade_up x' x _ _ _ _ _ _ _ _ _ _ _ _ HX' HC' (same_net_sym _ _ HN) LH (eq_sym G1) (eq_sym G2) (eq_sym G3) (Rlt_le _ _ L) S' S) as (A1 & A2 & A3).
    destruct HN as [E1 E2 E3 E4 E5 E6 E7 E8]. rewrite E5, E6 in A2. rewrite E2 in A3.
    assert ((rc_C x / 3.6 - rc_em x / 2) * (m0 - m0') <= (rc_C x / 3.6 - rc_em x / 2) * D) by (apply Rmult_le_compat_l; lra).
    assert (U : m - m' <= rho * D) by (apply Rmult_le_reg_l with (rc_C x / 3.6 + rc_em x / 2); lra).
    assert (rc_is x * (m0 - m0') <= rc_is x * D) by (apply Rmult_le_compat_l; lra). assert (0 <= rc_is x * (m0 - m0')) by (apply Rmult_le_pos; lra).
    split; [lra|]. destruct S as (_ & _ & P1 & P2 & P3). destruct S' as (_ & _ & P1' & P2' & P3'). apply parts_close; auto. lra.
Qed.

(** ** Years *)
Lemma supplied_close p t t' d : recovery_ok p -> - d <= t' - t <= d -> - d <= sp_supplied p t' - sp_supplied p t <= d.
Proof.
  intros [R1 R2] H. unfold sp_supplied. set (e := ve_heatRecoveryEfficiency (pa_ventilation p)) in *. clearbody e.
  assert (K : - d <= (1 - e) * t' - (1 - e) * t <= d).
  { assert (0 <= (1 - e) * (d + (t' - t))) by (apply Rmult_le_pos; lra). assert (0 <= (1 - e) * (d - (t' - t))) by (apply Rmult_le_pos; lra).
    assert (0 <= e * d) by (apply Rmult_le_pos; lra). lra. }
  revert K. generalize ((1 - e) * t') ((1 - e) * t) (e * 20). intros. unfold Rmax. repeat destruct (Rle_dec _ _); lra.
Qed.
Section Years.
Variables (p : params_t R) (lo hi : R) (tt : timetable) (d : R).
Hypothesis (HP : physical p) (HO : ordered_setpoints p) (HM : mass_slow p) (HE : encloses lo hi p).

Lemma close_net k w w' ta ta' : recovery_ok p -> close_hour d w w' -> same_leak p lo hi w w' -> lo <= ta <= hi -> lo <= ta' <= hi ->
  let n := rc_at p tt k w ta in let n' := rc_at p tt k w' ta' in
  same_conductances n n' /\ - d <= rc_out n' - rc_out n <= d /\ - d <= rc_sup n' - rc_sup n <= d /\
  rc_phi_ia n' = rc_phi_ia n /\ rc_phi_st n' = rc_phi_st n /\ rc_phi_m n' = rc_phi_m n.
Proof.
  intros HR HW HL HA HA' n n'.
  pose proof (rc_at_positive p tt k w ta HP) as (VP & _).
  pose proof (flow_nonneg p tt k HP) as FN.
  destruct HW as (W1 & W2 & W3). assert (W4 : - d <= we_temp w' - we_temp w <= d) by (revert W3; unfold Rabs; destruct (Rcase_abs _); lra).
  assert (L : sp_exfiltration p (flow_at p tt k) (we_wind w') (we_temp w') ta' = sp_exfiltration p (flow_at p tt k) (we_wind w) (we_temp w) ta).
  { symmetry. apply HL; auto. unfold flow_at. destruct (open_hour tt k); auto. }
  assert (E : sp_envelope p (flow_at p tt k) (we_wind w') (we_temp w') ta' = sp_envelope p (flow_at p tt k) (we_wind w) (we_temp w) ta) by (unfold sp_envelope; rewrite L; reflexivity).
  assert (T : sp_total p (flow_at p tt k) (we_wind w') (we_temp w') ta' = sp_total p (flow_at p tt k) (we_wind w) (we_temp w) ta) by (unfold sp_total; rewrite E; reflexivity).
  split. { repeat split; try reflexivity. change (0.34 * sp_total p (flow_at p tt k) (we_wind w') (we_temp w') ta' = 0.34 * sp_total p (flow_at p tt k) (we_wind w) (we_temp w) ta). rewrite T. reflexivity. }
  split; [exact W4|]. split.
  { change (- d <= sp_mixed p (flow_at p tt k) (we_wind w') (we_temp w') ta' - sp_mixed p (flow_at p tt k) (we_wind w) (we_temp w) ta <= d). unfold sp_mixed. rewrite T, E.
    change (0 < 0.34 * sp_total p (flow_at p tt k) (we_wind w) (we_temp w) ta) in VP.
    pose proof (envelope_nonneg p (flow_at p tt k) (we_wind w) (we_temp w) ta) as EN. pose proof (supply_nonneg p (flow_at p tt k) HP FN) as SN.
    pose proof (supplied_close p _ _ d HR W4) as SM. unfold sp_total in *.
    set (e := sp_envelope p (flow_at p tt k) (we_wind w) (we_temp w) ta) in *. set (s := sp_supply p (flow_at p tt k)) in *. set (u := sp_supplied p (we_temp w)) in *. set (u' := sp_supplied p (we_temp w')) in *.
    set (t := we_temp w) in *. set (t' := we_temp w') in *. clearbody e s u u' t t'. clear - EN SN SM W4 VP.
    assert (A1 : 0 <= e * (d + (t' - t))) by (apply Rmult_le_pos; lra). assert (A2 : 0 <= e * (d - (t' - t))) by (apply Rmult_le_pos; lra).
    assert (A3 : 0 <= s * (d + (u' - u))) by (apply Rmult_le_pos; lra). assert (A4 : 0 <= s * (d - (u' - u))) by (apply Rmult_le_pos; lra).
    match goal with |- - d <= ?A - ?B <= d => assert (EQ : (A - B) * (e + s) = e * (t' - t) + s * (u' - u)) by (field; lra); set (q := A - B) in * end. clearbody q.
    split; apply Rmult_le_reg_r with (e + s); lra. }
  unfold n', n, rc_at, hour_rc. cbn [rc_phi_ia rc_phi_st rc_phi_m]. rewrite W2. auto.
Qed.
Lemma stiffness_net k w ta : same_leak p lo hi w w -> lo <= ta <= hi -> rc_ve (rc_at p tt k w ta) + rc_is (rc_at p tt k w ta) = stiffness p tt k w.
Proof.
  intros HL HA. change (0.34 * sp_total p (flow_at p tt k) (we_wind w) (we_temp w) ta + sp_is p = stiffness p tt k w). unfold stiffness, sp_total, sp_envelope.
  rewrite (HL (flow_at p tt k) ta 20); [reflexivity| |exact HA|exact (proj1 HE)]. unfold flow_at. destruct (open_hour tt k); auto.
Qed.
Lemma leak_self w w' : same_leak p lo hi w w' -> same_leak p lo hi w w.
Proof. intros H f t t' F T T'. rewrite (H f t t F T T). symmetry. exact (H f t' t F T' T). Qed.

Definition small_needs (b : R) (n n' : R * R) : Prop := Rabs (fst n' - fst n) <= b /\ Rabs (snd n' - snd n) <= b.
Lemma small_abs b q q' : - b <= q' - q <= b -> Rabs (q' - q) <= b. Proof. intros. apply Rabs_le. lra. Qed.
Lemma hour_close k w w' ta ta' m0 m0' m m' a a' qh qc qh' qc' : recovery_ok p -> close_hour d w w' -> same_leak p lo hi w w' -> lo <= ta <= hi -> lo <= ta' <= hi -> - d <= m0' - m0 <= d ->
  iso_step (rc_at p tt k w ta) (heat_at p tt k) (cool_at p tt k) m0 m a qh qc -> iso_step (rc_at p tt k w' ta') (heat_at p tt k) (cool_at p tt k) m0' m' a' qh' qc' ->
  - d <= m' - m <= d /\ small_needs (2 * stiffness p tt k w * d) (qh, qc) (qh', qc').
Proof.
  intros HR W L A A' D S S'. destruct (close_net k w w' ta ta' HR W L A A') as (C & O & U & G1 & G2 & G3).
  destruct (small_step _ _ d (rc_at_positive p tt k w ta HP) HM C G1 G2 G3 O U _ _ _ _ _ _ _ _ _ _ _ _ D S S') as (K1 & K2 & K3).
  rewrite (stiffness_net k w ta (leak_self _ _ L) A) in K2, K3. split; [exact K1|]. split; apply small_abs; assumption.
Qed.
Lemma close_hours k tm ta ws ns : recovery_ok p -> iso_hours p tt k tm ta ws ns -> forall ws' tm' ta' ns', iso_hours p tt k tm' ta' ws' ns' ->
  Forall2 (fun w w' => close_hour d w w' /\ same_leak p lo hi w w') ws ws' -> lo <= ta <= hi -> lo <= ta' <= hi -> - d <= tm' - tm <= d ->
  forall j w n n', nth_error ws j = Some w -> nth_error ns j = Some n -> nth_error ns' j = Some n' -> small_needs (2 * stiffness p tt (k + Z.of_nat j) w * d) n n'.
Proof.
  intros HR. induction 1 as [k tm ta ws|k tm ta w ws m a qh qc ns S R IH]; intros ws' tm' ta' ns' H' HW A A' D j v n n' Ew En En'.
  - destruct j; discriminate En.
  - inversion H' as [|k2 tm2 ta2 w2 ws2 m' a' qh' qc' ns2 S' R' EQ1 EQ2 EQ3]; subst; [destruct j; discriminate En'|].
    inversion HW as [|u z us vs [W1 W2] W3]; subst.
    destruct (hour_close k w w2 ta ta' _ _ _ _ _ _ _ _ _ _ HR W1 W2 A A' D S S') as (KM & KN).
    destruct j as [|j].
    + cbn in Ew, En, En'. injection Ew as <-. injection En as <-. injection En' as <-. replace (k + Z.of_nat 0)%Z with k by lia. exact KN.
    + replace (k + Z.of_nat (Datatypes.S j))%Z with (k + 1 + Z.of_nat j)%Z by lia.
      exact (IH ws2 m' a' ns2 R' W3 (air_enclosed p lo hi tt HO HE k _ _ _ _ _ _ S) (air_enclosed p lo hi tt HO HE k _ _ _ _ _ _ S') KM j v n n' Ew En En').
Qed.

(** Equal weather from here on. *)
Lemma equal_net k w ta ta' : same_leak p lo hi w w -> lo <= ta <= hi -> lo <= ta' <= hi -> same_net (rc_at p tt k w ta) (rc_at p tt k w ta').
Proof.
  intros HL HA HA'.
  assert (L : sp_exfiltration p (flow_at p tt k) (we_wind w) (we_temp w) ta' = sp_exfiltration p (flow_at p tt k) (we_wind w) (we_temp w) ta).
  { apply HL; auto. unfold flow_at. destruct (open_hour tt k); auto. }
  constructor; try reflexivity.
  - change (0.34 * sp_total p (flow_at p tt k) (we_wind w) (we_temp w) ta' = 0.34 * sp_total p (flow_at p tt k) (we_wind w) (we_temp w) ta). unfold sp_total, sp_envelope. rewrite L. reflexivity.
  - change (sp_mixed p (flow_at p tt k) (we_wind w) (we_temp w) ta' = sp_mixed p (flow_at p tt k) (we_wind w) (we_temp w) ta). unfold sp_mixed, sp_total, sp_envelope. rewrite L. reflexivity.
Qed.
Lemma fade_hours k tm ta ws ns : iso_hours p tt k tm ta ws ns -> forall tm' ta' ns' D, iso_hours p tt k tm' ta' ws ns' ->
  (forall w, In w ws -> same_leak p lo hi w w) -> lo <= ta <= hi -> lo <= ta' <= hi -> - D <= tm' - tm <= D ->
  forall j n n', nth_error ns j = Some n -> nth_error ns' j = Some n' -> small_needs (sp_is p * memory p ^ j * D) n n'.
Proof.
  induction 1 as [k tm ta ws|k tm ta w ws m a qh qc ns S R IH]; intros tm' ta' ns' D H' HW A A' HD j n n' En En'.
  - destruct j; discriminate En.
  - inversion H' as [|k2 tm2 ta2 w2 ws2 m' a' qh' qc' ns2 S' R' EQ1 EQ2 EQ3]; subst; [destruct j; discriminate En'|].
    assert (W : same_leak p lo hi w w) by (apply HW; left; reflexivity).
    destruct (fade_step _ _ _ _ _ _ _ _ _ _ _ _ _ _ D (rc_at_positive p tt k w ta HP) HM (equal_net k w ta ta' W A A') (setpoints_ordered p tt HO k) eq_refl eq_refl eq_refl HD S S') as (KM & K1 & K2).
    change (rc_is (rc_at p tt k w ta)) with (sp_is p) in K1, K2. change (rc_C (rc_at p tt k w ta)) with (sp_capacity p) in KM. change (rc_em (rc_at p tt k w ta)) with (sp_em p) in KM.
    fold (memory p) in KM. destruct j as [|j].
    + cbn in En, En'. injection En as <-. injection En' as <-. cbn [pow]. rewrite Rmult_1_r. split; apply small_abs; assumption.
    + replace (sp_is p * memory p ^ Datatypes.S j * D) with (sp_is p * memory p ^ j * (memory p * D)) by (cbn [pow]; ring).
      exact (IH m' a' ns2 (memory p * D) R' (fun v Hv => HW v (or_intror Hv)) (air_enclosed p lo hi tt HO HE k _ _ _ _ _ _ S) (air_enclosed p lo hi tt HO HE k _ _ _ _ _ _ S') KM j n n' En En').
Qed.
Lemma past_hours us us' : recovery_ok p -> Forall2 (fun w w' => close_hour d w w' /\ same_leak p lo hi w w') us us' -> forall k tm ta tm' ta' ws ns ns',
  iso_hours p tt k tm ta (us ++ ws) ns -> iso_hours p tt k tm' ta' (us' ++ ws) ns' ->
  (forall w, In w ws -> same_leak p lo hi w w) -> lo <= ta <= hi -> lo <= ta' <= hi -> - d <= tm' - tm <= d ->
  forall j n n', nth_error ns (length us + j) = Some n -> nth_error ns' (length us + j) = Some n' -> small_needs (sp_is p * memory p ^ j * d) n n'.
Proof.
  intros HR. induction 1 as [|w w2 us us' [W1 W2] F IH]; intros k tm ta tm' ta' ws ns ns' H H' HW A A' D j n n' En En'.
  - exact (fade_hours k tm ta ws ns H tm' ta' ns' d H' HW A A' D j n n' En En').
  - cbn [app] in H, H'. inversion H as [|k1 tm1 ta1 w1 ws1 m a qh qc ns1 S R EQ1 EQ2 EQ3]; subst; [destruct (length us + j)%nat; discriminate En|].
    inversion H' as [|k2 tm2 ta2 w3 ws2 m' a' qh' qc' ns2 S' R' EQ1 EQ2 EQ3]; subst; [destruct (length us + j)%nat; discriminate En'|].
    destruct (hour_close k w w2 ta ta' _ _ _ _ _ _ _ _ _ _ HR W1 W2 A A' D S S') as (KM & _).
    exact (IH _ _ _ _ _ ws _ _ R R' HW (air_enclosed p lo hi tt HO HE k _ _ _ _ _ _ S) (air_enclosed p lo hi tt HO HE k _ _ _ _ _ _ S') KM j n n' En En').
Qed.
End Years.

Lemma memory_range p : physical p -> mass_slow p -> 0 < memory p < 1.
Proof.
  intros HP HM. pose proof (rc_at_positive p {| tt_firstHour := 0; tt_lastHour := 0; tt_firstDay := 0; tt_lastDay := 0 |} 0 {| we_wind := 0; we_temp := 0; we_sol := nil |} 0 HP) as (_ & X2 & X3 & X4 & X5 & X6).
  set (x := rc_at _ _ _ _ _) in *. change (rc_em x) with (sp_em p) in X5. assert (HM' : slow_net x) by exact HM. unfold slow_net in HM'.
  change (rc_C x) with (sp_capacity p) in HM'. change (rc_em x) with (sp_em p) in HM'. unfold memory. set (c := sp_capacity p / 3.6) in *. clearbody c.
  split; [apply Rmult_lt_0_compat; [lra|apply Rinv_0_lt_compat; lra]|]. apply Rmult_lt_reg_r with (c + sp_em p / 2); [lra|]. unfold Rdiv. rewrite Rmult_assoc, Rinv_l by lra. lra.
Qed.
Lemma needs_rows (raw raw' : list (hourres xr)) (ns ns' : list (R * R)) k h h' b :
  map (fun h => (hr_Qneed_ht h, hr_Qneed_cl h)) raw = map (fun n => (Fin (fst n), Fin (snd n))) ns ->
  map (fun h => (hr_Qneed_ht h, hr_Qneed_cl h)) raw' = map (fun n => (Fin (fst n), Fin (snd n))) ns' ->
  nth_error raw k = Some h -> nth_error raw' k = Some h' ->
  (forall n n', nth_error ns k = Some n -> nth_error ns' k = Some n' -> small_needs b n n') -> needs_within b h h'.
Proof.
  intros E E' K K' F. apply (map_nth_error (fun h => (hr_Qneed_ht h, hr_Qneed_cl h))) in K, K'. rewrite E in K. rewrite E' in K'.
  rewrite nth_error_map in K, K'. destruct (nth_error ns k) as [u|] eqn:Ea; [|discriminate K]. destruct (nth_error ns' k) as [v|] eqn:Eb; [|discriminate K'].
  cbn in K, K'. injection K as K1 K2. injection K' as K3 K4. exists (fst u), (snd u), (fst v), (snd v).
  split; [auto|]. split; [auto|]. split; [auto|]. split; [auto|]. exact (F u v eq_refl eq_refl).
Qed.
Lemma C97_l p lo hi tt d ws ws' raw raw' r r' :
  physical p -> ordered_setpoints p -> mass_slow p -> recovery_ok p -> timetable_of p tt -> encloses lo hi p -> 0 <= d ->
  Forall2 (fun w w' => close_hour d w w' /\ same_leak p lo hi w w') ws ws' ->
  simulateRaw (map_params Fin p) (map (map_weather Fin) ws) no_ratios = Ok (raw, r) ->
  simulateRaw (map_params Fin p) (map (map_weather Fin) ws') no_ratios = Ok (raw', r') ->
  forall k w h h', nth_error ws k = Some w -> nth_error raw k = Some h -> nth_error raw' k = Some h' ->
  needs_within (2 * stiffness p tt (Z.of_nat k) w * d) h h'.
Proof.
  intros HP HO HM HR HT HE D0 HW H H' k w h h' W K K'.
  destruct (C04_year_l p tt ws raw r HP HO HT H) as (ns & N & E). destruct (C04_year_l p tt ws' raw' r' HP HO HT H') as (ns' & N' & E').
  refine (needs_rows raw raw' ns ns' k h h' _ E E' K K' _). intros n n' En En'. pose proof (proj1 HE) as B.
  assert (D : - d <= 20 - 20 <= d) by lra.
  exact (close_hours p lo hi tt d HP HO HM HE 0%Z 20 20 ws ns HR N ws' 20 20 ns' N' HW B B D k w n n' W En En').
Qed.
Lemma C96_l p lo hi tt d us us' ws raw raw' r r' :
  physical p -> ordered_setpoints p -> mass_slow p -> recovery_ok p -> timetable_of p tt -> encloses lo hi p -> 0 <= d ->
  Forall2 (fun w w' => close_hour d w w' /\ same_leak p lo hi w w') us us' -> (forall w, In w ws -> same_leak p lo hi w w) ->
  simulateRaw (map_params Fin p) (map (map_weather Fin) (us ++ ws)) no_ratios = Ok (raw, r) ->
  simulateRaw (map_params Fin p) (map (map_weather Fin) (us' ++ ws)) no_ratios = Ok (raw', r') ->
  0 < memory p < 1 /\
  forall n h h', nth_error raw (length us + n) = Some h -> nth_error raw' (length us + n) = Some h' ->
  needs_within (sp_is p * memory p ^ n * d) h h'.
Proof.
  intros HP HO HM HR HT HE D0 HW HS H H'. split; [exact (memory_range p HP HM)|]. intros k h h' K K'.
  destruct (C04_year_l p tt _ raw r HP HO HT H) as (ns & N & E). destruct (C04_year_l p tt _ raw' r' HP HO HT H') as (ns' & N' & E').
  refine (needs_rows raw raw' ns ns' _ h h' _ E E' K K' _). intros n n' En En'. pose proof (proj1 HE) as B.
  assert (D : - d <= 20 - 20 <= d) by lra.
  exact (past_hours p lo hi tt d HP HO HM HE us us' HR HW 0%Z 20 20 20 20 ws ns ns' N N' HS B B D k n n' En En').
Qed.
