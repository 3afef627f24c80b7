(** The network is monotone. *)
From Coq Require Import Reals Lra Psatz ZArith List.
From Verif Require Import Base Num Xr M_Params M_Hourly M_Map S_RC S_Physical S_Network S_Year S_HourSpec S_Balance S_Compare
  L_Xr L_HourlyR L_HourlySpec L_HourlyFin2 L_HourlyThm L_HourlyThm2.
Import ListNotations.
Open Scope R_scope.

Section Linear.
Variables is w ms em c : R.
Hypothesis (Hi : 0 < is) (Hw : 0 <= w) (Hm : 0 < ms) (He : 0 < em) (Hc : (ms + em) / 2 <= c).
(** Differences of two balances. *)
Variables da ds d0 d1 gs gm : R.
Hypothesis B2 : is * (da - ds) - w * ds + ms * ((d0 + d1) / 2 - ds) + gs = 0.
Hypothesis B3 : c * (d1 - d0) = ms * (ds - (d0 + d1) / 2) - em * ((d0 + d1) / 2) + gm.
Lemma warm_mass : 0 <= da -> 0 <= d0 -> 0 <= gs -> 0 <= gm -> 0 <= ds /\ 0 <= d1.
Proof.
  intros A D GS GM. set (S := is + w + ms). assert (HS : 0 < S) by (unfold S; lra).
  assert (E1 : S * ds = is * da + ms * ((d0 + d1) / 2) + gs) by (unfold S; lra).
  assert (E2 : (c + (ms + em) / 2) * d1 = (c - (ms + em) / 2) * d0 + ms * ds + gm) by lra.
  assert (E3 : d1 * (S * (c + (ms + em) / 2) - ms * ms / 2) = S * (c - (ms + em) / 2) * d0 + ms * (is * da) + ms * ms * d0 / 2 + ms * gs + S * gm).
  { assert (X : S * ((c + (ms + em) / 2) * d1) = S * ((c - (ms + em) / 2) * d0 + ms * ds + gm)) by (f_equal; exact E2).
    assert (Y : ms * (S * ds) = ms * (is * da + ms * ((d0 + d1) / 2) + gs)) by (f_equal; exact E1). lra. }
  assert (P : 0 < S * (c + (ms + em) / 2) - ms * ms / 2).
  { assert (0 < is * (c + (ms + em) / 2)) by (apply Rmult_lt_0_compat; lra). assert (0 <= w * (c + (ms + em) / 2)) by (apply Rmult_le_pos; lra).
    assert (ms * ms / 2 <= ms * (c + (ms + em) / 2)) by nra. unfold S. lra. }
  assert (Q : 0 <= S * (c - (ms + em) / 2) * d0 + ms * (is * da) + ms * ms * d0 / 2 + ms * gs + S * gm).
  { assert (0 <= S * (c - (ms + em) / 2) * d0) by (repeat apply Rmult_le_pos; lra). assert (0 <= ms * (is * da)) by (repeat apply Rmult_le_pos; lra).
    assert (0 <= ms * ms * d0) by (repeat apply Rmult_le_pos; lra). assert (0 <= ms * gs) by (apply Rmult_le_pos; lra). assert (0 <= S * gm) by (apply Rmult_le_pos; lra). lra. }
  assert (D1 : 0 <= d1) by (rewrite <- E3 in Q; nra). split; [|exact D1].
  assert (0 <= is * da) by (apply Rmult_le_pos; lra). assert (0 <= ms * ((d0 + d1) / 2)) by (apply Rmult_le_pos; lra).
  assert (0 <= S * ds) by lra. nra.
Qed.
(** No other source than the air: the surface follows less. *)
Lemma surface_follows : 0 <= da -> d0 = 0 -> gs = 0 -> gm = 0 -> ds <= da.
Proof.
  intros A D GS GM. destruct (warm_mass A) as [S1 S2]; try lra. pose proof B2 as b2. pose proof B3 as b3. rewrite D, GS in b2. rewrite D, GM in b3.
  destruct (Rle_lt_dec ds da) as [L|L]; [exact L|exfalso].
  assert (d1 / 2 <= ds). { assert (0 <= em * (d1 / 2)) by (apply Rmult_le_pos; lra). assert (0 <= c * d1) by (apply Rmult_le_pos; lra).
    replace ((0 + d1) / 2) with (d1 / 2) in b3 by lra. assert (0 <= ms * (ds - d1 / 2)) by lra. nra. }
  replace ((0 + d1) / 2) with (d1 / 2) in b2 by lra.
  assert (is * (da - ds) < 0) by nra. assert (0 <= w * ds) by (apply Rmult_le_pos; lra). assert (ms * (d1 / 2 - ds) <= 0) by nra. lra.
Qed.
(** Heat taken from the air is not more than the sources in surfaces and mass. *)
Lemma heat_taken : da = 0 -> d0 = 0 -> 0 <= gs -> 0 <= gm -> is * ds <= gs + gm.
Proof.
  intros A D GS GM. destruct warm_mass as [S1 S2]; try lra. pose proof B2 as b2. pose proof B3 as b3. rewrite A, D in b2. rewrite D in b3.
  assert (0 <= w * ds) by (apply Rmult_le_pos; lra). assert (0 <= em * ((0 + d1) / 2)) by (apply Rmult_le_pos; lra). assert (0 <= c * d1) by (apply Rmult_le_pos; lra). lra.
Qed.
End Linear.
Lemma warm_free ve is w ms em c da ds d0 d1 ga gs gm : 0 < ve -> 0 < is -> 0 <= w -> 0 < ms -> 0 < em -> (ms + em) / 2 <= c ->
  - (ve * da) + is * (ds - da) + ga = 0 -> is * (da - ds) - w * ds + ms * ((d0 + d1) / 2 - ds) + gs = 0 ->
  c * (d1 - d0) = ms * (ds - (d0 + d1) / 2) - em * ((d0 + d1) / 2) + gm -> 0 <= d0 -> 0 <= ga -> 0 <= gs -> 0 <= gm -> 0 <= da.
Proof.
  intros V I W M E C B1 B2 B3 D GA GS GM.
  assert (K : is * ve / (ve + is) * (ga / ve - ds) = is * (da - ds)).
  { assert (X : da = (is * ds + ga) / (ve + is)) by (apply Rmult_eq_reg_r with (ve + is); [unfold Rdiv; rewrite Rmult_assoc, Rinv_l by lra; lra|lra]). rewrite X. field. lra. }
  assert (P : 0 < is * ve / (ve + is)) by (apply Rdiv_lt_0_compat; [apply Rmult_lt_0_compat; lra|lra]).
  destruct (warm_mass (is * ve / (ve + is)) w ms em c P W M E C (ga / ve) ds d0 d1 gs gm) as [S _].
  - rewrite K. exact B2.
  - exact B3.
  - apply Rmult_le_pos; [exact GA|apply Rlt_le, Rinv_0_lt_compat, V].
  - exact D.
  - exact GS.
  - exact GM.
  - assert (0 <= is * ds) by (apply Rmult_le_pos; lra). assert (0 <= (ve + is) * da) by lra. nra.
Qed.
Lemma clamp_mono lo hi f lo' hi' f' : lo <= lo' -> hi <= hi' -> f <= f' -> clamp lo hi f <= clamp lo' hi' f'.
Proof. intros. unfold clamp. apply Rmax_lub; [apply Rle_trans with lo'; [lra|apply Rmax_l]|]. apply Rle_trans with (Rmin hi' f'); [|apply Rmax_r]. apply Rmin_glb; [apply Rle_trans with hi; [apply Rmin_l|lra]|apply Rle_trans with f; [apply Rmin_r|lra]]. Qed.
