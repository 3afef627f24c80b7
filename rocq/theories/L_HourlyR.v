(** Algebra of the RC network solution, over the reals. *)
From Coq Require Import Reals Lra Psatz ZArith List.
From Verif Require Import Base Num Xr M_Params M_Hourly L_Xr S_RC.
Import ListNotations.
Open Scope R_scope.

(** The network of the model as a specification network. *)
Definition to_rc (n : net R) (phii : R) : rc :=
  {| rc_ve := ne_hei n; rc_is := ne_H_tris n; rc_w := ne_hwin n; rc_ms := ne_H_ms n; rc_em := ne_hem n;
     rc_C := ne_Cm n; rc_out := ne_T n; rc_sup := ne_tEnt n;
     rc_phi_ia := phii; rc_phi_st := ne_phis0 n; rc_phi_m := ne_phim0 n |}.

(** Consistency of the derived coefficients and signs. *)
Record net_wf (n : net R) : Prop := {
  nw_hei : 0 < ne_hei n;
  nw_is : 0 < ne_H_tris n;
  nw_ms : 0 < ne_H_ms n;
  nw_win : 0 <= ne_hwin n;
  nw_em : 0 < ne_hem n;
  nw_C : 0 <= ne_Cm n;
  nw_h1 : ne_h1 n = ne_hei n * ne_H_tris n / (ne_hei n + ne_H_tris n);
  nw_h2 : ne_h2 n = ne_h1 n + ne_hwin n;
  nw_h3 : ne_h3 n = ne_h2 n * ne_H_ms n / (ne_h2 n + ne_H_ms n) }.

Lemma nw_h1_pos n : net_wf n -> 0 < ne_h1 n.
Proof.
  intros H. rewrite (nw_h1 n H). pose proof (nw_hei n H). pose proof (nw_is n H).
  apply Rdiv_lt_0_compat; [apply Rmult_lt_0_compat|]; lra.
Qed.
Lemma nw_h2_pos n : net_wf n -> 0 < ne_h2 n.
Proof. intros H. rewrite (nw_h2 n H). pose proof (nw_h1_pos n H). pose proof (nw_win n H). lra. Qed.
Lemma nw_h3_pos n : net_wf n -> 0 < ne_h3 n.
Proof.
  intros H. rewrite (nw_h3 n H). pose proof (nw_h2_pos n H). pose proof (nw_ms n H).
  apply Rdiv_lt_0_compat; [apply Rmult_lt_0_compat|]; lra.
Qed.
Definition net_den (n : net R) : R := ne_Cm n / 3.6 + 0.5 * (ne_h3 n + ne_hem n).
Lemma nw_den_pos n : net_wf n -> 0 < net_den n.
Proof.
  intros H. unfold net_den. pose proof (nw_h3_pos n H). pose proof (nw_em n H). pose proof (nw_C n H).
  assert (0 <= ne_Cm n / 3.6) by (apply Rmult_le_pos; lra). lra.
Qed.

(** The solution formulas in plain real arithmetic. *)
Lemma phimTotal_R n phii : phimTotal n phii =
  ne_phim0 n + ne_hem n * ne_T n
  + ne_h3 n * (ne_phis0 n + ne_hwin n * ne_T n + ne_h1 n * (phii / ne_hei n + ne_tEnt n)) / ne_h2 n.
Proof. reflexivity. Qed.
Lemma massTemp_R n tm0 phii : massTemp n tm0 phii =
  (tm0 * (ne_Cm n / 3.6 - 0.5 * (ne_h3 n + ne_hem n)) + phimTotal n phii) / net_den n.
Proof. unfold massTemp, net_den. rnum. f_equal; lra. Qed.
Lemma surfTemp_R n tm0 phii : surfTemp n tm0 phii =
  (ne_H_ms n * (0.5 * (tm0 + massTemp n tm0 phii)) + ne_phis0 n + ne_hwin n * ne_T n
   + ne_h1 n * (ne_tEnt n + phii / ne_hei n)) / (ne_H_ms n + ne_hwin n + ne_h1 n).
Proof. unfold surfTemp. rnum. reflexivity. Qed.
Lemma airTemp_R n tm0 phii : airTemp n tm0 phii =
  (ne_H_tris n * surfTemp n tm0 phii + ne_hei n * ne_tEnt n + phii) / (ne_H_tris n + ne_hei n).
Proof. reflexivity. Qed.

(** The code's formulas solve the heat balances. *)
Lemma solution_balance n tm0 phii plant : net_wf n ->
  rc_balance (to_rc n phii) plant tm0
    (massTemp n tm0 (plant + phii)) (surfTemp n tm0 (plant + phii)) (airTemp n tm0 (plant + phii)).
Proof.
  intros H. pose proof (nw_h1_pos n H) as P1. pose proof (nw_h2_pos n H) as P2.
  pose proof (nw_h3_pos n H) as P3. pose proof (nw_den_pos n H) as PD.
  pose proof (nw_hei n H) as Phei. pose proof (nw_is n H) as Pis. pose proof (nw_ms n H) as Pms.
  pose proof (nw_win n H) as Pw.
  set (phi := plant + phii). set (tm1 := massTemp n tm0 phi). set (ts := surfTemp n tm0 phi). set (ta := airTemp n tm0 phi).
  assert (Ea : (ne_H_tris n + ne_hei n) * ta = ne_H_tris n * ts + ne_hei n * ne_tEnt n + phi).
  { unfold ta. rewrite airTemp_R. fold ts. field. lra. }
  assert (Es : (ne_H_ms n + ne_hwin n + ne_h1 n) * ts = ne_H_ms n * (0.5 * (tm0 + tm1)) + ne_phis0 n
               + ne_hwin n * ne_T n + ne_h1 n * (ne_tEnt n + phi / ne_hei n)).
  { unfold ts. rewrite surfTemp_R. fold tm1. field. lra. }
  assert (Em : net_den n * tm1 = tm0 * (ne_Cm n / 3.6 - 0.5 * (ne_h3 n + ne_hem n)) + phimTotal n phi).
  { unfold tm1. rewrite massTemp_R. field. lra. }
  unfold net_den in Em. rewrite phimTotal_R in Em.
  assert (E1 : ne_h1 n * (ne_hei n + ne_H_tris n) = ne_hei n * ne_H_tris n).
  { rewrite (nw_h1 n H). field. lra. }
  assert (E3 : ne_h3 n * (ne_h2 n + ne_H_ms n) = ne_h2 n * ne_H_ms n).
  { rewrite (nw_h3 n H). field. lra. }
  (* heat from air node into the surface node *)
  assert (Eas : ne_H_tris n * (ta - ts) = ne_h1 n * (ne_tEnt n + phi / ne_hei n - ts)).
  { assert (Ht : ta = (ne_H_tris n * ts + ne_hei n * ne_tEnt n + phi) / (ne_H_tris n + ne_hei n)).
    { rewrite <- Ea. field. lra. }
    rewrite Ht. rewrite (nw_h1 n H). field. lra. }
  (* heat from the surface node into the mass node *)
  set (X := ne_phis0 n + ne_hwin n * ne_T n + ne_h1 n * (ne_tEnt n + phi / ne_hei n)) in *.
  assert (Esm : ne_H_ms n * (ts - 0.5 * (tm0 + tm1)) = ne_h3 n * (X / ne_h2 n - 0.5 * (tm0 + tm1))).
  { assert (Ht : ts = (ne_H_ms n * (0.5 * (tm0 + tm1)) + X) / (ne_H_ms n + ne_h2 n)).
    { rewrite (nw_h2 n H). replace (ne_H_ms n * (0.5 * (tm0 + tm1)) + X) with ((ne_H_ms n + ne_hwin n + ne_h1 n) * ts)
        by (rewrite Es; unfold X; ring).
      field. lra. }
    rewrite Ht. rewrite (nw_h3 n H). field. lra. }
  unfold rc_balance, to_rc. cbn [rc_ve rc_is rc_w rc_ms rc_em rc_C rc_out rc_sup rc_phi_ia rc_phi_st rc_phi_m].
  split; [|split].
  - unfold phi in Ea. nra.
  - rewrite Eas. replace ((tm0 + tm1) / 2) with (0.5 * (tm0 + tm1)) by lra. nra.
  - replace ((tm0 + tm1) / 2) with (0.5 * (tm0 + tm1)) by lra. rewrite Esm.
    replace (ne_h3 n * (ne_phis0 n + ne_hwin n * ne_T n + ne_h1 n * (phi / ne_hei n + ne_tEnt n)) / ne_h2 n)
      with (ne_h3 n * (X / ne_h2 n)) in Em by (unfold X; field; lra).
    lra.
Qed.

(** The balances determine the temperatures. *)
Lemma balance_unique x plant tm0 a1 s1 i1 a2 s2 i2 : rc_positive x ->
  rc_balance x plant tm0 a1 s1 i1 -> rc_balance x plant tm0 a2 s2 i2 ->
  a1 = a2 /\ s1 = s2 /\ i1 = i2.
Proof.
  intros (Pve & Pis & Pw & Pms & Pem & PC) (A1 & B1 & C1) (A2 & B2 & C2).
  set (da := a1 - a2). set (ds := s1 - s2). set (di := i1 - i2).
  assert (HA : (rc_ve x + rc_is x) * di = rc_is x * ds) by (unfold di, ds; lra).
  assert (HB : (rc_is x + rc_w x + rc_ms x) * ds = rc_is x * di + rc_ms x * da / 2) by (unfold di, ds, da; lra).
  assert (HC : (rc_C x / 3.6 + (rc_ms x + rc_em x) / 2) * da = rc_ms x * ds) by (unfold di, ds, da; lra).
  assert (HCp : 0 <= rc_C x / 3.6) by (apply Rmult_le_pos; lra).
  (* multiply the surface equation by both positive factors *)
  set (V := rc_ve x + rc_is x). set (D := rc_C x / 3.6 + (rc_ms x + rc_em x) / 2).
  fold V in HA. fold D in HC.
  assert (PV : 0 < V) by (unfold V; lra). assert (PD : 0 < D) by (unfold D; lra).
  assert (K : ds * (V * D * (rc_is x + rc_w x + rc_ms x) - D * rc_is x * rc_is x - V * rc_ms x * rc_ms x / 2) = 0).
  { assert (E1 : V * D * ((rc_is x + rc_w x + rc_ms x) * ds) = V * D * (rc_is x * di + rc_ms x * da / 2)) by (rewrite HB; reflexivity).
    replace (V * D * (rc_is x * di + rc_ms x * da / 2)) with (D * rc_is x * (V * di) + V * rc_ms x * (D * da) / 2) in E1 by field.
    rewrite HA, HC in E1. lra. }
  assert (PK : 0 < V * D * (rc_is x + rc_w x + rc_ms x) - D * rc_is x * rc_is x - V * rc_ms x * rc_ms x / 2).
  { replace (V * D * (rc_is x + rc_w x + rc_ms x) - D * rc_is x * rc_is x - V * rc_ms x * rc_ms x / 2)
      with (D * rc_is x * (V - rc_is x) + V * D * rc_w x + V * rc_ms x * (D - rc_ms x / 2)) by field.
    replace (V - rc_is x) with (rc_ve x) by (unfold V; ring).
    replace (D - rc_ms x / 2) with (rc_C x / 3.6 + rc_em x / 2) by (unfold D; lra).
    assert (0 < D * rc_is x * rc_ve x) by (repeat apply Rmult_lt_0_compat; assumption).
    assert (0 <= V * D * rc_w x) by (apply Rmult_le_pos; [left; apply Rmult_lt_0_compat; assumption|assumption]).
    assert (0 < V * rc_ms x * (rc_C x / 3.6 + rc_em x / 2)) by (repeat apply Rmult_lt_0_compat; lra).
    lra. }
  assert (Zs : ds = 0). { apply Rmult_integral in K as [K|K]; [exact K|lra]. }
  rewrite Zs, Rmult_0_r in HA, HC.
  assert (Zi : di = 0). { apply Rmult_integral in HA as [K'|K']; [lra|exact K']. }
  assert (Za : da = 0). { apply Rmult_integral in HC as [K'|K']; [lra|exact K']. }
  unfold da, ds, di in *. lra.
Qed.

(** ** The air temperature is affine and increasing in the power fed to the air node *)

Definition mass_gain (n : net R) : R := ne_h3 n * ne_h1 n / (ne_hei n * ne_h2 n * net_den n).
Definition surf_gain (n : net R) : R :=
  (ne_H_ms n * (0.5 * mass_gain n) + ne_h1 n / ne_hei n) / (ne_H_ms n + ne_hwin n + ne_h1 n).
Definition air_gain (n : net R) : R := (ne_H_tris n * surf_gain n + 1) / (ne_H_tris n + ne_hei n).

Lemma massTemp_affine n tm0 a b : net_wf n -> massTemp n tm0 (a + b) = massTemp n tm0 a + mass_gain n * b.
Proof.
  intros H. pose proof (nw_hei n H). pose proof (nw_h2_pos n H). pose proof (nw_den_pos n H).
  rewrite !massTemp_R, !phimTotal_R. unfold mass_gain. field. lra.
Qed.
Lemma surfTemp_affine n tm0 a b : net_wf n -> surfTemp n tm0 (a + b) = surfTemp n tm0 a + surf_gain n * b.
Proof.
  intros H. pose proof (nw_hei n H). pose proof (nw_h1_pos n H). pose proof (nw_ms n H). pose proof (nw_win n H).
  rewrite !surfTemp_R, (massTemp_affine n tm0 a b H). unfold surf_gain. field. lra.
Qed.
Lemma airTemp_affine n tm0 a b : net_wf n -> airTemp n tm0 (a + b) = airTemp n tm0 a + air_gain n * b.
Proof.
  intros H. pose proof (nw_hei n H). pose proof (nw_is n H).
  rewrite !airTemp_R, (surfTemp_affine n tm0 a b H). unfold air_gain. field. lra.
Qed.
Lemma mass_gain_pos n : net_wf n -> 0 < mass_gain n.
Proof.
  intros H. pose proof (nw_hei n H). pose proof (nw_h1_pos n H). pose proof (nw_h2_pos n H).
  pose proof (nw_h3_pos n H). pose proof (nw_den_pos n H). unfold mass_gain.
  apply Rdiv_lt_0_compat; repeat apply Rmult_lt_0_compat; assumption.
Qed.
Lemma surf_gain_pos n : net_wf n -> 0 < surf_gain n.
Proof.
  intros H. pose proof (nw_hei n H). pose proof (nw_h1_pos n H). pose proof (nw_ms n H). pose proof (nw_win n H).
  pose proof (mass_gain_pos n H). unfold surf_gain.
  apply Rdiv_lt_0_compat; [|lra].
  assert (0 < ne_h1 n / ne_hei n) by (apply Rdiv_lt_0_compat; assumption).
  assert (0 < ne_H_ms n * (0.5 * mass_gain n)) by (apply Rmult_lt_0_compat; lra). lra.
Qed.
Lemma air_gain_pos n : net_wf n -> 0 < air_gain n.
Proof.
  intros H. pose proof (nw_hei n H). pose proof (nw_is n H). pose proof (surf_gain_pos n H).
  unfold air_gain. apply Rdiv_lt_0_compat; [|lra].
  assert (0 < ne_H_tris n * surf_gain n) by (apply Rmult_lt_0_compat; assumption). lra.
Qed.

(** Plant power in terms of the free-floating temperature. *)
Lemma plantPower_R n tm0 phii lo hi : net_wf n ->
  let free := airTemp n tm0 phii in
  plantPower n tm0 phii lo hi = Rmax 0 ((lo - free) / air_gain n) + Rmin ((hi - free) / air_gain n) 0.
Proof.
  intros H free. pose proof (air_gain_pos n H) as PG. unfold plantPower. rnum.
  replace (10 / 1) with 10 by lra. replace (0 / 1) with 0 by lra.
  rewrite (airTemp_affine n tm0 phii 10 H). fold free.
  f_equal; f_equal; field; lra.
Qed.

(** Thermostat: with lo <= hi the resulting air temperature is the free-floating one clamped. *)
Lemma thermostat_R n tm0 phii lo hi : net_wf n -> lo <= hi ->
  let free := airTemp n tm0 phii in
  let q := plantPower n tm0 phii lo hi in
  airTemp n tm0 (q + phii) = clamp lo hi free /\
  (free < lo -> 0 < q) /\ (hi < free -> q < 0) /\ (lo <= free <= hi -> q = 0).
Proof.
  intros H Hlh free q. pose proof (air_gain_pos n H) as PG.
  assert (Eq : q = Rmax 0 ((lo - free) / air_gain n) + Rmin ((hi - free) / air_gain n) 0)
    by (apply plantPower_R; exact H).
  assert (Ea : airTemp n tm0 (q + phii) = free + air_gain n * q).
  { rewrite Rplus_comm. apply airTemp_affine; exact H. }
  assert (PI : 0 < / air_gain n) by (apply Rinv_0_lt_compat; exact PG).
  assert (El : (lo - free) / air_gain n * air_gain n = lo - free) by (field; lra).
  assert (Eh : (hi - free) / air_gain n * air_gain n = hi - free) by (field; lra).
  unfold clamp. rewrite Ea.
  destruct (Rlt_or_le free lo) as [C1|C1].
  - assert (P1 : 0 < (lo - free) / air_gain n) by (apply Rdiv_lt_0_compat; lra).
    assert (P2 : 0 < (hi - free) / air_gain n) by (apply Rdiv_lt_0_compat; lra).
    rewrite Rmax_right in Eq by lra. rewrite Rmin_right in Eq by lra.
    rewrite Rmin_right by lra. rewrite Rmax_left by lra. nra.
  - assert (P1 : (lo - free) / air_gain n <= 0).
    { unfold Rdiv. nra. }
    rewrite Rmax_left in Eq by lra. rewrite Rmax_right by (apply Rmin_glb; lra).
    destruct (Rlt_or_le hi free) as [C2|C2].
    + assert (P2 : (hi - free) / air_gain n < 0) by (unfold Rdiv; nra).
      rewrite Rmin_left in Eq by lra. rewrite Rmin_left by lra. nra.
    + assert (P2 : 0 <= (hi - free) / air_gain n) by (unfold Rdiv; nra).
      rewrite Rmin_right in Eq by lra. rewrite Rmin_right by lra. nra.
Qed.

(** Crossed set-points: the two corrections are added. *)
Lemma crossed_R n tm0 phii lo hi : net_wf n -> hi < lo ->
  let free := airTemp n tm0 phii in
  let q := plantPower n tm0 phii lo hi in
  (free <= hi -> airTemp n tm0 (q + phii) = lo) /\
  (lo <= free -> airTemp n tm0 (q + phii) = hi) /\
  (hi <= free <= lo -> airTemp n tm0 (q + phii) = lo + hi - free).
Proof.
  intros H Hlh free q. pose proof (air_gain_pos n H) as PG.
  assert (Eq : q = Rmax 0 ((lo - free) / air_gain n) + Rmin ((hi - free) / air_gain n) 0)
    by (apply plantPower_R; exact H).
  assert (Ea : airTemp n tm0 (q + phii) = free + air_gain n * q).
  { rewrite Rplus_comm. apply airTemp_affine; exact H. }
  assert (PI : 0 < / air_gain n) by (apply Rinv_0_lt_compat; exact PG).
  assert (El : (lo - free) / air_gain n * air_gain n = lo - free) by (field; lra).
  assert (Eh : (hi - free) / air_gain n * air_gain n = hi - free) by (field; lra).
  rewrite Ea. split; [|split]; intros C.
  - rewrite Rmax_right in Eq by (unfold Rdiv; nra). rewrite Rmin_right in Eq by (unfold Rdiv; nra). nra.
  - rewrite Rmax_left in Eq by (unfold Rdiv; nra). rewrite Rmin_left in Eq by (unfold Rdiv; nra). nra.
  - rewrite Rmax_right in Eq by (unfold Rdiv; nra). rewrite Rmin_left in Eq by (unfold Rdiv; nra). nra.
Qed.
