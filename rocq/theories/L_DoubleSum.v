(** Adding up a table of results in doubles. *)
From Coq Require Import Reals Lra Psatz ZArith Bool List Lia Permutation.
From Flocq Require Import Core.Core IEEE754.BinarySingleNaN.
From Verif Require Import Base Num Xr Dbl L_Dbl M_Params M_Hourly M_Monthly M_Report S_Double S_DoubleMonthly S_DoubleSum L_Double L_Double2 L_Double6 L_Double7 L_Double9 L_HourlyOut L_Monthly6 L_Report.
Import ListNotations.
Open Scope R_scope.

(** ** Sums of reals *)
Definition rs (l : list R) : R := fold_right Rplus 0 l.
Lemma rs_app l m : rs (l ++ m) = rs l + rs m.
Proof. induction l as [|x l IH]; cbn; [unfold rs; cbn; lra|]. unfold rs in *. rewrite IH. lra. Qed.
Lemma rs_perm l m : Permutation l m -> rs l = rs m.
Proof. unfold rs. induction 1; cbn; lra. Qed.
Lemma rs_zero {A} (f : A -> R) l : (forall x, In x l -> f x = 0) -> rs (map f l) = 0.
Proof. unfold rs. induction l as [|x l IH]; intros H; cbn; [reflexivity|]. rewrite (H x (or_introl eq_refl)), IH; [lra|]. intros y Y. apply H. right. exact Y. Qed.
Lemma rs_flat {A} (f : A -> list R) l : rs (flat_map f l) = rs (map (fun x => rs (f x)) l).
Proof. induction l as [|x l IH]; cbn; [reflexivity|]. rewrite rs_app, IH. reflexivity. Qed.
Lemma rs_concat {A} (f : A -> R) ls : rs (map f (concat ls)) = rs (map (fun l => rs (map f l)) ls).
Proof. induction ls as [|l ls IH]; cbn; [reflexivity|]. rewrite map_app, rs_app, IH. reflexivity. Qed.

(** ** A sum in which only some terms are not zero *)
Definition some (x : double) : R := if Req_EM_T (B2R x) 0 then 0 else 1.
Fixpoint count (l : list double) : nat := match l with [] => O | x :: r => if Req_EM_T (B2R x) 0 then count r else S (count r) end.
Lemma count_some l : INR (count l) = rs (map some l).
Proof. induction l as [|x l IH]; [reflexivity|]. cbn [map count]. unfold rs, some in *. cbn [fold_right]. destruct (Req_EM_T (B2R x) 0); rewrite ?S_INR, IH; lra. Qed.
Lemma count_app l m : count (l ++ m) = (count l + count m)%nat.
Proof. induction l as [|x l IH]; [reflexivity|]. cbn [app count]. destruct (Req_EM_T (B2R x) 0); rewrite IH; reflexivity. Qed.
Lemma size_app l m : size_sum (l ++ m) = size_sum l + size_sum m.
Proof. unfold size_sum. rewrite map_app. exact (rs_app _ _). Qed.
Lemma exact_app l m : exact_sum (l ++ m) = exact_sum l + exact_sum m.
Proof. unfold exact_sum. rewrite map_app. exact (rs_app _ _). Qed.
Lemma uro_pos : 0 < uro.
Proof. pose proof uro_small. lra. Qed.
Lemma power_two n : (Z.of_nat n <= 200000)%Z -> 1 <= (1 + uro) ^ n <= 1 + / 10000000000.
Proof.
  intros N. pose proof uro_pos as U. split; [apply pow_R1_Rle; lra|].
  assert (B : forall k, INR k * uro <= / 2 -> (1 + uro) ^ k <= 1 + 2 * (INR k * uro)).
  { induction k as [|k IH]; intros H; [cbn; lra|]. rewrite S_INR in *. cbn [pow]. pose proof (pos_INR k) as P. assert (K : INR k * uro <= / 2) by nra. specialize (IH K).
    assert (0 <= INR k * uro) by (apply Rmult_le_pos; lra). set (t := INR k * uro) in *. replace ((INR k + 1) * uro) with (t + uro) by (unfold t; ring).
    assert ((1 + uro) * (1 + uro) ^ k <= (1 + uro) * (1 + 2 * t)) by (apply Rmult_le_compat_l; lra). assert (uro * t <= uro * / 2) by (apply Rmult_le_compat_l; lra). lra. }
  assert (K : INR n * uro <= 200000 * uro). { apply Rmult_le_compat_r; [lra|]. rewrite INR_IZR_INZ. apply IZR_le. exact N. }
  assert (V : 200000 * uro <= / 10000000000 / 2) by (rewrite uro_val; lra). specialize (B n ltac:(lra)). lra.
Qed.
Lemma sum_sparse : forall l : list double, (Z.of_nat (count l) <= 200000)%Z -> Forall (fun x => is_finite x = true) l -> size_sum l <= IZR (10 ^ 300) ->
  let s := fold_left (Bplus mode_NE) l (z2d 0) in
  is_finite s = true /\ Rabs (B2R s - exact_sum l) <= ((1 + uro) ^ count l - 1) * size_sum l.
Proof.
  pose proof uro_pos as U. induction l as [|x l IH] using rev_ind; intros C F Z; cbv zeta.
  - cbn [fold_left count pow]. split; [reflexivity|]. change (B2R (z2d 0)) with 0. unfold exact_sum, size_sum. cbn. rewrite Rminus_0_r, Rabs_R0. lra.
  - apply Forall_app in F as [F1 F2]. inversion F2 as [|? ? FX _]; subst. rewrite count_app in *. rewrite size_app in *. rewrite exact_app. rewrite fold_left_app. cbn [fold_left].
    pose proof (size_pos l) as P. replace (size_sum [x]) with (Rabs (B2R x)) in * by (unfold size_sum; cbn; ring). replace (exact_sum [x]) with (B2R x) by (unfold exact_sum; cbn; ring).
    pose proof (Rabs_pos (B2R x)) as PX. destruct (IH ltac:(lia) F1 ltac:(lra)) as [FS ES]. set (s := fold_left _ l _) in *. clearbody s. clear IH F1 F2.
    pose proof (power_two (count l) ltac:(lia)) as [E1 E2]. pose proof (sum_size l) as SZ. set (S0 := exact_sum l) in *. set (A := size_sum l) in *. set (w := (1 + uro) ^ count l) in *.
    pose proof ordinary_top as OT. pose proof top_pos as TP.
    assert (BS : Rabs (B2R s) <= w * A). { replace (B2R s) with ((B2R s - S0) + S0) by ring. eapply Rle_trans; [apply Rabs_triang|]. lra. }
    assert (BW : w * A <= 2 * A) by (apply Rmult_le_compat_r; lra).
    assert (AX : Rabs (B2R s + B2R x) <= IZR 3 * top) by (eapply Rle_trans; [apply Rabs_triang|]; lra).
    destruct (is_rnd_below 3 _ _ ltac:(lia) (plus_rnd s x FS FX) AX) as (FB & VB & _). split; [exact FB|]. rewrite VB.
    cbn [count] in *. destruct (Req_EM_T (B2R x) 0) as [X0|X0].
    + rewrite X0, Rabs_R0, !Rplus_0_r, Nat.add_0_r. fold w. assert (RR : rnd (B2R s) = B2R s) by (unfold rnd; apply round_generic; [apply valid_rnd_N|apply generic_format_B2R]). rewrite RR. exact ES.
    + replace (count l + 1)%nat with (S (count l)) by lia. cbn [pow]. fold w. destruct (plus_eps s x) as (e & Ee & ->). set (X := B2R x) in *. set (s0 := B2R s) in *. clearbody X s0 w.
      replace ((s0 + X) * (1 + e) - (S0 + X)) with ((s0 - S0) * (1 + e) + (S0 + X) * e) by ring. eapply Rle_trans; [apply Rabs_triang|]. rewrite !Rabs_mult.
      assert (K1 : Rabs (1 + e) <= 1 + uro) by (apply abs_between in Ee; apply Rabs_le; lra).
      assert (K2 : Rabs (s0 - S0) * Rabs (1 + e) <= (w - 1) * A * (1 + uro)) by (apply Rmult_le_compat; auto using Rabs_pos).
      assert (K3 : Rabs (S0 + X) * Rabs e <= (A + Rabs X) * uro). { apply Rmult_le_compat; auto using Rabs_pos. eapply Rle_trans; [apply Rabs_triang|]. lra. }
      assert (K4 : 0 <= (w - 1) * (1 + uro) * Rabs X) by (apply Rmult_le_pos; [apply Rmult_le_pos; lra|exact PX]). nra.
Qed.

(** ** Every end use once *)
Section D.
Context {L : libm}.
Lemma sum_get (f : double -> R) : f (z2d 0) = 0 -> forall (e : os_enduses (T := double)) l, NoDup l -> NoDup (map fst e) -> incl (map fst e) l ->
  rs (map (fun k => f (os_get e k)) l) = rs (map f (map snd e)).
Proof.
  intros F0. induction e as [|[k v] e IH]; intros l NL NE I.
  - cbn [map]. apply rs_zero. intros x _. exact F0.
  - cbn [map fst snd] in *. inversion NE as [|? ? NK NE']; subst. destruct (in_split k l (I k (or_introl eq_refl))) as (l1 & l2 & ->).
    assert (P : Permutation (l1 ++ k :: l2) (k :: l1 ++ l2)) by (symmetry; apply Permutation_middle).
    rewrite (rs_perm _ _ (Permutation_map _ P)). change (rs (f v :: ?x)) with (f v + rs x). rewrite <- (IH _ NL NE' (fun x Hx => I x (or_intror Hx))).
    rewrite (rs_perm _ _ (Permutation_map (fun k => f (os_get e k)) P)). cbn [map]. unfold rs. cbn [fold_right]. rewrite (get_absent e k NK). change (@zn double (dbl_num L) 0) with (z2d 0). rewrite F0.
    pose proof (NoDup_remove_2 _ _ _ NL) as NI. cbn [os_get]. destruct (key_spec k k) as [_|E]; [|exfalso; apply E; reflexivity]. rewrite Rplus_0_l. f_equal. f_equal.
    apply map_ext_in. intros x Hx. cbn [os_get]. destruct (key_spec k x) as [E|E]; [subst x; contradiction|reflexivity].
Qed.
Variables (fuels : list fuel) (cats : list category).
Hypothesis (NF : NoDup fuels) (NC : NoDup cats) (AL : forall f c, In (f, c) os_slots -> In f fuels /\ In c cats).
Definition terms (rows : list (list double)) : list double := flat_map (fun row => map (os_get (os_row row)) (list_prod fuels cats)) rows.
Lemma terms_sum (f : double -> R) rows : f (z2d 0) = 0 -> Forall (fun row => length row = 13%nat) rows -> rs (map f (terms rows)) = rs (map f (concat rows)).
Proof.
  intros F0 H. unfold terms. induction H as [|row rows HL H IH]; [reflexivity|]. cbn [flat_map concat]. rewrite !map_app, !rs_app, IH. f_equal. rewrite map_map.
  rewrite (sum_get f F0 (os_row row) (list_prod fuels cats)).
  - rewrite row_is by exact HL. rewrite combine_snd by exact HL. reflexivity.
  - apply prod_nodup; assumption.
  - rewrite row_is, combine_fst by exact HL. exact slots_nodup.
  - rewrite row_is, combine_fst by exact HL. intros [a b] K. apply in_prod_iff. exact (AL a b K).
Qed.
Lemma total_terms rows : forall t, fold_left (fun total result => fold_left (fun total f => fold_left (fun total c => nadd total (os_get result (f, c))) cats total) fuels total) (map os_row rows) t
  = fold_left (Bplus mode_NE) (terms rows) t.
Proof.
  assert (I : forall (g : fuel * category -> double) f l t, fold_left (fun t c => nadd t (g (f, c))) l t = fold_left (Bplus mode_NE) (map g (map (fun c => (f, c)) l)) t).
  { intros g f. induction l as [|c l IH]; intros t; [reflexivity|]. cbn [fold_left map]. apply IH. }
  assert (J : forall (g : fuel * category -> double) fs t, fold_left (fun t f => fold_left (fun t c => nadd t (g (f, c))) cats t) fs t = fold_left (Bplus mode_NE) (map g (list_prod fs cats)) t).
  { intros g. induction fs as [|f fs IH]; intros t; [reflexivity|]. cbn [fold_left list_prod]. rewrite IH, I, map_app, fold_left_app. reflexivity. }
  induction rows as [|row rows IH]; intros t; [reflexivity|]. cbn [map fold_left]. unfold terms. cbn [flat_map]. rewrite fold_left_app, IH, (J (os_get (os_row row))). reflexivity.
Qed.
Lemma get_finite row k : length row = 13%nat -> Forall (fun x => is_finite x = true) row -> is_finite (os_get (os_row row) k) = true.
Proof.
  intros HL F. rewrite row_is by exact HL. clear HL. revert row F. generalize os_slots. induction l as [|k' l IH]; intros [|x row] F; try reflexivity.
  cbn [combine os_get]. inversion F; subst. destruct (key_eqb k' k); [assumption|apply IH; assumption].
Qed.
Lemma C117_l rows : summable rows -> right_to_10 (totalEnergyUse fuels cats (map os_row rows)) rows.
Proof.
  intros [S1 S2 S3 S4]. unfold totalEnergyUse. rewrite total_terms. change (@zn double (dbl_num L) 0) with (z2d 0).
  assert (FT : Forall (fun x => is_finite x = true) (terms rows)).
  { clear S1 S4. unfold terms. induction S2 as [|row rows HL H IH]; [constructor|]. cbn [concat flat_map] in *. apply Forall_app in S3 as [A B]. apply Forall_app. split; [|exact (IH B)].
    apply Forall_forall. intros x X. apply in_map_iff in X as (k & <- & _). apply get_finite; assumption. }
  assert (CT : (Z.of_nat (count (terms rows)) <= 200000)%Z).
  { assert (Q : INR (count (terms rows)) <= INR (13 * length rows)).
    { rewrite count_some, terms_sum; [|unfold some; change (B2R (z2d 0)) with 0; destruct (Req_EM_T 0 0); [reflexivity|contradiction]|exact S2].
      rewrite <- count_some. apply le_INR. clear -S2. induction S2 as [|row rows HL H IH]; [cbn; lia|]. cbn [concat length]. rewrite count_app.
      assert (K : forall l, (count l <= length l)%nat) by (induction l as [|x l IHl]; cbn [count length]; [lia|destruct (Req_EM_T (B2R x) 0); lia]). specialize (K row). lia. }
    apply INR_le in Q. lia. }
  assert (ES : exact_sum (terms rows) = table_sum rows) by (exact (terms_sum B2R rows eq_refl S2)).
  assert (EZ : size_sum (terms rows) = table_size rows) by (apply (terms_sum (fun x => Rabs (B2R x)) rows); [exact Rabs_R0|exact S2]).
  destruct (sum_sparse (terms rows) CT FT ltac:(rewrite EZ; exact S4)) as [F E]. split; [exact F|]. rewrite <- ES. eapply Rle_trans; [exact E|]. rewrite EZ.
  pose proof (power_two _ CT) as [P1 P2]. pose proof (size_pos (terms rows)) as P. rewrite EZ in P.
  assert (((1 + uro) ^ count (terms rows) - 1) * table_size rows <= / 10000000000 * table_size rows) by (apply Rmult_le_compat_r; lra). lra.
Qed.
End D.
