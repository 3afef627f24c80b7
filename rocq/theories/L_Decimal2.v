From Coq Require Import Ascii String ZArith List Bool Reals Lra Psatz Lia.
From Flocq Require Import Core.Core IEEE754.BinarySingleNaN.
From Verif Require Import Base Num Text Xr Dbl L_Dbl M_Text M_Properties M_Decimal S_Text S_Properties S_Decimal S_DoubleMonthly E_Decimal L_Text L_Properties L_Decimal L_Double2 L_Double7.
Import ListNotations.
Open Scope list_scope.
Open Scope R_scope.

Lemma C106_text_l : forall T (to_text : T -> text) m k v k',
  (same_word k k' -> getProperty (putPropertyDouble to_text m k v) k' = Some (to_text v)) /\
  (~ same_word k k' -> getProperty (putPropertyDouble to_text m k v) k' = getProperty m k').
Proof. intros T to_text m k v k'. exact (get_put m k (to_text v) k'). Qed.

Lemma C106_whole_l : forall rd m k k' (x : double) z, reads_decimals rd -> same_word k k' -> is_finite x = true -> B2R x = IZR z ->
  exists y, getPropertyAsDouble rd (putPropertyDouble toString m k x) k' = Ok (Some y) /\ is_finite y = true /\ B2R y = B2R x.
Proof.
  intros rd m k k' x z HR HK HF HZ. destruct (C106_six_l rd m k k' x HR HK HF (z * 1000000)) as (y&Y1&Y2&Y3).
  - rewrite HZ, mult_IZR. replace (_ - _) with 0 by ring. rewrite Rabs_R0. lra.
  - exists y. split; [exact Y1|]. split; [exact Y2|]. rewrite Y3, mult_IZR. replace (IZR z * 1000000 / 1000000) with (B2R x) by (rewrite HZ; field).
    unfold nearest. apply round_generic; [apply valid_rnd_N|apply (generic_format_B2R 53 1024 x)].
Qed.
Lemma C106_six_places_l : forall rd m k k' (x : double) n, reads_decimals rd -> same_word k k' -> is_finite x = true ->
  (Z.abs n <= 10 ^ 15)%Z -> B2R x = nearest (IZR n / 1000000) ->
  exists y, getPropertyAsDouble rd (putPropertyDouble toString m k x) k' = Ok (Some y) /\ is_finite y = true /\ B2R y = B2R x.
Proof.
  intros rd m k k' x n HR HK HF HN HX. destruct (C106_six_l rd m k k' x HR HK HF n) as (y&Y1&Y2&Y3).
  - rewrite HX, nearest_rnd. destruct (div_eps (IZR n / 1000000)) as (e&t&E1&E2&->).
    replace ((IZR n / 1000000 * (1 + e) + t) * 1000000 - IZR n) with (IZR n * e + t * 1000000) by field.
    eapply Rle_lt_trans; [apply Rabs_triang|]. rewrite !Rabs_mult, <- abs_IZR, (Rabs_pos_eq 1000000) by lra. apply IZR_le in HN. change (10 ^ 15)%Z with 1000000000000000%Z in HN.
    assert (S : smallest_step <= / 1000000000). { unfold smallest_step. apply Rinv_le_contravar; [lra|]. apply IZR_le. vm_compute. discriminate. }
    assert (P : IZR (Z.abs n) * Rabs e <= 1000000000000000 * uro). { apply Rmult_le_compat; [apply IZR_le, Z.abs_nonneg|apply Rabs_pos|exact HN|exact E1]. }
    rewrite uro_val in P. lra.
  - exists y. split; [exact Y1|]. split; [exact Y2|]. rewrite Y3. symmetry. exact HX.
Qed.

(** 2^-23, about a tenth of a millionth. *)
Definition tiny : double := @B754_finite 53 1024 false 4503599627370496 (-75) eq_refl.
Lemma tiny_val : is_finite tiny = true /\ B2R tiny = / 8388608.
Proof. split; [reflexivity|]. cbn [B2R tiny cond_Zopp]. unfold F2R. cbn [Fnum Fexp]. change (bpow radix2 (-75)) with (/ 37778931862957161709568). lra. Qed.
Lemma C106_refuted_l : B2R tiny <> 0 /\ is_finite tiny = true /\
  forall rd m k k', reads_decimals rd -> same_word k k' ->
  exists y, getPropertyAsDouble rd (putPropertyDouble toString m k tiny) k' = Ok (Some y) /\ B2R y = 0.
Proof.
  destruct tiny_val as [F V]. split; [rewrite V; lra|]. split; [exact F|]. intros rd m k k' HR HK.
  destruct (C106_six_l rd m k k' tiny HR HK F 0) as (y&Y1&Y2&Y3).
  - rewrite V, Rabs_pos_eq; lra.
  - exists y. split; [exact Y1|]. rewrite Y3. unfold Rdiv. rewrite Rmult_0_l. apply round_0, valid_rnd_N.
Qed.

(** ** A reader of this kind exists *)
Definition near (r : R) : double :=
  binary_normalize 53 1024 eq_refl eq_refl mode_NE (Ztrunc (scaled_mantissa radix2 (FLT_exp (-1074) 53) (nearest r))) (cexp radix2 (FLT_exp (-1074) 53) (nearest r)) false.
Lemma near_ok : forall r, Rabs (nearest r) < bpow radix2 1024 -> is_finite (near r) = true /\ B2R (near r) = nearest r.
Proof.
  intros r H. assert (G : generic_format radix2 (FLT_exp (-1074) 53) (nearest r)) by (apply generic_format_round; [apply FLT_exp_valid; reflexivity|apply valid_rnd_N]).
  unfold near. set (mm := Ztrunc _). set (ee := cexp _ _ _). assert (E : F2R (Float radix2 mm ee) = nearest r) by (symmetry; exact G).
  pose proof (binary_normalize_correct 53 1024 eq_refl eq_refl mode_NE mm ee false) as C. cbv zeta in C. rewrite E in C.
  replace (round radix2 (SpecFloat.fexp 53 1024) (round_mode mode_NE) (nearest r)) with (nearest r) in C.
  2:{ symmetry. apply round_generic; [apply valid_rnd_N|exact G]. }
  rewrite Rlt_bool_true in C by exact H. destruct C as (C1&C2&_). split; assumption.
Qed.
Definition near_stod (s : text) : parsed double :=
  let (neg, s1) := sign s in
  let '(w, n, s2) := digits s1 0 0 in
  match s2 with
  | "."%char :: t => let '(f, k, _) := digits t 0 0 in Value (near (decimal_value neg w t f))
  | _ => NoConversion
  end.
Definition near_reader : reader double := mkReader near_stod integer (fun s => match near_stod s with Value x => x | _ => z2d 0 end).

Lemma figure_digit : forall d c, figure d c -> digit c = Some d /\ (0 <= d <= 9)%Z.
Proof.
  intros d c [P H]. assert (B : (Z.to_nat d < 10)%nat) by (change 10%nat with (length (tx "0123456789")); apply nth_error_Some; congruence).
  assert (C : (d = 0 \/ d = 1 \/ d = 2 \/ d = 3 \/ d = 4 \/ d = 5 \/ d = 6 \/ d = 7 \/ d = 8 \/ d = 9)%Z) by lia. clear B P.
  repeat (destruct C as [-> | C]; [injection H as <-; split; [reflexivity|lia]|]). subst d. injection H as <-. split; [reflexivity|lia].
Qed.
Lemma digits_app : forall s n, spells s n -> forall rest acc k, (0 < length s)%nat /\ digits (s ++ rest) acc k = digits rest (acc * 10 ^ Z.of_nat (length s) + n) (k + length s).
Proof.
  induction 1 as [d c F|s n d c S IH F]; intros rest acc k; destruct (figure_digit _ _ F) as [D _].
  - split; [cbn; lia|]. cbn [app digits length]. rewrite D, Nat.add_1_r. f_equal.
  - split; [rewrite app_length; cbn; lia|]. rewrite <- app_assoc. destruct (IH ([c] ++ rest) acc k) as [_ ->]. cbn [app digits]. rewrite D, app_length. cbn [length].
    f_equal; [|lia]. rewrite Nat2Z.inj_add, Z.pow_add_r by lia. change (10 ^ Z.of_nat 1)%Z with 10%Z. ring.
Qed.
Lemma spells_head : forall s n, spells s n -> exists c t d, s = c :: t /\ figure d c.
Proof.
  induction 1 as [d c F|s n d c S (c0&t&d0&->&F0) F]; [exists c, [], d; split; [reflexivity|exact F]|]. exists c0, (t ++ [c]), d0. split; [reflexivity|exact F0].
Qed.
Lemma sign_text : forall neg whole w part, spells whole w -> sign (decimal_text neg whole part) = (neg, whole ++ tx "." ++ part).
Proof.
  intros neg whole w part S. unfold decimal_text. destruct neg; [reflexivity|]. destruct (spells_head _ _ S) as (c&t&d&->&P&H). cbn [app].
  assert (B : (Z.to_nat d < 10)%nat) by (change 10%nat with (length (tx "0123456789")); apply nth_error_Some; congruence).
  assert (C : (d = 0 \/ d = 1 \/ d = 2 \/ d = 3 \/ d = 4 \/ d = 5 \/ d = 6 \/ d = 7 \/ d = 8 \/ d = 9)%Z) by lia. clear B P.
  repeat (destruct C as [-> | C]; [injection H as <-; reflexivity|]). subst d. injection H as <-. reflexivity.
Qed.
Lemma near_reads : reads_decimals near_reader.
Proof.
  intros neg whole part w f S1 S2 r _ HB. exists (near r). destruct (near_ok r HB) as [F V]. split; [|split; assumption].
  cbn [near_reader rd_stod]. unfold near_stod. rewrite (sign_text _ _ _ _ S1). destruct (digits_app _ _ S1 (tx "." ++ part) 0%Z 0%nat) as [_ ->].
  change (tx "." ++ part) with ("."%char :: part). cbn [digits]. change (digit ".") with (@None Z). cbv iota.
  pose proof (proj2 (digits_app _ _ S2 [] 0%Z 0%nat)) as D. rewrite app_nil_r in D. rewrite D. cbn [digits]. rewrite !Z.mul_0_l, !Z.add_0_l. reflexivity.
Qed.
(** The tenth, and the nearest double to 0.1. *)
Lemma tenth_ok : exists x : double, is_finite x = true /\ B2R x = nearest (IZR 100000 / 1000000) /\ B2R x <> IZR 0.
Proof.
  assert (B : Rabs (nearest (IZR 100000 / 1000000) - IZR 100000 / 1000000) <= Rabs (B2R tiny - IZR 100000 / 1000000)) by apply nearest_own.
  rewrite (proj2 tiny_val) in B. set (v := nearest _) in *. rewrite (Rabs_left (/ 8388608 - _)) in B by lra.
  assert (P : 0 < v < 1). { clearbody v. unfold Rabs in B. destruct (Rcase_abs _) in B; lra. }
  destruct (near_ok (IZR 100000 / 1000000)) as [F V].
  - fold v. rewrite Rabs_pos_eq by lra. apply Rlt_trans with 1; [lra|]. change 1 with (bpow radix2 0). apply bpow_lt. lia.
  - exists (near (IZR 100000 / 1000000)). split; [exact F|]. split; [exact V|]. rewrite V. fold v. lra.
Qed.
Lemma C106_lost_l : exists x : double, is_finite x = true /\ B2R x <> 0 /\
  forall rd m k k', reads_decimals rd -> same_word k k' ->
  exists y, getPropertyAsDouble rd (putPropertyDouble toString m k x) k' = Ok (Some y) /\ B2R y = 0.
Proof. exists tiny. destruct C106_refuted_l as (A&B&C). split; [exact B|]. split; [exact A|exact C]. Qed.
