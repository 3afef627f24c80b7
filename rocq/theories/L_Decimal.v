From Coq Require Import Ascii String ZArith List Bool Reals Lra Psatz Lia.
From Flocq Require Import Core.Core IEEE754.BinarySingleNaN.
From Verif Require Import Base Num Text Xr Dbl L_Dbl M_Text M_Properties M_Decimal S_Text S_Properties S_Decimal E_Decimal L_Text L_Properties.
Import ListNotations.
Open Scope list_scope.
Open Scope R_scope.

Lemma figure_char : forall d, (0 <= d <= 9)%Z -> figure d (digitChar d).
Proof.
  intros d H. split; [lia|]. assert (C : (d = 0 \/ d = 1 \/ d = 2 \/ d = 3 \/ d = 4 \/ d = 5 \/ d = 6 \/ d = 7 \/ d = 8 \/ d = 9)%Z) by lia.
  repeat (destruct C as [-> | C]; [reflexivity|]). subst d. reflexivity.
Qed.
Lemma digits_spell : forall fuel n, (0 <= n < 2 ^ Z.of_nat fuel)%Z -> spells (digitsOf fuel n) n.
Proof.
  induction fuel as [|f IH]; intros n H; cbn [digitsOf].
  - assert (n = 0%Z) by (change (2 ^ Z.of_nat 0)%Z with 1%Z in H; lia). subst n. apply sp_one, figure_char. lia.
  - destruct (Z.ltb_spec n 10) as [L|L]; [apply sp_one, figure_char; lia|].
    rewrite (Z.div_mod n 10) at 3 by lia. pose proof (Z.mod_pos_bound n 10 ltac:(lia)). apply sp_more; [|apply figure_char; lia].
    apply IH. rewrite Nat2Z.inj_succ, Z.pow_succ_r in H by lia. split; [apply Z.div_pos; lia|]. apply Z.div_lt_upper_bound; lia.
Qed.
Lemma six_spell : forall n, (0 <= n < 1000000)%Z -> spells (sixDigits n) n.
Proof.
  intros n H. unfold sixDigits.
  assert (B : forall k, (0 <= k mod 10 <= 9)%Z) by (intros k; pose proof (Z.mod_pos_bound k 10 ltac:(lia)); lia).
  assert (E : (n = 10 * (10 * (10 * (10 * (10 * (n / 100000 mod 10) + n / 10000 mod 10) + n / 1000 mod 10) + n / 100 mod 10) + n / 10 mod 10) + n mod 10)%Z).
  { assert (D : forall a k, (0 < k -> a / (10 * k) = (a / k) / 10)%Z) by (intros a k K; rewrite Z.div_div by lia; f_equal; lia).
    assert (D1 : (n / 100 = n / 10 / 10)%Z) by (apply (D n 10%Z); lia). assert (D2 : (n / 1000 = n / 100 / 10)%Z) by (apply (D n 100%Z); lia).
    assert (D3 : (n / 10000 = n / 1000 / 10)%Z) by (apply (D n 1000%Z); lia). assert (D4 : (n / 100000 = n / 10000 / 10)%Z) by (apply (D n 10000%Z); lia).
    assert (S5 : (n / 100000 mod 10 = n / 100000)%Z). { apply Z.mod_small. split; [apply Z.div_pos; lia|]. apply Z.div_lt_upper_bound; lia. }
    rewrite S5. clear S5 B D.
    pose proof (Z.div_mod n 10 ltac:(lia)). pose proof (Z.div_mod (n / 10) 10 ltac:(lia)). pose proof (Z.div_mod (n / 100) 10 ltac:(lia)).
    pose proof (Z.div_mod (n / 1000) 10 ltac:(lia)). pose proof (Z.div_mod (n / 10000) 10 ltac:(lia)). lia. }
  rewrite E at 7.
  apply (sp_more [_; _; _; _; _]); [|apply figure_char, B]. apply (sp_more [_; _; _; _]); [|apply figure_char, B]. apply (sp_more [_; _; _]); [|apply figure_char, B].
  apply (sp_more [_; _]); [|apply figure_char, B]. apply (sp_more [_]); [|apply figure_char, B]. apply sp_one, figure_char, B.
Qed.

(** ** The printed millionths *)
Lemma millionths_close : forall m e, (0 <= millionths m e)%Z /\ Rabs (IZR (millionths m e) - F2R (Float radix2 (Zpos m) e) * 1000000) <= / 2.
Proof.
  intros m e. unfold millionths. destruct (Z.leb_spec 0 e) as [E|E].
  - assert (0 < 2 ^ e)%Z by (apply Z.pow_pos_nonneg; lia). split; [lia|]. unfold F2R. cbn [Fnum Fexp]. rewrite <- (IZR_Zpower radix2) by lia. change (radix_val radix2) with 2%Z.
    rewrite !mult_IZR. replace (_ - _) with 0 by ring. rewrite Rabs_R0. lra.
  - set (d := (2 ^ (- e))%Z). assert (D : (0 < d)%Z) by (apply Z.pow_pos_nonneg; lia). set (n := (Zpos m * 1000000)%Z). assert (N : (0 < n)%Z) by lia.
    assert (Q : F2R (Float radix2 (Zpos m) e) * 1000000 = IZR n / IZR d).
    { unfold F2R. cbn [Fnum Fexp]. unfold n, d. rewrite mult_IZR. replace e with (- - e)%Z at 1 by lia. rewrite bpow_opp, <- (IZR_Zpower radix2) by lia. change (radix_val radix2) with 2%Z. unfold Rdiv. ring. }
    rewrite Q. clear Q. clearbody n d. pose proof (Z.div_mod n d ltac:(lia)) as DM. pose proof (Z.mod_pos_bound n d D) as MB.
    assert (QP : (0 <= n / d)%Z) by (apply Z.div_pos; lia). set (q := (n / d)%Z) in *. set (r := (n mod d)%Z) in *. clearbody q r. subst n.
    assert (DR : 0 < IZR d) by (apply IZR_lt; lia). rewrite plus_IZR, mult_IZR.
    assert (F : forall z, Rabs (IZR z - (IZR d * IZR q + IZR r) / IZR d) = Rabs (IZR d * (IZR z - IZR q) - IZR r) / IZR d).
    { intros z. replace (IZR z - (IZR d * IZR q + IZR r) / IZR d) with ((IZR d * (IZR z - IZR q) - IZR r) / IZR d) by (field; lra). unfold Rdiv. rewrite Rabs_mult, (Rabs_pos_eq (/ IZR d)); [reflexivity|]. left. apply Rinv_0_lt_compat. exact DR. }
    assert (G : forall z, (2 * Z.abs (d * (z - q) - r) <= d)%Z -> Rabs (IZR z - (IZR d * IZR q + IZR r) / IZR d) <= / 2).
    { intros z H. rewrite F. rewrite <- minus_IZR, <- mult_IZR, <- minus_IZR, <- abs_IZR. apply IZR_le in H. rewrite mult_IZR in H. apply Rmult_le_reg_r with (IZR d); [exact DR|].
      unfold Rdiv. rewrite Rmult_assoc, Rinv_l by lra. lra. }
    destruct (Z.compare_spec (2 * r) d) as [C|C|C].
    + destruct (Z.even q); (split; [lia|]); apply G; lia.
    + split; [lia|]. apply G. lia.
    + split; [lia|]. apply G. lia.
Qed.

(** What toString writes for a finite double: the nearest millionth. *)
Lemma printed : forall x : double, is_finite x = true -> exists neg whole part w f,
  toString x = decimal_text neg whole part /\ spells whole w /\ spells part f /\ length part = 6%nat /\ (0 <= w)%Z /\ (0 <= f < 1000000)%Z /\
  Rabs (decimal_value neg w part f - B2R x) * 1000000 <= / 2.
Proof.
  intros x F. destruct x as [s| | |s m e pf]; try discriminate.
  - exists s, (tx "0"), (tx "000000"), 0%Z, 0%Z. split; [reflexivity|]. assert (Z0 : figure 0 "0"%char) by (split; [lia|reflexivity]).
    split; [apply sp_one, Z0|]. split.
    { apply (sp_more ["0"; "0"; "0"; "0"; "0"]%char 0 0); [|exact Z0]. apply (sp_more ["0"; "0"; "0"; "0"]%char 0 0); [|exact Z0]. apply (sp_more ["0"; "0"; "0"]%char 0 0); [|exact Z0].
      apply (sp_more ["0"; "0"]%char 0 0); [|exact Z0]. apply (sp_more ["0"]%char 0 0); [|exact Z0]. apply sp_one, Z0. }
    split; [reflexivity|]. split; [lia|]. split; [lia|]. unfold decimal_value. cbn [B2R]. replace (_ - 0) with 0 by (unfold Rdiv; destruct s; ring). rewrite Rabs_R0. lra.
  - destruct (millionths_close m e) as [P C]. set (n := millionths m e) in *.
    exists s, (digitsOf (S (Z.to_nat (Z.log2 n))) (n / 1000000)), (sixDigits (n mod 1000000)), (n / 1000000)%Z, (n mod 1000000)%Z.
    pose proof (Z.mod_pos_bound n 1000000 ltac:(lia)) as MB. pose proof (Z.div_mod n 1000000 ltac:(lia)) as DM.
    assert (DP : (0 <= n / 1000000)%Z) by (apply Z.div_pos; lia).
    split; [reflexivity|]. split.
    { apply digits_spell. split; [exact DP|]. pose proof (Z.log2_nonneg n). rewrite Nat2Z.inj_succ, Z2Nat.id by assumption.
      destruct (Z.eq_dec n 0) as [E|E]; [rewrite E; reflexivity|]. pose proof (Z.log2_spec n ltac:(lia)). lia. }
    split; [apply six_spell; exact MB|]. split; [reflexivity|]. split; [exact DP|]. split; [exact MB|].
    clearbody n. change (length (sixDigits (n mod 1000000))) with 6%nat. unfold decimal_value. change (length (sixDigits (n mod 1000000))) with 6%nat.
    assert (V : IZR (n / 1000000) + IZR (n mod 1000000) / 10 ^ 6 = IZR n / 1000000). { rewrite DM at 3. rewrite plus_IZR, mult_IZR. field. }
    rewrite V. cbn [B2R]. set (v := F2R (Float radix2 (Zpos m) e)) in *.
    assert (SV : F2R (Float radix2 (cond_Zopp s (Zpos m)) e) = (if s then -1 else 1) * v).
    { unfold v. destruct s; cbn [cond_Zopp]; [|ring]. change (- Zpos m)%Z with (Z.opp (Zpos m)). rewrite F2R_Zopp. ring. }
    rewrite SV. clearbody v. replace ((if s then -1 else 1) * (IZR n / 1000000) - (if s then -1 else 1) * v) with ((if s then -1 else 1) * (IZR n / 1000000 - v)) by ring.
    rewrite Rabs_mult. replace (Rabs (if s then -1 else 1)) with 1 by (destruct s; [rewrite Rabs_left; lra|rewrite Rabs_right; lra]). rewrite Rmult_1_l.
    rewrite <- (Rabs_pos_eq 1000000) at 2 by lra. rewrite <- Rabs_mult. replace ((IZR n / 1000000 - v) * 1000000) with (IZR n - v * 1000000) by field. exact C.
Qed.

(** Whatever toString writes is a decimal that the reader accepts and that lies no further from its double. *)
Lemma nearest_rnd : forall r, nearest r = rnd r.
Proof. reflexivity. Qed.
Lemma nearest_own : forall (x : double) r, Rabs (nearest r - r) <= Rabs (B2R x - r).
Proof.
  intros x r. unfold nearest. destruct (round_N_pt radix2 (FLT_exp (-1074) 53) (fun z => negb (Z.even z)) r) as [_ H]. apply H. apply (generic_format_B2R 53 1024 x).
Qed.
Section Read.
Variables (rd : reader double) (m : props) (k k' : text) (x : double).
Hypothesis HR : reads_decimals rd.
Hypothesis HK : same_word k k'.
Hypothesis HF : is_finite x = true.

Lemma put_back : exists neg w part f y, length part = 6%nat /\ (0 <= w)%Z /\ (0 <= f < 1000000)%Z /\
  Rabs (decimal_value neg w part f - B2R x) * 1000000 <= / 2 /\
  getPropertyAsDouble rd (putPropertyDouble toString m k x) k' = Ok (Some y) /\ is_finite y = true /\ B2R y = nearest (decimal_value neg w part f).
Proof.
  destruct (printed x HF) as (neg&whole&part&w&f&T&S1&S2&L&W&F&C). exists neg, w, part, f.
  destruct (HR neg whole part w f S1 S2) as (y&Y1&Y2&Y3).
  - destruct (Z.eq_dec w 0) as [E|E]; [destruct (Z.eq_dec f 0) as [E2|E2]|].
    + left. subst w f. unfold decimal_value, Rdiv. rewrite L. ring.
    + right. unfold decimal_value. rewrite L, Rabs_mult. replace (Rabs (if neg then -1 else 1)) with 1 by (destruct neg; [rewrite Rabs_left; lra|rewrite Rabs_right; lra]).
      apply Rle_trans with (bpow radix2 (-20)); [apply bpow_le; lia|]. change (bpow radix2 (-20)) with (/ 1048576). assert (1 <= IZR f) by (apply IZR_le; lia). assert (0 <= IZR w) by (apply IZR_le; lia).
      replace (10 ^ 6) with 1000000 by ring. rewrite Rabs_pos_eq by lra. lra.
    + right. unfold decimal_value. rewrite L, Rabs_mult. replace (Rabs (if neg then -1 else 1)) with 1 by (destruct neg; [rewrite Rabs_left; lra|rewrite Rabs_right; lra]).
      apply Rle_trans with (bpow radix2 0); [apply bpow_le; lia|]. change (bpow radix2 0) with 1. assert (0 <= IZR f) by (apply IZR_le; lia). assert (1 <= IZR w) by (apply IZR_le; lia).
      replace (10 ^ 6) with 1000000 by ring. rewrite Rabs_pos_eq by lra. lra.
  - set (r := decimal_value neg w part f) in *. clearbody r. pose proof (nearest_own x r) as N. pose proof (abs_B2R_le_emax_minus_prec 53 1024 _ x) as B.
    assert (P : 1 <= bpow radix2 (1024 - 53)) by (change 1 with (bpow radix2 0); apply bpow_le; lia). set (h := bpow radix2 1024) in *. set (q := bpow radix2 (1024 - 53)) in *. clearbody h q.
    pose proof (Rabs_triang (nearest r - r) r) as T1. replace (nearest r - r + r) with (nearest r) in T1 by ring.
    pose proof (Rabs_triang (r - B2R x) (B2R x)) as T2. replace (r - B2R x + B2R x) with r in T2 by ring. rewrite (Rabs_minus_sym (B2R x) r) in N. lra.
  - exists y. split; [exact L|]. split; [exact W|]. split; [exact F|]. split; [exact C|]. split; [|split; assumption].
    unfold getPropertyAsDouble, putPropertyDouble. fold (putProperty m k (toString x)). rewrite (proj1 (get_put m k (toString x) k') HK), T, Y1. reflexivity.
Qed.
Lemma C106_close_l : exists y, getPropertyAsDouble rd (putPropertyDouble toString m k x) k' = Ok (Some y) /\ is_finite y = true /\ Rabs (B2R y - B2R x) <= / 1000000.
Proof.
  destruct put_back as (neg&w&part&f&y&_&_&_&C&Y1&Y2&Y3). exists y. split; [exact Y1|]. split; [exact Y2|]. rewrite Y3. set (r := decimal_value neg w part f) in *. clearbody r.
  pose proof (nearest_own x r) as N. rewrite (Rabs_minus_sym (B2R x) r) in N. replace (nearest r - B2R x) with ((nearest r - r) + (r - B2R x)) by ring. eapply Rle_trans; [apply Rabs_triang|]. lra.
Qed.
(** A double that stands for a decimal with six places. *)
Lemma C106_six_l : forall n : Z, Rabs (B2R x * 1000000 - IZR n) < / 2 -> exists y, getPropertyAsDouble rd (putPropertyDouble toString m k x) k' = Ok (Some y) /\ is_finite y = true /\ B2R y = nearest (IZR n / 1000000).
Proof.
  intros n H. destruct put_back as (neg&w&part&f&y&L&_&_&C&Y1&Y2&Y3). exists y. split; [exact Y1|]. split; [exact Y2|]. rewrite Y3. f_equal. clear Y1 Y2 Y3.
  assert (V : exists z : Z, decimal_value neg w part f = IZR z / 1000000).
  { exists ((if neg then -1 else 1) * (w * 1000000 + f))%Z. unfold decimal_value. rewrite L, mult_IZR, plus_IZR, mult_IZR. replace (10 ^ 6) with 1000000 by ring. destruct neg; field. }
  destruct V as (z&V). rewrite V in *. f_equal. f_equal. clear V. apply eq_IZR. enough (z = n) by congruence.
  assert (A : Rabs (IZR z - B2R x * 1000000) <= / 2).
  { rewrite <- (Rabs_pos_eq 1000000) in C at 2 by lra. rewrite <- Rabs_mult in C. replace ((IZR z / 1000000 - B2R x) * 1000000) with (IZR z - B2R x * 1000000) in C by field. exact C. }
  pose proof (Rabs_triang (IZR z - B2R x * 1000000) (B2R x * 1000000 - IZR n)) as T. replace (IZR z - B2R x * 1000000 + (B2R x * 1000000 - IZR n)) with (IZR (z - n)) in T by (rewrite minus_IZR; ring).
  assert (Q : Rabs (IZR (z - n)) < 1) by lra. rewrite <- abs_IZR in Q. apply lt_IZR in Q. lia.
Qed.
End Read.
