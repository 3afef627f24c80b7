(** Calculation rules for the extended reals. *)
From Coq Require Import Reals Lra ZArith Bool List.
From Verif Require Import Base Num Xr M_Params.
Import ListNotations.
Open Scope R_scope.

Lemma Rltb_true a b : a < b -> Rltb a b = true.
Proof. unfold Rltb. destruct (Rlt_dec a b); [reflexivity|contradiction]. Qed.
Lemma Rltb_false a b : b <= a -> Rltb a b = false.
Proof. unfold Rltb. destruct (Rlt_dec a b); [lra|reflexivity]. Qed.
Lemma Rltb_spec a b : BoolSpec (a < b) (b <= a) (Rltb a b).
Proof. unfold Rltb. destruct (Rlt_dec a b); constructor; lra. Qed.
Lemma Reqb_true a b : a = b -> Reqb a b = true.
Proof. unfold Reqb. destruct (Req_EM_T a b); [reflexivity|contradiction]. Qed.
Lemma Reqb_false a b : a <> b -> Reqb a b = false.
Proof. unfold Reqb. destruct (Req_EM_T a b); [contradiction|reflexivity]. Qed.
Lemma Reqb_spec a b : BoolSpec (a = b) (a <> b) (Reqb a b).
Proof. unfold Reqb. destruct (Req_EM_T a b); constructor; assumption. Qed.

(** ** The operations on finite values *)
Lemma lit_fin n d : lit n d = Fin (lit n d).  Proof. reflexivity. Qed.
Lemma zn_fin z : zn z = Fin (zn z).  Proof. reflexivity. Qed.
Lemma add_fin a b : nadd (Fin a) (Fin b) = Fin (nadd a b).  Proof. reflexivity. Qed.
Lemma sub_fin a b : nsub (Fin a) (Fin b) = Fin (nsub a b).  Proof. reflexivity. Qed.
Lemma mul_fin a b : nmul (Fin a) (Fin b) = Fin (nmul a b).  Proof. reflexivity. Qed.
Lemma opp_fin a : nopp (Fin a) = Fin (nopp a).  Proof. reflexivity. Qed.
Lemma abs_fin a : nabs (Fin a) = Fin (nabs a).  Proof. reflexivity. Qed.
Lemma div_fin a b : b <> 0 -> ndiv (Fin a) (Fin b) = Fin (ndiv a b).
Proof. intros H. cbn. destruct (Req_EM_T b 0); [contradiction|reflexivity]. Qed.
Lemma lt_fin a b : nlt (Fin a) (Fin b) = nlt a b.  Proof. reflexivity. Qed.
Lemma eqb_fin a b : neqb (Fin a) (Fin b) = neqb a b.  Proof. reflexivity. Qed.
Lemma max_fin a b : nmax (Fin a) (Fin b) = Fin (nmax a b).
Proof. unfold nmax. rewrite lt_fin. destruct (nlt a b); reflexivity. Qed.
Lemma min_fin a b : nmin (Fin a) (Fin b) = Fin (nmin a b).
Proof. unfold nmin. rewrite lt_fin. destruct (nlt b a); reflexivity. Qed.
Lemma pow_fin a b : 0 < a -> npow (Fin a) (Fin b) = Fin (npow a b).
Proof.
  intros H. cbn. unfold Rpow. destruct (Req_EM_T b 0) as [->|Hb].
  - destruct (Rlt_dec 0 a); [|lra]. unfold Rpower. rewrite Rmult_0_l, exp_0. reflexivity.
  - destruct (Rlt_dec 0 a); [reflexivity|lra].
Qed.
Lemma pow_fin0 a b : 0 <= a -> 0 < b -> npow (Fin a) (Fin b) = Fin (npow a b).
Proof.
  intros Ha Hb. destruct (Req_dec a 0) as [->|H]; [|apply pow_fin; lra].
  cbn. unfold Rpow. destruct (Req_EM_T b 0); [lra|]. destruct (Rlt_dec 0 0); [lra|].
  destruct (Req_EM_T 0 0); [|lra]. destruct (Rlt_dec 0 b); [reflexivity|lra].
Qed.
Lemma exp_fin a : nexp (Fin a) = Fin (nexp a).  Proof. reflexivity. Qed.
Lemma sin_fin a : nsin (Fin a) = Fin (nsin a).  Proof. reflexivity. Qed.
Lemma cos_fin a : ncos (Fin a) = Fin (ncos a).  Proof. reflexivity. Qed.
Lemma asin_fin a : -1 <= a <= 1 -> nasin (Fin a) = Fin (nasin a).
Proof. intros H. cbn. destruct (Rlt_dec a (-1)); [lra|]. destruct (Rlt_dec 1 a); [lra|reflexivity]. Qed.
Lemma acos_fin a : -1 <= a <= 1 -> nacos (Fin a) = Fin (nacos a).
Proof. intros H. cbn. destruct (Rlt_dec a (-1)); [lra|]. destruct (Rlt_dec 1 a); [lra|reflexivity]. Qed.
Lemma atan2_fin a b : natan2 (Fin a) (Fin b) = Fin (natan2 a b).  Proof. reflexivity. Qed.
Lemma dblmin_fin : ndblmin = Fin ndblmin.  Proof. reflexivity. Qed.
Lemma dblmax_fin : ndblmax = Fin ndblmax.  Proof. reflexivity. Qed.
Lemma if_fin (c : bool) a b : (if c then Fin a else Fin b) = Fin (if c then a else b).
Proof. destruct c; reflexivity. Qed.

Lemma fold_fin l : forall a, fold_left nadd (map Fin l) (Fin a) = Fin (fold_left nadd l a).
Proof. induction l as [|x l IH]; intros a; [reflexivity|]. cbn [map fold_left]. rewrite add_fin. apply IH. Qed.
Lemma accumulate_fin l : accumulate (map Fin l) = Fin (accumulate l).
Proof. unfold accumulate. rewrite zn_fin. apply fold_fin. Qed.

(** ** Reals: reading the generic operations *)
Lemma nmax_R a b : @nmax R R_num a b = Rmax a b.
Proof. unfold nmax. cbn. unfold Rltb, Rmax. destruct (Rlt_dec a b); destruct (Rle_dec a b); lra. Qed.
Lemma nmin_R a b : @nmin R R_num a b = Rmin a b.
Proof. unfold nmin. cbn. unfold Rltb, Rmin. destruct (Rlt_dec b a); destruct (Rle_dec a b); lra. Qed.

Lemma fold_add_acc (l : list R) : forall a, fold_left Rplus l a = a + fold_left Rplus l 0.
Proof.
  induction l as [|x l IH]; intros a; cbn [fold_left]; [ring|].
  rewrite IH, (IH (0 + x)). ring.
Qed.
Lemma fold_add_nonneg (l : list R) : (forall x, In x l -> 0 <= x) -> 0 <= fold_left Rplus l 0.
Proof.
  induction l as [|x l IH]; intros H; cbn [fold_left]; [lra|].
  rewrite fold_add_acc. specialize (IH (fun y Hy => H y (or_intror Hy))).
  pose proof (H x (or_introl eq_refl)). lra.
Qed.
Lemma accumulate_R (l : list R) : accumulate l = fold_left Rplus l 0.
Proof. unfold accumulate, zn. cbn. unfold Rlit. replace (0 / 1) with 0 by lra. reflexivity. Qed.

Lemma Rpower_pos x y : 0 < Rpower x y.
Proof. apply exp_pos. Qed.
Lemma Rpow_nonneg x y : 0 <= x -> 0 <= Rpow x y.
Proof.
  intros H. unfold Rpow. destruct (Rlt_dec 0 x); [left; apply Rpower_pos|].
  destruct (Req_EM_T y 0); [lra|]. destruct (Req_EM_T x 0); lra.
Qed.
Lemma Rpow_pos x y : 0 < x -> 0 < Rpow x y.
Proof. intros H. unfold Rpow. destruct (Rlt_dec 0 x); [apply Rpower_pos|lra]. Qed.

Lemma Rdblmin_pos : 0 < Rdblmin.
Proof. unfold Rdblmin. apply Rinv_0_lt_compat. apply pow_lt. lra. Qed.

Lemma pow2_mono (a b : nat) : (a <= b)%nat -> 2 ^ a <= 2 ^ b.
Proof. intros H. apply Rle_pow; [lra|exact H]. Qed.
Lemma Rdblmin_lt_1 : Rdblmin < 1.
Proof.
  unfold Rdblmin. rewrite <- Rinv_1. apply Rinv_lt_contravar; [|apply Rlt_pow_R1; [lra|apply Nat.lt_0_succ]].
  rewrite Rmult_1_l. apply pow_lt. lra.
Qed.
Lemma Rdblmax_big : 1 < Rdblmax.
Proof.
  unfold Rdblmax. assert (H : 1 < 2 ^ 1023) by (apply Rlt_pow_R1; [lra|apply Nat.lt_0_succ]).
  assert (H2 : 1 < 2 ^ 52) by (apply Rlt_pow_R1; [lra|apply Nat.lt_0_succ]).
  assert (H3 : / 2 ^ 52 < 1). { rewrite <- Rinv_1. apply Rinv_lt_contravar; lra. }
  nra.
Qed.
#[global] Opaque Rdblmin Rdblmax.

(** Turn the generic operations at [R] into the usual ones. *)
Ltac rnum := cbv [zn]; cbn [lit nadd nsub nmul ndiv nopp nabs nlt neqb npow nexp nsin ncos nasin nacos natan2
                            ntrunc ndblmin ndblmax R_num];
             rewrite ?nmax_R, ?nmin_R; cbv [Rlit].
Ltac rnum_in H := cbv [zn] in H; cbn [lit nadd nsub nmul ndiv nopp nabs nlt neqb npow nexp nsin ncos nasin nacos natan2
                            ntrunc ndblmin ndblmax R_num] in H;
             rewrite ?nmax_R, ?nmin_R in H; cbv [Rlit] in H.
