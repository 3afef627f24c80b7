(** Scaling by a positive factor passes through the calculation of an end use. *)
From Coq Require Import Reals Lra Psatz String List ZArith Lia Bool.
From Verif Require Import Base Num Xr M_Params M_UserModel M_Hourly M_Monthly S_Calendar S_Loading S_Results S_Inputs S_Scaling
  L_Xr L_Calendar L_HourlyShape L_HourlyOut L_Inputs L_Inputs2.
Import ListNotations.
Open Scope R_scope.

Lemma incl_b (l m : list string) : forallb (fun k => existsb (String.eqb k) m) l = true -> incl l m.
Proof. intros E k I. rewrite forallb_forall in E. apply key_in, E, I. Qed.
Lemma same_incl {T} (l m : list string) (u u' : building_model T) : same_parameters m u u' ->
  forallb (fun k => existsb (String.eqb k) m) l = true -> same_parameters l u u'.
Proof. intros S E k I. apply S, (incl_b _ _ E), I. Qed.
Lemma multiplied_numbers c keys (u u' : building_model xr) : (forall key, In key keys -> multiplied c key u u') ->
  reads number_of keys u' = map (option_map (fun x => xmul x (Fin c))) (reads number_of keys u).
Proof.
  intros H. unfold reads. rewrite map_map. apply map_ext_in. intros key I. destruct (number_of key) as [p|] eqn:E; [|reflexivity].
  cbn. f_equal. apply (H key I), find_key, E.
Qed.

(** ** Scaled numbers *)
Section Times.
Variable c : R.
Hypothesis Hc : 0 < c.
Definition tm (x : xr) : xr := xmul x (Fin c).
Ltac split_dec := repeat (progress (unfold xscale, Rltb, Reqb; cbn) ||
  match goal with |- context [Rlt_dec ?a ?b] => destruct (Rlt_dec a b) | |- context [Req_EM_T ?a ?b] => destruct (Req_EM_T a b) end).
Ltac go := unfold tm; repeat match goal with x : xr |- _ => destruct x end; split_dec;
  try reflexivity; try (exfalso; nra); try (f_equal; first [ring|field; lra]).
Lemma cinv : 0 < / c.  Proof. apply Rinv_0_lt_compat, Hc. Qed.
Lemma tm_add a b : xadd (tm a) (tm b) = tm (xadd a b).
Proof. go. Qed.
Lemma tm_zero : tm (Fin 0) = Fin 0.
Proof. unfold tm. cbn. f_equal. ring. Qed.
Lemma zn0 : @zn xr _ 0 = Fin 0.
Proof. unfold zn. cbn. unfold Rlit. f_equal. lra. Qed.
Lemma tm_zn0 : tm (zn 0) = zn 0.
Proof. rewrite zn0. apply tm_zero. Qed.
Lemma tm_sub0 a : xsub (tm a) (Fin 0) = tm (xsub a (Fin 0)).
Proof. go. Qed.
Lemma tm_mul_l a b : xmul (tm a) b = tm (xmul a b).
Proof. go. Qed.
Lemma tm_mul_r a b : xmul a (tm b) = tm (xmul a b).
Proof. go. Qed.
Lemma tm_div a b : xdiv (tm a) b = tm (xdiv a b).
Proof. go. Qed.
Lemma tm_max0 a : nmax (tm a) (Fin 0) = tm (nmax a (Fin 0)).
Proof. unfold nmax. go. Qed.
Lemma tm_eq0 a : neqb (tm a) (Fin 0) = neqb a (Fin 0).
Proof. go. Qed.
Lemma tm_if (b : bool) x y : (if b then tm x else tm y) = tm (if b then x else y).
Proof. destruct b; reflexivity. Qed.
End Times.
Lemma div_tm c a b : 0 < c -> xdiv a (tm c b) = tm (/ c) (xdiv a b).
Proof.
  intros Hc. pose proof (Rinv_0_lt_compat _ Hc) as Hi. unfold tm. destruct a as [x| | |], b as [y| | |]; cbn; try reflexivity;
  repeat (progress (unfold xscale; cbn) || match goal with |- context [Rlt_dec ?a ?b] => destruct (Rlt_dec a b) | |- context [Req_EM_T ?a ?b] => destruct (Req_EM_T a b) end);
  try reflexivity; try (exfalso; nra); try (f_equal; first [ring|field; split; nra]).
Qed.

(** ** The columns of the hourly engine *)
Lemma Forall2_map_by {A B} (f : A -> B) (g : B -> B) l l' : Forall2 (fun a b => f b = g (f a)) l l' -> map f l' = map g (map f l).
Proof. induction 1 as [|a b l l' E _ IH]; cbn; [reflexivity|]. rewrite E, IH. reflexivity. Qed.

Lemma key_number {T} key (p : building_model T -> T) : number_of key = Some p -> In (key, p) (required_numbers ++ optional_numbers).
Proof. apply find_key. Qed.
Lemma key_times c keys key (u u' : building_model xr) p : (forall k, In k keys -> multiplied c k u u') -> existsb (String.eqb key) keys = true ->
  number_of key = Some p -> p u' = tm c (p u).
Proof. intros M E F. exact (M key (key_in _ _ E) p (key_number _ _ F)). Qed.
Lemma key_same {T} keys key (u u' : building_model T) p : same_parameters keys u u' -> existsb (String.eqb key) keys = true ->
  number_of key = Some p -> p u' = p u.
Proof. intros M E F. exact (proj1 (M key (key_in _ _ E)) p (key_number _ _ F)). Qed.
Lemma flag_same {T} keys key (u u' : building_model T) p : same_parameters keys u u' -> existsb (String.eqb key) keys = true ->
  flag_of key = Some p -> p u' = p u.
Proof. intros M E F. exact (proj1 (proj2 (M key (key_in _ _ E))) p (find_key _ _ _ F)). Qed.
Lemma word_same {T} keys key (u u' : building_model T) p : same_parameters keys u u' -> existsb (String.eqb key) keys = true ->
  word_of key = Some p -> p u' = p u.
Proof.
  intros M E F. pose proof (same_words keys u u' M) as W. pose proof (key_in _ _ E) as I.
  assert (X : option_map (fun p => p u') (word_of key) = option_map (fun p => p u) (word_of key)).
  { unfold reads in W. clear E. induction keys as [|k keys IH]; [destruct I|]. cbn [map] in W. injection W as W1 W2.
    destruct I as [<-|I]; [exact W1|]. apply IH; [|exact W2|exact I]. intros x Ix. apply M. right. exact Ix. }
  rewrite F in X. cbn in X. congruence.
Qed.
Section Sums.
Variable c : R.
Hypothesis Hc : 0 < c.
Lemma tm_sum l : accumulate (map (tm c) l) = tm c (accumulate l).
Proof.
  unfold accumulate. rewrite <- (tm_zn0 c) at 1. generalize (@zn xr _ 0). induction l as [|x l IH]; intros a; [reflexivity|]. cbn [map fold_left].
  change (@nadd xr _) with xadd in *. rewrite (tm_add c). apply IH.
Qed.
Lemma tm_series k (rows rows' : list (list xr)) v : is_series k rows v -> is_series k rows' (map (tm c) v) -> column k rows' = all_times c (column k rows).
Proof.
  unfold column, all_times. intros S. revert rows'. induction S as [|row x rows v E _ IH]; intros rows' S'; cbn [map] in S'; inversion S' as [|row' y t l E' S'']; subst; [reflexivity|].
  cbn [map]. rewrite E, E', (IH _ S''). reflexivity.
Qed.
End Sums.
