(** Cache keys in double precision. *)
From Coq Require Import Reals Lra List Bool ZArith.
From Flocq Require Import Core.Core IEEE754.BinarySingleNaN.
From Verif Require Import Base Num Xr Dbl M_Weather S_Weather S_DoubleKey L_Weather3.
Import ListNotations.

Lemma denotes_fin x : is_finite x = true -> denotes x = Fin (B2R x).
Proof. destruct x as [s|s| |s m e H]; cbn [is_finite denotes B2R]; intros F; try discriminate; reflexivity. Qed.
Lemma denotes_lt (x y : double) : Bltb x y = @nlt xr _ (denotes x) (denotes y).
Proof.
  destruct (is_finite x) eqn:FX, (is_finite y) eqn:FY.
  - rewrite Bltb_correct, !denotes_fin by assumption. cbn [nlt xr_num xlt]. unfold Rltb, Rlt_bool.
    destruct (Rcompare_spec (B2R x) (B2R y)) as [H|H|H]; destruct (Rlt_dec (B2R x) (B2R y)); try reflexivity; exfalso; lra.
  - rewrite (denotes_fin x FX). destruct x as [[]|[]| |[] m e H], y as [[]|[]| |[] m' e' H']; try discriminate; reflexivity.
  - rewrite (denotes_fin y FY). destruct x as [[]|[]| |[] m e H], y as [[]|[]| |[] m' e' H']; try discriminate; reflexivity.
  - destruct x as [[]|[]| |[] m e H], y as [[]|[]| |[] m' e' H']; try discriminate; reflexivity.
Qed.
Lemma denotes_number x : is_nan x = false -> is_number (denotes x).
Proof. unfold is_number. destruct x as [s|[]| |s m e H]; cbn [is_nan denotes]; intros F; try discriminate F; discriminate. Qed.
Definition place (k : double * double) : xr * xr := (denotes (fst k), denotes (snd k)).
Section K.
Context {L : libm}.
Lemma key_lt (a b : double * double) : latlon_lt a b = latlon_lt (place a) (place b).
Proof. unfold latlon_lt, place. cbn [fst snd]. cbn [nlt dbl_num]. rewrite !denotes_lt. reflexivity. Qed.
Lemma key_number a : double_key a -> key_numbers (place a).
Proof. intros [A B]. split; now apply denotes_number. Qed.
Lemma place_same a b : place a = place b <-> same_place a b.
Proof. unfold place, same_place. split; [intros E; injection E as E1 E2; split; assumption|intros [-> ->]; reflexivity]. Qed.
Lemma C54_double_l :
  (forall k : double * double, latlon_lt k k = false) /\
  (forall a b c : double * double, double_key a -> double_key b -> double_key c -> latlon_lt a b = true -> latlon_lt b c = true -> latlon_lt a c = true) /\
  (forall a b : double * double, double_key a -> double_key b -> (latlon_lt a b = false /\ latlon_lt b a = false <-> same_place a b)).
Proof.
  destruct C54_order_l as (O1 & O2 & O3). split; [intros k; rewrite key_lt; apply O1|]. split.
  - intros a b c A B C. rewrite !key_lt. apply O2; now apply key_number.
  - intros a b A B. rewrite !key_lt, <- place_same. apply O3; now apply key_number.
Qed.
Lemma find_place k (c : list ((double * double) * nat)) : cache_find k c = cache_find (place k) (map (fun e => (place (fst e), snd e)) c).
Proof.
  unfold cache_find. induction c as [|[a n] c IH]; [reflexivity|]. cbn [map find fst snd]. rewrite <- !key_lt.
  destruct (negb _ && negb _); [reflexivity|exact IH].
Qed.
Lemma C54_double_lookup_l : forall k (c : list ((double * double) * nat)), double_key k -> (forall k' p, In (k', p) c -> double_key k') ->
  match cache_find k c with
  | Some p => exists k', same_place k' k /\ In (k', p) c
  | None => forall k' p, In (k', p) c -> ~ same_place k' k
  end.
Proof.
  intros k c K H. pose proof (C54_lookup_l (place k) (map (fun e => (place (fst e), snd e)) c) (key_number k K)) as G.
  assert (G0 : forall k' p, In (k', p) (map (fun e => (place (fst e), snd e)) c) -> key_numbers k').
  { intros k' p I. apply in_map_iff in I. destruct I as ([a n] & E & I). injection E as <- _. apply key_number. exact (H a n I). }
  specialize (G G0). rewrite <- find_place in G. destruct (cache_find k c) as [p|].
  - apply in_map_iff in G. destruct G as ([a n] & E & I). injection E as E1 E2 <-. exists a. split; [apply place_same; unfold place; now rewrite E1, E2|exact I].
  - intros k' p I S. apply (G p). apply place_same in S. rewrite <- S. exact (in_map (fun e => (place (fst e), snd e)) c (k', p) I).
Qed.
End K.
Lemma C54_double_case_l : let k := (dlit 4198 100, dlit (-8792) 100) in let z := (B754_zero true, dlit 3 1) in let z' := (B754_zero false, dlit 3 1) in
  double_key k /\ double_key z /\ double_key z' /\ same_place z z' /\ z <> z'.
Proof.
  split; [split; reflexivity|]. split; [split; reflexivity|]. split; [split; reflexivity|]. split; [split; reflexivity|]. discriminate.
Qed.
