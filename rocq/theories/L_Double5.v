(** The office in doubles: the hypotheses of the theorems about doubles hold for it. *)
From Coq Require Import Reals Lra Psatz ZArith Bool List Lia.
From Flocq Require Import Core.Core IEEE754.BinarySingleNaN.
From Verif Require Import Base Num Xr Dbl L_Dbl M_Params M_TimeFrame M_Hourly S_Results S_Calendar S_Locality S_Double E_SmallOffice L_Calendar L_HourlyShape L_HourlyOut L_Locality L_Office L_Double L_Double2.
Import ListNotations.

Section D.
Context {L : libm}.
Notation office_d := (@smallOffice double (dbl_num L)).

Lemma office_unsigned : unsigned_building office_d.
Proof.
  constructor; unfold plain; repeat match goal with |- _ /\ _ => split end; vm_compute; reflexivity.
Qed.
Lemma office_ints_d : ints_ok (pa_population office_d).
Proof. unfold ints_ok. repeat split; vm_compute; discriminate. Qed.
Lemma office_runs_d : forall t agg, exists rows r, simulate office_d (constant_year 8760 t) no_ratios agg = Ok (rows, r).
Proof.
  intros t agg. destruct (simulateRaw_ok office_d (constant_year 8760 t) no_ratios office_ints_d eq_refl) as (raw & r & E).
  - rewrite constant_year_length; lia.
  - apply constant_year_nine.
  - destruct (simulate_both _ _ _ _ _ E) as (h & m & E1 & E2 & _). clear E; destruct agg; [exists m; eexists; exact E2|exists h; eexists; exact E1].
Qed.
(** Exterior lights burn all year in the dark: a positive, finite column with finite sums. *)
Definition lamp : double := (exteriorLighting office_d (zn 1) (repeat (zn 0) 9) / zn 1000)%num.
Lemma repeat_of : forall A (c : A) l, Forall (eq c) l -> l = repeat c (length l).
Proof. induction 1 as [|x l <- _ IH]; [reflexivity|]. cbn. rewrite <- IH. reflexivity. Qed.
Lemma one_lamp : forall p tbl, populateSchedules p = Ok tbl -> forall a b sc, sched_at tbl a b = Ok sc -> sc_extLight sc = (zn 1 : double).
Proof.
  intros p tbl HT. unfold populateSchedules in HT. apply obind_ok in HT as (a1&_&HT). apply obind_ok in HT as (a2&_&HT). apply obind_ok in HT as (a3&_&HT). apply obind_ok in HT as (a4&_&HT).
  apply Ok_inj in HT. subst tbl. intros a b sc S. unfold sched_at in S. destruct (_ || _)%bool; [discriminate|]. apply obind_ok in S as (row&R1&R2).
  unfold vget in R1, R2. rewrite nth_error_map in R1. destruct (nth_error (zrange 0 24) _) as [z|]; cbn [option_map] in R1; [|discriminate]. apply Ok_inj in R1. subst row.
  rewrite nth_error_map in R2. destruct (nth_error (zrange 0 7) _) as [y|]; cbn [option_map] in R2; [|discriminate]. apply Ok_inj in R2. subst sc. reflexivity.
Qed.
Lemma ext_lights_column : forall (p : params_t double) raw, nth_error (resultVectors p raw) elec_ext_lights = Some (map (fun w => (w / zn 1000)%num) (map hr_illum_ext raw)).
Proof. reflexivity. Qed.
Lemma hour_lamp : forall (p : params_t double) i sc w th, hr_illum_ext (fst (calculateHour p i sc w th)) = exteriorLighting p (sc_extLight sc) (we_sol w).
Proof. reflexivity. Qed.
Lemma raw_lamp : forall p t raw r, simulateRaw p (constant_year 8760 t) no_ratios = Ok (raw, r) -> forall h, In h raw ->
  hr_illum_ext h = exteriorLighting p (zn 1 : double) (repeat (zn 0) 9).
Proof.
  intros p t raw r HR h Ih. unfold simulateRaw in HR. apply obind_ok in HR as (tbl&HT&HR). apply obind_ok in HR as (i&_&HR).
  apply obind_ok in HR as (fr&_&HR). apply obind_ok in HR as (rw&Hr&HR). assert (rw = raw) by congruence. subst rw.
  apply In_nth_error in Ih as (k&Hk). destruct (yearLoop_nth _ _ _ _ _ _ _ Hr k h Hk) as (c&w&sc&th&_&Wk&_&Sk&->).
  assert (W : In w (constant_year 8760 t)) by (eapply nth_error_In; eassumption). unfold constant_year in W. apply repeat_spec in W. subst w.
  rewrite hour_lamp, (one_lamp _ _ HT _ _ _ Sk). reflexivity.
Qed.
Lemma lamps : forall p t rows r, simulate p (constant_year 8760 t) no_ratios false = Ok (rows, r) ->
  is_series elec_ext_lights rows (repeat (exteriorLighting p (zn 1 : double) (repeat (zn 0) 9) / zn 1000)%num (Z.to_nat 8760)).
Proof.
  intros p t rows r H. destruct (simulate_det _ _ _ _ _ _ H) as (raw&HR&[SL _]&C).
  pose proof (C _ _ (ext_lights_column p raw)) as S. cbv iota in S.
  assert (A : Forall (eq (exteriorLighting p (zn 1 : double) (repeat (zn 0) 9) / zn 1000)%num) (map (fun w => (w / zn 1000)%num) (map hr_illum_ext raw))).
  { rewrite map_map. apply Forall_forall. intros x I. apply in_map_iff in I as (h&<-&Ih). rewrite (raw_lamp _ _ _ _ HR h Ih). reflexivity. }
  assert (LL : length rows = length (map (fun w : double => (w / zn 1000)%num) (map hr_illum_ext raw))).
  { clear - S. unfold is_series in S. induction S; cbn [length]; congruence. }
  apply repeat_of in A. rewrite <- LL, SL in A. rewrite A in S. exact S.
Qed.
Lemma office_lamps : forall t rows r, simulate office_d (constant_year 8760 t) no_ratios false = Ok (rows, r) ->
  is_series elec_ext_lights rows (repeat lamp (Z.to_nat 8760)).
Proof. intros t rows r H. exact (lamps _ t rows r H). Qed.
Lemma lamp_ok : positive lamp /\ is_finite (accumulate (repeat lamp (Z.to_nat 8760))) = true.
Proof. split; vm_compute; reflexivity. Qed.
End D.
