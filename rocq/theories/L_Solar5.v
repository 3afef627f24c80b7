(** SolarRadiation: means, histories and the concrete cases. *)
From Coq Require Import ZArith Lia Reals Lra Psatz.
From Verif Require Import Base Num Xr M_TimeFrame M_Epw M_Solar S_Calendar S_Solar S_Epw L_Xr L_Calendar L_HourlyShape L_Epw L_Solar L_Solar2 L_Solar3 L_SolarR L_Solar4.
Open Scope nat_scope.
Open Scope list_scope.

(** ** Means *)
Lemma fold_left_right : forall l : list R, fold_left Rplus l 0%R = fold_right Rplus 0%R l.
Proof. induction l as [|x l IH]; [reflexivity|]. cbn [fold_left fold_right]. rewrite fold_add_acc, IH. ring. Qed.
Lemma accumulate_sum : forall l : list R, accumulate l = fold_right Rplus 0%R l.
Proof. intros l. rewrite accumulate_R. apply fold_left_right. Qed.

Lemma hour_part_map : forall A B (f : A -> B) (d : A) m h (l : list A), map f (hour_part m h l) = hour_part m h (map f l).
Proof.
  intros A B f d m h l. unfold hour_part. rewrite (combine_seq A l d), (combine_seq B (map f l) (f d)), !filter_map, !map_map, map_length.
  cbn [fst snd]. apply map_ext. intros i. rewrite map_nth. reflexivity.
Qed.
Lemma month_hours_length : forall A (l : list A) k, k < 12 -> length l = slices -> length (month_part (Z.of_nat k + 1) l) = month_hours k.
Proof.
  intros A [|d l] k HK HL.
  - exfalso. cbn [length] in HL. pose proof slices_Z. lia.
  - rewrite (month_part_seq A (d :: l) k d HK HL), map_length. unfold hours_of. apply seq_length.
Qed.
Lemma seq_shifted : forall n a, map (fun i => a + i) (seq 0 n) = seq a n.
Proof.
  intros n a. replace (seq a n) with (seq (a + 0) n) by (f_equal; lia). generalize 0. induction n as [|n IHn]; intros b; [reflexivity|].
  cbn [seq map]. f_equal. rewrite IHn. f_equal. lia.
Qed.
Lemma clock_count : forall h d a, h < 24 -> a mod 24 = 0 -> length (filter (fun i => (i mod 24 =? h)%nat) (seq a (24 * d))) = d.
Proof.
  intros h. induction d as [|d IH]; intros a HH HA; [reflexivity|].
  replace (24 * S d) with (24 + 24 * d) by lia. rewrite seq_app, filter_app, app_length, IH.
  - enough (length (filter (fun i => (i mod 24 =? h)%nat) (seq a 24)) = 1) by lia.
    assert (E : filter (fun i => (i mod 24 =? h)%nat) (seq a 24) = map (fun i => a + i) (filter (fun i => (i =? h)%nat) (seq 0 24))).
    { replace (seq a 24) with (map (fun i => a + i) (seq 0 24)).
      - rewrite filter_map. f_equal. apply filter_ext_in. intros i HI. apply in_seq in HI.
        rewrite Nat.add_mod, HA by discriminate. cbn [plus]. rewrite Nat.mod_mod by discriminate. rewrite Nat.mod_small by lia. reflexivity.
      - apply seq_shifted. }
    rewrite E, map_length. do 24 (destruct h as [|h]; [reflexivity|]). lia.
  - exact HH.
  - rewrite Nat.add_mod, HA by discriminate. reflexivity.
Qed.
Lemma hour_part_length : forall A (l : list A) k h, k < 12 -> h < 24 -> length l = slices ->
  length (hour_part (Z.of_nat k + 1) (Z.of_nat h) l) = Z.to_nat (days_of (Z.of_nat k + 1)).
Proof.
  intros A [|d l] k h HK HH HL.
  - exfalso. cbn [length] in HL. pose proof slices_Z. lia.
  - rewrite (hour_part_seq A (d :: l) k h d HK HL), map_length. unfold hours_of.
    pose proof (days_before_bounds (Z.of_nat k + 1) ltac:(lia)) as B.
    replace (month_hours k) with (24 * Z.to_nat (days_of (Z.of_nat k + 1))) by (unfold month_hours, days_of; lia).
    apply clock_count; [exact HH|]. unfold first_hour. rewrite Z2Nat.inj_mul by lia. change (Z.to_nat 24) with 24.
    rewrite Nat.mul_comm. apply Nat.mod_mul. discriminate.
Qed.

Lemma monthly_mean_fin : forall (xs : list R) k, length xs = slices -> k < 12 ->
  nth_error (monthly_means (map Fin xs)) k = Some (Fin (mean (month_part (Z.of_nat k + 1) xs))).
Proof.
  intros xs k HL HK. rewrite monthly_means_eq, nth_error_map. rewrite (@nth_error_nth' nat (seq 0 12) k 0) by (rewrite seq_length; exact HK).
  rewrite seq_nth by exact HK. cbn [option_map plus]. f_equal. rewrite <- map_month_part by lia. rewrite accumulate_fin.
  assert (P : (0 < IZR (Z.of_nat (month_hours k)))%R) by (apply IZR_lt; pose proof (month_hours_pos k HK); lia).
  rewrite zn_fin, div_fin by (rn; lra). f_equal. rn. rewrite accumulate_sum. unfold mean. rewrite month_hours_length by assumption.
  rewrite INR_IZR_INZ. unfold Rdiv at 1 3. f_equal. f_equal. lra.
Qed.
Lemma hourly_mean_fin : forall (xs : list R) k h, length xs = slices -> k < 12 -> h < 24 ->
  cell (hourly_means (map Fin xs)) k h = Some (Fin (mean (hour_part (Z.of_nat k + 1) (Z.of_nat h) xs))).
Proof.
  intros xs k h HL HK HH. unfold cell. rewrite hourly_means_eq, nth_error_map. rewrite (@nth_error_nth' nat (seq 0 12) k 0) by (rewrite seq_length; exact HK).
  rewrite seq_nth by exact HK. cbn [option_map plus]. rewrite nth_error_map. rewrite (@nth_error_nth' nat (seq 0 24) h 0) by (rewrite seq_length; exact HH).
  rewrite seq_nth by exact HH. cbn [option_map plus]. f_equal. rewrite <- (hour_part_map R xr Fin 0%R). rewrite accumulate_fin.
  pose proof (days_before_bounds (Z.of_nat k + 1) ltac:(lia)) as B.
  assert (P : (0 < IZR (monthLength (Z.of_nat k + 1)))%R) by (rewrite month_length_days by exact HK; apply IZR_lt; unfold days_of; lia).
  rewrite zn_fin, div_fin by (rn; lra). f_equal. rn. rewrite accumulate_sum. unfold mean. rewrite hour_part_length by assumption.
  rewrite INR_IZR_INZ, Z2Nat.id by (unfold days_of; lia). rewrite month_length_days by exact HK. unfold Rdiv at 1 3. f_equal. f_equal. lra.
Qed.

Lemma mean_bounds_l : forall (l : list R) lo hi, l <> [] -> (forall x, In x l -> lo <= x <= hi)%R -> (lo <= mean l <= hi)%R.
Proof.
  intros l lo hi NE H.
  assert (G : (INR (length l) * lo <= fold_right Rplus 0 l <= INR (length l) * hi)%R).
  { clear NE. induction l as [|x l IH]; [cbn; lra|]. specialize (IH (fun y Hy => H y (or_intror Hy))).
    pose proof (H x (or_introl eq_refl)). cbn [fold_right length]. rewrite S_INR. lra. }
  assert (P : (0 < INR (length l))%R) by (apply lt_0_INR; destruct l; [congruence|cbn; lia]).
  unfold mean. split.
  - apply Rmult_le_reg_r with (INR (length l)); [exact P|]. unfold Rdiv. rewrite Rmult_assoc, Rinv_l by lra. lra.
  - apply Rmult_le_reg_r with (INR (length l)); [exact P|]. unfold Rdiv. rewrite Rmult_assoc, Rinv_l by lra. lra.
Qed.

(** The sum over a list is the sum over its classes. *)
Lemma class_sum : forall (f : nat -> R) n (l : list nat), (forall i, In i l -> i mod 24 < n) ->
  fold_right Rplus 0%R (map f l) =
  fold_right Rplus 0%R (map (fun h => fold_right Rplus 0%R (map f (filter (fun i => (i mod 24 =? h)%nat) l))) (seq 0 n)).
Proof.
  intros f n l H. induction l as [|i l IH].
  - cbn [map filter fold_right]. induction (seq 0 n) as [|h t IHt]; [reflexivity|]. cbn [map fold_right]. lra.
  - cbn [map fold_right]. rewrite IH by (intros j HJ; apply H; right; exact HJ).
    specialize (H i (or_introl eq_refl)). clear IH.
    assert (G : forall k a, fold_right Rplus 0%R (map (fun h => fold_right Rplus 0%R (map f (filter (fun j => (j mod 24 =? h)%nat) (i :: l)))) (seq a k)) =
      ((if (a <=? i mod 24) && (i mod 24 <? a + k) then f i else 0) +
       fold_right Rplus 0 (map (fun h => fold_right Rplus 0 (map f (filter (fun j => (j mod 24 =? h)%nat) l))) (seq a k)))%R).
    { induction k as [|k IHk]; intros a.
      - cbn [seq map fold_right]. destruct (Nat.leb_spec a (i mod 24)); destruct (Nat.ltb_spec (i mod 24) (a + 0)); cbn [andb]; try lra; lia.
      - cbn [seq map fold_right]. rewrite IHk. cbn [filter].
        destruct (Nat.eqb_spec (i mod 24) a) as [E|NE]; cbn [map fold_right];
          destruct (Nat.leb_spec a (i mod 24)); destruct (Nat.ltb_spec (i mod 24) (a + S k));
          destruct (Nat.leb_spec (S a) (i mod 24)); destruct (Nat.ltb_spec (i mod 24) (S a + k)); cbn [andb]; try lra; lia. }
    rewrite G. cbn [plus]. rewrite (proj2 (Nat.ltb_lt _ _) H). cbn [Nat.leb andb]. reflexivity.
Qed.
Lemma hours_mean_l : forall (xs : list R) m, length xs = slices -> (1 <= m <= 12)%Z ->
  mean (month_part m xs) = mean (map (fun h => mean (hour_part m h xs)) (zrange 0 24)).
Proof.
  intros xs m HL HM. replace m with (Z.of_nat (Z.to_nat (m - 1)) + 1)%Z by lia. assert (HK : Z.to_nat (m - 1) < 12) by lia.
  set (k := Z.to_nat (m - 1)) in *. clearbody k. clear m HM.
  unfold mean at 1 2. rewrite month_hours_length by assumption. rewrite map_length. unfold zrange at 2. rewrite map_length, seq_length.
  rewrite (month_part_seq R xs k 0%R HK HL). rewrite (class_sum (fun i => nth i xs 0%R) 24) by (intros; apply Nat.mod_upper_bound; discriminate).
  change (Z.to_nat 24) with 24. change 24%Z with (Z.of_nat 24) at 1. rewrite zrange_nat, map_map.
  pose proof (days_before_bounds (Z.of_nat k + 1) ltac:(lia)) as B. set (d := Z.to_nat (days_of (Z.of_nat k + 1))).
  assert (DP : (0 < INR d)%R) by (apply lt_0_INR; unfold d, days_of; lia).
  replace (map (fun x => mean (hour_part (Z.of_nat k + 1) (0 + Z.of_nat x) xs)) (seq 0 24)) with
    (map (fun h => (fold_right Rplus 0 (map (fun i => nth i xs 0%R) (filter (fun i => (i mod 24 =? h)%nat) (hours_of k))) / INR d)%R) (seq 0 24)).
  - replace (month_hours k) with (d * 24) by (unfold d, month_hours, days_of; lia). rewrite mult_INR.
    assert (G : forall l : list R, (fold_right Rplus 0 (map (fun y => y / INR d) l) = fold_right Rplus 0 l / INR d)%R).
    { induction l as [|y l IH]; cbn [map fold_right]; [lra|]. rewrite IH. lra. }
    rewrite <- (map_map (fun h => fold_right Rplus 0%R (map (fun i => nth i xs 0%R) (filter (fun i => (i mod 24 =? h)%nat) (hours_of k)))) (fun y => (y / INR d)%R)).
    rewrite G. assert (INR 24 <> 0)%R by (apply not_0_INR; discriminate). field. split; lra.
  - apply map_ext_in. intros h HH. apply in_seq in HH. replace (0 + Z.of_nat h)%Z with (Z.of_nat h) by lia.
    unfold mean. rewrite hour_part_length by (try assumption; lia). fold d. rewrite (hour_part_seq R xs k h 0%R HK HL). reflexivity.
Qed.

(** ** Histories *)
Section History.
Context {T : Type} {N : Num T}.
Definition constants (s : solar T) := (so_tilt s, so_meridian s, so_lon s, so_lat s, so_rho s).
Lemma columns : forall (data : list (list T)), year_table data -> exists a b c d e f g,
  data = [a; b; c; d; e; f; g] /\ Forall (fun v => length v = slices) [a; b; c; d; e; f; g].
Proof.
  intros data (L&F). do 7 (destruct data as [|? data]; [discriminate|]). destruct data; [|discriminate].
  eexists _, _, _, _, _, _, _. split; [reflexivity|]. eapply Forall_impl; [|exact F]. intros v H. cbn in H. pose proof slices_Z. lia.
Qed.
Lemma calculated_shape : forall (s : solar T) a b c d e f g, solar_shape (calculated s a b c d e f g).
Proof.
  intros. unfold solar_shape, calculated, shaped. cbn [so_eglobe so_avg av_mdbt av_mdpt av_mrh av_mwind av_megh av_msol av_hdbt av_hdpt av_hegh].
  rewrite !map_length, !seq_length. split; [reflexivity|]. split.
  - apply Forall_forall. intros r I. apply in_map_iff in I. destruct I as (i&<-&_). apply irradiance_row_length.
  - assert (M : forall l : list T, length (monthly_means l) = 12) by (intros; rewrite monthly_means_eq, map_length, seq_length; reflexivity).
    assert (H : forall l : list T, length (hourly_means l) = 12 /\ Forall (fun r => length r = 24) (hourly_means l)).
    { intros l. rewrite hourly_means_eq, map_length, seq_length. split; [reflexivity|]. apply Forall_forall. intros r I.
      apply in_map_iff in I. destruct I as (i&<-&_). rewrite map_length, seq_length. reflexivity. }
    rewrite !M. pose proof (H a). pose proof (H b). pose proof (H d). repeat split; try tauto.
    apply Forall_forall. intros r I. apply in_map_iff in I. destruct I as (i&<-&_). rewrite map_length, seq_length. reflexivity.
Qed.
Lemma history_ok : forall frame, good_frame frame -> forall datas (s s' : solar T), Forall year_table datas -> solar_shape s ->
  ofold (fun s d => calculate frame d s) datas s = Ok s' -> solar_shape s' /\ constants s' = constants s.
Proof.
  intros frame GF. induction datas as [|data datas IH]; intros s s' F SH E.
  - cbn in E. assert (s = s') as <- by congruence. split; [exact SH|reflexivity].
  - inversion F; subst. cbn [ofold] in E. destruct (columns data H1) as (a&b&c&d&e&f&g&->&FC).
    rewrite calculate_ok in E by assumption. cbn [obind] in E.
    destruct (IH _ _ H2 (calculated_shape s a b c d e f g) E) as [P Q]. split; [exact P|]. rewrite Q. reflexivity.
Qed.
Lemma calculated_constants : forall (s s' : solar T) a b c d e f g, constants s = constants s' -> calculated s a b c d e f g = calculated s' a b c d e f g.
Proof.
  intros [t m lo la r gl av] [t' m' lo' la' r' gl' av'] a b c d e f g H. unfold constants in H. cbn in H.
  assert (t = t' /\ m = m' /\ lo = lo' /\ la = la' /\ r = r') as (<-&<-&<-&<-&<-) by (repeat split; congruence). reflexivity.
Qed.
Lemma C40_again_l : forall frame (e0 e1 : epw T) tilt s0 s1 datas s data,
  timeFrame = Ok frame -> ep_site e0 = ep_site e1 -> newSolar e0 tilt = Ok s0 -> newSolar e1 tilt = Ok s1 ->
  Forall year_table datas -> ofold (fun s d => calculate frame d s) datas s0 = Ok s -> year_table data ->
  calculate frame data s = calculate frame data s1.
Proof.
  intros frame e0 e1 tilt s0 s1 datas s data TF ES N0 N1 F E D. pose proof (timeFrame_good frame TF) as GF.
  assert (s0 = s1) as -> by (unfold newSolar in *; rewrite ES in N0; congruence).
  destruct (history_ok frame GF datas s1 s F (newSolar_shape _ _ _ N1) E) as [SH C].
  destruct (columns data D) as (a&b&c&d&ee&f&g&->&FC). rewrite !calculate_ok by (try assumption; eapply newSolar_shape; exact N1).
  rewrite (calculated_constants s s1 a b c d ee f g C). reflexivity.
Qed.
Lemma newSolar_site : forall (e : epw T) tilt lat lon tz, ep_site e = Some (lat, lon, tz) -> exists s, newSolar e tilt = Ok s.
Proof. intros e tilt lat lon tz H. unfold newSolar. rewrite H. eexists. reflexivity. Qed.
Lemma C39_calculated_l : forall frame (e : epw T) tilt s0 datas s dbt dpt rh egh eb ed wind,
  timeFrame = Ok frame -> newSolar e tilt = Ok s0 -> Forall year_table datas -> ofold (fun s d => calculate frame d s) datas s0 = Ok s ->
  year_table [dbt; dpt; rh; egh; eb; ed; wind] ->
  exists s', calculate frame [dbt; dpt; rh; egh; eb; ed; wind] s = Ok s' /\
    av_mdbt (so_avg s') = monthly_means dbt /\ av_mdpt (so_avg s') = monthly_means dpt /\ av_mrh (so_avg s') = monthly_means rh /\
    av_megh (so_avg s') = monthly_means egh /\ av_mwind (so_avg s') = monthly_means wind /\
    av_hdbt (so_avg s') = hourly_means dbt /\ av_hdpt (so_avg s') = hourly_means dpt /\ av_hegh (so_avg s') = hourly_means egh /\
    forall k j, k < 12 -> j < 8 -> cell (av_msol (so_avg s')) k j = nth_error (monthly_means (surface_series j (so_eglobe s'))) k.
Proof.
  intros frame e tilt s0 datas s dbt dpt rh egh eb ed wind TF N0 F E D. pose proof (timeFrame_good frame TF) as GF.
  destruct (history_ok frame GF datas s0 s F (newSolar_shape _ _ _ N0) E) as [SH _].
  destruct (columns _ D) as (a&b&c&d&ee&f&g&EQ&FC). injection EQ as <- <- <- <- <- <- <-.
  eexists. split; [apply calculate_ok; eassumption|]. unfold calculated. cbn [so_avg so_eglobe av_mdbt av_mdpt av_mrh av_mwind av_megh av_msol av_hdbt av_hdpt av_hegh].
  repeat (split; [reflexivity|]). intros k j HK HJ. unfold cell. rewrite nth_error_map.
  rewrite (@nth_error_nth' nat (seq 0 12) k 0) by (rewrite seq_length; exact HK). rewrite seq_nth by exact HK. cbn [option_map plus].
  rewrite nth_error_map. rewrite (@nth_error_nth' nat (seq 0 8) j 0) by (rewrite seq_length; exact HJ). rewrite seq_nth by exact HJ. cbn [option_map plus].
  symmetry. apply nth_error_nth'. rewrite monthly_means_eq, map_length, seq_length. exact HK.
Qed.
End History.
